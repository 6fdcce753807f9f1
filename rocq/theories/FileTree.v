(** * Files and directories: FilePath of epsilon/hotfixes/filepath_copyTo.py

    copyTo, setContent, remove, walk and moveTo over a file system. *)

From Coq Require Import NArith String List Bool Arith Lia ZifyBool.
From Verif Require Import Py PyStr PySplit FilePath.
Import ListNotations.
Open Scope list_scope.

(** ** The operating system

    A file system without links: what is found at each place.  A place is the
    list of the names that lead to it from the root.  The order of the list is
    the order in which listdir gives names, and is arbitrary. *)

Inductive entry := EFile (content : list N) | EDir | EOther.
Definition loc := list str.
Definition fs := dict loc entry.

(** the place a path leads to *)
Definition place (path : str) : loc := resolve [] (pieces path).

Fixpoint strip (a k : loc) : option loc :=
  match a, k with
  | [], _ => Some k
  | x :: a', y :: k' => if eqb x y then strip a' k' else None
  | _ :: _, [] => None
  end.

Definition names (f : fs) (l : loc) : list str :=
  flat_map (fun p : loc * entry => match strip l (fst p) with Some [c] => [c] | _ => [] end) f.

(** is there a directory that can hold this place? *)
Definition has_parent (f : fs) (l : loc) : bool :=
  match l with
  | [] => false
  | _ => match dget f (removelast l) with Some EDir => true | _ => false end
  end.

(** the calls; errors of the operating system are OSError (IOError is the same
    class) *)
Definition os_stat (path : str) (f : fs) : fs * res entry :=
  (f, match dget f (place path) with Some e => Ok e | None => Err OSError end).
Definition os_listdir (path : str) (f : fs) : fs * res (list str) :=
  (f, match dget f (place path) with Some EDir => Ok (names f (place path)) | _ => Err OSError end).
Definition os_mkdir (path : str) (f : fs) : fs * res unit :=
  match dget f (place path) with
  | None => if has_parent f (place path) then (dset f (place path) EDir, Ok tt) else (f, Err OSError)
  | Some _ => (f, Err OSError)
  end.
(** open(path, 'wb'); opening a device, socket or pipe is an error *)
Definition os_open_w (path : str) (f : fs) : fs * res unit :=
  match dget f (place path) with
  | Some (EFile _) => (dset f (place path) (EFile []), Ok tt)
  | None => if has_parent f (place path) then (dset f (place path) (EFile []), Ok tt) else (f, Err OSError)
  | _ => (f, Err OSError)
  end.
Definition os_open_r (path : str) (f : fs) : fs * res unit :=
  (f, match dget f (place path) with Some (EFile _) => Ok tt | _ => Err OSError end).
Definition os_read (path : str) (pos k : nat) (f : fs) : fs * res (list N) :=
  (f, match dget f (place path) with Some (EFile c) => Ok (firstn k (skipn pos c)) | _ => Err OSError end).
(** write at the end of a file *)
Definition os_append (path : str) (bytes : list N) (f : fs) : fs * res unit :=
  match dget f (place path) with
  | Some (EFile c) => (dset f (place path) (EFile (c ++ bytes)), Ok tt)
  | _ => (f, Err OSError)
  end.
Definition os_unlink (path : str) (f : fs) : fs * res unit :=
  match dget f (place path) with
  | Some EDir | None => (f, Err OSError)
  | Some _ => (ddel f (place path), Ok tt)
  end.
Definition os_rmdir (path : str) (f : fs) : fs * res unit :=
  match dget f (place path), place path, names f (place path) with
  | Some EDir, _ :: _, [] => (ddel f (place path), Ok tt)
  | _, _, _ => (f, Err OSError)
  end.

(** rename: everything at and below [a] gets to [b] *)
Definition relocate (a b : loc) (f : fs) : fs :=
  map (fun p : loc * entry => match strip a (fst p) with Some r => (b ++ r, snd p) | None => p end)
      (filter (fun p : loc * entry => negb (eqb (fst p) b)) f).

Definition EXDEV : exn := OtherExn 18.
Definition KILLED : exn := OtherExn 9.
Definition NO_FUEL : exn := OtherExn 8.

Definition os_rename (samedev : loc -> loc -> bool) (src dst : str) (f : fs) : fs * res unit :=
  let a := place src in
  let b := place dst in
  match dget f a with
  | None => (f, Err OSError)
  | Some e =>
      if eqb a b then (f, Ok tt)
      else if negb (samedev a b) then (f, Err EXDEV)
      else if match strip a b with Some _ => true | None => false end then (f, Err OSError)
      else
        let fits := match e, dget f b with
                    | EDir, Some EDir => match names f b with [] => true | _ => false end
                    | EDir, Some _ => false
                    | _, Some EDir => false
                    | _, Some _ => true
                    | _, None => has_parent f b
                    end in
        if fits then (relocate a b f, Ok tt) else (f, Err OSError)
  end.

(** ** Runs

    The state is the file system and the number of calls made.  Each call may
    work, fail with OSError, or be the last thing the process did: a call that
    writes may then have written some first bytes. *)

Inductive fate := Run | Fail (n : nat) | Stop (n : nat).

Definition state := (fs * nat)%type.
Definition M (A : Type) := state -> state * res A.

Definition retM {A} (a : A) : M A := fun s => (s, Ok a).
Definition raise {A} (e : exn) : M A := fun s => (s, Err e).
Definition lift {A} (r : res A) : M A := fun s => (s, r).
Definition bindM {A B} (m : M A) (k : A -> M B) : M B :=
  fun s => let (s', r) := m s in match r with Ok a => k a s' | Err e => (s', Err e) end.
Notation "x <-- m ; k" := (bindM m (fun x => k)) (at level 61, m at next level, right associativity).
(** try: ... except OSError: ... *)
Definition catchOS {A} (m : M A) (h : M A) : M A :=
  fun s => let (s', r) := m s in match r with Err OSError => h s' | _ => (s', r) end.

Fixpoint iterM {A} (g : A -> M unit) (l : list A) : M unit :=
  match l with
  | [] => retM tt
  | a :: l' => _ <-- g a ; iterM g l'
  end.

Fixpoint mapR {A B} (g : A -> res B) (l : list A) : res (list B) :=
  match l with
  | [] => Ok []
  | a :: l' => match g a with Ok b => match mapR g l' with Ok bs => Ok (b :: bs) | Err e => Err e end | Err e => Err e end
  end.

Section Run.
  Variable cwd : str.
  Variable fates : nat -> fate.
  Variable samedev : loc -> loc -> bool.

  Definition sys {A} (call : fs -> fs * res A) (part : nat -> fs -> fs) : M A :=
    fun s =>
      let (f, t) := s in
      match fates t with
      | Run => let (f', r) := call f in ((f', S t), r)
      | Fail n => ((part n f, S t), Err OSError)
      | Stop n => ((part n f, S t), Err KILLED)
      end.
  Definition whole {A} (call : fs -> fs * res A) : M A := sys call (fun _ f => f).

  Definition stat (p : str) := whole (os_stat p).
  Definition listdir (p : str) := whole (os_listdir p).
  Definition mkdir (p : str) := whole (os_mkdir p).
  Definition open_w (p : str) := whole (os_open_w p).
  Definition open_r (p : str) := whole (os_open_r p).
  Definition read (p : str) (pos k : nat) := whole (os_read p pos k).
  Definition write (p : str) (bytes : list N) : M unit := sys (os_append p bytes) (fun n f => fst (os_append p (firstn n bytes) f)).
  Definition close : M unit := whole (fun f => (f, Ok tt)).
  Definition unlink (p : str) := whole (os_unlink p).
  Definition rmdir (p : str) := whole (os_rmdir p).
  Definition rename (p q : str) := whole (os_rename samedev p q).

  (** ** FilePath

      Objects are taken as just made: statinfo, where stat results are kept,
      is None in them. *)

  (** filepath_copyTo.py:159-165, restat(False): what stat found *)
  Definition probe (p : str) : M (option entry) := catchOS (e <-- stat p ; retM (Some e)) (retM None).

  (** filepath_copyTo.py:323-324 *)
  Definition children (self : str) : M (list str) :=
    ns <-- listdir self ; lift (mapR (child cwd self) ns).

  (** filepath_copyTo.py:349-358, the loop; [k] is _chunkSize *)
  Fixpoint copy_loop (k fuel : nat) (self destination : str) (pos : nat) : M unit :=
    match fuel with
    | O => raise NO_FUEL
    | S fuel' =>
        chunk <-- read self pos k ;
        _ <-- write destination chunk ;
        if (length chunk <? k)%nat then retM tt else copy_loop k fuel' self destination (pos + length chunk)
    end.

  (** filepath_copyTo.py:346-360; alwaysCreate of the destination is False.
      What a file object still holds back when it is written to is taken as
      written. *)
  Definition copy_file (k : nat) (self destination : str) : M unit :=
    _ <-- open_w destination ;
    _ <-- open_r self ;
    _ <-- (fun s => copy_loop k (S (match dget (fst s) (place self) with Some (EFile c) => length c | _ => 0 end)) self destination 0 s) ;
    _ <-- close ;
    close.

  (** filepath_copyTo.py:335-367; isfile (213-220) asks again only when
      nothing was found by isdir (204-211) *)
  Fixpoint copyTo (k fuel : nat) (self destination : str) : M unit :=
    match fuel with
    | O => raise NO_FUEL
    | S fuel' =>
        st <-- probe self ;
        match st with
        | Some EDir =>
            ex <-- probe destination ;
            _ <-- (match ex with Some _ => retM tt | None => mkdir destination end) ;
            cs <-- children self ;
            iterM (fun c => d <-- lift (child cwd destination (basename c)) ; copyTo k fuel' c d) cs
        | _ =>
            st' <-- (match st with Some e => retM (Some e) | None => probe self end) ;
            match st' with
            | Some (EFile _) => copy_file k self destination
            | _ => raise NotImplementedErr
            end
        end
    end.

  (** filepath_copyTo.py:281-284.  The file object is dropped after write:
      what write did not hand to the operating system (all but the first
      [direct] bytes) is written then, and an error of that is not seen. *)
  Definition setContent (direct : nat) (self content ext : str) : M unit :=
    let sib := siblingExtension cwd self ext in
    _ <-- open_w sib ;
    _ <-- write sib (firstn direct content) ;
    _ <-- catchOS (_ <-- write sib (skipn direct content) ; close) (retM tt) ;
    rename sib self.

  (** filepath_copyTo.py:250-257 *)
  Fixpoint remove (fuel : nat) (self : str) : M unit :=
    match fuel with
    | O => raise NO_FUEL
    | S fuel' =>
        st <-- probe self ;
        _ <-- (match st with
               | Some EDir => cs <-- children self ; _ <-- iterM (remove fuel') cs ; rmdir self
               | _ => unlink self
               end) ;
        _ <-- probe self ; retM tt
    end.

  (** filepath_copyTo.py:326-331, for a caller who takes all paths without
      changing anything in between *)
  Fixpoint walk (fuel : nat) (self : str) : M (list str) :=
    match fuel with
    | O => raise NO_FUEL
    | S fuel' =>
        st <-- probe self ;
        match st with
        | Some EDir =>
            cs <-- children self ;
            rest <-- (fix go (l : list str) : M (list str) :=
                        match l with
                        | [] => retM []
                        | c :: l' => a <-- walk fuel' c ; b <-- go l' ; retM (a ++ b)
                        end) cs ;
            retM (self :: rest)
        | _ => retM [self]
        end
    end.

  (** filepath_copyTo.py:369-392.  There is no method secureSibling: the branch
      for different file systems ends there. *)
  Definition moveTo (self destination : str) : M unit :=
    fun s =>
      match rename self destination s with
      | (s', Err (OtherExn 18)) => (s', Err AttributeError)
      | (s', Ok _) => (_ <-- probe self ; retM tt) s'
      | (s', Err e) => (s', Err e)
      end.
End Run.

(** ** Specification *)

(** [l] is [q] or below it *)
Definition below (q l : loc) : Prop := exists r, l = q ++ r.
Definition apart (p q : loc) : Prop := ~ below p q /\ ~ below q p.

(** a file system: every place has a directory above it *)
Record okfs (f : fs) : Prop := {
  ok_keys : wf_dict f;
  ok_root : dget f [] = Some EDir;
  ok_names : forall (l : loc) e, dget f l = Some e -> Forall name l;
  ok_above : forall (l : loc) c e, dget f (l ++ [c]) = Some e -> dget f l = Some EDir }.

(** ** Places *)

Lemma strip_spec a k r : strip a k = Some r <-> k = a ++ r.
Proof.
  revert k. induction a as [|x a IH]; intros k; cbn [strip]; [split; intros H; [now injection H|now subst]|].
  destruct k as [|y k]; [split; discriminate|]. destruct (eqb_spec x y) as [->|Hn].
  - rewrite IH. cbn [app]. split; [now intros ->|]. intros H. now injection H.
  - split; [discriminate|]. cbn [app]. intros H. injection H as H _. congruence.
Qed.
Lemma strip_none a k : strip a k = None <-> ~ below a k.
Proof.
  destruct (strip a k) as [r|] eqn:E.
  - apply strip_spec in E. split; [discriminate|]. intros H. exfalso. apply H. now exists r.
  - split; [|reflexivity]. intros _ (r & H). apply strip_spec in H. congruence.
Qed.

Lemma below_dec a k : below a k \/ ~ below a k.
Proof. destruct (strip a k) as [r|] eqn:E; [left; apply strip_spec in E; now exists r|right; now apply strip_none]. Qed.
Lemma below_refl a : below a a. Proof. exists []. now rewrite app_nil_r. Qed.
Lemma below_app a r : below a (a ++ r). Proof. now exists r. Qed.
Lemma below_trans a b c : below a b -> below b c -> below a c.
Proof. intros (r & ->) (r' & ->). exists (r ++ r'). now rewrite app_assoc. Qed.
Lemma below_snoc a c l : below (a ++ [c]) l -> below a l.
Proof. apply below_trans. apply below_app. Qed.
Lemma snoc_not_below (a : loc) c : ~ below (a ++ [c]) a.
Proof. intros (r & E). apply (f_equal (@length _)) in E. rewrite !app_length in E. cbn in E. lia. Qed.
Lemma snoc_below a c d r : below (a ++ [c]) (a ++ d :: r) -> c = d.
Proof. intros (r' & E). rewrite <- app_assoc in E. apply app_inv_head in E. now injection E as ->. Qed.

Lemma apart_snoc p q c d : apart p q -> apart (p ++ [c]) (q ++ [d]).
Proof.
  intros [H1 H2]. split; intros (r & E).
  - assert (B : forall (p q : loc), ~ below p q -> ~ below q p -> forall r r', p ++ r <> q ++ r').
    { clear. induction p as [|x p IH]; intros q H1 H2 r r' E; [apply H1; now exists q|]. destruct q as [|y q]; [apply H2; now exists (x :: p)|].
      injection E as -> E. revert E. apply IH; [intros (s & ->); apply H1; now exists s|intros (s & ->); apply H2; now exists s]. }
    rewrite <- app_assoc in E. apply (B p q H1 H2 ([c] ++ r) [d]). now rewrite E.
  - assert (B : forall (p q : loc), ~ below p q -> ~ below q p -> forall r r', p ++ r <> q ++ r').
    { clear. induction p as [|x p IH]; intros q H1 H2 r r' E; [apply H1; now exists q|]. destruct q as [|y q]; [apply H2; now exists (x :: p)|].
      injection E as -> E. revert E. apply IH; [intros (s & ->); apply H1; now exists s|intros (s & ->); apply H2; now exists s]. }
    rewrite <- app_assoc in E. apply (B p q H1 H2 [c] ([d] ++ r)). now rewrite <- E.
Qed.
Lemma apart_app p q r r' : apart p q -> p ++ r <> q ++ r'.
Proof.
  intros [H1 H2]. revert q H1 H2. induction p as [|x p IH]; intros q H1 H2 E; [apply H1; now exists q|]. destruct q as [|y q]; [apply H2; now exists (x :: p)|].
  injection E as -> E. revert E. apply IH; [intros (s & ->); apply H1; now exists s|intros (s & ->); apply H2; now exists s].
Qed.
Lemma apart_out p q r : apart p q -> ~ below q (p ++ r).
Proof. intros H (r' & E). now apply (apart_app p q r r' H). Qed.

Lemma names_spec f l c : wf_dict f -> In c (names f l) <-> dget f (l ++ [c]) <> None.
Proof.
  intros Hw. unfold names. rewrite in_flat_map. split.
  - intros ([k e] & Hi & Hc). cbn [fst] in Hc. destruct (strip l k) as [[|d [|]]|] eqn:E; try destruct Hc as [<-|[]]; try contradiction.
    apply strip_spec in E. subst k. rewrite (In_dget _ _ Hw Hi). discriminate.
  - intros H. destruct (dget f (l ++ [c])) as [e|] eqn:E; [|congruence]. exists (l ++ [c], e). split; [now apply dget_In|]. cbn [fst].
    rewrite (proj2 (strip_spec l (l ++ [c]) [c]) eq_refl). now left.
Qed.

Lemma names_nodup f l : wf_dict f -> NoDup (names f l).
Proof.
  unfold wf_dict, names. induction f as [|[k e] f IH]; intros Hw; [constructor|]. cbn [keys map fst flat_map] in *. inversion Hw as [|? ? Hk Hw']; subst.
  destruct (strip l k) as [[|c [|]]|] eqn:E; cbn [app]; auto. constructor; [|now apply IH]. intros Hi. apply Hk.
  apply in_flat_map in Hi. destruct Hi as ([k' e'] & Hi & Hc). cbn [fst] in Hc. destruct (strip l k') as [[|d [|]]|] eqn:E'; try destruct Hc as [<-|[]]; try contradiction.
  apply strip_spec in E, E'. subst. apply in_map_iff. now exists (l ++ [d], e').
Qed.

Lemma place_render n cs : absolute n cs -> place (render n cs) = cs.
Proof. intros H. apply (render_pieces n cs H). Qed.

Lemma ok_below f l r : okfs f -> r <> [] -> dget f (l ++ r) <> None -> dget f l = Some EDir.
Proof.
  intros Hf. induction r as [|c r IH] using rev_ind; intros Hn H; [congruence|]. destruct (dget f (l ++ r ++ [c])) as [e|] eqn:E; [|congruence].
  rewrite app_assoc in E. apply (ok_above f Hf) in E. destruct r as [|d r]; [now rewrite app_nil_r in E|]. apply IH; [discriminate|]. rewrite E. discriminate.
Qed.

Lemma ok_dset f l e : okfs f -> Forall name l -> has_parent f l = true -> (dget f l = None \/ (exists c, dget f l = Some (EFile c))) -> okfs (dset f l e).
Proof.
  intros Hf Hn Hp Hl. assert (Hne : l <> []) by (intros ->; discriminate Hp). destruct (exists_last Hne) as (l0 & c0 & ->).
  assert (Hd : dget f l0 = Some EDir). { unfold has_parent in Hp. rewrite removelast_last in Hp. destruct (l0 ++ [c0]) eqn:E; [now destruct l0|]. destruct (dget f l0) as [[]|]; congruence. }
  split.
  - apply wf_dset, Hf.
  - rewrite dget_dset. destruct (eqb_spec ([] : loc) (l0 ++ [c0])) as [E|_]; [now destruct l0|apply Hf].
  - intros k e'. rewrite dget_dset. destruct (eqb_spec (k : loc) (l0 ++ [c0])) as [->|_]; [auto|apply Hf].
  - intros k c e'. rewrite !dget_dset. destruct (eqb_spec (k ++ [c] : loc) (l0 ++ [c0])) as [E|Hk].
    + intros _. apply app_inj_tail in E. destruct E as [-> ->]. destruct (eqb_spec (l0 : loc) (l0 ++ [c0])) as [E|_]; [|exact Hd].
      apply (f_equal (@length _)) in E. rewrite app_length in E. cbn in E. lia.
    + intros H. destruct (eqb_spec (k : loc) (l0 ++ [c0])) as [->|_]; [|now apply (ok_above f Hf k c e')]. exfalso. apply (ok_above f Hf) in H. destruct Hl as [Hl|(x & Hl)]; congruence.
Qed.

Lemma ok_set_file f l e c : okfs f -> dget f l = Some (EFile c) -> okfs (dset f l (EFile e)).
Proof.
  intros Hf H. apply ok_dset; [exact Hf|now apply (ok_names f Hf l (EFile c))| |right; now exists c].
  assert (Hn : l <> []) by (intros ->; rewrite (ok_root f Hf) in H; discriminate). destruct (exists_last Hn) as (l0 & c0 & ->).
  unfold has_parent. rewrite removelast_last. destruct (l0 ++ [c0]) eqn:E; [now destruct l0|]. rewrite <- E in *. now rewrite (ok_above f Hf l0 c0 _ H).
Qed.

(** ** One call *)

Section Frame.
  Variable cwd : str.
  Variable fates : nat -> fate.
  Variable samedev : loc -> loc -> bool.

  (** only places at or below [q] change *)
  Definition frame (q : loc) (f f' : fs) : Prop := forall l, ~ below q l -> dget f' l = dget f l.

  Lemma frame_refl q f : frame q f f. Proof. intros l _. reflexivity. Qed.
  Lemma frame_trans q f g h : frame q f g -> frame q g h -> frame q f h.
  Proof. intros A B l H. now rewrite (B l H), (A l H). Qed.
  Lemma frame_snoc q c f g : frame (q ++ [c]) f g -> frame q f g.
  Proof. intros A l H. apply A. intros Hb. apply H. now apply (below_snoc q c). Qed.
  Lemma frame_dset q f e : frame q f (dset f q e).
  Proof. intros l H. rewrite dget_dset. destruct (eqb_spec l q) as [->|_]; [|reflexivity]. exfalso. apply H, below_refl. Qed.

  (** a call that changes nothing *)
  Definition looks {A} (m : M A) : Prop := forall s, fst (fst (m s)) = fst s.

  Lemma looks_whole {A} (call : fs -> fs * res A) : (forall f, fst (call f) = f) -> looks (whole fates call).
  Proof. intros H [f t]. unfold whole, sys. destruct (fates t); [|reflexivity..]. specialize (H f). destruct (call f) as [f' r]. exact H. Qed.
  Lemma looks_bind {A B} (m : M A) (k : A -> M B) : looks m -> (forall a, looks (k a)) -> looks (bindM m k).
  Proof. intros Hm Hk s. unfold bindM. specialize (Hm s). destruct (m s) as [s' r]. cbn [fst] in Hm. destruct r; [|exact Hm]. rewrite Hk. exact Hm. Qed.
  Lemma looks_ret {A} (a : A) : looks (retM a). Proof. intros s. reflexivity. Qed.
  Lemma looks_lift {A} (r : res A) : looks (lift r). Proof. intros s. reflexivity. Qed.
  Lemma looks_raise {A} e : looks (@raise A e). Proof. intros s. reflexivity. Qed.
  Lemma looks_catch {A} (m h : M A) : looks m -> looks h -> looks (catchOS m h).
  Proof. intros Hm Hh s. unfold catchOS. specialize (Hm s). destruct (m s) as [s' r]. cbn [fst] in Hm. destruct r as [|e]; [exact Hm|]. destruct e; try exact Hm. rewrite Hh. exact Hm. Qed.
  Lemma looks_probe p : looks (probe fates p).
  Proof. apply looks_catch; [|apply looks_ret]. apply looks_bind; [|intros a; apply looks_ret]. apply looks_whole. reflexivity. Qed.
  Lemma looks_children p : looks (children cwd fates p).
  Proof. apply looks_bind; [|intros a; apply looks_lift]. apply looks_whole. reflexivity. Qed.
  Lemma looks_close : looks (close fates). Proof. apply looks_whole. reflexivity. Qed.

  (** a run keeps the file system in order and changes nothing outside [q];
      when it ends normally, [post] holds *)
  Definition keeps {A} (q : loc) (m : M A) (post : fs -> fs -> A -> Prop) : Prop :=
    forall s, okfs (fst s) -> okfs (fst (fst (m s))) /\ frame q (fst s) (fst (fst (m s))) /\
      forall a, snd (m s) = Ok a -> post (fst s) (fst (fst (m s))) a.

  Lemma keeps_looks {A} q (m : M A) (post : fs -> fs -> A -> Prop) : looks m -> (forall s a, okfs (fst s) -> snd (m s) = Ok a -> post (fst s) (fst s) a) -> keeps q m post.
  Proof. intros L P s Hs. rewrite (L s). split; [exact Hs|]. split; [apply frame_refl|]. intros a. now apply P. Qed.
  Lemma keeps_weaken {A} q (m : M A) (P Q : fs -> fs -> A -> Prop) : keeps q m P -> (forall f g a, okfs f -> okfs g -> frame q f g -> P f g a -> Q f g a) -> keeps q m Q.
  Proof. intros K W s Hs. destruct (K s Hs) as (A1 & A2 & A3). split; [exact A1|]. split; [exact A2|]. intros a Ha. apply W; auto. Qed.
  Lemma keeps_bind {A B} q (m : M A) (k : A -> M B) (P : fs -> fs -> A -> Prop) (Q : fs -> fs -> B -> Prop) :
    keeps q m P -> (forall a, keeps q (k a) (fun g h b => forall f, okfs f -> frame q f g -> P f g a -> Q f h b)) -> keeps q (bindM m k) Q.
  Proof.
    intros Km Kk s Hs. destruct (Km s Hs) as (A1 & A2 & A3). unfold bindM. destruct (m s) as [s' r]. cbn [fst snd] in *. destruct r as [a|e]; cbn [fst snd].
    - destruct (Kk a s' A1) as (B1 & B2 & B3). split; [exact B1|]. split; [now apply (frame_trans q _ (fst s'))|]. intros b Hb. apply (B3 b Hb); auto.
    - split; [exact A1|]. split; [exact A2|]. discriminate.
  Qed.
  (** the place [q] is known to keep its state before the second part *)
  Lemma keeps_snoc {A} q c (m : M A) P : keeps (q ++ [c]) m P -> keeps q m P.
  Proof. intros K s Hs. destruct (K s Hs) as (A1 & A2 & A3). split; [exact A1|]. split; [now apply (frame_snoc q c)|exact A3]. Qed.

  Lemma keeps_mkdir m q : absolute m q -> keeps q (mkdir fates (render m q)) (fun f g _ => dget f q = None /\ g = dset f q EDir).
  Proof.
    intros Ha [f t] Hf. unfold mkdir, whole, sys, os_mkdir. rewrite (place_render m q Ha). cbn [fst] in Hf.
    destruct (fates t); cbn [fst snd]; [|split; [exact Hf|]; split; [apply frame_refl|discriminate]..].
    destruct (dget f q) as [e|] eqn:E; cbn [fst snd]; [split; [exact Hf|]; split; [apply frame_refl|discriminate]|].
    destruct (has_parent f q) eqn:Hp; cbn [fst snd]; [|split; [exact Hf|]; split; [apply frame_refl|discriminate]].
    split; [apply ok_dset; auto; apply Ha|]. split; [apply frame_dset|]. intros a _. split; reflexivity.
  Qed.

  Lemma keeps_open_w m q : absolute m q -> keeps q (open_w fates (render m q)) (fun f g _ => (dget f q = None \/ exists c, dget f q = Some (EFile c)) /\ g = dset f q (EFile [])).
  Proof.
    intros Ha [f t] Hf. unfold open_w, whole, sys, os_open_w. rewrite (place_render m q Ha). cbn [fst] in Hf.
    destruct (fates t); cbn [fst snd]; [|split; [exact Hf|]; split; [apply frame_refl|discriminate]..].
    destruct (dget f q) as [[c| |]|] eqn:E; cbn [fst snd]; try (split; [exact Hf|]; split; [apply frame_refl|discriminate]).
    - split; [now apply (ok_set_file f q [] c)|]. split; [apply frame_dset|]. intros a _. split; [right; now exists c|reflexivity].
    - destruct (has_parent f q) eqn:Hp; cbn [fst snd]; [|split; [exact Hf|]; split; [apply frame_refl|discriminate]].
      split; [apply ok_dset; auto; apply Ha|]. split; [apply frame_dset|]. intros a _. split; [now left|reflexivity].
  Qed.

  Lemma append_ok m q b f : absolute m q -> okfs f -> okfs (fst (os_append (render m q) b f)) /\ frame q f (fst (os_append (render m q) b f)).
  Proof.
    intros Ha Hf. unfold os_append. rewrite (place_render m q Ha). destruct (dget f q) as [[c| |]|] eqn:E; cbn [fst]; try (split; [exact Hf|apply frame_refl]).
    split; [now apply (ok_set_file f q (c ++ b) c)|apply frame_dset].
  Qed.

  Lemma keeps_write m q b : absolute m q -> keeps q (write fates (render m q) b) (fun f g _ => exists c, dget f q = Some (EFile c) /\ g = dset f q (EFile (c ++ b))).
  Proof.
    intros Ha [f t] Hf. unfold write, sys. cbn [fst] in Hf. destruct (fates t) as [|j|j]; cbn [fst snd].
    - pose proof (append_ok m q b f Ha Hf) as [A B]. unfold os_append in *. rewrite (place_render m q Ha) in *. destruct (dget f q) as [[c| |]|] eqn:E; cbn [fst snd] in *; (split; [exact A|]; split; [exact B|]); try discriminate.
      intros a _. now exists c.
    - pose proof (append_ok m q (firstn j b) f Ha Hf) as [A B]. split; [exact A|]. split; [exact B|discriminate].
    - pose proof (append_ok m q (firstn j b) f Ha Hf) as [A B]. split; [exact A|]. split; [exact B|discriminate].
  Qed.

  Lemma keeps_read n p q pos k : absolute n p -> keeps q (read fates (render n p) pos k) (fun f g a => g = f /\ exists c, dget f p = Some (EFile c) /\ a = firstn k (skipn pos c)).
  Proof.
    intros Ha. apply keeps_looks; [apply looks_whole; reflexivity|]. intros [f t] a Hf. unfold read, whole, sys, os_read. rewrite (place_render n p Ha). cbn [fst].
    destruct (fates t); cbn [snd]; try discriminate. destruct (dget f p) as [[c| |]|]; try discriminate. intros H. injection H as <-. split; [reflexivity|]. now exists c.
  Qed.

  Lemma keeps_open_r n p q : absolute n p -> keeps q (open_r fates (render n p)) (fun f g _ => g = f /\ exists c, dget f p = Some (EFile c)).
  Proof.
    intros Ha. apply keeps_looks; [apply looks_whole; reflexivity|]. intros [f t] a Hf. unfold open_r, whole, sys, os_open_r. rewrite (place_render n p Ha). cbn [fst].
    destruct (fates t); cbn [snd]; try discriminate. destruct (dget f p) as [[c| |]|]; try discriminate. intros _. split; [reflexivity|]. now exists c.
  Qed.

  Lemma keeps_probe n p q : absolute n p -> keeps q (probe fates (render n p)) (fun f g a => g = f /\ forall e, a = Some e -> dget f p = Some e).
  Proof.
    intros Ha. apply keeps_looks; [apply looks_probe|]. intros [f t] a Hf. unfold probe, catchOS, bindM, stat, whole, sys, os_stat. rewrite (place_render n p Ha). cbn [fst].
    destruct (fates t); cbn [snd retM]; try discriminate.
    - destruct (dget f p) as [e|]; cbn [snd retM]; intros H; injection H as <-; (split; [reflexivity|]); [auto|discriminate].
    - intros H. injection H as <-. split; [reflexivity|discriminate].
  Qed.

  Lemma keeps_ret {A} q (a : A) : keeps q (retM a) (fun f g b => g = f /\ b = a).
  Proof. apply keeps_looks; [apply looks_ret|]. intros s b _ H. injection H as <-. split; reflexivity. Qed.
  Lemma keeps_close q : keeps q (close fates) (fun f g _ => g = f).
  Proof. apply keeps_looks; [apply looks_close|]. auto. Qed.
  Lemma keeps_raise {A} q e (P : fs -> fs -> A -> Prop) : keeps q (raise e) P.
  Proof. apply keeps_looks; [apply looks_raise|]. discriminate. Qed.

  Lemma firstn_add {A} (a b : nat) (l : list A) : firstn (a + b) l = firstn a l ++ firstn b (skipn a l).
  Proof. revert l. induction a as [|a IH]; intros l; [reflexivity|]. destruct l; cbn; [now rewrite firstn_nil|]. now rewrite IH. Qed.

  Lemma keeps_loop k n p m q : absolute n p -> absolute m q -> forall fuel pos,
    keeps q (copy_loop fates k fuel (render n p) (render m q) pos)
      (fun f g _ => apart p q -> forall c, dget f p = Some (EFile c) -> dget f q = Some (EFile (firstn pos c)) -> dget g q = Some (EFile c)).
  Proof.
    intros Hp Hq. induction fuel as [|fuel IH]; intros pos; cbn [copy_loop]; [apply keeps_raise|].
    eapply keeps_bind; [now apply keeps_read|]. intros chunk. eapply keeps_bind; [now apply keeps_write|]. intros []. destruct (Nat.ltb_spec (length chunk) k) as [L|L].
    - eapply keeps_weaken; [apply keeps_ret|]. intros f g a Hf Hg Hfr (-> & _) f1 Hf1 F1 (d & Ed & ->) f0 Hf0 F0 (-> & c0 & Ec & Eq) Hd c Hc Hqc.
      rewrite dget_dset_eq. rewrite Hc in Ec. injection Ec as <-. rewrite Hqc in Ed. injection Ed as <-. do 2 f_equal. subst chunk.
      rewrite firstn_length in L. rewrite (firstn_all2 (skipn pos c)) by lia. apply firstn_skipn.
    - eapply keeps_weaken; [apply IH|]. intros f g a Hf Hg Hfr P f1 Hf1 F1 (d & Ed & ->) f0 Hf0 F0 (-> & c0 & Ec & Eq) Hd c Hc Hqc.
      apply (P Hd).
      + rewrite dget_dset_neq; [exact Hc|]. intros E. apply Hd. rewrite E. apply below_refl.
      + rewrite dget_dset_eq. rewrite Hc in Ec. injection Ec as <-. rewrite Hqc in Ed. injection Ed as <-. do 2 f_equal. subst chunk. rewrite firstn_add. f_equal.
        rewrite firstn_length in L |- *. f_equal. lia.
  Qed.

  Lemma keeps_state {A} q (g : state -> M A) P : (forall s0, keeps q (g s0) P) -> keeps q (fun s => g s s) P.
  Proof. intros H s Hs. apply (H s s Hs). Qed.

  (** what a copy leaves at a place: [s] was in the source, [d] in the
      destination *)
  Definition merged (s d : option entry) : option entry :=
    match s, d with
    | None, _ => d
    | Some EDir, Some e => Some e
    | Some e, _ => Some e
    end.

  Lemma no_below f l r : okfs f -> dget f l <> Some EDir -> r <> [] -> dget f (l ++ r) = None.
  Proof. intros Hf H Hr. destruct (dget f (l ++ r)) eqn:E; [|reflexivity]. exfalso. apply H, (ok_below f l r Hf Hr). rewrite E. discriminate. Qed.

  (** the result of a copy that ended normally *)
  Definition copied (p q : loc) (f g : fs) : Prop := forall r, dget g (q ++ r) = merged (dget f (p ++ r)) (dget f (q ++ r)).

  Lemma apart_neq p q : apart p q -> p <> q.
  Proof. intros [H _] ->. apply H, below_refl. Qed.

  Lemma keeps_file k n p m q : absolute n p -> absolute m q -> keeps q (copy_file fates k (render n p) (render m q)) (fun f g _ => apart p q -> copied p q f g).
  Proof.
    intros Hp Hq. unfold copy_file. eapply keeps_bind; [now apply keeps_open_w|]. intros []. eapply keeps_bind; [now apply (keeps_open_r n p)|]. intros [].
    eapply keeps_bind. { apply (keeps_state q (fun s0 => copy_loop fates k (S match dget (fst s0) (place (render n p)) with Some (EFile c) => Datatypes.length c | _ => 0 end) (render n p) (render m q) 0)). intros s0. now apply keeps_loop. }
    intros []. eapply keeps_bind; [apply keeps_close|]. intros []. eapply keeps_weaken; [apply keeps_close|].
    intros f g [] Hf Hg _ -> f3 Hf3 F3 -> f2 Hf2 F2 P2 f1 Hf1 F1 (-> & c & Ec) f0 Hf0 F0 (Hq0 & ->) Hd.
    pose proof (P2 Hd c Ec (dget_dset_eq f0 q (EFile []))) as R. pose proof (apart_neq p q Hd) as Hpq.
    rewrite dget_dset_neq in Ec by exact Hpq. intros r. destruct r as [|x r].
    - rewrite !app_nil_r, R, Ec. reflexivity.
    - rewrite (no_below f3 q (x :: r) Hf3); [|rewrite R; discriminate|discriminate]. rewrite (no_below f0 p (x :: r) Hf0); [|rewrite Ec; discriminate|discriminate]. cbn [merged].
      symmetry. apply (no_below f0 q (x :: r) Hf0); [|discriminate]. destruct Hq0 as [E|(d & E)]; rewrite E; discriminate.
  Qed.

  Lemma mapR_child n p cs : absolute n p -> Forall name cs -> mapR (child cwd (render n p)) cs = Ok (map (fun c => render n (p ++ [c])) cs).
  Proof. intros Ha. induction 1 as [|c cs Hc _ IH]; [reflexivity|]. cbn [mapR map]. rewrite (child_name cwd n p c Ha Hc), IH. reflexivity. Qed.

  Lemma names_names f l : okfs f -> Forall name (names f l).
  Proof.
    intros Hf. apply Forall_forall. intros c Hc. apply names_spec in Hc; [|apply Hf]. destruct (dget f (l ++ [c])) as [e|] eqn:E; [|congruence].
    apply (ok_names f Hf) in E. apply Forall_app in E. destruct E as [_ E]. now inversion E.
  Qed.

  Lemma keeps_children n p q : absolute n p -> keeps q (children cwd fates (render n p)) (fun f g a => g = f /\ dget f p = Some EDir /\ a = map (fun c => render n (p ++ [c])) (names f p)).
  Proof.
    intros Ha. apply keeps_looks; [apply looks_children|]. intros [f t] a Hf. unfold children, bindM, listdir, whole, sys, os_listdir. rewrite (place_render n p Ha). cbn [fst] in *.
    destruct (fates t); cbn [snd]; try discriminate. destruct (dget f p) as [[c| |]|]; cbn [snd]; try discriminate. unfold lift. cbn [snd]. rewrite (mapR_child n p (names f p) Ha (names_names f p Hf)).
    intros H. injection H as <-. repeat split.
  Qed.

  Lemma abs_snoc n p c : absolute n p -> name c -> absolute n (p ++ [c]).
  Proof. intros [H1 H2] Hc. split; [exact H1|]. apply Forall_app. split; [exact H2|]. now constructor. Qed.

  (** the loop over the entries of a directory *)
  Lemma keeps_iter n p m q (copy : str -> str -> M unit) : absolute n p -> absolute m q ->
    (forall c, name c -> keeps (q ++ [c]) (copy (render n (p ++ [c])) (render m (q ++ [c]))) (fun f g _ => apart (p ++ [c]) (q ++ [c]) -> copied (p ++ [c]) (q ++ [c]) f g)) ->
    forall cs, Forall name cs -> NoDup cs ->
    keeps q (iterM (fun c => bindM (lift (child cwd (render m q) (basename c))) (fun d => copy c d)) (map (fun c => render n (p ++ [c])) cs))
      (fun f g _ => apart p q -> dget g q = dget f q /\ forall c r, dget g (q ++ c :: r) = if memb (c : str) cs then merged (dget f (p ++ c :: r)) (dget f (q ++ c :: r)) else dget f (q ++ c :: r)).
  Proof.
    intros Hp Hq HC. induction cs as [|c cs IH]; intros Hn Hu; cbn [map iterM].
    - eapply keeps_weaken; [apply keeps_ret|]. intros f g a _ _ _ (-> & _) _. split; reflexivity.
    - inversion Hn as [|? ? Hc Hn']; subst. inversion Hu as [|? ? Hi Hu']; subst. pose proof (abs_snoc n p c Hp Hc) as Hpc.
      rewrite (proj1 (base_render n p c Hpc)), (child_name cwd m q c Hq Hc). change (bindM (lift (Ok (render m (q ++ [c])))) (fun d => copy (render n (p ++ [c])) d)) with (copy (render n (p ++ [c])) (render m (q ++ [c]))).
      (* the first entry, knowing that only places below it change *)
      intros s Hs. destruct (HC c Hc s Hs) as (A1 & A2 & A3). unfold bindM. destruct (copy (render n (p ++ [c])) (render m (q ++ [c])) s) as [s' r]. cbn [fst snd] in *.
      destruct r as [[]|e]; cbn [fst snd]; [|split; [exact A1|]; split; [now apply (frame_snoc q c)|discriminate]].
      destruct (IH Hn' Hu' s' A1) as (B1 & B2 & B3). unfold bindM in B1, B2, B3. split; [exact B1|]. split; [apply (frame_trans q _ (fst s')); [now apply (frame_snoc q c)|exact B2]|].
      intros a Ha Hd. destruct (B3 a Ha Hd) as [C1 C2]. specialize (A3 tt eq_refl (apart_snoc p q c c Hd)). split; [rewrite C1; apply A2, snoc_not_below|].
      intros d r. rewrite C2. cbn [memb]. assert (Ep : dget (fst s') (p ++ d :: r) = dget (fst s) (p ++ d :: r)). { apply A2. intros Hb. apply below_snoc in Hb. now apply (apart_out p q (d :: r) Hd). }
      destruct (eqb_spec d c) as [->|Hdc]; cbn [orb].
      + specialize (A3 r). rewrite <- !app_assoc in A3. cbn [app] in A3. destruct (memb c cs) eqn:M; [apply memb_In in M; contradiction|exact A3].
      + assert (Eq : dget (fst s') (q ++ d :: r) = dget (fst s) (q ++ d :: r)). { apply A2. intros Hb. apply snoc_below in Hb. congruence. }
        rewrite Ep, Eq. reflexivity.
  Qed.

  Theorem keeps_copy k : forall fuel n p m q, absolute n p -> absolute m q -> keeps q (copyTo cwd fates k fuel (render n p) (render m q)) (fun f g _ => apart p q -> copied p q f g).
  Proof.
    induction fuel as [|fuel IH]; intros n p m q Hp Hq; cbn [copyTo]; [apply keeps_raise|].
    eapply keeps_bind; [now apply (keeps_probe n p)|]. intros st.
    assert (Other : keeps q (bindM (match st with Some e => retM (Some e) | None => probe fates (render n p) end)
              (fun st' => match st' with Some (EFile _) => copy_file fates k (render n p) (render m q) | _ => raise NotImplementedErr end))
            (fun g h (b : unit) => forall f, okfs f -> frame q f g -> (g = f /\ forall e, st = Some e -> dget f p = Some e) -> apart p q -> copied p q f h)).
    { eapply keeps_bind; [|intros st'; destruct st' as [[c| |]|]; try apply keeps_raise].
      - assert (K : keeps q (match st with Some e => retM (Some e) | None => probe fates (render n p) end) (fun f g _ => g = f)); [|exact K].
        destruct st; [eapply keeps_weaken; [apply keeps_ret|]; now intros ? ? ? _ _ _ (H & _)|eapply keeps_weaken; [now apply (keeps_probe n p)|]; now intros ? ? ? _ _ _ (H & _)].
      - eapply keeps_weaken; [now apply keeps_file|]. intros f g [] Hf Hg _ C f1 Hf1 F1 -> f0 Hf0 F0 (-> & _). exact C. }
    destruct st as [[c| |]|]; try exact Other. clear Other.
    eapply keeps_bind; [now apply (keeps_probe m q)|]. intros ex. eapply keeps_bind.
    { assert (K : keeps q (match ex with Some _ => retM tt | None => mkdir fates (render m q) end) (fun f g _ => (ex <> None /\ g = f) \/ (dget f q = None /\ g = dset f q EDir))); [|exact K].
      destruct ex; [eapply keeps_weaken; [apply keeps_ret|]; intros ? ? ? _ _ _ (H & _); left; split; [discriminate|exact H]|].
      eapply keeps_weaken; [now apply keeps_mkdir|]. intros ? ? ? _ _ _ H. now right. }
    intros []. intros s Hs. destruct (keeps_children n p q Hp s Hs) as (K1 & K2 & K3).
    match goal with |- context [bindM ?m ?k s] => change (bindM m k s) with (let (s', r) := m s in match r with Ok a => k a s' | Err e => (s', Err e) end) end. destruct (children cwd fates (render n p) s) as [s' r]. cbn [fst snd] in *.
    destruct r as [cs|e]; cbn [fst snd]; [|split; [exact K1|]; split; [exact K2|discriminate]]. destruct (K3 cs eq_refl) as (E3 & Ep & ->). clear K3.
    destruct (keeps_iter n p m q (copyTo cwd fates k fuel) Hp Hq) with (cs := names (fst s) p) (s := s') as (A1 & A2 & A3);
      [intros c Hc; apply IH; auto using abs_snoc|now apply names_names|apply names_nodup, Hs|exact K1|].
    split; [exact A1|]. split; [now apply (frame_trans q _ (fst s'))|]. intros a Ha f2 Hf2 F2 Hmk f1 Hf1 F1 (-> & Hex) f0 Hf0 F0 (-> & Hp0) Hd. specialize (Hp0 EDir eq_refl).
    destruct (A3 a Ha Hd) as [C1 C2]. rewrite E3 in *. clear E3 A1 A2 A3 K1 K2. clear Ha. set (f3 := fst s) in *. clearbody f3. intros r. destruct r as [|c r].
    + rewrite !app_nil_r, C1. rewrite Hp0. destruct Hmk as [(Hne & ->)|(Hq0 & ->)].
      * destruct ex as [e|]; [|congruence]. rewrite (Hex e eq_refl). reflexivity.
      * rewrite dget_dset_eq, Hq0. reflexivity.
    + rewrite C2. assert (Ep' : forall r, dget f3 (p ++ r) = dget f0 (p ++ r)). { intros r'. destruct Hmk as [(_ & ->)|(_ & ->)]; [reflexivity|]. apply dget_dset_neq. intros E. apply (apart_app p q r' [] Hd). now rewrite app_nil_r. }
      assert (Eq' : dget f3 (q ++ c :: r) = dget f0 (q ++ c :: r)). { destruct Hmk as [(_ & ->)|(_ & ->)]; [reflexivity|]. apply dget_dset_neq. intros E. apply (f_equal (@length _)) in E. rewrite app_length in E. cbn in E. lia. }
      rewrite Ep', Eq'. destruct (memb (c : str) (names f3 p)) eqn:M; [reflexivity|]. apply memb_not_In in M. rewrite names_spec in M by apply Hs.
      replace (dget f0 (p ++ c :: r)) with (@None entry); [reflexivity|]. symmetry. destruct (dget f0 (p ++ c :: r)) as [e|] eqn:E; [|reflexivity]. exfalso. apply M. rewrite Ep'.
      destruct r as [|d r]; [rewrite E; discriminate|]. rewrite (ok_below f0 (p ++ [c]) (d :: r) Hf0); [discriminate|discriminate|]. rewrite <- app_assoc. cbn [app]. rewrite E. discriminate.
  Qed.

  (** ** When nothing fails *)

  (** files onto files, directories onto directories, or onto nothing *)
  Definition compatible (f : fs) (p q : loc) : Prop := forall r,
    match dget f (p ++ r) with
    | None => True
    | Some EOther => False
    | Some EDir => dget f (q ++ r) = None \/ dget f (q ++ r) = Some EDir
    | Some (EFile _) => dget f (q ++ r) = None \/ exists c, dget f (q ++ r) = Some (EFile c)
    end.
  Definition deep (f : fs) (p : loc) (d : nat) : Prop := forall r, dget f (p ++ r) <> None -> (length r < d)%nat.

  Section Calm.
    Hypothesis calm : forall t, fates t = Run.

    Lemma run_probe n (p : loc) f t : absolute n p -> probe fates (render n p) (f, t) = ((f, S t), Ok (dget f p)).
    Proof.
      intros Ha. unfold probe, catchOS, bindM, stat, whole, sys, os_stat. rewrite calm, (place_render n p Ha). destruct (dget f p); reflexivity.
    Qed.
    Lemma run_children n (p : loc) f t : absolute n p -> okfs f -> dget f p = Some EDir -> children cwd fates (render n p) (f, t) = ((f, S t), Ok (map (fun c => render n (p ++ [c])) (names f p))).
    Proof.
      intros Ha Hf H. unfold children, bindM, listdir, whole, sys, os_listdir. rewrite calm, (place_render n p Ha), H. unfold lift. now rewrite (mapR_child n p _ Ha (names_names f p Hf)).
    Qed.
    Lemma run_mkdir m (q : loc) f t : absolute m q -> dget f q = None -> has_parent f q = true -> mkdir fates (render m q) (f, t) = ((dset f q EDir, S t), Ok tt).
    Proof. intros Ha H Hp. unfold mkdir, whole, sys, os_mkdir. now rewrite calm, (place_render m q Ha), H, Hp. Qed.
    Lemma run_open_w m (q : loc) f t : absolute m q -> (dget f q = None /\ has_parent f q = true \/ exists c, dget f q = Some (EFile c)) -> open_w fates (render m q) (f, t) = ((dset f q (EFile []), S t), Ok tt).
    Proof. intros Ha H. unfold open_w, whole, sys, os_open_w. rewrite calm, (place_render m q Ha). destruct H as [(-> & ->)|(c & ->)]; reflexivity. Qed.
    Lemma run_open_r n (p : loc) f t c : absolute n p -> dget f p = Some (EFile c) -> open_r fates (render n p) (f, t) = ((f, S t), Ok tt).
    Proof. intros Ha H. unfold open_r, whole, sys, os_open_r. now rewrite calm, (place_render n p Ha), H. Qed.
    Lemma run_read n (p : loc) f t c pos k : absolute n p -> dget f p = Some (EFile c) -> read fates (render n p) pos k (f, t) = ((f, S t), Ok (firstn k (skipn pos c))).
    Proof. intros Ha H. unfold read, whole, sys, os_read. now rewrite calm, (place_render n p Ha), H. Qed.
    Lemma run_write m (q : loc) f t c b : absolute m q -> dget f q = Some (EFile c) -> write fates (render m q) b (f, t) = ((dset f q (EFile (c ++ b)), S t), Ok tt).
    Proof. intros Ha H. unfold write, sys, os_append. now rewrite calm, (place_render m q Ha), H. Qed.
    Lemma run_close f t : close fates (f, t) = ((f, S t), Ok tt).
    Proof. unfold close, whole, sys. now rewrite calm. Qed.

    Lemma bind_run {A B} (m : M A) (k : A -> M B) s s' a : m s = (s', Ok a) -> bindM m k s = k a s'.
    Proof. intros H. unfold bindM. now rewrite H. Qed.

    Lemma loop_works k n (p : loc) m (q : loc) c : (0 < k)%nat -> absolute n p -> absolute m q -> apart p q -> forall fuel pos f t d,
      dget f p = Some (EFile c) -> dget f q = Some (EFile d) -> (pos <= length c)%nat -> (length c < pos + fuel)%nat -> snd (copy_loop fates k fuel (render n p) (render m q) pos (f, t)) = Ok tt.
    Proof.
      intros Hk Hp Hq Hd. induction fuel as [|fuel IH]; intros pos f t d Hfp Hfq Hb Hl.
      - exfalso. lia.
      - cbn [copy_loop]. rewrite (bind_run _ _ _ _ _ (run_read n p f t c pos k Hp Hfp)), (bind_run _ _ _ _ _ (run_write m q f (S t) d _ Hq Hfq)).
        destruct (Nat.ltb_spec (length (firstn k (skipn pos c))) k) as [L|L]; [reflexivity|].
        apply (IH _ _ _ (d ++ firstn k (skipn pos c))).
        + rewrite dget_dset_neq; [exact Hfp|]. now apply apart_neq.
        + apply dget_dset_eq.
        + rewrite firstn_length, skipn_length in *. lia.
        + lia.
    Qed.

    Lemma has_parent_snoc f (l : loc) c : has_parent f (l ++ [c]) = match dget f l with Some EDir => true | _ => false end.
    Proof. unfold has_parent. rewrite removelast_last. destruct (l ++ [c]) eqn:E; [now destruct l|reflexivity]. Qed.

    Lemma file_works k n (p : loc) m (q : loc) f t c : (0 < k)%nat -> absolute n p -> absolute m q -> apart p q -> dget f p = Some (EFile c) ->
      (dget f q = None /\ has_parent f q = true \/ exists c, dget f q = Some (EFile c)) -> snd (copy_file fates k (render n p) (render m q) (f, t)) = Ok tt.
    Proof.
      intros Hk Hp Hq Hd Hfp Hfq. unfold copy_file. rewrite (bind_run _ _ _ _ _ (run_open_w m q f t Hq Hfq)). set (f1 := dset f q (EFile [])).
      assert (E1 : dget f1 p = Some (EFile c)) by (unfold f1; rewrite dget_dset_neq; [exact Hfp|now apply apart_neq]).
      rewrite (bind_run _ _ _ _ _ (run_open_r n p f1 (S t) c Hp E1)). unfold bindM at 1. cbn [fst]. rewrite (place_render n p Hp), E1.
      pose proof (loop_works k n p m q c Hk Hp Hq Hd (S (Datatypes.length c)) 0 f1 (S (S t)) [] E1 (dget_dset_eq f q (EFile [])) ltac:(lia) ltac:(lia)) as L.
      destruct (copy_loop fates k _ _ _ _ _) as [[f2 t2] r]. cbn [snd] in L. subst r. rewrite (bind_run _ _ _ _ _ (run_close f2 t2)), run_close. reflexivity.
    Qed.

    Lemma iter_works k fuel n (p : loc) m (q : loc) : absolute n p -> absolute m q -> apart p q ->
      (forall c f t, name c -> okfs f -> dget f (p ++ [c]) <> None -> compatible f (p ++ [c]) (q ++ [c]) -> dget f q = Some EDir -> deep f (p ++ [c]) fuel ->
        snd (copyTo cwd fates k fuel (render n (p ++ [c])) (render m (q ++ [c])) (f, t)) = Ok tt) ->
      forall cs, Forall name cs -> NoDup cs -> forall f t, okfs f -> dget f q = Some EDir ->
      (forall c, In c cs -> dget f (p ++ [c]) <> None /\ compatible f (p ++ [c]) (q ++ [c]) /\ deep f (p ++ [c]) fuel) ->
      snd (iterM (fun c => bindM (lift (child cwd (render m q) (basename c))) (fun d => copyTo cwd fates k fuel c d)) (map (fun c => render n (p ++ [c])) cs) (f, t)) = Ok tt.
    Proof.
      intros Hp Hq Hd HC. induction cs as [|c cs IH]; intros Hn Hu f t Hf Hfq Hc; [reflexivity|]. cbn [map iterM].
      inversion Hn as [|? ? Hcn Hn']; subst. inversion Hu as [|? ? Hi Hu']; subst. pose proof (abs_snoc n p c Hp Hcn) as Hpc.
      rewrite (proj1 (base_render n p c Hpc)), (child_name cwd m q c Hq Hcn).
      match goal with |- snd (bindM ?mm _ _) = _ => change mm with (copyTo cwd fates k fuel (render n (p ++ [c])) (render m (q ++ [c]))) end.
      destruct (Hc c (or_introl eq_refl)) as (C1 & C2 & C3). pose proof (HC c f t Hcn Hf C1 C2 Hfq C3) as R.
      destruct (keeps_copy k fuel n (p ++ [c]) m (q ++ [c]) Hpc (abs_snoc m q c Hq Hcn) (f, t) Hf) as (A1 & A2 & _). unfold bindM at 1.
      destruct (copyTo cwd fates k fuel (render n (p ++ [c])) (render m (q ++ [c])) (f, t)) as [[f' t'] r]. cbn [fst snd] in *. subst r.
      apply IH; auto.
      - rewrite (A2 q (snoc_not_below q c)). exact Hfq.
      - intros d Hd'. assert (Hdc : c <> d) by (intros ->; contradiction). destruct (Hc d (or_intror Hd')) as (D1 & D2 & D3).
        assert (Ep : forall r, dget f' ((p ++ [d]) ++ r) = dget f ((p ++ [d]) ++ r)). { intros r. apply A2. rewrite <- app_assoc. intros Hb. apply below_snoc in Hb. now apply (apart_out p q ([d] ++ r) Hd). }
        assert (Eq : forall r, dget f' ((q ++ [d]) ++ r) = dget f ((q ++ [d]) ++ r)). { intros r. apply A2. rewrite <- app_assoc. intros Hb. apply snoc_below in Hb. contradiction. }
        split; [specialize (Ep []); rewrite !app_nil_r in Ep; congruence|]. split; intros r; rewrite Ep; [rewrite Eq; apply D2|apply D3].
    Qed.

    Theorem copy_works k : (0 < k)%nat -> forall fuel n (p : loc) m (q : loc) f t, absolute n p -> absolute m q -> apart p q -> okfs f ->
      dget f p <> None -> compatible f p q -> (dget f q <> None \/ has_parent f q = true) -> deep f p fuel ->
      snd (copyTo cwd fates k fuel (render n p) (render m q) (f, t)) = Ok tt.
    Proof.
      intros Hk. induction fuel as [|fuel IH]; intros n p m q f t Hp Hq Hd Hf Hfp Hco Hfq Hde.
      - exfalso. specialize (Hde []). rewrite app_nil_r in Hde. specialize (Hde Hfp). cbn in Hde. lia.
      - cbn [copyTo]. rewrite (bind_run _ _ _ _ _ (run_probe n p f t Hp)). pose proof (Hco []) as C0. rewrite !app_nil_r in C0.
        destruct (dget f p) as [[c| |]|] eqn:Efp; try contradiction.
        + rewrite (bind_run (retM (Some (EFile c))) _ _ (f, S t) (Some (EFile c)) eq_refl). apply (file_works k n p m q f (S t) c); auto. destruct C0 as [E|(d & E)]; [left|right; now exists d].
          split; [exact E|]. destruct Hfq; [congruence|assumption].
        + rewrite (bind_run _ _ _ _ _ (run_probe m q f (S t) Hq)).
          assert (Rest : forall f1 t1, okfs f1 -> (f1 = f \/ f1 = dset f q EDir) -> dget f1 q = Some EDir ->
            snd (bindM (children cwd fates (render n p)) (iterM (fun c => bindM (lift (child cwd (render m q) (basename c))) (fun d => copyTo cwd fates k fuel c d))) (f1, t1)) = Ok tt).
          { intros f1 t1 Hf1 H1 H1q. assert (Ep : forall r, dget f1 (p ++ r) = dget f (p ++ r)). { intros r. destruct H1 as [->| ->]; [reflexivity|]. apply dget_dset_neq. intros E. apply (apart_app p q r [] Hd). now rewrite app_nil_r. }
            assert (Eq : forall x r, dget f1 (q ++ x :: r) = dget f (q ++ x :: r)). { intros x r. destruct H1 as [->| ->]; [reflexivity|]. apply dget_dset_neq. intros E. apply (f_equal (@length _)) in E. rewrite app_length in E. cbn in E. lia. }
            assert (Efp1 : dget f1 p = Some EDir) by (specialize (Ep []); rewrite !app_nil_r in Ep; congruence).
            rewrite (bind_run _ _ _ _ _ (run_children n p f1 t1 Hp Hf1 Efp1)). apply iter_works; auto.
            - intros c g u Hc Hg G1 G2 G3 G4. apply IH; auto using abs_snoc, apart_snoc. right. rewrite has_parent_snoc, G3. reflexivity.
            - now apply names_names.
            - apply names_nodup, Hf1.
            - intros c Hc. apply names_spec in Hc; [|apply Hf1]. split; [exact Hc|]. split.
              + intros r. rewrite <- !app_assoc. cbn [app]. rewrite Ep, Eq. apply Hco.
              + intros r. rewrite <- app_assoc. cbn [app]. rewrite Ep. intros H. apply Hde in H. cbn in H. lia. }
          destruct (dget f q) as [e|] eqn:Efq.
          * rewrite (bind_run (retM tt) _ _ (f, S (S t)) tt eq_refl). apply Rest; auto. destruct C0 as [C0|C0]; congruence.
          * assert (Hpar : has_parent f q = true) by (destruct Hfq; [congruence|assumption]). rewrite (bind_run _ _ _ _ _ (run_mkdir m q f (S (S t)) Hq Efq Hpar)).
            apply Rest; [apply ok_dset; auto; apply Hq|now right|apply dget_dset_eq].
    Qed.
  End Calm.

  (** every tree is as deep as some number *)
  Lemma deep_exists f p : exists d, deep f p d.
  Proof.
    exists (S (list_max (map (@length _) (keys f)))). intros r H. destruct (dget f (p ++ r)) as [e|] eqn:E; [|congruence]. apply dget_Some_keys in E.
    assert (L : (length (p ++ r) <= list_max (map (@length _) (keys f)))%nat). { pose proof (proj1 (list_max_le (map (@length _) (keys f)) _) (le_n _)) as A. rewrite Forall_forall in A. apply A, in_map, E. }
    rewrite app_length in L. lia.
  Qed.
  Lemma deep_le f p d d' : (d <= d')%nat -> deep f p d -> deep f p d'.
  Proof. intros L H r Hr. specialize (H r Hr). lia. Qed.
End Frame.
