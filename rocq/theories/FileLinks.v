(** * Files, directories and symbolic links: FilePath of
      epsilon/hotfixes/filepath_copyTo.py

    remove, walk and copyTo over a file system in which there may be symbolic
    links. *)

From Coq Require Import NArith String List Bool Arith Lia ZifyBool.
From Verif Require Import Py PyStr PySplit FilePath FileTree FileTreeMore.
Import ListNotations.
Open Scope list_scope.

(** ** The operating system

    As in FileTree.v, with links: the target of a link is a list of steps, from
    the root or from the directory of the link.  A path is here the list of its
    names: FileTree.v and C73 show that [child] of such a name adds it at the
    end. *)

Inductive lentry := LFile (content : list N) | LDir | LOther | LLink (rooted : bool) (target : list str).
Definition lfs := dict loc lentry.

Definition isnil {A} (l : list A) : bool := match l with [] => true | _ => false end.

(** path_resolution(7): where the steps [todo] lead from [here], and how many
    of the [b] links that may be followed are left (40 under Linux, then
    ELOOP).  A link as the last step is followed if [follow].  The last step
    may lead to nothing. *)
Fixpoint find (f : lfs) (follow : bool) (b : nat) : loc -> list str -> res (loc * nat) :=
  fix go (here : loc) (todo : list str) {struct todo} : res (loc * nat) :=
    match todo with
    | [] => Ok (here, b)
    | c :: rest =>
        match dget f here with
        | Some LDir =>
            if eqb c (lit ".") then go here rest
            else if eqb c (lit "..") then go (removelast here) rest
            else match dget f (here ++ [c]) with
                 | Some (LLink rooted t) =>
                     if follow || negb (isnil rest) then
                       match b with
                       | O => Err OSError
                       | S b' => find f follow b' (if rooted then [] else here) (t ++ rest)
                       end
                     else Ok (here ++ [c], b)
                 | Some _ => go (here ++ [c]) rest
                 | None => if isnil rest then Ok (here ++ [c], b) else Err OSError
                 end
        | _ => Err OSError
        end
    end.

Definition lnames (f : lfs) (l : loc) : list str :=
  flat_map (fun p : loc * lentry => match strip l (fst p) with Some [c] => [c] | _ => [] end) f.

Section Calls.
  (** how many links may be followed *)
  Variable B : nat.

  Definition goes (f : lfs) (follow : bool) (p : loc) : res loc :=
    match find f follow B [] p with Ok (l, _) => Ok l | Err e => Err e end.

  (** stat(2) *)
  Definition los_stat (p : loc) (f : lfs) : lfs * res lentry :=
    (f, match goes f true p with
        | Ok l => match dget f l with Some e => Ok e | None => Err OSError end
        | Err e => Err e
        end).
  Definition los_listdir (p : loc) (f : lfs) : lfs * res (list str) :=
    (f, match goes f true p with
        | Ok l => match dget f l with Some LDir => Ok (lnames f l) | _ => Err OSError end
        | Err e => Err e
        end).
  (** mkdir(2), unlink(2), rmdir(2) do not follow a link *)
  Definition los_mkdir (p : loc) (f : lfs) : lfs * res unit :=
    match goes f false p with
    | Ok l => match dget f l with None => (dset f l LDir, Ok tt) | Some _ => (f, Err OSError) end
    | Err e => (f, Err e)
    end.
  Definition los_unlink (p : loc) (f : lfs) : lfs * res unit :=
    match goes f false p with
    | Ok l => match dget f l with Some LDir | None => (f, Err OSError) | Some _ => (ddel f l, Ok tt) end
    | Err e => (f, Err e)
    end.
  Definition los_rmdir (p : loc) (f : lfs) : lfs * res unit :=
    match goes f false p with
    | Ok l => match dget f l, l, lnames f l with
              | Some LDir, _ :: _, [] => (ddel f l, Ok tt)
              | _, _, _ => (f, Err OSError)
              end
    | Err e => (f, Err e)
    end.
  (** open(path, 'wb') and open(path, 'rb'): the file opened *)
  Definition los_open_w (p : loc) (f : lfs) : lfs * res loc :=
    match goes f true p with
    | Ok l => match dget f l with
              | Some (LFile _) | None => (dset f l (LFile []), Ok l)
              | _ => (f, Err OSError)
              end
    | Err e => (f, Err e)
    end.
  Definition los_open_r (p : loc) (f : lfs) : lfs * res loc :=
    (f, match goes f true p with
        | Ok l => match dget f l with Some (LFile _) => Ok l | _ => Err OSError end
        | Err e => Err e
        end).
  Definition los_read (l : loc) (pos k : nat) (f : lfs) : lfs * res (list N) :=
    (f, match dget f l with Some (LFile c) => Ok (firstn k (skipn pos c)) | _ => Err OSError end).
  Definition los_append (l : loc) (bytes : list N) (f : lfs) : lfs * res unit :=
    match dget f l with
    | Some (LFile c) => (dset f l (LFile (c ++ bytes)), Ok tt)
    | _ => (f, Err OSError)
    end.

  (** ** Runs, as in FileTree.v *)

  Definition LM (A : Type) := lfs * nat -> (lfs * nat) * res A.
  Definition lret {A} (a : A) : LM A := fun s => (s, Ok a).
  Definition lraise {A} (e : exn) : LM A := fun s => (s, Err e).
  Definition lbind {A C} (m : LM A) (k : A -> LM C) : LM C :=
    fun s => let (s', r) := m s in match r with Ok a => k a s' | Err e => (s', Err e) end.
  Notation "x <== m ; k" := (lbind m (fun x => k)) (at level 61, m at next level, right associativity).
  Definition lcatch {A} (m h : LM A) : LM A :=
    fun s => let (s', r) := m s in match r with Err OSError => h s' | _ => (s', r) end.
  Fixpoint literM {A} (g : A -> LM unit) (l : list A) : LM unit :=
    match l with [] => lret tt | a :: l' => _ <== g a ; literM g l' end.

  Variable fates : nat -> fate.

  Definition lsys {A} (call : lfs -> lfs * res A) (part : nat -> lfs -> lfs) : LM A :=
    fun s =>
      let (f, t) := s in
      match fates t with
      | Run => let (f', r) := call f in ((f', S t), r)
      | Fail n => ((part n f, S t), Err OSError)
      | Stop n => ((part n f, S t), Err KILLED)
      end.
  Definition lwhole {A} (call : lfs -> lfs * res A) : LM A := lsys call (fun _ f => f).

  (** ** FilePath *)

  (** filepath_copyTo.py:159-165, restat(False) of an object just made *)
  Definition lprobe (p : loc) : LM (option lentry) :=
    lcatch (e <== lwhole (los_stat p) ; lret (Some e)) (lret None).

  (** filepath_copyTo.py:323-324 *)
  Definition lchildren (self : loc) : LM (list loc) :=
    ns <== lwhole (los_listdir self) ; lret (map (fun c => self ++ [c]) ns).

  (** filepath_copyTo.py:250-257 *)
  Fixpoint lremove (fuel : nat) (self : loc) : LM unit :=
    match fuel with
    | O => lraise NO_FUEL
    | S fuel' =>
        st <== lprobe self ;
        _ <== (match st with
               | Some LDir => cs <== lchildren self ; _ <== literM (lremove fuel') cs ; lwhole (los_rmdir self)
               | _ => lwhole (los_unlink self)
               end) ;
        _ <== lprobe self ; lret tt
    end.

  (** filepath_copyTo.py:326-331, for a caller who takes all paths without
      changing anything in between *)
  Fixpoint lwalk (fuel : nat) (self : loc) : LM (list loc) :=
    match fuel with
    | O => lraise NO_FUEL
    | S fuel' =>
        st <== lprobe self ;
        match st with
        | Some LDir =>
            cs <== lchildren self ;
            rest <== (fix go (l : list loc) : LM (list loc) :=
                        match l with
                        | [] => lret []
                        | c :: l' => a <== lwalk fuel' c ; b <== go l' ; lret (a ++ b)
                        end) cs ;
            lret (self :: rest)
        | _ => lret [self]
        end
    end.

  (** filepath_copyTo.py:349-358, the loop *)
  Fixpoint lcopy_loop (k fuel : nat) (from to : loc) (pos : nat) : LM unit :=
    match fuel with
    | O => lraise NO_FUEL
    | S fuel' =>
        chunk <== lwhole (los_read from pos k) ;
        _ <== lsys (los_append to chunk) (fun n f => fst (los_append to (firstn n chunk) f)) ;
        if (length chunk <? k)%nat then lret tt else lcopy_loop k fuel' from to (pos + length chunk)
    end.

  (** filepath_copyTo.py:335-367; alwaysCreate of the destination is False *)
  Fixpoint lcopyTo (k fuel : nat) (self destination : loc) : LM unit :=
    match fuel with
    | O => lraise NO_FUEL
    | S fuel' =>
        st <== lprobe self ;
        match st with
        | Some LDir =>
            ex <== lprobe destination ;
            _ <== (match ex with Some _ => lret tt | None => lwhole (los_mkdir destination) end) ;
            cs <== lchildren self ;
            literM (fun c => lcopyTo k fuel' c (destination ++ [last c []])) cs
        | _ =>
            st' <== (match st with Some e => lret (Some e) | None => lprobe self end) ;
            match st' with
            | Some (LFile _) =>
                to <== lwhole (los_open_w destination) ;
                from <== lwhole (los_open_r self) ;
                _ <== (fun s => lcopy_loop k (S (match dget (fst s) from with Some (LFile c) => length c | _ => 0 end)) from to 0 s) ;
                _ <== lwhole (fun f => (f, Ok tt)) ;
                lwhole (fun f => (f, Ok tt))
            | _ => lraise NotImplementedErr
            end
        end
    end.
End Calls.

(** ** Specification *)

Record okl (f : lfs) : Prop := {
  okl_keys : wf_dict f;
  okl_root : dget f [] = Some LDir;
  okl_names : forall (l : loc) e, dget f l = Some e -> Forall name l;
  okl_above : forall (l : loc) c e, dget f (l ++ [c]) = Some e -> dget f l = Some LDir }.

(** no link at or below [x] leads to a directory *)
Definition safe (B : nat) (f : lfs) (x : loc) : Prop :=
  forall l r t, below x l -> dget f l = Some (LLink r t) ->
  forall d, goes B f true l = Ok d -> dget f d <> Some LDir.

(** everything in [g] is in [f] *)
Definition within (g f : lfs) : Prop := forall l e, dget g l = Some e -> dget f l = Some e.
(** only places at or below [x] differ *)
Definition lframe (x : loc) (f g : lfs) : Prop := forall l, ~ below x l -> dget g l = dget f l.
(** only places below [x] differ *)
Definition sframe (x : loc) (f g : lfs) : Prop := forall l, (forall c r, l <> x ++ c :: r) -> dget g l = dget f l.

(** ** Where paths lead *)

Lemma find_nil f fol b here : find f fol b here [] = Ok (here, b).
Proof. now destruct b. Qed.
Lemma find_cons f fol b here c rest : find f fol b here (c :: rest) =
  match dget f here with
  | Some LDir =>
      if eqb c (lit ".") then find f fol b here rest
      else if eqb c (lit "..") then find f fol b (removelast here) rest
      else match dget f (here ++ [c]) with
           | Some (LLink rooted t) =>
               if fol || negb (isnil rest) then
                 match b with
                 | O => Err OSError
                 | S b' => find f fol b' (if rooted then [] else here) (t ++ rest)
                 end
               else Ok (here ++ [c], b)
           | Some _ => find f fol b (here ++ [c]) rest
           | None => if isnil rest then Ok (here ++ [c], b) else Err OSError
           end
  | _ => Err OSError
  end.
Proof. now destruct b. Qed.

Lemma name_not_dot c : name c -> eqb c (lit ".") = false /\ eqb c (lit "..") = false.
Proof. intros (_ & H1 & H2 & _). split; [destruct (eqb_spec c (lit ".")) as [E|_]|destruct (eqb_spec c (lit "..")) as [E|_]]; congruence. Qed.

Lemma find_app f : forall b a here d b', find f true b here a = Ok (d, b') -> dget f d = Some LDir ->
  forall fol rest, rest <> [] -> find f fol b here (a ++ rest) = find f fol b' d rest.
Proof.
  intros b. induction b as [b IHb] using (well_founded_induction lt_wf).
  induction a as [|c a IHa]; intros here d b' H Hd fol rest Hr.
  - rewrite find_nil in H. injection H as -> ->. reflexivity.
  - cbn [app]. rewrite find_cons in H |- *. destruct (dget f here) as [[| | |]|]; try discriminate.
    destruct (eqb c (lit ".")); [now apply IHa|]. destruct (eqb c (lit "..")); [now apply IHa|].
    destruct (dget f (here ++ [c])) as [[| | |r t]|] eqn:E; try (now apply IHa).
    + cbn [orb] in H. replace (fol || negb (isnil (a ++ rest))) with true by (destruct a, rest, fol; try reflexivity; congruence).
      destruct b as [|b0]; [discriminate|]. rewrite app_assoc. apply (IHb b0 ltac:(lia) (t ++ a) _ d b' H Hd fol rest Hr).
    + destruct a; cbn [isnil] in H; [|discriminate]. injection H as <- <-. congruence.
Qed.

Lemma find_within g f : within g f -> forall b todo fol here l b' e, find g fol b here todo = Ok (l, b') -> dget g l = Some e ->
  find f fol b here todo = Ok (l, b').
Proof.
  intros W b. induction b as [b IHb] using (well_founded_induction lt_wf).
  induction todo as [|c todo IHt]; intros fol here l b' e H He.
  - rewrite find_nil in *. exact H.
  - rewrite find_cons in H |- *. destruct (dget g here) as [[| | |]|] eqn:Eh; try discriminate. rewrite (W _ _ Eh).
    destruct (eqb c (lit ".")); [now apply (IHt _ _ _ _ e)|]. destruct (eqb c (lit "..")); [now apply (IHt _ _ _ _ e)|].
    destruct (dget g (here ++ [c])) as [[| | |r t]|] eqn:E; try (rewrite (W _ _ E); now apply (IHt _ _ _ _ e)).
    + rewrite (W _ _ E). destruct (fol || negb (isnil todo)); [|exact H]. destruct b as [|b0]; [discriminate|]. apply (IHb b0 ltac:(lia) _ _ _ _ _ e H He).
    + destruct todo; cbn [isnil] in H; [|discriminate]. injection H as <- <-. congruence.
Qed.

Lemma find_more f k : forall b todo fol here l b', find f fol b here todo = Ok (l, b') -> find f fol (b + k) here todo = Ok (l, b' + k).
Proof.
  intros b. induction b as [b IHb] using (well_founded_induction lt_wf).
  induction todo as [|c todo IHt]; intros fol here l b' H.
  - rewrite find_nil in *. now injection H as -> ->.
  - rewrite find_cons in H |- *. destruct (dget f here) as [[| | |]|] eqn:Eh; try discriminate.
    destruct (eqb c (lit ".")); [now apply IHt|]. destruct (eqb c (lit "..")); [now apply IHt|].
    destruct (dget f (here ++ [c])) as [[| | |r t]|] eqn:E; try (now apply IHt).
    + destruct (fol || negb (isnil todo)); [|now injection H as -> ->]. destruct b as [|b0]; [discriminate|]. apply (IHb b0 ltac:(lia) _ _ _ _ _ H).
    + destruct todo; cbn [isnil] in H |- *; [|discriminate]. now injection H as -> ->.
Qed.

Lemma find_le f : forall b todo fol here l b', find f fol b here todo = Ok (l, b') -> (b' <= b)%nat.
Proof.
  intros b. induction b as [b IHb] using (well_founded_induction lt_wf).
  induction todo as [|c todo IHt]; intros fol here l b' H.
  - rewrite find_nil in *. injection H as -> ->. lia.
  - rewrite find_cons in H. destruct (dget f here) as [[| | |]|] eqn:Eh; try discriminate.
    destruct (eqb c (lit ".")); [now apply IHt in H|]. destruct (eqb c (lit "..")); [now apply IHt in H|].
    destruct (dget f (here ++ [c])) as [[| | |r t]|] eqn:E; try (now apply IHt in H).
    + destruct (fol || negb (isnil todo)); [|injection H as <- <-; lia]. destruct b as [|b0]; [discriminate|]. apply (IHb b0 ltac:(lia)) in H. lia.
    + destruct todo; cbn [isnil] in H; [|discriminate]. injection H as <- <-. lia.
Qed.

(** one more name *)
Lemma find_name f fol b d c : dget f d = Some LDir -> name c -> find f fol b d [c] =
  match dget f (d ++ [c]) with
  | Some (LLink r t) => if fol then match b with O => Err OSError | S b' => find f fol b' (if r then [] else d) t end else Ok (d ++ [c], b)
  | _ => Ok (d ++ [c], b)
  end.
Proof.
  intros Hd Hc. rewrite find_cons, Hd. destruct (name_not_dot c Hc) as [-> ->]. cbn [isnil negb].
  destruct (dget f (d ++ [c])) as [[| | |r t]|]; try (now rewrite find_nil); [|reflexivity]. rewrite orb_false_r, app_nil_r. reflexivity.
Qed.

(** a place reached by directories only *)
Lemma find_phys f b p : okl f -> dget f p = Some LDir -> find f true b [] p = Ok (p, b).
Proof.
  intros Hf. induction p as [|c p IH] using rev_ind; intros H; [apply find_nil|].
  pose proof (okl_above f Hf _ _ _ H) as Hp. pose proof (okl_names f Hf _ _ H) as Hn. apply Forall_app in Hn. destruct Hn as [_ Hn]. inversion Hn as [|? ? Hc _]; subst.
  rewrite (find_app f b p [] p b (IH Hp) Hp true [c]) by discriminate. rewrite find_name by assumption. now rewrite H.
Qed.

(** ** Places *)

Lemma within_refl f : within f f. Proof. intros l e H. exact H. Qed.
Lemma within_trans f g h : within h g -> within g f -> within h f.
Proof. intros A C l e H. apply C, A, H. Qed.
Lemma lframe_refl x f : lframe x f f. Proof. intros l _. reflexivity. Qed.
Lemma lframe_trans x f g h : lframe x f g -> lframe x g h -> lframe x f h.
Proof. intros A C l H. now rewrite (C l H), (A l H). Qed.
Lemma lframe_snoc x c f g : lframe (x ++ [c]) f g -> lframe x f g.
Proof. intros A l H. apply A. intros Hb. apply H. now apply (below_snoc x c). Qed.
Lemma sframe_refl x f : sframe x f f. Proof. intros l _. reflexivity. Qed.
Lemma sframe_trans x f g h : sframe x f g -> sframe x g h -> sframe x f h.
Proof. intros A C l H. now rewrite (C l H), (A l H). Qed.
Lemma lframe_sframe x c f g : lframe (x ++ [c]) f g -> sframe x f g.
Proof. intros A l H. apply A. intros (r & ->). apply (H c r). now rewrite <- app_assoc. Qed.
Lemma sframe_lframe x f g : sframe x f g -> lframe x f g.
Proof. intros A l H. apply A. intros c r ->. apply H. now exists (c :: r). Qed.
Lemma sframe_self x f g : sframe x f g -> dget g x = dget f x.
Proof. intros A. apply A. intros c r E. rewrite <- (app_nil_r x) in E at 1. apply app_inv_head in E. discriminate. Qed.

Lemma lnames_spec f l c : wf_dict f -> In c (lnames f l) <-> dget f (l ++ [c]) <> None.
Proof.
  intros Hw. unfold lnames. rewrite in_flat_map. split.
  - intros ([k e] & Hi & Hc). cbn [fst] in Hc. destruct (strip l k) as [[|d [|]]|] eqn:E; try destruct Hc as [<-|[]]; try contradiction.
    apply strip_spec in E. subst k. rewrite (In_dget _ _ Hw Hi). discriminate.
  - intros H. destruct (dget f (l ++ [c])) as [e|] eqn:E; [|congruence]. exists (l ++ [c], e). split; [now apply dget_In|]. cbn [fst].
    rewrite (proj2 (strip_spec l (l ++ [c]) [c]) eq_refl). now left.
Qed.
Lemma lnames_nodup f l : wf_dict f -> NoDup (lnames f l).
Proof.
  unfold wf_dict, lnames. induction f as [|[k e] f IH]; intros Hw; [constructor|]. cbn [keys map fst flat_map] in *. inversion Hw as [|? ? Hk Hw']; subst.
  destruct (strip l k) as [[|c [|]]|] eqn:E; cbn [app]; auto. constructor; [|now apply IH]. intros Hi. apply Hk.
  apply in_flat_map in Hi. destruct Hi as ([k' e'] & Hi & Hc). cbn [fst] in Hc. destruct (strip l k') as [[|d [|]]|] eqn:E'; try destruct Hc as [<-|[]]; try contradiction.
  apply strip_spec in E, E'. subst. apply in_map_iff. now exists (l ++ [d], e').
Qed.
Lemma lnames_names f l : okl f -> Forall name (lnames f l).
Proof.
  intros Hf. apply Forall_forall. intros c Hc. apply lnames_spec in Hc; [|apply Hf]. destruct (dget f (l ++ [c])) as [e|] eqn:E; [|congruence].
  apply (okl_names f Hf) in E. apply Forall_app in E. destruct E as [_ E]. now inversion E.
Qed.
Lemma okl_below f l r : okl f -> r <> [] -> dget f (l ++ r) <> None -> dget f l = Some LDir.
Proof.
  intros Hf. induction r as [|c r IH] using rev_ind; intros Hn H; [congruence|]. destruct (dget f (l ++ r ++ [c])) as [e|] eqn:E; [|congruence].
  rewrite app_assoc in E. apply (okl_above f Hf) in E. destruct r as [|d r]; [now rewrite app_nil_r in E|]. apply IH; [discriminate|]. rewrite E. discriminate.
Qed.
Lemma lno_below f l r : okl f -> dget f l <> Some LDir -> r <> [] -> dget f (l ++ r) = None.
Proof. intros Hf H Hr. destruct (dget f (l ++ r)) eqn:E; [|reflexivity]. exfalso. apply H, (okl_below f l r Hf Hr). rewrite E. discriminate. Qed.
Lemma lnames_nil f l r : okl f -> lnames f l = [] -> r <> [] -> dget f (l ++ r) = None.
Proof.
  intros Hf Hn Hr. destruct r as [|c r]; [congruence|]. destruct (dget f (l ++ c :: r)) eqn:E; [|reflexivity]. exfalso.
  assert (H : In c (lnames f l)); [|rewrite Hn in H; destruct H]. apply lnames_spec; [apply Hf|].
  destruct r as [|d r]; [rewrite E; discriminate|]. rewrite (okl_below f (l ++ [c]) (d :: r) Hf); [discriminate|discriminate|]. rewrite <- app_assoc. cbn [app]. rewrite E. discriminate.
Qed.

Lemma okl_ddel f l e : okl f -> l <> [] -> dget f l = Some e -> (forall r, r <> [] -> dget f (l ++ r) = None) ->
  okl (ddel f l) /\ within (ddel f l) f /\ lframe l f (ddel f l) /\ (forall r, dget (ddel f l) (l ++ r) = None).
Proof.
  intros Hf Hl He Hn. split; [split|].
  - apply wf_ddel, Hf.
  - rewrite dget_ddel_neq by (intros E; now apply Hl). apply Hf.
  - intros k e'. rewrite dget_ddel by apply Hf. destruct (eqb k l); [discriminate|apply Hf].
  - intros k c e'. rewrite !dget_ddel by apply Hf. destruct (eqb_spec (k ++ [c] : loc) l); [discriminate|]. intros H. destruct (eqb_spec (k : loc) l) as [->|]; [|now apply (okl_above f Hf k c e')].
    rewrite Hn in H by discriminate. discriminate.
  - split; [|split].
    + intros k e'. rewrite dget_ddel by apply Hf. destruct (eqb k l); [discriminate|auto].
    + intros x Hx. rewrite dget_ddel_neq; [reflexivity|]. intros ->. apply Hx, below_refl.
    + intros r. rewrite dget_ddel by apply Hf. destruct (eqb_spec (l ++ r : loc) l) as [|Hr]; [reflexivity|]. apply Hn. intros ->. now rewrite app_nil_r in Hr.
Qed.

(** ** Paths while things are removed *)

Section Removing.
  Variable B : nat.
  Variable fates : nat -> fate.

  (** the path [q] leads to the directory [x], whatever is removed below [x] *)
  Definition into (f : lfs) (q x : loc) : Prop := exists b,
    forall g, okl g -> within g f -> sframe x f g -> find g true B [] q = Ok (x, b) /\ dget g x = Some LDir.
  (** the path [q] names the place [x], whatever is removed at or below [x] *)
  Definition naming (f : lfs) (q x : loc) : Prop := exists q0 d c b,
    q = q0 ++ [c] /\ x = d ++ [c] /\ name c /\
    forall g, okl g -> within g f -> lframe x f g -> find g true B [] q0 = Ok (d, b) /\ dget g d = Some LDir.

  Lemma into_within f g q x : into f q x -> within g f -> sframe x f g -> into g q x.
  Proof. intros (b & H) W F. exists b. intros h Hh Wh Fh. apply H; [exact Hh|now apply (within_trans f g h)|now apply (sframe_trans x f g h)]. Qed.
  Lemma naming_within f g q x : naming f q x -> within g f -> lframe x f g -> naming g q x.
  Proof. intros (q0 & d & c & b & E1 & E2 & Hc & H) W F. exists q0, d, c, b. repeat (split; [assumption|]). intros h Hh Wh Fh. apply H; [exact Hh|now apply (within_trans f g h)|now apply (lframe_trans x f g h)]. Qed.

  Lemma into_naming f q x c : into f q x -> name c -> naming f (q ++ [c]) (x ++ [c]).
  Proof.
    intros (b & H) Hc. exists q, x, c, b. split; [reflexivity|]. split; [reflexivity|]. split; [exact Hc|]. intros g Hg W F. apply H; [exact Hg|exact W|now apply (lframe_sframe x c)].
  Qed.
  Lemma naming_into f q x : naming f q x -> dget f x = Some LDir -> into f q x.
  Proof.
    intros (q0 & d & c & b & -> & -> & Hc & H) Hx. exists b. intros g Hg W F. destruct (H g Hg W (sframe_lframe _ _ _ F)) as [H1 H2].
    assert (Hx' : dget g (d ++ [c]) = Some LDir) by (rewrite (sframe_self _ _ _ F); exact Hx). split; [|exact Hx'].
    rewrite (find_app g B q0 [] d b H1 H2 true [c]) by discriminate. rewrite find_name by assumption. now rewrite Hx'.
  Qed.

  Lemma naming_here f q x : okl f -> naming f q x -> goes B f false q = Ok x.
  Proof.
    intros Hf (q0 & d & c & b & -> & -> & Hc & H). destruct (H f Hf (within_refl f) (lframe_refl _ f)) as [H1 H2].
    unfold goes. rewrite (find_app f B q0 [] d b H1 H2 false [c]) by discriminate. rewrite find_name by assumption. now destruct (dget f (d ++ [c])) as [[| | |]|].
  Qed.
  Lemma naming_stat f q x : okl f -> naming f q x -> (forall r t, dget f x <> Some (LLink r t)) -> goes B f true q = Ok x.
  Proof.
    intros Hf (q0 & d & c & b & -> & -> & Hc & H) Hn. destruct (H f Hf (within_refl f) (lframe_refl _ f)) as [H1 H2].
    unfold goes. rewrite (find_app f B q0 [] d b H1 H2 true [c]) by discriminate. rewrite find_name by assumption. destruct (dget f (d ++ [c])) as [[| | |r t]|] eqn:E; try reflexivity. now elim (Hn r t).
  Qed.
  (** a path with no directory behind it *)
  Lemma naming_dir f q x l : okl f -> naming f q x -> safe B f x -> goes B f true q = Ok l -> dget f l = Some LDir -> l = x.
  Proof.
    intros Hf N SF G Hl. destruct (dget f x) as [[| | |r t]|] eqn:E; try (rewrite (naming_stat f q x Hf N) in G by (rewrite E; discriminate); congruence).
    exfalso. destruct N as (q0 & d & c & b & -> & -> & Hc & H). destruct (H f Hf (within_refl f) (lframe_refl _ f)) as [H1 H2].
    unfold goes in G. rewrite (find_app f B q0 [] d b H1 H2 true [c]) in G by discriminate.
    destruct (find f true b d [c]) as [[l0 b0]|] eqn:F; [|discriminate]. injection G as ->.
    apply (SF (d ++ [c]) r t (below_refl _) E l); [|exact Hl]. unfold goes. rewrite (find_app f B d [] d B (find_phys f B d Hf H2) H2 true [c]) by discriminate.
    pose proof (find_le f B q0 true [] d b H1) as Hb. apply (find_more f (B - b)) in F. replace (b + (B - b))%nat with B in F by lia. now rewrite F.
  Qed.

  Lemma safe_within f g x : safe B f x -> within g f -> safe B g x.
  Proof.
    intros SF W l r t Hb Hl d Hg Hd. unfold goes in Hg. destruct (find g true B [] l) as [[d0 b0]|] eqn:F; [|discriminate]. injection Hg as ->.
    apply (find_within g f W B l true [] d b0 LDir) in F; [|exact Hd]. apply (SF l r t Hb (W _ _ Hl) d); [unfold goes; now rewrite F|now apply W].
  Qed.
  Lemma safe_below f x y : safe B f x -> below x y -> safe B f y.
  Proof. intros SF H l r t Hb. apply SF. now apply (below_trans x y l). Qed.

  (** what a removal at [x] leaves *)
  Definition rm_post (x : loc) (f : lfs) (out : (lfs * nat) * res unit) : Prop :=
    let g := fst (fst out) in
    okl g /\ within g f /\ lframe x f g /\ (snd out = Ok tt -> forall r, dget g (x ++ r) = None).

  Lemma run_lprobe p f t : exists o, lprobe B fates p (f, t) = ((f, S t), o) /\ (forall e, o = Ok (Some e) -> exists l, goes B f true p = Ok l /\ dget f l = Some e) /\
    ((forall t, fates t = Run) -> o = Ok (match goes B f true p with Ok l => dget f l | Err _ => None end)).
  Proof.
    assert (Ge : forall e, goes B f true p = Err e -> e = OSError).
    { unfold goes. intros e. generalize (@nil str). generalize p. clear p. generalize true.
      assert (X : forall b todo fol here e, find f fol b here todo = Err e -> e = OSError).
      { clear. intros b. induction b as [b IHb] using (well_founded_induction lt_wf). induction todo as [|c todo IHt]; intros fol here e H; [rewrite find_nil in H; discriminate|].
        rewrite find_cons in H. destruct (dget f here) as [[| | |]|]; try congruence. destruct (eqb c (lit ".")); [now apply IHt in H|]. destruct (eqb c (lit "..")); [now apply IHt in H|].
        destruct (dget f (here ++ [c])) as [[| | |r t]|]; try (now apply IHt in H).
        - destruct (fol || negb (isnil todo)); [|discriminate]. destruct b as [|b0]; [congruence|]. now apply (IHb b0 ltac:(lia)) in H.
        - destruct (isnil todo); congruence. }
      intros fol p here H. destruct (find f fol B here p) as [[? ?]|] eqn:E; [discriminate|]. injection H as <-. now apply X in E. }
    unfold lprobe, lcatch, lbind, lwhole, lsys, los_stat, lret. destruct (fates t) as [|n|n] eqn:Ft.
    - destruct (goes B f true p) as [l|e] eqn:G.
      + destruct (dget f l) as [e|] eqn:E; eexists; (split; [reflexivity|]); (split; [|intros _; rewrite ?E; reflexivity]).
        * intros e' H. injection H as <-. now exists l.
        * intros e' H. discriminate.
      + rewrite (Ge e eq_refl). eexists. split; [reflexivity|]. split; [discriminate|reflexivity].
    - eexists. split; [reflexivity|]. split; [discriminate|]. intros C. rewrite C in Ft. discriminate.
    - eexists. split; [reflexivity|]. split; [discriminate|]. intros C. rewrite C in Ft. discriminate.
  Qed.

  Lemma rm_unlink f t q x : okl f -> naming f q x -> rm_post x f (lwhole fates (los_unlink B q) (f, t)).
  Proof.
    intros Hf N. unfold rm_post, lwhole, lsys, los_unlink. rewrite (naming_here f q x Hf N).
    assert (Same : okl f /\ within f f /\ lframe x f f) by (split; [exact Hf|]; split; [apply within_refl|apply lframe_refl]).
    destruct (fates t); cbn [fst snd]; try (split; [apply Same|]; split; [apply Same|]; split; [apply Same|discriminate]).
    assert (Hx : x <> []) by (destruct N as (q0 & d & c & b & _ & -> & _); now destruct d).
    assert (G : forall e, dget f x = Some e -> e <> LDir -> okl (ddel f x) /\ within (ddel f x) f /\ lframe x f (ddel f x) /\ (forall r, dget (ddel f x) (x ++ r) = None)).
    { intros e E He. apply (okl_ddel f x e Hf Hx E). intros r Hr. apply (lno_below f x r Hf); [rewrite E; congruence|exact Hr]. }
    destruct (dget f x) as [[| | |r0 t0]|] eqn:E; cbn [fst snd]; try (split; [apply Same|]; split; [apply Same|]; split; [apply Same|discriminate]);
      (destruct (G _ eq_refl ltac:(discriminate)) as (G1 & G2 & G3 & G4); split; [exact G1|]; split; [exact G2|]; split; [exact G3|]; intros _; exact G4).
  Qed.

  Lemma rm_rmdir f t q x : okl f -> naming f q x -> rm_post x f (lwhole fates (los_rmdir B q) (f, t)).
  Proof.
    intros Hf N. unfold rm_post, lwhole, lsys, los_rmdir. rewrite (naming_here f q x Hf N).
    assert (Same : okl f /\ within f f /\ lframe x f f) by (split; [exact Hf|]; split; [apply within_refl|apply lframe_refl]).
    destruct (fates t); cbn [fst snd]; try (split; [apply Same|]; split; [apply Same|]; split; [apply Same|discriminate]).
    assert (Hx : x <> []) by (destruct N as (q0 & d & c & b & _ & -> & _); now destruct d).
    destruct (dget f x) as [[| | |r0 t0]|] eqn:E; cbn [fst snd]; try (split; [apply Same|]; split; [apply Same|]; split; [apply Same|discriminate]).
    destruct x as [|y x0] eqn:Ex; [congruence|]. rewrite <- Ex in *. clear Ex.
    destruct (lnames f x) eqn:En; cbn [fst snd]; try (split; [apply Same|]; split; [apply Same|]; split; [apply Same|discriminate]).
    destruct (okl_ddel f x LDir Hf Hx E (fun r => lnames_nil f x r Hf En)) as (G1 & G2 & G3 & G4). split; [exact G1|]; split; [exact G2|]; split; [exact G3|]; intros _; exact G4.
  Qed.

  Lemma rm_iter (rm : loc -> LM unit) q x :
    (forall f t c, okl f -> naming f (q ++ [c]) (x ++ [c]) -> safe B f (x ++ [c]) -> rm_post (x ++ [c]) f (rm (q ++ [c]) (f, t))) ->
    forall cs f t, Forall name cs -> okl f -> into f q x -> (forall c, safe B f (x ++ [c])) ->
    let out := literM rm (map (fun c => q ++ [c]) cs) (f, t) in
    okl (fst (fst out)) /\ within (fst (fst out)) f /\ sframe x f (fst (fst out)) /\
    (snd out = Ok tt -> forall c r, In c cs -> dget (fst (fst out)) (x ++ c :: r) = None).
  Proof.
    intros Hrm. induction cs as [|c cs IH]; intros f t Hn Hf I SF.
    - cbn. split; [exact Hf|]. split; [apply within_refl|]. split; [apply sframe_refl|]. intros _ c r [].
    - inversion Hn as [|? ? Hc Hn']; subst. cbn [map literM]. unfold lbind.
      pose proof (Hrm f t c Hf (into_naming f q x c I Hc) (SF c)) as P. destruct (rm (q ++ [c]) (f, t)) as [[g u] r]. unfold rm_post in P. cbn [fst snd] in P. destruct P as (P1 & P2 & P3 & P4).
      destruct r as [[]|e]; cbn [fst snd].
      + specialize (IH g u Hn' P1 (into_within f g q x I P2 (lframe_sframe x c f g P3)) (fun d => safe_within f g _ (SF d) P2)). cbv zeta in IH. destruct (literM rm _ (g, u)) as [[h v] r]. cbn [fst snd] in *. destruct IH as (I1 & I2 & I3 & I4).
        split; [exact I1|]. split; [now apply (within_trans f g h)|]. split; [apply (sframe_trans x f g h); [now apply (lframe_sframe x c)|exact I3]|].
        intros E d r0 [<-|Hd]; [|now apply I4]. specialize (P4 eq_refl r0). rewrite <- app_assoc in P4. cbn [app] in P4. destruct (dget h (x ++ c :: r0)) as [e|] eqn:Eh; [|reflexivity]. apply I2 in Eh. congruence.
      + split; [exact P1|]. split; [exact P2|]. split; [now apply (lframe_sframe x c)|discriminate].
  Qed.

  Theorem rm_core : forall fuel f t q x, okl f -> naming f q x -> safe B f x -> rm_post x f (lremove B fates fuel q (f, t)).
  Proof.
    induction fuel as [|fuel IH]; intros f t q x Hf N SF.
    - unfold rm_post. cbn. split; [exact Hf|]. split; [apply within_refl|]. split; [apply lframe_refl|discriminate].
    - cbn [lremove]. destruct (run_lprobe q f t) as (o & Ho & Hd & _). unfold lbind at 1. rewrite Ho.
      destruct o as [st|e]; [|unfold rm_post; cbn; split; [exact Hf|]; split; [apply within_refl|]; split; [apply lframe_refl|discriminate]].
      assert (Last : forall m, rm_post x f (m (f, S t)) -> rm_post x f (lbind m (fun _ => lbind (lprobe B fates q) (fun _ => lret tt)) (f, S t))).
      { intros m P. unfold lbind at 1. destruct (m (f, S t)) as [[g u] [[]|e]]; [|exact P]. unfold lbind. destruct (run_lprobe q g u) as (o' & Ho' & _ & _). rewrite Ho'.
        unfold rm_post in *. cbn [fst snd] in *. destruct P as (P1 & P2 & P3 & P4). destruct o'; cbn [fst snd lret]; (split; [exact P1|]; split; [exact P2|]; split; [exact P3|]); [intros _; now apply P4|discriminate]. }
      apply Last. assert (U : rm_post x f (lwhole fates (los_unlink B q) (f, S t))) by now apply rm_unlink.
      destruct st as [[| | |]|]; try exact U. clear U Last.
      destruct (Hd LDir eq_refl) as (l & Gl & El). pose proof (naming_dir f q x l Hf N SF Gl El) as ->. pose proof (naming_into f q x N El) as I.
      unfold lbind at 1. unfold lchildren, lbind at 1, lwhole at 1, lsys, los_listdir. rewrite Gl, El.
      assert (Same : forall e, rm_post x f ((f, S (S t)), Err e)) by (intros e; unfold rm_post; cbn; split; [exact Hf|]; split; [apply within_refl|]; split; [apply lframe_refl|discriminate]).
      destruct (fates (S t)); try apply Same. cbn [lret].
      pose proof (rm_iter (lremove B fates fuel) q x (fun g u c Hg Ng Sg => IH g u (q ++ [c]) (x ++ [c]) Hg Ng Sg) (lnames f x) f (S (S t)) (lnames_names f x Hf) Hf I
        (fun c => safe_below f x (x ++ [c]) SF (below_app x [c]))) as R. cbv zeta in R. unfold lbind. destruct (literM _ _ (f, S (S t))) as [[g u] r]. cbn [fst snd] in R. destruct R as (R1 & R2 & R3 & R4).
      destruct r as [[]|e].
      + pose proof (rm_rmdir g u q x R1 (naming_within f g q x N R2 (sframe_lframe x f g R3))) as P. unfold rm_post in *. destruct (lwhole fates (los_rmdir B q) (g, u)) as [[h v] r]. cbn [fst snd] in *. destruct P as (P1 & P2 & P3 & P4).
        split; [exact P1|]. split; [now apply (within_trans f g h)|]. split; [apply (lframe_trans x f g h); [now apply sframe_lframe|exact P3]|exact P4].
      + unfold rm_post. cbn [fst snd]. split; [exact R1|]. split; [exact R2|]. split; [now apply sframe_lframe|discriminate].
  Qed.

  (** ** When nothing fails *)

  Definition ldeep (f : lfs) (x : loc) (d : nat) : Prop := forall r, dget f (x ++ r) <> None -> (length r < d)%nat.

  Lemma ldeep_exists f x : exists d, ldeep f x d.
  Proof.
    exists (S (fold_right max 0 (map (fun p : loc * lentry => length (fst p)) f)))%nat. intros r H. destruct (dget f (x ++ r)) as [e|] eqn:E; [|congruence]. apply dget_In in E.
    assert (L : (length (x ++ r) <= fold_right max 0 (map (fun p : loc * lentry => length (fst p)) f))%nat).
    { clear H. induction f as [|p f IH]; [destruct E|]. cbn [map fold_right]. destruct E as [->|E]; [cbn [fst]; lia|]. specialize (IH E). lia. }
    rewrite app_length in L. lia.
  Qed.
  Lemma ldeep_le f x d d' : (d <= d')%nat -> ldeep f x d -> ldeep f x d'.
  Proof. intros H D r Hr. specialize (D r Hr). lia. Qed.

  Section Calm.
    Hypothesis calm : forall t, fates t = Run.

    Lemma iter_works fuel q x :
      (forall f t c, okl f -> naming f (q ++ [c]) (x ++ [c]) -> safe B f (x ++ [c]) -> dget f (x ++ [c]) <> None -> ldeep f (x ++ [c]) fuel ->
        snd (lremove B fates fuel (q ++ [c]) (f, t)) = Ok tt) ->
      forall cs f t, Forall name cs -> NoDup cs -> okl f -> into f q x -> (forall c, safe B f (x ++ [c])) ->
      (forall c, In c cs -> dget f (x ++ [c]) <> None /\ ldeep f (x ++ [c]) fuel) ->
      snd (literM (lremove B fates fuel) (map (fun c => q ++ [c]) cs) (f, t)) = Ok tt.
    Proof.
      intros Hrm. induction cs as [|c cs IH]; intros f t Hn Hu Hf I SF Hc; [reflexivity|].
      inversion Hn as [|? ? Hcn Hn']; subst. inversion Hu as [|? ? Hi Hu']; subst. destruct (Hc c (or_introl eq_refl)) as [C1 C2]. cbn [map literM]. unfold lbind.
      pose proof (into_naming f q x c I Hcn) as N. pose proof (Hrm f t c Hf N (SF c) C1 C2) as R. pose proof (rm_core fuel f t (q ++ [c]) (x ++ [c]) Hf N (SF c)) as P.
      destruct (lremove B fates fuel (q ++ [c]) (f, t)) as [[g u] r]. unfold rm_post in P. cbn [fst snd] in *. subst r. destruct P as (P1 & P2 & P3 & P4).
      assert (Eo : forall d r, c <> d -> dget g (x ++ d :: r) = dget f (x ++ d :: r)) by (intros d r Hd; apply P3; intros Hb; apply snoc_below in Hb; contradiction).
      apply IH; [exact Hn'|exact Hu'|exact P1|now apply (into_within f g q x I P2), (lframe_sframe x c)|intros d; now apply (safe_within f g)|].
      intros d Hd. assert (Hcd : c <> d) by (intros ->; contradiction). destruct (Hc d (or_intror Hd)) as [D1 D2]. split; [rewrite Eo by exact Hcd; exact D1|].
      intros r. rewrite <- app_assoc. cbn [app]. rewrite Eo by exact Hcd. specialize (D2 r). rewrite <- app_assoc in D2. exact D2.
    Qed.

    Theorem rm_works : forall fuel f t q x, okl f -> naming f q x -> safe B f x -> dget f x <> None -> ldeep f x fuel -> snd (lremove B fates fuel q (f, t)) = Ok tt.
    Proof.
      induction fuel as [|fuel IH]; intros f t q x Hf N SF Hex Hde.
      - exfalso. specialize (Hde []). rewrite app_nil_r in Hde. specialize (Hde Hex). cbn in Hde. lia.
      - cbn [lremove]. destruct (run_lprobe q f t) as (o & Ho & _ & Hr). specialize (Hr calm). unfold lbind at 1. rewrite Ho, Hr.
        assert (Last : forall m, snd (m (f, S t)) = Ok tt -> snd (lbind m (fun _ => lbind (lprobe B fates q) (fun _ => lret tt)) (f, S t)) = Ok tt).
        { intros m P. unfold lbind at 1. destruct (m (f, S t)) as [[g u] [[]|e]]; [|discriminate P]. unfold lbind. destruct (run_lprobe q g u) as (o' & Ho' & _ & H'). rewrite Ho', (H' calm). reflexivity. }
        apply Last. clear Last.
        assert (U : dget f x <> Some LDir -> snd (lwhole fates (los_unlink B q) (f, S t)) = Ok tt).
        { intros H. unfold lwhole, lsys, los_unlink. rewrite calm, (naming_here f q x Hf N). destruct (dget f x) as [[| | |]|]; try reflexivity; congruence. }
        destruct (goes B f true q) as [l|e] eqn:G.
        + destruct (dget f l) as [[| | |r0 t0]|] eqn:El.
          2:{ pose proof (naming_dir f q x l Hf N SF G El) as ->. clear U. pose proof (naming_into f q x N El) as I.
            unfold lbind at 1. unfold lchildren, lbind at 1, lwhole at 1, lsys, los_listdir. rewrite calm, G, El. cbn [lret]. unfold lbind.
            assert (Sb : forall c, safe B f (x ++ [c])) by (intros c; exact (safe_below f x (x ++ [c]) SF (below_app x [c]))).
            pose proof (iter_works fuel q x (fun g u c Hg Ng Sg => IH g u (q ++ [c]) (x ++ [c]) Hg Ng Sg) (lnames f x) f (S (S t)) (lnames_names f x Hf) (lnames_nodup f x (okl_keys f Hf)) Hf I Sb) as W.
            pose proof (rm_iter (lremove B fates fuel) q x (fun g u c Hg Ng Sg => rm_core fuel g u (q ++ [c]) (x ++ [c]) Hg Ng Sg) (lnames f x) f (S (S t)) (lnames_names f x Hf) Hf I Sb) as R.
            cbv zeta in R. destruct (literM _ _ (f, S (S t))) as [[g u] r]. cbn [fst snd] in *. destruct R as (R1 & R2 & R3 & R4). assert (W' : r = Ok tt); [apply W|].
            { intros c Hc. apply lnames_spec in Hc; [|apply Hf]. split; [exact Hc|]. intros rr H. rewrite <- app_assoc in H. apply Hde in H. cbn in H. lia. }
            subst r. unfold lwhole, lsys, los_rmdir. rewrite calm, (naming_here g q x R1 (naming_within f g q x N R2 (sframe_lframe x f g R3))), (sframe_self x f g R3), El.
            assert (Hx : x <> []) by (destruct N as (q0 & d & c & b & _ & -> & _); now destruct d). destruct x as [|y x0] eqn:Ex; [congruence|]. rewrite <- Ex in *. clear Ex.
            assert (En : lnames g x = []). { destruct (lnames g x) as [|c cs] eqn:E; [reflexivity|]. exfalso. assert (Hc : In c (lnames g x)) by (rewrite E; now left). apply lnames_spec in Hc; [|apply R1].
              assert (Hc' : In c (lnames f x)). { apply lnames_spec; [apply Hf|]. destruct (dget g (x ++ [c])) as [e|] eqn:Eg; [|congruence]. rewrite (R2 _ _ Eg). discriminate. }
              now rewrite (R4 eq_refl c [] Hc') in Hc. }
            now rewrite En. }
          all: apply U; intros E; rewrite (naming_stat f q x Hf N) in G by (rewrite E; discriminate); injection G as <-; congruence.
        + apply U. intros E. rewrite (naming_stat f q x Hf N) in G by (rewrite E; discriminate). discriminate.
    Qed.

    (** a link to a directory: what is in the directory goes, the link stays *)
    Theorem rm_link fuel f t p0 c d : okl f -> (1 <= B)%nat -> dget f (p0 ++ [c]) = Some (LLink true d) -> dget f d = Some LDir -> ~ below d (p0 ++ [c]) ->
      (forall x, safe B f (d ++ [x])) -> ldeep f d fuel ->
      let out := lremove B fates fuel (p0 ++ [c]) (f, t) in
      snd out = Err OSError /\ sframe d f (fst (fst out)) /\ (forall x r, dget (fst (fst out)) (d ++ x :: r) = None).
    Proof.
      intros Hf HB Hp Hd Hnb SF Hde. set (p := p0 ++ [c]) in *.
      assert (Hp0 : dget f p0 = Some LDir) by exact (okl_above f Hf p0 c _ Hp).
      assert (Hc : name c). { pose proof (okl_names f Hf _ _ Hp) as H. apply Forall_app in H. destruct H as [_ H]. now inversion H. }
      assert (I : into f p d).
      { exists (B - 1)%nat. intros g Hg W F. assert (Hp' : dget g p = Some (LLink true d)). { rewrite F; [exact Hp|]. intros x r E. apply Hnb. rewrite E. now exists (x :: r). }
        assert (Hd' : dget g d = Some LDir) by (rewrite (sframe_self d f g F); exact Hd). assert (Hg0 : dget g p0 = Some LDir) by exact (okl_above g Hg p0 c _ Hp').
        split; [|exact Hd']. unfold p. rewrite (find_app g B p0 [] p0 B (find_phys g B p0 Hg Hg0) Hg0 true [c]) by discriminate. rewrite find_name by assumption. fold p. rewrite Hp'.
        destruct B as [|b']; [lia|]. replace (S b' - 1)%nat with b' by lia. now apply find_phys. }
      destruct I as (b & I). destruct (I f Hf (within_refl f) (sframe_refl d f)) as [G _]. assert (I' : into f p d) by now exists b.
      assert (Gs : goes B f true p = Ok d) by (unfold goes; now rewrite G).
      destruct fuel as [|fuel]. { exfalso. specialize (Hde []). rewrite app_nil_r, Hd in Hde. specialize (Hde ltac:(discriminate)). cbn in Hde. lia. }
      enough (X : exists g u, lremove B fates (S fuel) p (f, t) = ((g, u), Err OSError) /\ sframe d f g /\ (forall x r, dget g (d ++ x :: r) = None)).
      { destruct X as (g & u & X & X1 & X2). cbv zeta. rewrite X. cbn [fst snd]. auto. }
      cbn [lremove]. destruct (run_lprobe p f t) as (o & Ho & _ & Hr). specialize (Hr calm). rewrite Gs, Hd in Hr. unfold lbind at 1. rewrite Ho, Hr. unfold lbind at 1. unfold lbind at 1.
      unfold lchildren, lbind at 1, lwhole at 1, lsys, los_listdir. rewrite calm, Gs, Hd. cbn [lret]. unfold lbind.
      pose proof (iter_works fuel p d (fun g u x Hg Ng Sg => rm_works fuel g u (p ++ [x]) (d ++ [x]) Hg Ng Sg) (lnames f d) f (S (S t)) (lnames_names f d Hf) (lnames_nodup f d (okl_keys f Hf)) Hf I' SF) as W.
      pose proof (rm_iter (lremove B fates fuel) p d (fun g u x Hg Ng Sg => rm_core fuel g u (p ++ [x]) (d ++ [x]) Hg Ng Sg) (lnames f d) f (S (S t)) (lnames_names f d Hf) Hf I' SF) as R.
      cbv zeta in R. destruct (literM _ _ (f, S (S t))) as [[g u] r]. cbn [fst snd] in *. destruct R as (R1 & R2 & R3 & R4). assert (W' : r = Ok tt); [apply W|].
      { intros x Hx. apply lnames_spec in Hx; [|apply Hf]. split; [exact Hx|]. intros rr H. rewrite <- app_assoc in H. apply Hde in H. cbn in H. lia. }
      subst r. assert (Hp' : dget g p = Some (LLink true d)). { rewrite R3; [exact Hp|]. intros x r0 E. apply Hnb. rewrite E. now exists (x :: r0). }
      assert (Hg0 : dget g p0 = Some LDir) by exact (okl_above g R1 p0 c _ Hp').
      unfold lwhole, lsys, los_rmdir, goes. rewrite calm. unfold p. rewrite (find_app g B p0 [] p0 B (find_phys g B p0 R1 Hg0) Hg0 false [c]) by discriminate. rewrite find_name by assumption. fold p. rewrite Hp'.
      rewrite Hp'. exists g, (S u). split; [reflexivity|]. split; [exact R3|]. intros x r0. destruct (dget g (d ++ x :: r0)) as [e|] eqn:E; [|reflexivity]. exfalso.
      assert (Hx : In x (lnames f d)). { apply lnames_spec; [apply Hf|]. apply R2 in E. destruct r0 as [|y r0]; [rewrite E; discriminate|]. rewrite (okl_below f (d ++ [x]) (y :: r0) Hf); [discriminate|discriminate|]. rewrite <- app_assoc. cbn [app]. rewrite E. discriminate. }
      rewrite (R4 eq_refl x r0 Hx) in E. discriminate.
    Qed.
  End Calm.

  (** a path without links above it names its place *)
  Lemma naming_phys f p0 c : okl f -> dget f p0 = Some LDir -> name c -> naming f (p0 ++ [c]) (p0 ++ [c]).
  Proof.
    intros Hf Hp Hc. exists p0, p0, c, B. split; [reflexivity|]. split; [reflexivity|]. split; [exact Hc|]. intros g Hg W F.
    assert (H : dget g p0 = Some LDir) by (rewrite F; [exact Hp|apply snoc_not_below]). split; [now apply find_phys|exact H].
  Qed.
End Removing.

(** ** walk *)

(** the places at and below [p], each once, a directory before its entries *)
Record lvisits (f : lfs) (p : loc) (ws : list loc) : Prop := {
  lvisits_once : NoDup ws;
  lvisits_all : forall l, In l ws <-> l = p \/ below p l /\ dget f l <> None;
  lvisits_order : forall a k c b, ws = a ++ (k ++ [c]) :: b -> k ++ [c] = p \/ In k a }.

Section Walking.
  Variable B : nat.
  Variable fates : nat -> fate.
  Hypothesis calm : forall t, fates t = Run.

  (** no link above [p] *)
  Definition plain (f : lfs) (p : loc) : Prop := p = [] \/ exists p0 c, p = p0 ++ [c] /\ name c /\ dget f p0 = Some LDir.

  Lemma plain_goes f p : okl f -> plain f p -> (forall r t, dget f p <> Some (LLink r t)) -> goes B f true p = Ok p.
  Proof.
    intros Hf [->|(p0 & c & -> & Hc & Hp)] Hn; [unfold goes; now rewrite find_nil|]. apply (naming_stat B f _ _ Hf (naming_phys B f p0 c Hf Hp Hc) Hn).
  Qed.
  Lemma lbind_run {A C} (m : LM A) (k : A -> LM C) s s' a : m s = (s', Ok a) -> lbind m k s = k a s'.
  Proof. intros H. unfold lbind. now rewrite H. Qed.
  Lemma run_lchildren p f t : goes B f true p = Ok p -> dget f p = Some LDir -> lchildren B fates p (f, t) = ((f, S t), Ok (map (fun c => p ++ [c]) (lnames f p))).
  Proof. intros G E. unfold lchildren, lbind, lwhole, lsys, los_listdir. rewrite calm, G, E. reflexivity. Qed.

  Theorem lwalk_spec : forall fuel (p : loc) f t, okl f -> plain f p -> safe B f p -> (0 < fuel)%nat -> ldeep f p fuel ->
    exists t' ws, lwalk B fates fuel p (f, t) = ((f, t'), Ok ws) /\ lvisits f p ws.
  Proof.
    induction fuel as [|fuel IH]; intros p f t Hf Hp SF Hfu Hde; [lia|]. cbn [lwalk].
    destruct (run_lprobe B fates p f t) as (o & Ho & _ & Hr). specialize (Hr calm). subst o. rewrite (lbind_run _ _ _ _ _ Ho).
    assert (Single : dget f p <> Some LDir -> exists t' ws, lret [p] (f, S t) = ((f, t'), Ok ws) /\ lvisits f p ws).
    { intros H. exists (S t), [p]. split; [reflexivity|]. split.
      - constructor; [intros []|constructor].
      - intros l. cbn [In]. split; [intros [->|[]]; now left|]. intros [->|((r & ->) & Hl)]; [now left|]. left. destruct r as [|x r]; [now rewrite app_nil_r|]. exfalso. apply Hl. apply (lno_below f p (x :: r) Hf H). discriminate.
      - intros a k c b E. left. destruct a as [|y a]; [injection E as -> _; reflexivity|]. exfalso. destruct a; discriminate E. }
    destruct (dget f p) as [[| | |r0 t0]|] eqn:Ep;
      try (rewrite (plain_goes f p Hf Hp) by (rewrite Ep; discriminate); rewrite Ep).
    1,3,5: apply Single; congruence.
    2:{ pose proof (SF p r0 t0 (below_refl p) Ep) as Hs. destruct (goes B f true p) as [l|]; [|apply Single; congruence]. specialize (Hs l eq_refl). destruct (dget f l) as [[| | |]|]; try (apply Single; congruence). congruence. }
    clear Single. assert (Gp : goes B f true p = Ok p) by (apply plain_goes; auto; rewrite Ep; discriminate).
    rewrite (lbind_run _ _ _ _ _ (run_lchildren p f (S t) Gp Ep)).
    set (go := fix go (l : list loc) : LM (list loc) := match l with [] => lret [] | c :: l' => lbind (lwalk B fates fuel c) (fun a => lbind (go l') (fun b => lret (a ++ b))) end).
    assert (G : forall cs t, Forall name cs -> NoDup cs -> (forall c, In c cs -> dget f (p ++ [c]) <> None) ->
      exists t' ws, go (map (fun c => p ++ [c]) cs) (f, t) = ((f, t'), Ok ws) /\
        NoDup ws /\ (forall l, In l ws <-> exists c, In c cs /\ below (p ++ [c]) l /\ dget f l <> None) /\
        (forall a k c b, ws = a ++ (k ++ [c]) :: b -> k = p \/ In k a)).
    { induction cs as [|c cs IHc]; intros u Hn Hu Hc.
      - exists u, []. split; [reflexivity|]. split; [constructor|]. split; [intros l; split; [intros []|now intros (c & [] & _)]|]. intros a k c b E. destruct a; discriminate E.
      - inversion Hn as [|? ? Hcn Hn']; subst. inversion Hu as [|? ? Hi Hu']; subst.
        assert (Hfc : dget f (p ++ [c]) <> None) by (apply Hc; now left).
        assert (Dc : ldeep f (p ++ [c]) fuel). { intros r H. rewrite <- app_assoc in H. apply Hde in H. cbn in H. lia. }
        assert (F0 : (0 < fuel)%nat). { specialize (Dc []). rewrite app_nil_r in Dc. specialize (Dc Hfc). cbn in Dc. lia. }
        destruct (IH (p ++ [c]) f u Hf) as (u1 & w1 & E1 & [V1 V2 V3]); [right; now exists p, c|apply (safe_below B f p _ SF), below_app|exact F0|exact Dc|].
        destruct (IHc u1 Hn' Hu' (fun d Hd => Hc d (or_intror Hd))) as (u2 & w2 & E2 & X1 & X2 & X3).
        exists u2, (w1 ++ w2). split; [|split; [|split]].
        + cbn [map go]. fold go. rewrite (lbind_run _ _ _ _ _ E1), (lbind_run _ _ _ _ _ E2). reflexivity.
        + assert (Dis : forall l, In l w1 -> ~ In l w2).
          { intros l H1 H2. apply V2 in H1. apply X2 in H2. destruct H2 as (d & Hd & (r & ->) & _). assert (Bl : below (p ++ [c]) ((p ++ [d]) ++ r)) by (destruct H1 as [->|[H _]]; [apply below_refl|exact H]).
            rewrite <- app_assoc in Bl. apply snoc_below in Bl. subst. contradiction. }
          clear - V1 X1 Dis. induction V1 as [|x w1 Hx _ IHw]; [exact X1|]. cbn [app]. constructor; [|apply IHw; intros l Hl; apply Dis; now right].
          rewrite in_app_iff. intros [H|H]; [contradiction|]. apply (Dis x (or_introl eq_refl) H).
        + intros l. rewrite in_app_iff, V2, X2. split.
          * intros [[->|[H1 H2]]|(d & H1 & H2)]; [exists c; split; [now left|]; split; [apply below_refl|exact Hfc]|exists c; split; [now left|]; now split|exists d; split; [now right|exact H2]].
          * intros (d & [<-|Hd] & H2); [left; right; exact H2|right; now exists d].
        + intros a k d b E. apply app_split in E. destruct E as [(b' & E)|(a' & -> & E)].
          * destruct (V3 a k d b' E) as [E'|H]; [left; apply app_inj_tail in E'; apply E'|now right].
          * destruct (X3 a' k d b E) as [->|H]; [now left|right; apply in_or_app; now right]. }
    destruct (G (lnames f p) (S (S t)) (lnames_names f p Hf) (lnames_nodup f p (okl_keys f Hf))) as (t' & ws & E & N1 & N2 & N3). { intros c Hc. apply lnames_spec in Hc; [exact Hc|apply Hf]. }
    rewrite (lbind_run _ _ _ _ _ E). exists t', (p :: ws). split; [reflexivity|]. split.
    - constructor; [|exact N1]. intros H. apply N2 in H. destruct H as (c & _ & Hb & _). now apply snoc_not_below in Hb.
    - intros l. cbn [In]. rewrite N2. split.
      + intros [<-|(c & _ & Hb & Hl)]; [now left|right]. split; [now apply (below_snoc p c)|exact Hl].
      + intros [->|((r & ->) & Hl)]; [now left|]. destruct r as [|c r]; [left; now rewrite app_nil_r|right]. exists c. split.
        * apply lnames_spec; [apply Hf|]. destruct r as [|d r]; [exact Hl|]. rewrite (okl_below f (p ++ [c]) (d :: r) Hf); [discriminate|discriminate|]. now rewrite <- app_assoc.
        * split; [|exact Hl]. exists r. now rewrite <- app_assoc.
    - intros a k c b Ew. destruct a as [|y a]; [injection Ew as Ew _; left; now rewrite Ew|]. injection Ew as <- Ew. right. destruct (N3 a k c b Ew) as [->|H]; [now left|now right].
  Qed.
End Walking.

(** ** A link to the directory it is in *)

Section Loop.
  Variable B : nat.
  Variable fates : nat -> fate.
  Hypothesis calm : forall t, fates t = Run.
  Variables d l : str.
  Hypothesis Hd : name d.
  Hypothesis Hl : name l.

  Definition looped : lfs := [([], LDir); ([d], LDir); ([d; l], LLink false [lit "."])].

  Lemma loop_keys : dget looped [] = Some LDir /\ dget looped [d] = Some LDir /\ dget looped [d; l] = Some (LLink false [lit "."]).
  Proof. unfold looped. split; [reflexivity|]. split; cbn [dget]; rewrite !eqb_refl.
    - destruct (eqb_spec ([d] : loc) ([] : loc)) as [E|_]; [discriminate E|reflexivity].
    - destruct (eqb_spec ([d; l] : loc) ([] : loc)) as [E|_]; [discriminate E|]. destruct (eqb_spec ([d; l] : loc) ([d] : loc)) as [E|_]; [discriminate E|reflexivity]. Qed.

  Lemma loop_find : forall k b, find looped true b [d] (repeat l k) = if (k <=? b)%nat then Ok ([d], (b - k)%nat) else Err OSError.
  Proof.
    destruct loop_keys as (_ & K1 & K2). induction k as [|k IH]; intros b; [rewrite find_nil; cbn; do 2 f_equal; lia|]. cbn [repeat]. rewrite find_cons, K1. destruct (name_not_dot l Hl) as [-> ->].
    cbn [app] in *. rewrite K2. cbn [orb]. destruct b as [|b]; [reflexivity|]. change ([lit "."] ++ repeat l k) with (lit "." :: repeat l k). rewrite find_cons, K1. rewrite eqb_refl. rewrite IH. cbn [Nat.leb Nat.sub]. reflexivity.
  Qed.

  Lemma loop_goes k : goes B looped true (d :: repeat l k) = if (k <=? B)%nat then Ok [d] else Err OSError.
  Proof.
    unfold goes. destruct loop_keys as (K0 & K1 & _). rewrite find_cons, K0. destruct (name_not_dot d Hd) as [-> ->]. cbn [app]. rewrite K1. rewrite loop_find. now destruct (k <=? B)%nat.
  Qed.

  Lemma loop_names : lnames looped [d] = [l].
  Proof. unfold lnames, looped. cbn [flat_map fst strip]. rewrite !eqb_refl. reflexivity. Qed.

  Theorem loop_walk : forall fuel k t, (k <= S B)%nat -> (S B - k < fuel)%nat ->
    exists t', lwalk B fates fuel (d :: repeat l k) (looped, t) = ((looped, t'), Ok (map (fun j => d :: repeat l j) (seq k (S (S B - k))))).
  Proof.
    induction fuel as [|fuel IH]; intros k t Hk Hf; [lia|]. cbn [lwalk].
    destruct (run_lprobe B fates (d :: repeat l k) looped t) as (o & Ho & _ & Hr). specialize (Hr calm). subst o. rewrite (lbind_run _ _ _ _ _ Ho). rewrite loop_goes.
    destruct (Nat.leb_spec k B) as [L|L].
    - destruct loop_keys as (_ & K1 & _). rewrite K1.
      assert (C : lchildren B fates (d :: repeat l k) (looped, S t) = ((looped, S (S t)), Ok [d :: repeat l (S k)])).
      { unfold lchildren, lbind, lwhole, lsys, los_listdir. rewrite calm, loop_goes. destruct (Nat.leb_spec k B); [|lia]. rewrite K1, loop_names. cbn [map lret]. rewrite <- app_comm_cons.
        change [l] with (repeat l 1). rewrite <- repeat_app. replace (k + 1)%nat with (S k) by lia. reflexivity. }
      rewrite (lbind_run _ _ _ _ _ C). destruct (IH (S k) (S (S t)) ltac:(lia) ltac:(lia)) as (t' & E). unfold lbind. rewrite E. cbn [lret]. exists t'. f_equal. f_equal. rewrite app_nil_r.
      replace (S B - k)%nat with (S (S B - S k)) by lia. reflexivity.
    - assert (k = S B) by lia. subst k. replace (S B - S B)%nat with 0%nat by lia. exists (S t). reflexivity.
  Qed.
End Loop.

(** ** copyTo *)

Section Copying.
  Variable B : nat.
  Variable fates : nat -> fate.

  (** no link at, above or below [q] *)
  Definition clear_of_links (f : lfs) (q : loc) : Prop := forall a, below q a \/ below a q -> forall r t, dget f a <> Some (LLink r t).

  Record cinv (q : loc) (f : lfs) : Prop := {
    cinv_keys : wf_dict f;
    cinv_names : forall (l : loc) e, dget f l = Some e -> Forall name l;
    cinv_clear : clear_of_links f q }.

  Lemma find_clear (f : lfs) fol b : forall todo (here l : loc) b', Forall name todo -> (forall a r : loc, todo = a ++ r -> forall x t, dget f (here ++ a : loc) <> Some (LLink x t)) ->
    find f fol b here todo = Ok (l, b') -> l = here ++ todo.
  Proof.
    induction todo as [|c todo IH]; intros here l b' Hn Hc H; [rewrite find_nil in H; injection H as <- _; now rewrite app_nil_r|].
    inversion Hn as [|? ? Hcn Hn']; subst. rewrite find_cons in H. destruct (dget f here) as [[| | |]|]; try discriminate. destruct (name_not_dot c Hcn) as [E1 E2]. rewrite E1, E2 in H.
    pose proof (Hc [c] todo eq_refl) as Hcc. 
    assert (Rec : find f fol b (here ++ [c]) todo = Ok (l, b') -> l = here ++ c :: todo).
    { intros H'. apply IH in H'; [now rewrite <- app_assoc in H'|exact Hn'|]. intros a r -> x t. rewrite <- app_assoc. apply (Hc (c :: a) r eq_refl). }
    destruct (dget f (here ++ [c])) as [[| | |r t]|] eqn:E; try (now apply Rec).
    - now elim (Hcc r t).
    - destruct todo; cbn [isnil] in H; [|discriminate]. injection H as <- _. reflexivity.
  Qed.

  Lemma goes_clear q f fol r l : cinv q f -> Forall name (q ++ r) -> goes B f fol (q ++ r) = Ok l -> l = q ++ r.
  Proof.
    intros Hi Hn H. unfold goes in H. destruct (find f fol B [] (q ++ r)) as [[l0 b0]|] eqn:E; [|discriminate]. injection H as <-.
    apply find_clear in E; [exact E|exact Hn|]. intros a s Ha x t. cbn [app]. apply (cinv_clear q f Hi).
    (* a is a prefix of q ++ r *)
    clear - Ha. revert a Ha. induction q as [|y q IH]; intros a Ha; [left; now exists a|]. destruct a as [|z a]; [right; now exists (y :: q)|].
    injection Ha as -> Ha. destruct (IH a Ha) as [(u & ->)|(u & ->)]; [left; now exists u|right; now exists u].
  Qed.

  Lemma cinv_dset q f l e : cinv q f -> Forall name l -> (forall r t, e <> LLink r t) -> cinv q (dset f l e).
  Proof.
    intros [H1 H2 H3] Hn He. split.
    - now apply wf_dset.
    - intros k e'. rewrite dget_dset. destruct (eqb_spec (k : loc) l) as [->|_]; [auto|apply H2].
    - intros a Ha r t. rewrite dget_dset. destruct (eqb_spec (a : loc) l) as [->|_]; [|now apply H3]. intros E. injection E as E. now apply (He r t).
  Qed.
  Lemma lframe_dset q f r e : lframe q f (dset f (q ++ r) e).
  Proof. intros l H. rewrite dget_dset. destruct (eqb_spec (l : loc) (q ++ r)) as [->|_]; [|reflexivity]. exfalso. apply H. now exists r. Qed.

  (** the run keeps the invariant and changes nothing outside [q] *)
  Definition stays {A} (q : loc) (m : LM A) (post : A -> Prop) : Prop := forall f t, cinv q f ->
    cinv q (fst (fst (m (f, t)))) /\ lframe q f (fst (fst (m (f, t)))) /\ forall a, snd (m (f, t)) = Ok a -> post a.

  Lemma stays_bind {A C} q (m : LM A) (k : A -> LM C) P Q : stays q m P -> (forall a, P a -> stays q (k a) Q) -> stays q (lbind m k) Q.
  Proof.
    intros Hm Hk f t Hf. destruct (Hm f t Hf) as (A1 & A2 & A3). unfold lbind. destruct (m (f, t)) as [[g u] [a|e]]; cbn [fst snd] in *.
    - destruct (Hk a (A3 a eq_refl) g u A1) as (B1 & B2 & B3). split; [exact B1|]. split; [now apply (lframe_trans q f g)|exact B3].
    - split; [exact A1|]. split; [exact A2|discriminate].
  Qed.
  Lemma stays_ret {A} q (a : A) (P : A -> Prop) : P a -> stays q (lret a) P.
  Proof. intros Hp f t Hf. cbn. split; [exact Hf|]. split; [apply lframe_refl|]. intros b E. injection E as <-. exact Hp. Qed.
  Lemma stays_raise {A} q e (P : A -> Prop) : stays q (lraise e) P.
  Proof. intros f t Hf. cbn. split; [exact Hf|]. split; [apply lframe_refl|discriminate]. Qed.
  Lemma stays_weaken {A} q (m : LM A) (P Q : A -> Prop) : stays q m P -> (forall a, P a -> Q a) -> stays q m Q.
  Proof. intros H W f t Hf. destruct (H f t Hf) as (A1 & A2 & A3). split; [exact A1|]. split; [exact A2|]. intros a Ha. now apply W, A3. Qed.
  Lemma stays_sys {A} q (call : lfs -> lfs * res A) part (P : A -> Prop) :
    (forall f, cinv q f -> cinv q (fst (call f)) /\ lframe q f (fst (call f)) /\ forall a, snd (call f) = Ok a -> P a) ->
    (forall n f, cinv q f -> cinv q (part n f) /\ lframe q f (part n f)) -> stays q (lsys fates call part) P.
  Proof.
    intros Hc Hp f t Hf. unfold lsys. destruct (fates t) as [|n|n].
    - destruct (Hc f Hf) as (A1 & A2 & A3). destruct (call f) as [g r]. cbn [fst snd] in *. auto.
    - destruct (Hp n f Hf). cbn [fst snd]. split; [assumption|]. split; [assumption|discriminate].
    - destruct (Hp n f Hf). cbn [fst snd]. split; [assumption|]. split; [assumption|discriminate].
  Qed.
  Lemma stays_whole {A} q (call : lfs -> lfs * res A) (P : A -> Prop) :
    (forall f, cinv q f -> cinv q (fst (call f)) /\ lframe q f (fst (call f)) /\ forall a, snd (call f) = Ok a -> P a) -> stays q (lwhole fates call) P.
  Proof. intros H. apply stays_sys; [exact H|]. intros n f Hf. split; [exact Hf|apply lframe_refl]. Qed.
  Lemma stays_looks {A} q (call : lfs -> lfs * res A) (P : A -> Prop) : (forall f, fst (call f) = f) -> (forall f a, cinv q f -> snd (call f) = Ok a -> P a) -> stays q (lwhole fates call) P.
  Proof. intros H H'. apply stays_whole. intros f Hf. rewrite (H f). split; [exact Hf|]. split; [apply lframe_refl|]. intros a. now apply H'. Qed.

  Lemma stays_probe q p : stays q (lprobe B fates p) (fun _ => True).
  Proof. intros f t Hf. destruct (run_lprobe B fates p f t) as (o & E & _). rewrite E. cbn [fst snd]. split; [exact Hf|]. split; [apply lframe_refl|auto]. Qed.
  Lemma stays_children q p : stays q (lchildren B fates p) (fun cs => Forall (fun c => name (last c [])) cs).
  Proof.
    unfold lchildren. apply (stays_bind q _ _ (fun ns => Forall name ns)).
    - apply stays_looks; [reflexivity|]. intros f a Hf. unfold los_listdir. cbn [snd]. destruct (goes B f true p) as [l|]; [|discriminate]. destruct (dget f l) as [[| | |]|]; try discriminate.
      intros E. injection E as <-. apply Forall_forall. intros c Hc. apply lnames_spec in Hc; [|apply Hf]. destruct (dget f (l ++ [c])) as [e|] eqn:E; [|congruence].
      apply (cinv_names q f Hf) in E. apply Forall_app in E. destruct E as [_ E]. now inversion E.
    - intros ns Hns. apply stays_ret. apply Forall_forall. intros x Hx. apply in_map_iff in Hx. destruct Hx as (c & <- & Hc). rewrite last_last. rewrite Forall_forall in Hns. now apply Hns.
  Qed.

  Lemma stays_append q r bytes : Forall name (q ++ r) -> forall f, cinv q f ->
    cinv q (fst (los_append (q ++ r) bytes f)) /\ lframe q f (fst (los_append (q ++ r) bytes f)).
  Proof.
    intros Hn f Hf. unfold los_append. destruct (dget f (q ++ r)) as [[| | |]|]; cbn [fst]; try (split; [exact Hf|apply lframe_refl]).
    split; [apply cinv_dset; [exact Hf|exact Hn|discriminate]|apply lframe_dset].
  Qed.

  Lemma stays_loop k q r from : Forall name (q ++ r) -> forall fuel pos, stays q (lcopy_loop fates k fuel from (q ++ r) pos) (fun _ => True).
  Proof.
    intros Hn. induction fuel as [|fuel IH]; intros pos; cbn [lcopy_loop]; [apply stays_raise|].
    apply (stays_bind q _ _ (fun _ => True)); [apply stays_looks; auto|]. intros chunk _.
    apply (stays_bind q _ _ (fun _ => True)).
    - apply stays_sys; [|intros n f Hf; now apply stays_append]. intros f Hf. destruct (stays_append q r chunk Hn f Hf). auto.
    - intros _ _. destruct (length chunk <? k)%nat; [now apply stays_ret|apply IH].
  Qed.

  Theorem stays_copy k : forall fuel q p r, Forall name (q ++ r) -> stays q (lcopyTo B fates k fuel p (q ++ r)) (fun _ => True).
  Proof.
    induction fuel as [|fuel IH]; intros q p r Hn; cbn [lcopyTo]; [apply stays_raise|].
    apply (stays_bind q _ _ (fun _ => True)); [apply stays_probe|]. intros st _.
    assert (Other : stays q (lbind (match st with Some e => lret (Some e) | None => lprobe B fates p end)
              (fun st' => match st' with
                          | Some (LFile _) =>
                              lbind (lwhole fates (los_open_w B (q ++ r))) (fun to => lbind (lwhole fates (los_open_r B p)) (fun from =>
                              lbind (fun s => lcopy_loop fates k (S (match dget (fst s) from with Some (LFile c) => length c | _ => 0 end)) from to 0 s) (fun _ =>
                              lbind (lwhole fates (fun f => (f, Ok tt))) (fun _ => lwhole fates (fun f => (f, Ok tt))))))
                          | _ => lraise NotImplementedErr end)) (fun _ => True)).
    { apply (stays_bind q _ _ (fun _ => True)); [destruct st; [now apply stays_ret|apply stays_probe]|]. intros st' _. destruct st' as [[c| | |]|]; try apply stays_raise.
      apply (stays_bind q _ _ (fun to => to = q ++ r)).
      - apply stays_whole. intros f Hf. unfold los_open_w. destruct (goes B f true (q ++ r)) as [l|e] eqn:G; [|cbn [fst snd]; split; [exact Hf|]; split; [apply lframe_refl|discriminate]].
        pose proof (goes_clear q f true r l Hf Hn G) as ->.
        destruct (dget f (q ++ r)) as [[| | |]|]; cbn [fst snd]; try (split; [exact Hf|]; split; [apply lframe_refl|discriminate]);
          (split; [apply cinv_dset; [exact Hf|exact Hn|discriminate]|]; split; [apply lframe_dset|]; intros a E; now injection E as <-).
      - intros to ->. apply (stays_bind q _ _ (fun _ => True)); [apply stays_looks; auto|]. intros from _.
        apply (stays_bind q _ _ (fun _ => True)); [intros f t Hf; now apply stays_loop|]. intros _ _.
        apply (stays_bind q _ _ (fun _ => True)); [apply stays_looks; auto|]. intros _ _. apply stays_looks; auto. }
    destruct st as [[| | |]|]; try exact Other. clear Other.
    apply (stays_bind q _ _ (fun _ => True)); [apply stays_probe|]. intros ex _.
    apply (stays_bind q _ _ (fun _ => True)).
    { destruct ex; [now apply stays_ret|]. apply stays_whole. intros f Hf. unfold los_mkdir. destruct (goes B f false (q ++ r)) as [l|e] eqn:G; [|cbn [fst snd]; split; [exact Hf|]; split; [apply lframe_refl|discriminate]].
      pose proof (goes_clear q f false r l Hf Hn G) as ->. destruct (dget f (q ++ r)); cbn [fst snd]; [split; [exact Hf|]; split; [apply lframe_refl|discriminate]|].
      split; [apply cinv_dset; [exact Hf|exact Hn|discriminate]|]. split; [apply lframe_dset|auto]. }
    intros _ _. apply (stays_bind q _ _ _ _ (stays_children q p)). intros cs Hcs.
    induction Hcs as [|c cs Hc _ IHc]; cbn [literM]; [now apply stays_ret|].
    apply (stays_bind q _ _ (fun _ => True)); [|intros _ _; exact IHc]. rewrite <- app_assoc. apply IH. rewrite app_assoc. apply Forall_app. split; [exact Hn|now constructor].
  Qed.
End Copying.
