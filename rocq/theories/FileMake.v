(** * FilePath of epsilon/hotfixes/filepath_copyTo.py: makedirs, createDirectory,
      touch and getContent

    Over the file system and the runs of FileTree.v. *)

From Coq Require Import NArith String List Bool Arith Lia ZifyBool.
From Verif Require Import Py PyStr PySplit FilePath FileTree FileTreeMore.
Import ListNotations.
Open Scope list_scope.

(** open(path, 'ab') *)
Definition os_open_a (path : str) (f : fs) : fs * res unit :=
  match dget f (place path) with
  | Some (EFile _) => (f, Ok tt)
  | None => if has_parent f (place path) then (dset f (place path) (EFile []), Ok tt) else (f, Err OSError)
  | _ => (f, Err OSError)
  end.
(** open(path, O_EXCL | O_CREAT | O_RDWR) *)
Definition os_create (path : str) (f : fs) : fs * res unit :=
  match dget f (place path) with
  | None => if has_parent f (place path) then (dset f (place path) (EFile []), Ok tt) else (f, Err OSError)
  | Some _ => (f, Err OSError)
  end.
(** utime(path, None); times are not modelled *)
Definition os_utime (path : str) (f : fs) : fs * res unit :=
  (f, match dget f (place path) with Some _ => Ok tt | None => Err OSError end).
(** all there is to read of an open file *)
Definition os_read_all (path : str) (f : fs) : fs * res (list N) :=
  (f, match dget f (place path) with Some (EFile c) => Ok c | _ => Err OSError end).

Section Make.
  Variable fates : nat -> fate.
  (** which of the calls that fail do so because something exists already, as
      they say themselves: FileExistsError is a subclass of OSError *)
  Variable file_exists : nat -> bool.

  (** try: ... except FileExistsError: pass *)
  Definition catch_exists (m : M unit) : M unit :=
    fun s => let (s', r) := m s in match r with Err OSError => if file_exists (snd s') then (s', Ok tt) else (s', r) | _ => (s', r) end.

  (** os.makedirs(path) of the standard library, with os.path.exists, which
      takes any error for an answer.  [fuel] bounds the depth. *)
  Fixpoint os_makedirs (fuel : nat) (path : str) : M unit :=
    match fuel with
    | O => raise NO_FUEL
    | S fuel' =>
        let '(head, tail) := match basename path with
                             | [] => (dirname (dirname path), basename (dirname path))
                             | t => (dirname path, t)
                             end in
        _ <-- (match head, tail with
               | _ :: _, _ :: _ =>
                   st <-- probe fates head ;
                   match st with Some _ => retM tt | None => catch_exists (os_makedirs fuel' head) end
               | _, _ => retM tt
               end) ;
        mkdir fates path
    end.

  (** filepath_copyTo.py:259-260 *)
  Definition makedirs (self : str) : M unit := os_makedirs (S (length self)) self.
  (** filepath_copyTo.py:296-297 *)
  Definition createDirectory (self : str) : M unit := mkdir fates self.

  (** filepath_copyTo.py:151-155 in mode 'a' and in mode 'r'; create is 302-313
      (a file opened so is empty) *)
  Definition open_append (alwaysCreate : bool) (self : str) : M unit :=
    if alwaysCreate then raise AssertionError else whole fates (os_open_a self).
  Definition open_read (alwaysCreate : bool) (self : str) : M unit :=
    if alwaysCreate then whole fates (os_create self) else open_r fates self.

  (** filepath_copyTo.py:243-248 *)
  Definition touch (alwaysCreate : bool) (self : str) : M unit :=
    _ <-- catchOS (_ <-- open_append alwaysCreate self ; close fates) (retM tt) ;
    whole fates (os_utime self).

  (** filepath_copyTo.py:286-287 *)
  Definition getContent (alwaysCreate : bool) (self : str) : M (list N) :=
    _ <-- open_read alwaysCreate self ; whole fates (os_read_all self).

  (** ** makedirs *)

  (** [g] is [f] with directories made at some of the places above [p], and at
      [p], where there was nothing *)
  Definition made (p : loc) (f g : fs) : Prop :=
    forall l, dget g l = dget f l \/ (below l p /\ l <> [] /\ dget f l = None /\ dget g l = Some EDir).

  Lemma made_refl p f : made p f f. Proof. intros l. now left. Qed.
  Lemma made_trans p f g h : made p f g -> made p g h -> made p f h.
  Proof.
    intros A B l. destruct (A l) as [E|(H1 & H2 & H3 & H4)].
    - destruct (B l) as [E'|(H1' & H2' & H3' & H4')]; [left; congruence|right; rewrite E in H3'; auto].
    - destruct (B l) as [E'|(H1' & H2' & H3' & H4')]; [right; rewrite E'; auto|congruence].
  Qed.
  Lemma made_snoc p c f g : made p f g -> made (p ++ [c]) f g.
  Proof. intros A l. destruct (A l) as [E|(H1 & H2)]; [now left|right]. split; [|exact H2]. apply (below_trans l p); [exact H1|apply below_app]. Qed.

  Lemma mkdir_made n (p : loc) s : absolute n p -> okfs (fst s) -> let (s', r) := mkdir fates (render n p) s in
    okfs (fst s') /\ made p (fst s) (fst s') /\ (r = Ok tt -> dget (fst s) p = None /\ dget (fst s') p = Some EDir).
  Proof.
    intros Ha Hs. destruct s as [f t]. cbn [fst] in Hs. unfold mkdir, whole, sys, os_mkdir. rewrite (place_render n p Ha).
    destruct (fates t); [|cbn; split; [exact Hs|]; split; [apply made_refl|discriminate]..].
    destruct (dget f p) as [e|] eqn:E; [cbn; split; [exact Hs|]; split; [apply made_refl|discriminate]|].
    destruct (has_parent f p) eqn:Hp; [|cbn; split; [exact Hs|]; split; [apply made_refl|discriminate]]. cbn [fst].
    split; [apply ok_dset; auto; apply Ha|]. split; [|intros _; split; [exact E|apply dget_dset_eq]].
    intros l. rewrite dget_dset. destruct (eqb_spec l p) as [->|_]; [right|now left]. split; [apply below_refl|]. split; [intros ->; discriminate Hp|auto].
  Qed.

  Lemma createDirectory_one n (l : loc) c f t : absolute n (l ++ [c]) ->
    let (s', r) := createDirectory (render n (l ++ [c])) (f, t) in
    snd s' = S t /\
    (r = Ok tt <-> fates t = Run /\ dget f (l ++ [c]) = None /\ dget f l = Some EDir) /\
    (r = Ok tt -> fst s' = dset f (l ++ [c]) EDir) /\ (r <> Ok tt -> fst s' = f).
  Proof.
    intros Ha. unfold createDirectory, mkdir, whole, sys, os_mkdir. rewrite (place_render n _ Ha). assert (Hp : has_parent f (l ++ [c]) = true <-> dget f l = Some EDir).
    { unfold has_parent. rewrite removelast_last. destruct (l ++ [c]) eqn:E; [destruct l; discriminate|]. destruct (dget f l) as [[]|]; split; congruence. }
    destruct (fates t); [|cbn; split; [reflexivity|]; split; [split; [discriminate|intros [X _]; discriminate]|]; split; [discriminate|reflexivity]..].
    destruct (dget f (l ++ [c])) as [e|]; [cbn; split; [reflexivity|]; split; [split; [discriminate|intros (_ & X & _); discriminate]|]; split; [discriminate|reflexivity]|].
    destruct (has_parent f (l ++ [c])); cbn; (split; [reflexivity|]).
    - split; [split; [intros _; repeat split; now apply Hp|reflexivity]|]. split; [reflexivity|congruence].
    - split; [split; [discriminate|intros (_ & _ & X); apply Hp in X; discriminate]|]. split; [discriminate|reflexivity].
  Qed.

  Lemma render_head n (l : loc) c : absolute n (l ++ [c]) -> match basename (render n (l ++ [c])) with
    | [] => (dirname (dirname (render n (l ++ [c]))), basename (dirname (render n (l ++ [c]))))
    | t => (dirname (render n (l ++ [c])), t) end = (render n l, c) /\ c <> [] /\ render n l <> [].
  Proof.
    intros Ha. destruct (base_render n l c Ha) as [Eb Ed]. rewrite Eb, Ed.
    assert (Hc : c <> []) by (destruct Ha as [_ Hf]; apply Forall_app in Hf as [_ Hf]; inversion Hf as [|? ? Hx _]; apply Hx).
    destruct c as [|x c]; [congruence|]. split; [reflexivity|]. split; [discriminate|]. destruct Ha as [[->| ->] _]; discriminate.
  Qed.
  Lemma render_root n : absolute n [] -> match basename (render n []) with
    | [] => (dirname (dirname (render n [])), basename (dirname (render n [])))
    | t => (dirname (render n []), t) end = (render n [], []).
  Proof. intros [[->| ->] _]; reflexivity. Qed.

  Lemma absolute_init n (l : loc) c : absolute n (l ++ [c]) -> absolute n l.
  Proof. intros [H1 H2]. split; [exact H1|]. now apply Forall_app in H2 as [H2 _]. Qed.

  Lemma makedirs_made fuel : forall n (p : loc) s, absolute n p -> okfs (fst s) -> let (s', r) := os_makedirs fuel (render n p) s in
    okfs (fst s') /\ made p (fst s) (fst s') /\ (r = Ok tt -> dget (fst s) p = None /\ dget (fst s') p = Some EDir).
  Proof.
    induction fuel as [|fuel IH]; intros n p s Ha Hs; [cbn; split; [exact Hs|]; split; [apply made_refl|discriminate]|].
    cbn [os_makedirs]. destruct p as [|c l _] using rev_ind.
    - rewrite (render_root n Ha). unfold bindM at 1. assert (E : forall h : str, match h with [] | _ => retM tt end s = (s, Ok tt)) by (intros []; reflexivity).
      destruct (render n []) eqn:Er; cbn [retM]; rewrite <- Er; apply (mkdir_made n [] s Ha Hs).
    - destruct (render_head n l c Ha) as (-> & Hc & Hr). destruct (render n l) as [|x h] eqn:Er; [congruence|]. destruct c as [|y c]; [congruence|]. rewrite <- Er.
      pose proof (absolute_init n l _ Ha) as Hl. set (p := l ++ [y :: c] : loc) in *. change (l ++ [y :: c]) with p.
      assert (K : let (s1, r1) := (st <-- probe fates (render n l); match st with Some _ => retM tt | None => catch_exists (os_makedirs fuel (render n l)) end) s in
        okfs (fst s1) /\ made p (fst s) (fst s1) /\ dget (fst s1) p = dget (fst s) p).
      { unfold bindM. pose proof (looks_probe fates (render n l) s) as Lp. destruct (probe fates (render n l) s) as [s1 [st|e]]; cbn [fst] in Lp.
        - destruct st; [cbn; rewrite Lp; split; [exact Hs|]; split; [apply made_refl|reflexivity]|]. unfold catch_exists. assert (Hs1 : okfs (fst s1)) by now rewrite Lp.
          specialize (IH n l s1 Hl Hs1). destruct (os_makedirs fuel (render n l) s1) as [s2 r2]. destruct IH as (I1 & I2 & _).
          assert (Q : okfs (fst s2) /\ made p (fst s) (fst s2) /\ dget (fst s2) p = dget (fst s) p).
          { split; [exact I1|]. rewrite <- Lp. split; [now apply made_snoc|]. destruct (I2 p) as [E|(B & _)]; [exact E|]. destruct (snoc_not_below l (y :: c) B). }
          destruct r2 as [|[]]; try exact Q. destruct (file_exists (snd s2)); exact Q.
        - rewrite Lp. split; [exact Hs|]. split; [apply made_refl|reflexivity]. }
      unfold bindM at 1. match type of K with (let (_, _) := ?x in _) => destruct x as [s1 [[]|e]] end; destruct K as (K1 & K2 & K3).
      + pose proof (mkdir_made n p s1 Ha K1) as D. change (l ++ [y :: c]) with p. destruct (mkdir fates (render n p) s1) as [s2 r2]. destruct D as (D1 & D2 & D3).
        split; [exact D1|]. split; [now apply (made_trans p _ (fst s1))|]. intros E. destruct (D3 E) as [D4 D5]. split; [congruence|exact D5].
      + split; [exact K1|]. split; [exact K2|discriminate].
  Qed.

  (** *** when nothing fails *)
  Section Works.
    Hypothesis runs : forall t, fates t = Run.

    Lemma run_whole {A} (call : fs -> fs * res A) f t : whole fates call (f, t) = let (f', r) := call f in ((f', S t), r).
    Proof. unfold whole, sys. now rewrite runs. Qed.
    Lemma run_probe' n p f t : absolute n p -> probe fates (render n p) (f, t) = ((f, S t), Ok (dget f p)).
    Proof. intros Ha. unfold probe, catchOS, bindM, stat. rewrite run_whole. unfold os_stat. rewrite (place_render n p Ha). destruct (dget f p); reflexivity. Qed.

    (** every place on the way is a directory or free *)
    Definition open_way (f : fs) (p : loc) : Prop := forall l, below l p -> dget f l = None \/ dget f l = Some EDir.

    Lemma parent_snoc f (l : loc) c : has_parent f (l ++ [c]) = match dget f l with Some EDir => true | _ => false end.
    Proof. unfold has_parent. rewrite removelast_last. destruct (l ++ [c]) eqn:E; [now destruct l|reflexivity]. Qed.
    Lemma made_parent f (p : loc) c : okfs f -> dget f p = Some EDir -> has_parent f (p ++ [c]) = true.
    Proof. intros Hf H. unfold has_parent. rewrite removelast_last, H. destruct (p ++ [c]) eqn:E; [now destruct p|reflexivity]. Qed.

    Lemma makedirs_works fuel : forall n (p : loc) f t, absolute n p -> okfs f -> (length p < fuel)%nat -> dget f p = None -> open_way f p ->
      snd (os_makedirs fuel (render n p) (f, t)) = Ok tt.
    Proof.
      induction fuel as [|fuel IH]; intros n p f t Ha Hf Hlen Hp Hw; [lia|]. cbn [os_makedirs]. destruct p as [|c l _] using rev_ind.
      { rewrite (ok_root f Hf) in Hp. discriminate. }
      destruct (render_head n l c Ha) as (-> & Hc & Hr). destruct (render n l) as [|x h] eqn:Er; [congruence|]. destruct c as [|y c]; [congruence|]. rewrite <- Er.
      pose proof (absolute_init n l _ Ha) as Hl. set (p := l ++ [y :: c] : loc) in *. change (l ++ [y :: c]) with p.
      assert (M : forall g t, okfs g -> dget g p = None -> dget g l = Some EDir -> snd (mkdir fates (render n p) (g, t)) = Ok tt).
      { intros g u Hg E1 E2. unfold mkdir. rewrite run_whole. unfold os_mkdir. rewrite (place_render n p Ha), E1. pose proof (made_parent g l (y :: c) Hg E2 : has_parent g p = true) as Hpar. now rewrite Hpar. }
      unfold bindM at 1. unfold bindM at 1. rewrite run_probe' by exact Hl. destruct (Hw l (below_app l _)) as [El|El]; rewrite El.
      - unfold catch_exists. assert (Hlen' : (length l < fuel)%nat) by (unfold p in Hlen; rewrite app_length in Hlen; cbn in Hlen; lia).
        specialize (IH n l f (S t) Hl Hf Hlen' El). pose proof (makedirs_made fuel n l (f, S t) Hl Hf) as D.
        destruct (os_makedirs fuel (render n l) (f, S t)) as [[g u] r]. cbn [fst snd] in *.
        assert (Er2 : r = Ok tt) by (apply IH; intros k Hk; apply Hw; apply (below_trans k l); [exact Hk|apply below_app]). subst r.
        destruct D as (D1 & D2 & D3). destruct (D3 eq_refl) as [_ D4]. apply M; [exact D1| |exact D4].
        destruct (D2 p) as [E|(B & _)]; [now rewrite E|]. destruct (snoc_not_below l (y :: c) B).
      - cbn [retM]. now apply M.
    Qed.

    (** otherwise nothing is changed.  Here FileExistsError is what mkdir says
        when something is there. *)
    Lemma makedirs_refuses fuel : forall n (p : loc) f t, absolute n p -> okfs f -> (length p < fuel)%nat ->
      dget f p <> None \/ ~ open_way f p -> (forall t, file_exists t = false) ->
      exists t', os_makedirs fuel (render n p) (f, t) = ((f, t'), Err OSError).
    Proof.
      induction fuel as [|fuel IH]; intros n p f t Ha Hf Hlen Hbad Hx; [lia|]. cbn [os_makedirs].
      assert (M : forall t, dget f p <> None \/ has_parent f p = false -> mkdir fates (render n p) (f, t) = ((f, S t), Err OSError)).
      { intros u H. unfold mkdir. rewrite run_whole. unfold os_mkdir. rewrite (place_render n p Ha). destruct (dget f p); [reflexivity|]. destruct H as [H|H]; [congruence|]. now rewrite H. }
      destruct p as [|c l _] using rev_ind.
      { rewrite (render_root n Ha). unfold bindM at 1. destruct (render n []) eqn:Er; cbn [retM]; rewrite M by (left; rewrite (ok_root f Hf); discriminate); now eexists. }
      destruct (render_head n l c Ha) as (-> & Hc & Hr). destruct (render n l) as [|x h] eqn:Er; [congruence|]. destruct c as [|y c]; [congruence|]. rewrite <- Er.
      pose proof (absolute_init n l _ Ha) as Hl. set (p := l ++ [y :: c] : loc) in *. change (l ++ [y :: c]) with p. change (l ++ [y :: c]) with p in Hbad. change (l ++ [y :: c]) with p in M.
      unfold bindM at 1. unfold bindM at 1. rewrite run_probe' by exact Hl. destruct (dget f l) as [e|] eqn:El.
      - cbn [retM]. rewrite M; [now eexists|]. destruct (dget f p) as [e'|] eqn:Ep; [left; discriminate|right].
        destruct Hbad as [Hbad|Hbad]; [congruence|]. unfold p. rewrite parent_snoc, El.
        destruct e; try reflexivity. exfalso. apply Hbad. intros k (r & Ek). destruct r as [|z r _] using rev_ind; [rewrite app_nil_r in Ek; subst k; now left|].
        unfold p in Ek. rewrite app_assoc in Ek. apply app_inj_tail in Ek as [Ek _]. right. destruct r as [|z' r]; [rewrite app_nil_r in Ek; now subst k|].
        apply (ok_below f k (z' :: r) Hf); [discriminate|]. rewrite <- Ek, El. discriminate.
      - unfold catch_exists. assert (Hlen' : (length l < fuel)%nat) by (unfold p in Hlen; rewrite app_length in Hlen; cbn in Hlen; lia).
        destruct (IH n l f (S t) Hl Hf Hlen') as (t' & E); [| exact Hx |].
        { right. intros Hw. destruct Hbad as [Hbad|Hbad].
          - apply Hbad. destruct (dget f p) eqn:Ep; [|reflexivity]. exfalso. unfold p in Ep. apply (ok_above f Hf) in Ep. congruence.
          - apply Hbad. intros k (r & Ek). destruct r as [|z r _] using rev_ind.
            + rewrite app_nil_r in Ek. subst k. left. destruct (dget f p) eqn:Ep; [|reflexivity]. unfold p in Ep. apply (ok_above f Hf) in Ep. congruence.
            + unfold p in Ek. rewrite app_assoc in Ek. apply app_inj_tail in Ek as [Ek _]. apply Hw. exists r. exact Ek. }
        rewrite E. cbn [snd]. rewrite Hx. now eexists.
    Qed.
  End Works.

  (** ** touch and getContent *)

  Lemma open_a_spec n (p : loc) s : absolute n p -> okfs (fst s) -> let (s', r) := whole fates (os_open_a (render n p)) s in
    fst s' = fst s \/ (dget (fst s) p = None /\ has_parent (fst s) p = true /\ fst s' = dset (fst s) p (EFile [])).
  Proof.
    intros Ha Hs. destruct s as [f t]. unfold whole, sys, os_open_a. rewrite (place_render n p Ha). destruct (fates t); [|now left..].
    destruct (dget f p) as [[]|] eqn:E; cbn; try now left. destruct (has_parent f p) eqn:Hp; cbn; [right; auto|now left].
  Qed.

  Lemma touch_spec n (p : loc) s : absolute n p -> okfs (fst s) -> let (s', r) := touch false (render n p) s in
    okfs (fst s') /\ (fst s' = fst s \/ (dget (fst s) p = None /\ fst s' = dset (fst s) p (EFile []))) /\ (r = Ok tt -> dget (fst s') p <> None).
  Proof.
    intros Ha Hs. unfold touch, bindM at 1, catchOS, open_append. pose proof (open_a_spec n p s Ha Hs) as O. unfold bindM at 1.
    destruct (whole fates (os_open_a (render n p)) s) as [s1 r1].
    assert (P : okfs (fst s1) /\ (fst s1 = fst s \/ (dget (fst s) p = None /\ fst s1 = dset (fst s) p (EFile [])))).
    { destruct O as [->|(O1 & O2 & ->)]; [split; [exact Hs|now left]|]. split; [apply ok_dset; auto; apply Ha|right; auto]. }
    assert (U : forall s2, fst s2 = fst s1 -> let (s', r) := whole fates (os_utime (render n p)) s2 in
      okfs (fst s') /\ (fst s' = fst s \/ (dget (fst s) p = None /\ fst s' = dset (fst s) p (EFile []))) /\ (r = Ok tt -> dget (fst s') p <> None)).
    { intros [f2 t2] E. cbn [fst] in E. subst f2. unfold whole, sys, os_utime. rewrite (place_render n p Ha).
      destruct P as [P1 P2]. destruct (fates t2); cbn [fst snd]; (split; [exact P1|]); (split; [exact P2|]); [|discriminate..].
      destruct (dget (fst s1) p); [discriminate|]. intros H. discriminate H. }
    destruct r1 as [[]|e].
    - pose proof (looks_close fates s1) as L. destruct (close fates s1) as [s2 [[]|e]]; cbn [fst] in L; [now apply U|].
      destruct e; try (destruct P as [P1 P2]; rewrite L; split; [exact P1|]; split; [exact P2|discriminate]). cbn [retM]. now apply U.
    - destruct e; try (destruct P as [P1 P2]; split; [exact P1|]; split; [exact P2|discriminate]). cbn [retM]. now apply U.
  Qed.

  Lemma touch_works n (p : loc) f t : (forall t, fates t = Run) -> absolute n p -> okfs f -> dget f p <> None \/ has_parent f p = true ->
    let (s', r) := touch false (render n p) (f, t) in r = Ok tt /\ fst s' = match dget f p with Some _ => f | None => dset f p (EFile []) end.
  Proof.
    intros R Ha Hf H. unfold touch, bindM, catchOS, open_append, close. rewrite (run_whole R). unfold os_open_a. rewrite (place_render n p Ha).
    destruct (dget f p) as [[c| |]|] eqn:E.
    - rewrite (run_whole R). cbn [retM]. rewrite (run_whole R). unfold os_utime. rewrite (place_render n p Ha), E. auto.
    - cbn [retM]. rewrite (run_whole R). unfold os_utime. rewrite (place_render n p Ha), E. auto.
    - cbn [retM]. rewrite (run_whole R). unfold os_utime. rewrite (place_render n p Ha), E. auto.
    - destruct H as [H|H]; [congruence|]. rewrite H, (run_whole R). cbn [retM]. rewrite (run_whole R). unfold os_utime. rewrite (place_render n p Ha), dget_dset_eq. auto.
  Qed.

  Lemma touch_always p s : touch true p s = (s, Err AssertionError).
  Proof. reflexivity. Qed.

  Lemma get_spec n (p : loc) s : absolute n p -> let (s', r) := getContent false (render n p) s in
    fst s' = fst s /\ forall c, r = Ok c -> dget (fst s) p = Some (EFile c).
  Proof.
    intros Ha. destruct s as [f t]. unfold getContent, bindM, open_read, open_r, whole, sys, os_open_r, os_read_all. rewrite (place_render n p Ha). cbn [fst].
    destruct (fates t); [|split; [reflexivity|discriminate]..]. destruct (dget f p) as [[]|]; try (split; [reflexivity|discriminate]).
    destruct (fates (S t)); (split; [reflexivity|]); [|discriminate..]. intros c [= ->]. reflexivity.
  Qed.
  Lemma get_works n (p : loc) f t c : (forall t, fates t = Run) -> absolute n p -> dget f p = Some (EFile c) -> snd (getContent false (render n p) (f, t)) = Ok c.
  Proof. intros R Ha E. unfold getContent, bindM, open_read, open_r. rewrite (run_whole R). unfold os_open_r. rewrite (place_render n p Ha), E. rewrite (run_whole R). unfold os_read_all. now rewrite (place_render n p Ha), E. Qed.

  (** a path that must be created: what is read of it is never what was there *)
  Lemma get_always n (p : loc) s : absolute n p -> let (s', r) := getContent true (render n p) s in
    forall c, r = Ok c -> c = [] /\ dget (fst s) p = None /\ fst s' = dset (fst s) p (EFile []).
  Proof.
    intros Ha. destruct s as [f t]. unfold getContent, bindM, open_read, whole, sys, os_create, os_read_all. rewrite (place_render n p Ha). cbn [fst].
    destruct (fates t); [|discriminate..]. destruct (dget f p) as [e|] eqn:E; [discriminate|]. destruct (has_parent f p); [|discriminate].
    destruct (fates (S t)); [|discriminate..]. rewrite dget_dset_eq. intros c [= <-]. auto.
  Qed.
End Make.

Lemma length_render n (p : loc) : absolute n p -> (length p <= length (render n p))%nat.
Proof.
  intros [_ Hp]. unfold render. rewrite app_length. enough (length p <= length (join slash p))%nat by lia. induction Hp as [|c p Hc _ IH]; [cbn; lia|].
  assert (0 < length c)%nat by (destruct c; [now destruct Hc|cbn; lia]). destruct p as [|d p]; [cbn [join length]; lia|].
  change (join slash (c :: d :: p)) with (c ++ slash ++ join slash (d :: p)). rewrite !app_length. cbn [length] in *. lia.
Qed.
