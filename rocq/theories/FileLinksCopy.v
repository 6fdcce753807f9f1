(** * What a copy of a tree with links holds *)

From Coq Require Import NArith String List Bool Arith Lia.
From Verif Require Import Py PyStr PySplit FilePath FileTree FileTreeMore FileLinks.
Import ListNotations.
Open Scope list_scope.

(** ** Specification *)

(** what is seen at a path when links are followed *)
Definition view (B : nat) (f : lfs) (p : loc) : option lentry :=
  match goes B f true p with Ok l => dget f l | Err _ => None end.

(** At [p], and at every path made of [p] and the names listed, a file or a
    directory is seen; the names end after [n] steps; and no directory seen is
    [q] or holds [q], however deep. *)
Record copyable (B : nat) (f : lfs) (p q : loc) (n : nat) : Prop := {
  can_start : view B f p = Some LDir \/ exists c, view B f p = Some (LFile c);
  can_see : forall r l x, Forall name r -> goes B f true (p ++ r) = Ok l -> dget f l = Some LDir -> dget f (l ++ [x]) <> None ->
    view B f (p ++ r ++ [x]) = Some LDir \/ exists c, view B f (p ++ r ++ [x]) = Some (LFile c);
  can_end : forall r, Forall name r -> view B f (p ++ r) <> None -> (length r < n)%nat;
  can_apart : forall r l, Forall name r -> goes B f true (p ++ r) = Ok l -> dget f l = Some LDir -> ~ below l q }.

(** ** Proofs *)

Lemma okl_put f (d0 : loc) c e : okl f -> dget f d0 = Some LDir -> name c -> dget f (d0 ++ [c]) <> Some LDir -> okl (dset f (d0 ++ [c]) e).
Proof.
  intros Hf Hd Hc Hn. split.
  - apply wf_dset, Hf.
  - rewrite dget_dset. destruct (eqb_spec ([] : loc) (d0 ++ [c])) as [E|_]; [now destruct d0|apply Hf].
  - intros l e'. rewrite dget_dset. destruct (eqb_spec (l : loc) (d0 ++ [c])) as [->|_]; [|apply Hf]. intros _. apply Forall_app. split; [now apply (okl_names f Hf d0 LDir)|now constructor].
  - intros l x e'. rewrite !dget_dset. destruct (eqb_spec (l ++ [x] : loc) (d0 ++ [c])) as [E|_].
    + apply app_inj_tail in E. destruct E as [-> ->]. intros _. destruct (eqb_spec (d0 : loc) (d0 ++ [c])) as [E|_]; [|exact Hd]. exfalso. apply (snoc_not_below d0 c). rewrite <- E. apply below_refl.
    + intros H. apply (okl_above f Hf) in H. destruct (eqb_spec (l : loc) (d0 ++ [c])) as [->|_]; [contradiction|exact H].
Qed.

Lemma find_stuck f : forall b a here fol rest, rest <> [] ->
  match find f true b here a with Ok (d, _) => dget f d <> Some LDir | Err _ => True end -> exists e, find f fol b here (a ++ rest) = Err e.
Proof.
  intros b. induction b as [b IHb] using (well_founded_induction lt_wf).
  induction a as [|c a IHa]; intros here fol rest Hr H.
  - rewrite find_nil in H. destruct rest as [|x rest]; [congruence|]. cbn [app]. rewrite find_cons. destruct (dget f here) as [[| | |]|]; eauto. congruence.
  - cbn [app]. rewrite find_cons in H |- *. destruct (dget f here) as [[| | |]|]; eauto.
    destruct (eqb c (lit ".")); [now apply IHa|]. destruct (eqb c (lit "..")); [now apply IHa|].
    destruct (dget f (here ++ [c])) as [[| | |r t]|] eqn:E; try (now apply IHa).
    + cbn [orb] in H. replace (fol || negb (isnil (a ++ rest))) with true by (destruct a, rest, fol; try reflexivity; congruence).
      destruct b as [|b0]; [eauto|]. rewrite app_assoc. apply (IHb b0 ltac:(lia) (t ++ a)); assumption.
    + destruct a as [|y a]; [destruct rest; [congruence|]|]; cbn [app isnil]; eauto.
Qed.

Section Contents.
  Variable B : nat.
  Variable fates : nat -> fate.
  Hypothesis calm : forall t, fates t = Run.
  Variable k : nat.
  Hypothesis Hk : (0 < k)%nat.
  Variable f : lfs.
  Hypothesis Hf : okl f.
  (** the source and the destination of the whole copy *)
  Variables P Q : loc.
  Hypothesis new : forall r, dget f (Q ++ r) = None.

  Definition grown (g : lfs) : Prop := okl g /\ lframe Q f g.

  Lemma grown_within g : grown g -> within f g.
  Proof. intros [_ F] l e H. rewrite F; [exact H|]. intros (r & ->). rewrite new in H. discriminate. Qed.

  Lemma grown_source g s r : grown g -> ~ below s Q -> dget f s <> None -> dget g (s ++ r) = dget f (s ++ r).
  Proof.
    intros [_ F] Hs He. apply F. intros (r' & E). apply app_eq_app in E. destruct E as (u & [(-> & _)|(E & _)]).
    - rewrite new in He. congruence.
    - apply Hs. rewrite E. apply below_app.
  Qed.

  Lemma grown_goes g s l e : grown g -> goes B f true s = Ok l -> dget f l = Some e -> goes B g true s = Ok l /\ dget g l = Some e.
  Proof.
    intros Hg G E. unfold goes in *. destruct (find f true B [] s) as [[l0 b0]|] eqn:F; [|discriminate]. injection G as ->.
    rewrite (find_within f g (grown_within g Hg) B s true [] l b0 e F E). split; [reflexivity|now apply grown_within].
  Qed.

  Lemma frame_below d g g' : below Q d -> grown g -> okl g' -> lframe d g g' -> grown g'.
  Proof. intros Hd [_ F] Hg' F'. split; [exact Hg'|]. intros l Hl. rewrite F'; [now apply F|]. intros Hb. apply Hl. now apply (below_trans Q d). Qed.

  (** the loop of a copy of one file *)
  Lemma loop_copies d0 c from content : name c -> from <> d0 ++ [c] -> forall fuel g t pos, okl g -> dget g d0 = Some LDir ->
    dget g from = Some (LFile content) -> dget g (d0 ++ [c]) = Some (LFile (firstn pos content)) ->
    (pos <= length content)%nat -> (length content < pos + fuel)%nat ->
    exists g' t', lcopy_loop fates k fuel from (d0 ++ [c]) pos (g, t) = ((g', t'), Ok tt) /\ okl g' /\ lframe (d0 ++ [c]) g g' /\
      dget g' (d0 ++ [c]) = Some (LFile content) /\ (forall r, r <> [] -> dget g' ((d0 ++ [c]) ++ r) = None).
  Proof.
    intros Hc Hne. induction fuel as [|fuel IH]; intros g t pos Hg Hd0 Hfrom Hto Hp Hfu; [lia|]. cbn [lcopy_loop].
    assert (R : lwhole fates (los_read from pos k) (g, t) = ((g, S t), Ok (firstn k (skipn pos content)))) by (unfold lwhole, lsys, los_read; now rewrite calm, Hfrom).
    rewrite (lbind_run _ _ _ _ _ R). set (chunk := firstn k (skipn pos content)).
    assert (Cat : firstn pos content ++ chunk = firstn (pos + length chunk) content).
    { assert (A : chunk = firstn (length chunk) (skipn pos content)) by (unfold chunk; rewrite <- (firstn_firstn (skipn pos content) (length (firstn k (skipn pos content))) k) || idtac; rewrite firstn_length; destruct (Nat.le_ge_cases k (length (skipn pos content))) as [L|L]; [now rewrite Nat.min_l|rewrite Nat.min_r by exact L; rewrite firstn_all; now apply firstn_all2]).
      rewrite A at 1. clear A. generalize (length chunk). clear. intros n. revert pos. induction content as [|x content IHc]; intros pos; [now rewrite !firstn_nil, skipn_nil, firstn_nil|]. destruct pos as [|pos]; [reflexivity|]. cbn [firstn skipn app Nat.add]. f_equal. apply IHc. }
    set (g1 := dset g (d0 ++ [c] : loc) (LFile (firstn (pos + length chunk) content))).
    assert (W : lsys fates (los_append (d0 ++ [c]) chunk) (fun n f0 => fst (los_append (d0 ++ [c]) (firstn n chunk) f0)) (g, S t) = ((g1, S (S t)), Ok tt)).
    { unfold lsys. rewrite calm. unfold los_append. rewrite Hto, Cat. reflexivity. }
    rewrite (lbind_run _ _ _ _ _ W).
    assert (G1 : okl g1) by (apply okl_put; auto; rewrite Hto; discriminate).
    assert (F1 : lframe (d0 ++ [c]) g g1) by (intros l Hl; unfold g1; rewrite dget_dset; destruct (eqb_spec (l : loc) (d0 ++ [c])) as [->|_]; [exfalso; apply Hl, below_refl|reflexivity]).
    assert (T1 : dget g1 (d0 ++ [c]) = Some (LFile (firstn (pos + length chunk) content))) by (unfold g1; apply dget_dset_eq).
    assert (L : length chunk = Nat.min k (length content - pos)) by (unfold chunk; now rewrite firstn_length, skipn_length).
    destruct (Nat.ltb_spec (length chunk) k) as [Hl|Hl].
    - exists g1, (S (S t)). split; [reflexivity|]. split; [exact G1|]. split; [exact F1|].
      assert (E : firstn (pos + length chunk) content = content) by (apply firstn_all2; lia). rewrite E in T1. split; [exact T1|].
      intros r Hr. apply (lno_below g1 _ r G1); [rewrite T1; discriminate|exact Hr].
    - destruct (IH g1 (S (S t)) (pos + length chunk)%nat G1) as (g' & t' & E & A1 & A2 & A3 & A4).
      + rewrite F1; [exact Hd0|apply snoc_not_below].
      + unfold g1. rewrite dget_dset_neq; [exact Hfrom|exact Hne].
      + exact T1.
      + lia.
      + lia.
      + exists g', t'. split; [exact E|]. split; [exact A1|]. split; [now apply (lframe_trans _ g g1)|]. now split.
  Qed.

  Variable n : nat.
  Hypothesis can : copyable B f P Q n.

  (** a copy of one place *)
  Definition filled (s d : loc) (g : lfs) (out : (lfs * nat) * res unit) : Prop :=
    exists g' t', out = ((g', t'), Ok tt) /\ okl g' /\ lframe d g g' /\ forall r, Forall name r -> dget g' (d ++ r) = view B f (s ++ r).

  Lemma iter_fill (cp : loc -> loc -> LM unit) s l d0 c (Hd : below Q (d0 ++ [c])) :
    (forall x g t, In x (lnames f l) -> grown g -> dget g (d0 ++ [c]) = Some LDir -> (forall r, dget g (d0 ++ [c] ++ x :: r) = None) ->
       filled (s ++ [x]) ((d0 ++ [c]) ++ [x]) g (cp (s ++ [x]) ((d0 ++ [c]) ++ [x]) (g, t))) ->
    forall xs g t, NoDup xs -> (forall x, In x xs -> In x (lnames f l)) -> grown g -> dget g (d0 ++ [c]) = Some LDir ->
      (forall x r, In x xs -> dget g (d0 ++ [c] ++ x :: r) = None) ->
      exists g' t', literM (fun y => cp y ((d0 ++ [c]) ++ [last y []])) (map (fun x => s ++ [x]) xs) (g, t) = ((g', t'), Ok tt) /\
        okl g' /\ lframe (d0 ++ [c]) g g' /\ dget g' (d0 ++ [c]) = Some LDir /\
        (forall x r, In x xs -> Forall name r -> dget g' ((d0 ++ [c]) ++ x :: r) = view B f (s ++ x :: r)) /\
        (forall x r, ~ In x xs -> dget g' ((d0 ++ [c]) ++ x :: r) = dget g ((d0 ++ [c]) ++ x :: r)).
  Proof.
    intros Hcp. induction xs as [|x xs IH]; intros g t Hnd Hin Hg Hd0 Hnew.
    - exists g, t. cbn. split; [reflexivity|]. split; [apply Hg|]. split; [apply lframe_refl|]. split; [exact Hd0|]. split; [intros y r []|reflexivity].
    - inversion Hnd as [|? ? Hx Hnd']; subst. destruct (Hcp x g t (Hin x (or_introl eq_refl)) Hg Hd0 (fun r => Hnew x r (or_introl eq_refl))) as (g1 & t1 & E1 & O1 & F1 & C1).
      assert (Hg1 : grown g1) by (apply (frame_below ((d0 ++ [c]) ++ [x]) g g1); auto; apply (below_trans Q (d0 ++ [c])); [exact Hd|apply below_app]).
      destruct (IH g1 t1 Hnd' (fun y Hy => Hin y (or_intror Hy)) Hg1) as (g2 & t2 & E2 & O2 & F2 & D2 & C2 & N2).
      + rewrite F1; [exact Hd0|apply snoc_not_below].
      + intros y r Hy. rewrite F1; [now apply Hnew; right|]. intros H. rewrite (app_assoc d0) in H. apply snoc_below in H. subst y. contradiction.
      + exists g2, t2. split.
        { cbn [map literM]. unfold lbind at 1. rewrite last_last, E1. exact E2. }
        split; [exact O2|]. split; [apply (lframe_trans _ g g1); [exact (lframe_snoc _ _ _ _ F1)|exact F2]|]. split; [exact D2|]. split.
        * intros y r [<-|Hy] Hr; [|now apply C2]. rewrite N2 by exact Hx. specialize (C1 r Hr). rewrite <- (app_assoc (d0 ++ [c])), <- (app_assoc s) in C1. exact C1.
        * intros y r Hy. rewrite N2 by (intros H; apply Hy; now right). apply F1. intros H. apply snoc_below in H. apply Hy. now left.
  Qed.

  Lemma find_goes p l : goes B f true p = Ok l -> exists b, find f true B [] p = Ok (l, b).
  Proof. unfold goes. destruct (find f true B [] p) as [[l0 b0]|]; [|discriminate]. intros E. injection E as ->. eauto. Qed.

  (** nothing is seen below a file, or at a name that is not listed *)
  Lemma view_file s content x r : view B f s = Some (LFile content) -> view B f (s ++ x :: r) = None.
  Proof.
    intros H. unfold view in *. destruct (goes B f true s) as [l|] eqn:G; [|discriminate]. destruct (find_goes s l G) as (b & F). unfold goes.
    destruct (find_stuck f B s [] true (x :: r) ltac:(discriminate)) as (e & E); [rewrite F; congruence|]. now rewrite E.
  Qed.
  Lemma view_unlisted s l x r : goes B f true s = Ok l -> dget f l = Some LDir -> Forall name (x :: r) -> dget f (l ++ [x]) = None -> view B f (s ++ x :: r) = None.
  Proof.
    intros G Hl Hr Hx. destruct (find_goes s l G) as (b & F). inversion Hr as [|? ? Hxn Hrn]; subst. unfold view, goes. rewrite (find_app f B s [] l b F Hl true (x :: r)) by discriminate.
    destruct r as [|y r]; [rewrite find_name by assumption; now rewrite Hx|].
    destruct (find_stuck f b [x] l true (y :: r) ltac:(discriminate)) as (e & E); [rewrite find_name by assumption; rewrite Hx; congruence|]. cbn [app] in E. now rewrite E.
  Qed.

  Theorem copy_fills : forall fuel u d0 c g t, Forall name u -> (view B f (P ++ u) = Some LDir \/ exists content, view B f (P ++ u) = Some (LFile content)) ->
    below Q (d0 ++ [c]) -> name c -> grown g -> dget g d0 = Some LDir -> (forall r, dget g ((d0 ++ [c]) ++ r) = None) -> (n <= fuel + length u)%nat ->
    filled (P ++ u) (d0 ++ [c]) g (lcopyTo B fates k fuel (P ++ u) (d0 ++ [c]) (g, t)).
  Proof.
    induction fuel as [|fuel IH]; intros u d0 c g t Hu Hv HQ Hc Hg Hd0 Hn Hde.
    { assert (Hv' : view B f (P ++ u) <> None) by (destruct Hv as [->|(x & ->)]; discriminate). pose proof (can_end _ _ _ _ _ can u Hu Hv'). lia. }
    cbn [lcopyTo]. set (s := P ++ u) in *.
    assert (Src : exists l e, goes B f true s = Ok l /\ dget f l = Some e /\ (e = LDir \/ exists content, e = LFile content)).
    { unfold view in Hv. destruct (goes B f true s) as [l|]; [|destruct Hv as [Hv|(? & Hv)]; discriminate]. destruct Hv as [Hv|(x & Hv)]; [exists l, LDir|exists l, (LFile x)]; eauto 10. }
    destruct Src as (l & e & Gl & El & Cases). destruct (grown_goes g s l e Hg Gl El) as [Gl' El'].
    destruct (run_lprobe B fates s g t) as (o & Ho & _ & Hr). specialize (Hr calm). rewrite Gl', El' in Hr. subst o. rewrite (lbind_run _ _ _ _ _ Ho).
    assert (Hd : dget g (d0 ++ [c]) = None) by (specialize (Hn []); now rewrite app_nil_r in Hn).
    assert (Pd : plain g (d0 ++ [c])) by (right; now exists d0, c).
    assert (Gd : goes B g true (d0 ++ [c]) = Ok (d0 ++ [c])) by (apply plain_goes; [apply Hg|exact Pd|rewrite Hd; discriminate]).
    assert (Vs : view B f s = Some e) by (unfold view; now rewrite Gl).
    destruct Cases as [->|(content & ->)].
    - (* a directory *)
      destruct (run_lprobe B fates (d0 ++ [c]) g (S t)) as (o & Ho1 & _ & Hr). specialize (Hr calm). rewrite Gd, Hd in Hr. subst o. rewrite (lbind_run _ _ _ _ _ Ho1).
      set (g1 := dset g (d0 ++ [c] : loc) LDir).
      assert (Mk : lwhole fates (los_mkdir B (d0 ++ [c])) (g, S (S t)) = ((g1, S (S (S t))), Ok tt)).
      { unfold lwhole, lsys, los_mkdir. rewrite calm. rewrite (naming_here B g _ _ (proj1 Hg) (naming_phys B g d0 c (proj1 Hg) Hd0 Hc)). now rewrite Hd. }
      rewrite (lbind_run _ _ _ _ _ Mk).
      assert (O1 : okl g1) by (apply okl_put; auto; [apply Hg|rewrite Hd; discriminate]).
      assert (F1 : lframe (d0 ++ [c]) g g1) by (intros x Hx; unfold g1; rewrite dget_dset; destruct (eqb_spec (x : loc) (d0 ++ [c])) as [->|_]; [exfalso; apply Hx, below_refl|reflexivity]).
      assert (Hg1 : grown g1) by now apply (frame_below (d0 ++ [c]) g g1).
      destruct (grown_goes g1 s l LDir Hg1 Gl El) as [Gs1 Es1].
      assert (Ch : lchildren B fates s (g1, S (S (S t))) = ((g1, S (S (S (S t)))), Ok (map (fun x => s ++ [x]) (lnames g1 l)))).
      { unfold lchildren, lbind, lwhole, lsys, los_listdir. rewrite calm, Gs1, Es1. reflexivity. }
      rewrite (lbind_run _ _ _ _ _ Ch).
      assert (Apart : ~ below l Q) by now apply (can_apart _ _ _ _ _ can u l Hu).
      assert (Names : forall x, In x (lnames g1 l) <-> In x (lnames f l)).
      { intros x. rewrite !lnames_spec by (apply Hf || apply O1). rewrite (grown_source g1 l [x] Hg1 Apart) by congruence. reflexivity. }
      assert (Nm : forall x, In x (lnames f l) -> name x) by (pose proof (lnames_names f l Hf) as HN; rewrite Forall_forall in HN; exact HN).
      assert (D1 : dget g1 (d0 ++ [c]) = Some LDir) by apply dget_dset_eq.
      assert (New1 : forall x r, dget g1 (d0 ++ [c] ++ x :: r) = None).
      { intros x r. unfold g1. rewrite app_assoc, dget_dset_neq; [apply Hn|]. intros E. rewrite <- (app_nil_r (d0 ++ [c])) in E at 2. apply app_inv_head in E. discriminate. }
      destruct (iter_fill (lcopyTo B fates k fuel) s l d0 c HQ) with (xs := lnames g1 l) (g := g1) (t := S (S (S (S t)))) as (g2 & t2 & E2 & O2 & F2 & D2 & C2 & N2).
      + intros x h v Hx Hh Dh Nh. unfold s. rewrite <- app_assoc. apply IH.
        * apply Forall_app. split; [exact Hu|]. constructor; [now apply Nm|constructor].
        * apply (can_see _ _ _ _ _ can u l x Hu Gl El). apply lnames_spec in Hx; [exact Hx|apply Hf].
        * apply (below_trans Q (d0 ++ [c])); [exact HQ|apply below_app].
        * now apply Nm.
        * exact Hh.
        * exact Dh.
        * intros r. specialize (Nh r). rewrite <- !app_assoc. exact Nh.
        * rewrite app_length. cbn. lia.
      + apply lnames_nodup, O1.
      + intros x. apply Names.
      + exact Hg1.
      + exact D1.
      + intros x r _. apply New1.
      + exists g2, t2. split; [exact E2|]. split; [exact O2|]. split; [now apply (lframe_trans _ g g1)|]. intros r Hr. destruct r as [|x r]; [rewrite !app_nil_r, D2; symmetry; exact Vs|].
        destruct (in_dec (list_eq_dec N.eq_dec) x (lnames g1 l)) as [Hx|Hx]; [apply C2; [exact Hx|now inversion Hr]|]. rewrite N2 by exact Hx. specialize (New1 x r). rewrite app_assoc in New1. rewrite New1. symmetry. apply (view_unlisted s l x r Gl El Hr).
        destruct (dget f (l ++ [x])) as [ee|] eqn:Er; [|reflexivity]. exfalso. apply Hx, Names. apply lnames_spec; [apply Hf|congruence].
    - (* a file *)
      unfold lbind at 1. cbn [lret].
      set (g1 := dset g (d0 ++ [c] : loc) (LFile [])).
      assert (Ow : lwhole fates (los_open_w B (d0 ++ [c])) (g, S t) = ((g1, S (S t)), Ok (d0 ++ [c]))) by (unfold lwhole, lsys, los_open_w; now rewrite calm, Gd, Hd).
      rewrite (lbind_run _ _ _ _ _ Ow).
      assert (O1 : okl g1) by (apply okl_put; auto; [apply Hg|rewrite Hd; discriminate]).
      assert (F1 : lframe (d0 ++ [c]) g g1) by (intros x Hx; unfold g1; rewrite dget_dset; destruct (eqb_spec (x : loc) (d0 ++ [c])) as [->|_]; [exfalso; apply Hx, below_refl|reflexivity]).
      assert (Hg1 : grown g1) by now apply (frame_below (d0 ++ [c]) g g1).
      destruct (grown_goes g1 s l (LFile content) Hg1 Gl El) as [Gs1 Es1].
      assert (Or : lwhole fates (los_open_r B s) (g1, S (S t)) = ((g1, S (S (S t))), Ok l)) by (unfold lwhole, lsys, los_open_r; now rewrite calm, Gs1, Es1).
      rewrite (lbind_run _ _ _ _ _ Or).
      assert (Hne : l <> d0 ++ [c]) by congruence.
      destruct (loop_copies d0 c l content Hc Hne (S (length content)) g1 (S (S (S t))) 0 O1) as (g2 & t2 & E2 & O2 & F2 & D2 & N2).
      + rewrite F1; [exact Hd0|apply snoc_not_below].
      + exact Es1.
      + apply dget_dset_eq.
      + lia.
      + lia.
      + assert (E2' : (fun s0 : lfs * nat => lcopy_loop fates k (S match dget (fst s0) l with Some (LFile c0) => length c0 | _ => 0 end) l (d0 ++ [c]) 0 s0) (g1, S (S (S t))) = ((g2, t2), Ok tt)) by (cbv beta; cbn [fst]; rewrite Es1; exact E2).
        rewrite (lbind_run _ _ _ _ _ E2'). unfold lbind, lwhole, lsys. rewrite !calm. exists g2, (S (S t2)). split; [reflexivity|]. split; [exact O2|]. split; [now apply (lframe_trans _ g g1)|].
        intros r _. destruct r as [|x r]; [rewrite !app_nil_r, D2; symmetry; exact Vs|]. rewrite N2 by discriminate. symmetry. now apply (view_file s content).
  Qed.
End Contents.
