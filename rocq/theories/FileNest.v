(** * Copies to a place below or above the source (epsilon/hotfixes/filepath_copyTo.py)

    [copyTo] itself is modelled in [FileTree]. *)

From Coq Require Import NArith String List Bool Arith Lia.
From Verif Require Import Py PyStr PySplit FilePath FileTree.
Import ListNotations.
Open Scope list_scope.

Lemma apart_above (q r r' : loc) x c : x <> c -> apart (q ++ x :: r) (q ++ c :: r').
Proof.
  intros H. split; intros (s & E); rewrite <- app_assoc in E; apply app_inv_head in E; injection E as E _; congruence.
Qed.
Lemma not_below_above (q r : loc) x c s : x <> c -> ~ below (q ++ [c]) ((q ++ x :: r) ++ s).
Proof. intros H (u & E). rewrite <- !app_assoc in E. apply app_inv_head in E. injection E as E _. congruence. Qed.

Lemma bind_eq {A B} (m : M A) (k : A -> M B) s : bindM m k s = let (s', r) := m s in match r with Ok a => k a s' | Err e => (s', Err e) end.
Proof. reflexivity. Qed.

Section Nest.
  Variable cwd : str.
  Variable fates : nat -> fate.

  (** ** Below *)

  (** the loop keeps the file system in order; so the entry [c] is copied in some state that is in order *)
  Lemma iter_enters k fuel n (p : loc) m (q : loc) c : absolute n p -> absolute m q -> forall cs, Forall name cs -> In c cs -> forall s, okfs (fst s) ->
    snd (iterM (fun c => bindM (lift (child cwd (render m q) (basename c))) (fun d => copyTo cwd fates k fuel c d)) (map (fun c => render n (p ++ [c])) cs) s) = Ok tt ->
    exists s', okfs (fst s') /\ snd (copyTo cwd fates k fuel (render n (p ++ [c])) (render m (q ++ [c])) s') = Ok tt.
  Proof.
    intros Hp Hq. induction cs as [|d cs IH]; intros Hn Hi s Hs; [destruct Hi|]. cbn [map iterM].
    inversion Hn as [|? ? Hd Hn']; subst. pose proof (abs_snoc n p d Hp Hd) as Hpd.
    rewrite (proj1 (base_render n p d Hpd)), (child_name cwd m q d Hq Hd).
    change (bindM (lift (Ok (render m (q ++ [d])))) (fun e => copyTo cwd fates k fuel (render n (p ++ [d])) e)) with (copyTo cwd fates k fuel (render n (p ++ [d])) (render m (q ++ [d]))).
    unfold bindM at 1. destruct (keeps_copy cwd fates k fuel n (p ++ [d]) m (q ++ [d]) Hpd (abs_snoc m q d Hq Hd) s Hs) as (A1 & _).
    destruct (copyTo cwd fates k fuel (render n (p ++ [d])) (render m (q ++ [d])) s) as [s' [[]|e]] eqn:E; cbn [fst snd] in *; [|discriminate].
    intros H. destruct Hi as [->|Hi]; [exists s; split; [exact Hs|]; now rewrite E|]. now apply (IH Hn' Hi s').
  Qed.

  Theorem never_below k : forall fuel n (p : loc) m (r : loc) s, absolute n p -> absolute m (p ++ r) -> okfs (fst s) -> r <> [] ->
    snd (copyTo cwd fates k fuel (render n p) (render m (p ++ r)) s) <> Ok tt.
  Proof.
    induction fuel as [|fuel IH]; intros n p m r s Hp Hq Hs Hr; cbn [copyTo]; [discriminate|].
    unfold bindM at 1. destruct (keeps_probe fates n p p Hp s Hs) as (A1 & _ & A3). destruct (probe fates (render n p) s) as [s1 [st|e]]; cbn [fst snd] in *; [|discriminate].
    destruct (A3 st eq_refl) as (E1 & Est). clear A3.
    assert (Other : snd (bindM (match st with Some e => retM (Some e) | None => probe fates (render n p) end)
              (fun st' => match st' with Some (EFile _) => copy_file fates k (render n p) (render m (p ++ r)) | _ => raise NotImplementedErr end) s1) <> Ok tt).
    { unfold bindM at 1.
      assert (K : keeps p (match st with Some e => retM (Some e) | None => probe fates (render n p) end) (fun f g a => g = f /\ (fst s = f -> forall e, a = Some e -> dget f p = Some e))).
      { destruct st as [e|]; [eapply keeps_weaken; [apply keeps_ret|]; intros f g a _ _ _ (-> & ->); split; [reflexivity|]; intros <- e' H; injection H as <-; now apply Est|].
        eapply keeps_weaken; [now apply (keeps_probe fates n p)|]. intros f g a _ _ _ (-> & H). split; [reflexivity|]. intros _. exact H. }
      destruct (K s1 A1) as (B1 & _ & B3). clear K. destruct ((match st with Some e => retM (Some e) | None => probe fates (render n p) end) s1) as [s2 [st'|e]]; cbn [fst snd] in *; [|discriminate].
      destruct (B3 st' eq_refl) as (E2 & H2). destruct st' as [[c| |]|]; try discriminate. specialize (H2 (eq_sym E1) _ eq_refl).
      (* a file: nothing can be made below it *)
      unfold copy_file, bindM at 1. destruct s2 as [f2 t2]. cbn [fst] in *. subst f2. unfold open_w, whole, sys, os_open_w. rewrite (place_render m (p ++ r) Hq).
      destruct (fates t2); try discriminate. rewrite (no_below (fst s1) p r A1); [|rewrite H2; discriminate|exact Hr].
      replace (has_parent (fst s1) (p ++ r)) with false; [discriminate|]. destruct (exists_last Hr) as (r0 & z & ->). rewrite app_assoc, has_parent_snoc.
      destruct r0 as [|y r0]; [now rewrite app_nil_r, H2|]. rewrite (no_below (fst s1) p (y :: r0) A1); [reflexivity|rewrite H2; discriminate|discriminate]. }
    destruct st as [[c| |]|]; try exact Other. clear Other.
    (* a directory *)
    unfold bindM at 1. destruct (keeps_probe fates m (p ++ r) p Hq s1 A1) as (C1 & _ & C3). destruct (probe fates (render m (p ++ r)) s1) as [s2 [ex|e]]; cbn [fst snd] in *; [|discriminate].
    destruct (C3 ex eq_refl) as (E2 & Eex). clear C3. unfold bindM at 1.
    assert (K : keeps p (match ex with Some _ => retM tt | None => mkdir fates (render m (p ++ r)) end) (fun f g _ => (forall e, ex = Some e -> dget f (p ++ r) = Some e) -> dget g (p ++ r) <> None)).
    { destruct ex as [e|]; [eapply keeps_weaken; [apply keeps_ret|]; intros f g a _ _ _ (-> & _) H; rewrite (H e eq_refl); discriminate|].
      intros s' Hs'. destruct (keeps_mkdir fates m (p ++ r) Hq s' Hs') as (D1 & D2 & D3). split; [exact D1|]. split.
      - intros l Hl. apply D2. intros (u & ->). apply Hl. exists (r ++ u). now rewrite app_assoc.
      - intros a Ha _. destruct (D3 a Ha) as (_ & ->). rewrite dget_dset_eq. discriminate. }
    destruct (K s2 C1) as (D1 & _ & D3). clear K. destruct ((match ex with Some _ => retM tt | None => mkdir fates (render m (p ++ r)) end) s2) as [s3 [[]|e]]; cbn [fst snd] in *; [|discriminate].
    rewrite E2 in D3. specialize (D3 tt eq_refl Eex). unfold bindM at 1.
    destruct (keeps_children cwd fates n p p Hp s3 D1) as (F1 & _ & F3). destruct (children cwd fates (render n p) s3) as [s4 [cs|e]]; cbn [fst snd] in *; [|discriminate].
    destruct (F3 cs eq_refl) as (E4 & Edir & ->). clear F3.
    destruct r as [|x r]; [congruence|]. intros H.
    assert (Hx : In x (names (fst s3) p)).
    { apply names_spec; [apply D1|]. destruct r as [|y r]; [exact D3|]. rewrite (ok_below (fst s3) (p ++ [x]) (y :: r) D1); [discriminate|discriminate|]. rewrite <- app_assoc. exact D3. }
    destruct (iter_enters k fuel n p m (p ++ x :: r) x Hp Hq (names (fst s3) p) (names_names _ p D1) Hx s4 F1 H) as (s5 & G1 & G2).
    assert (Hnx : name x). { pose proof (names_names _ p D1) as N. rewrite Forall_forall in N. now apply N. }
    revert G2. replace ((p ++ x :: r) ++ [x]) with ((p ++ [x]) ++ (r ++ [x])) by (rewrite <- !app_assoc; reflexivity).
    apply IH; auto using abs_snoc.
    - replace ((p ++ [x]) ++ (r ++ [x])) with ((p ++ x :: r) ++ [x]) by (rewrite <- !app_assoc; reflexivity). now apply abs_snoc.
    - now destruct r.
  Qed.

  (** an empty directory copied to a new place in it *)
  Theorem endless_below k : (forall t, fates t = Run) -> forall fuel n (p : loc) m x f t, absolute n p -> absolute m p -> name x -> okfs f ->
    dget f p = Some EDir -> (forall c, dget f (p ++ [c]) = None) ->
    let out := copyTo cwd fates k fuel (render n p) (render m (p ++ [x])) (f, t) in
    snd out = Err NO_FUEL /\ forall j, (j < fuel)%nat -> dget (fst (fst out)) (p ++ repeat x (S j)) = Some EDir.
  Proof.
    intros calm. induction fuel as [|fuel IH]; intros n p m x f t Hp Hm Hx Hf Hd He; [split; [reflexivity|]; lia|].
    cbn zeta. pose proof (abs_snoc m p x Hm Hx) as Hq. pose proof (abs_snoc n p x Hp Hx) as Hpx. cbn [copyTo].
    rewrite (bind_run _ _ _ _ _ (run_probe fates calm n p f t Hp)), Hd, (bind_run _ _ _ _ _ (run_probe fates calm m (p ++ [x]) f (S t) Hq)), (He x).
    assert (Hpar : has_parent f (p ++ [x]) = true) by (rewrite has_parent_snoc, Hd; reflexivity).
    rewrite (bind_run _ _ _ _ _ (run_mkdir fates calm m (p ++ [x]) f (S (S t)) Hq (He x) Hpar)). set (f1 := dset f (p ++ [x]) EDir).
    assert (Hf1 : okfs f1) by (apply ok_dset; auto; apply Hq).
    assert (Hd1 : dget f1 p = Some EDir). { unfold f1. rewrite dget_dset_neq; [exact Hd|]. intros E. apply (f_equal (@length _)) in E. rewrite app_length in E. cbn in E. lia. }
    rewrite (bind_run _ _ _ _ _ (run_children cwd fates calm n p f1 (S (S (S t))) Hp Hf1 Hd1)).
    assert (Hnames : names f1 p = [x]).
    { assert (S1 : forall c, In c (names f1 p) <-> c = x).
      { intros c. rewrite names_spec by apply Hf1. unfold f1. destruct (list_eq_dec N.eq_dec c x) as [->|E].
        - rewrite dget_dset_eq. split; [reflexivity|]. intros _ H. discriminate H.
        - rewrite dget_dset_neq, He; [|intros H; apply app_inj_tail in H; destruct H; contradiction]. split; [congruence|contradiction]. }
      pose proof (names_nodup f1 p (ok_keys f1 Hf1)) as U. destruct (names f1 p) as [|a [|b l]].
      - destruct (proj2 (S1 x) eq_refl).
      - f_equal. apply S1. now left.
      - pose proof (proj1 (S1 a) (or_introl eq_refl)). pose proof (proj1 (S1 b) (or_intror (or_introl eq_refl))). subst. inversion U as [|? ? Hi _]; subst. destruct Hi. now left. }
    rewrite Hnames. cbn [map iterM]. rewrite (proj1 (base_render n p x Hpx)), (child_name cwd m (p ++ [x]) x Hq Hx).
    change (bindM (lift (Ok (render m ((p ++ [x]) ++ [x])))) (fun e => copyTo cwd fates k fuel (render n (p ++ [x])) e)) with (copyTo cwd fates k fuel (render n (p ++ [x])) (render m ((p ++ [x]) ++ [x]))).
    assert (He1 : forall c, dget f1 ((p ++ [x]) ++ [c]) = None).
    { intros c. unfold f1. rewrite dget_dset_neq; [|intros E; apply (f_equal (@length _)) in E; rewrite !app_length in E; cbn in E; lia].
      apply (no_below f (p ++ [x]) [c] Hf); [rewrite He|]; discriminate. }
    specialize (IH n (p ++ [x]) m x f1 (S (S (S (S t)))) Hpx Hq Hx Hf1 (dget_dset_eq f (p ++ [x]) EDir) He1). cbn zeta in IH. destruct IH as (I1 & I2). unfold bindM.
    destruct (keeps_copy cwd fates k fuel n (p ++ [x]) m ((p ++ [x]) ++ [x]) Hpx (abs_snoc m (p ++ [x]) x Hq Hx) (f1, S (S (S (S t)))) Hf1) as (_ & Fr & _).
    match type of I1 with snd ?T = _ => set (o := T) in I1, I2; match type of Fr with context [copyTo cwd fates k fuel ?a ?b ?s] => change (copyTo cwd fates k fuel a b s) with o in Fr end;
      match goal with |- context [copyTo cwd fates k fuel ?a ?b ?s] => change (copyTo cwd fates k fuel a b s) with o end end.
    destruct o as [[g u] w]. cbn [fst snd] in *. subst w. cbn [fst snd]. split; [reflexivity|].
    intros j Hj. destruct j as [|j].
    - transitivity (dget f1 (p ++ [x])); [|apply dget_dset_eq]. apply (Fr (p ++ [x])), snoc_not_below.
    - specialize (I2 j ltac:(lia)). rewrite <- app_assoc in I2. exact I2.
  Qed.

  (** ** Above *)

  Lemma iter_above k fuel n (q r : loc) x m : let p := q ++ x :: r in absolute n p -> absolute m q ->
    forall cs, Forall name cs -> NoDup cs -> ~ In x cs ->
    keeps q (iterM (fun c => bindM (lift (child cwd (render m q) (basename c))) (fun d => copyTo cwd fates k fuel c d)) (map (fun c => render n (p ++ [c])) cs))
      (fun f g _ => dget g q = dget f q /\ forall c s, dget g (q ++ c :: s) = if memb (c : str) cs then merged (dget f (p ++ c :: s)) (dget f (q ++ c :: s)) else dget f (q ++ c :: s)).
  Proof.
    intros p Hp Hq. induction cs as [|c cs IH]; intros Hn Hu Hx; cbn [map iterM].
    - eapply keeps_weaken; [apply keeps_ret|]. intros f g a _ _ _ (-> & _). split; reflexivity.
    - inversion Hn as [|? ? Hc Hn']; subst. inversion Hu as [|? ? Hi Hu']; subst. pose proof (abs_snoc n p c Hp Hc) as Hpc.
      assert (Hxc : x <> c) by (intros ->; apply Hx; now left).
      rewrite (proj1 (base_render n p c Hpc)), (child_name cwd m q c Hq Hc). change (bindM (lift (Ok (render m (q ++ [c])))) (fun d => copyTo cwd fates k fuel (render n (p ++ [c])) d)) with (copyTo cwd fates k fuel (render n (p ++ [c])) (render m (q ++ [c]))).
      intros s Hs. destruct (keeps_copy cwd fates k fuel n (p ++ [c]) m (q ++ [c]) Hpc (abs_snoc m q c Hq Hc) s Hs) as (A1 & A2 & A3). unfold bindM. destruct (copyTo cwd fates k fuel (render n (p ++ [c])) (render m (q ++ [c])) s) as [s' o]. cbn [fst snd] in *.
      destruct o as [[]|e]; cbn [fst snd]; [|split; [exact A1|]; split; [now apply (frame_snoc q c)|discriminate]].
      destruct (IH Hn' Hu' (fun H => Hx (or_intror H)) s' A1) as (B1 & B2 & B3). unfold bindM in B1, B2, B3. split; [exact B1|]. split; [apply (frame_trans q _ (fst s')); [now apply (frame_snoc q c)|exact B2]|].
      intros a Ha. destruct (B3 a Ha) as [C1 C2].
      assert (Hap : apart (p ++ [c]) (q ++ [c])). { unfold p. rewrite <- app_assoc. cbn [app]. now apply apart_above. }
      specialize (A3 tt eq_refl Hap). split; [rewrite C1; apply A2, snoc_not_below|].
      intros d u. rewrite C2. cbn [memb]. assert (Ep : dget (fst s') (p ++ d :: u) = dget (fst s) (p ++ d :: u)). { apply A2. unfold p. now apply not_below_above. }
      destruct (eqb_spec d c) as [->|Hdc]; cbn [orb].
      + specialize (A3 u). rewrite <- !app_assoc in A3. cbn [app] in A3. destruct (memb c cs) eqn:M; [apply memb_In in M; contradiction|exact A3].
      + assert (Eq : dget (fst s') (q ++ d :: u) = dget (fst s) (q ++ d :: u)). { apply A2. intros Hb. apply snoc_below in Hb. congruence. }
        rewrite Ep, Eq. reflexivity.
  Qed.

  Theorem copy_above k fuel n (q r : loc) x m f t : let p := q ++ x :: r in absolute n p -> absolute m q -> okfs f ->
    dget f p = Some EDir -> dget f (p ++ [x]) = None ->
    let out := copyTo cwd fates k fuel (render n p) (render m q) (f, t) in
    snd out = Ok tt -> copied p q f (fst (fst out)).
  Proof.
    intros p Hp Hq Hf Hd Hx. cbn zeta. destruct fuel as [|fuel]; [discriminate|]. cbn [copyTo].
    assert (Hdq : dget f q = Some EDir). { apply (ok_below f q (x :: r) Hf); [discriminate|]. fold p. rewrite Hd. discriminate. }
    rewrite (bind_eq _ _ (f, t)). destruct (keeps_probe fates n p p Hp (f, t) Hf) as (A1 & _ & A3). destruct (probe fates (render n p) (f, t)) as [[f1 t1] [st|e]]; cbn [fst snd] in *; [|discriminate].
    destruct (A3 st eq_refl) as (-> & Est). clear A3.
    assert (Other : forall A (P : Prop), snd (bindM (match st with Some e => retM (Some e) | None => probe fates (render n p) end)
              (fun st' => match st' with Some (EFile _) => A | _ => raise NotImplementedErr end) (f, t1)) = Ok tt -> (exists c, st = Some (EFile c)) \/ st <> Some EDir -> P).
    { intros A P. unfold bindM at 1.
      assert (K : keeps p (match st with Some e => retM (Some e) | None => probe fates (render n p) end) (fun g h a => h = g /\ (f = g -> forall e, a = Some e -> dget g p = Some e))).
      { destruct st as [e|]; [eapply keeps_weaken; [apply keeps_ret|]; intros g h a _ _ _ (-> & ->); split; [reflexivity|]; intros <- e' H; injection H as <-; now apply Est|].
        eapply keeps_weaken; [now apply (keeps_probe fates n p)|]. intros g h a _ _ _ (-> & H). split; [reflexivity|]. intros _. exact H. }
      destruct (K (f, t1) A1) as (_ & _ & B3). destruct ((match st with Some e => retM (Some e) | None => probe fates (render n p) end) (f, t1)) as [s2 [st'|e]]; cbn [fst snd] in *; [|discriminate].
      destruct (B3 st' eq_refl) as (_ & H2). specialize (H2 eq_refl). destruct st' as [[c| |]|]; try discriminate. specialize (H2 _ eq_refl). congruence. }
    destruct st as [[c| |]|]; try (intros H; apply (Other _ _ H); right; discriminate). clear Other.
    rewrite (bind_eq _ _ (f, t1)). destruct (keeps_probe fates m q q Hq (f, t1) A1) as (C1 & _ & C3). destruct (probe fates (render m q) (f, t1)) as [[f2 t2] [ex|e]]; cbn [fst snd] in *; [|discriminate].
    destruct (C3 ex eq_refl) as (-> & Eex). clear C3. destruct ex as [e|].
    2:{ rewrite (bind_eq _ _ (f, t2)). unfold mkdir, whole, sys, os_mkdir. rewrite (place_render m q Hq), Hdq. destruct (fates t2); discriminate. }
    rewrite (bind_eq (retM tt) _ (f, t2)). cbn [retM]. rewrite (bind_eq _ _ (f, t2)).
    destruct (keeps_children cwd fates n p p Hp (f, t2) Hf) as (F1 & _ & F3). destruct (children cwd fates (render n p) (f, t2)) as [[f4 t4] [cs|e']]; cbn [fst snd] in *; [|discriminate].
    destruct (F3 cs eq_refl) as (-> & _ & ->). clear F3.
    assert (Hxn : ~ In x (names f p)). { intros H. apply names_spec in H; [|apply Hf]. congruence. }
    destruct (iter_above k fuel n q r x m Hp Hq (names f p) (names_names f p Hf) (names_nodup f p (ok_keys f Hf)) Hxn (f, t4) Hf) as (_ & _ & G3). fold p in G3.
    intros H. destruct (G3 tt H) as (G4 & G5). cbn [fst] in *. intros u. destruct u as [|c u].
    - rewrite !app_nil_r, G4, Hd, Hdq. reflexivity.
    - rewrite G5. destruct (memb (c : str) (names f p)) eqn:M; [reflexivity|]. apply memb_not_In in M. rewrite names_spec in M by apply Hf.
      replace (dget f (p ++ c :: u)) with (@None entry); [reflexivity|]. symmetry. destruct (dget f (p ++ c :: u)) as [e0|] eqn:E; [|reflexivity]. exfalso. apply M.
      destruct u as [|d u]; [rewrite E; discriminate|]. rewrite (ok_below f (p ++ [c]) (d :: u) Hf); [discriminate|discriminate|]. rewrite <- app_assoc. cbn [app]. rewrite E. discriminate.
  Qed.

  Lemma iter_works_above k fuel n (q r : loc) x m : let p := q ++ x :: r in (forall t, fates t = Run) -> (0 < k)%nat -> absolute n p -> absolute m q ->
    forall cs, Forall name cs -> NoDup cs -> ~ In x cs -> forall f t, okfs f -> dget f q = Some EDir ->
    (forall c, In c cs -> dget f (p ++ [c]) <> None /\ compatible f (p ++ [c]) (q ++ [c]) /\ deep f (p ++ [c]) fuel) ->
    snd (iterM (fun c => bindM (lift (child cwd (render m q) (basename c))) (fun d => copyTo cwd fates k fuel c d)) (map (fun c => render n (p ++ [c])) cs) (f, t)) = Ok tt.
  Proof.
    intros p calm Hk Hp Hq. induction cs as [|c cs IH]; intros Hn Hu Hx f t Hf Hfq Hc; [reflexivity|]. cbn [map iterM].
    inversion Hn as [|? ? Hcn Hn']; subst. inversion Hu as [|? ? Hi Hu']; subst. pose proof (abs_snoc n p c Hp Hcn) as Hpc. pose proof (abs_snoc m q c Hq Hcn) as Hqc.
    assert (Hxc : x <> c) by (intros ->; apply Hx; now left).
    assert (Hap : apart (p ++ [c]) (q ++ [c])). { unfold p. rewrite <- app_assoc. cbn [app]. now apply apart_above. }
    rewrite (proj1 (base_render n p c Hpc)), (child_name cwd m q c Hq Hcn).
    match goal with |- snd (bindM ?mm _ _) = _ => change mm with (copyTo cwd fates k fuel (render n (p ++ [c])) (render m (q ++ [c]))) end.
    destruct (Hc c (or_introl eq_refl)) as (C1 & C2 & C3).
    assert (Hpar : has_parent f (q ++ [c]) = true) by (rewrite has_parent_snoc, Hfq; reflexivity).
    pose proof (copy_works cwd fates calm k Hk fuel n (p ++ [c]) m (q ++ [c]) f t Hpc Hqc Hap Hf C1 C2 (or_intror Hpar) C3) as R.
    destruct (keeps_copy cwd fates k fuel n (p ++ [c]) m (q ++ [c]) Hpc Hqc (f, t) Hf) as (A1 & A2 & _). rewrite bind_eq.
    destruct (copyTo cwd fates k fuel (render n (p ++ [c])) (render m (q ++ [c])) (f, t)) as [[f' t'] w]. cbn [fst snd] in *. subst w.
    apply IH; auto.
    - intros H. apply Hx. now right.
    - exact (eq_trans (A2 q (snoc_not_below q c)) Hfq).
    - intros d Hd'. assert (Hdc : c <> d) by (intros ->; contradiction). destruct (Hc d (or_intror Hd')) as (D1 & D2 & D3).
      assert (Ep : forall u, dget f' ((p ++ [d]) ++ u) = dget f ((p ++ [d]) ++ u)). { intros u. apply A2. rewrite <- app_assoc. unfold p. now apply not_below_above. }
      assert (Eq : forall u, dget f' ((q ++ [d]) ++ u) = dget f ((q ++ [d]) ++ u)). { intros u. apply A2. rewrite <- app_assoc. intros Hb. apply snoc_below in Hb. contradiction. }
      split; [specialize (Ep []); rewrite !app_nil_r in Ep; congruence|]. split; intros u; rewrite Ep; [rewrite Eq; apply D2|apply D3].
  Qed.

  Theorem works_above k n (q r : loc) x m f t : let p := q ++ x :: r in (forall t, fates t = Run) -> (0 < k)%nat -> absolute n p -> absolute m q -> okfs f ->
    dget f p = Some EDir -> dget f (p ++ [x]) = None -> compatible f p q ->
    exists d, forall fuel, (d <= fuel)%nat -> snd (copyTo cwd fates k fuel (render n p) (render m q) (f, t)) = Ok tt.
  Proof.
    intros p calm Hk Hp Hq Hf Hd Hx Hco. destruct (deep_exists f p) as (d & Hde). exists (S d). intros fuel Hfu. destruct fuel as [|fuel]; [lia|]. cbn [copyTo].
    assert (Hdq : dget f q = Some EDir). { apply (ok_below f q (x :: r) Hf); [discriminate|]. fold p. rewrite Hd. discriminate. }
    rewrite (bind_run _ _ _ _ _ (run_probe fates calm n p f t Hp)), Hd, (bind_run _ _ _ _ _ (run_probe fates calm m q f (S t) Hq)), Hdq.
    rewrite (bind_run (retM tt) _ _ (f, S (S t)) tt eq_refl), (bind_run _ _ _ _ _ (run_children cwd fates calm n p f (S (S t)) Hp Hf Hd)).
    apply (iter_works_above k fuel n q r x m calm Hk Hp Hq); auto.
    - now apply names_names.
    - apply names_nodup, Hf.
    - intros H. apply names_spec in H; [|apply Hf]. congruence.
    - intros c Hc. apply names_spec in Hc; [|apply Hf]. split; [exact Hc|]. split.
      + intros u. fold p. rewrite <- !app_assoc. cbn [app]. apply Hco.
      + intros u. fold p. rewrite <- app_assoc. cbn [app]. intros H. apply Hde in H. cbn in H. lia.
  Qed.
End Nest.
