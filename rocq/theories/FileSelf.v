(** * epsilon/hotfixes/filepath_copyTo.py: copyTo onto the source itself *)

From Coq Require Import NArith String List Bool Arith Lia.
From Verif Require Import Py PyStr PySplit FilePath FileTree FileTreeMore.
Import ListNotations.
Open Scope list_scope.

(** ** Specification *)

(** what is left of a thing which is copied onto itself *)
Definition emptied (e : option entry) : option entry :=
  match e with Some (EFile _) => Some (EFile []) | _ => e end.

(** ** Proofs *)

Section Self.
  Variable cwd : str.
  Variable fates : nat -> fate.
  Hypothesis calm : forall t, fates t = Run.
  Variable k : nat.
  Hypothesis positive : (0 < k)%nat.

  Lemma file_self n m (p : loc) f t c : absolute n p -> absolute m p -> okfs f -> dget f p = Some (EFile c) ->
    exists f' t', copy_file fates k (render n p) (render m p) (f, t) = ((f', t'), Ok tt) /\ (forall l, dget f' l = if list_eq_dec (list_eq_dec N.eq_dec) l p then Some (EFile []) else dget f l).
  Proof.
    intros Hn Hm Hf E. unfold copy_file. rewrite (bind_run _ _ _ _ _ (run_open_w fates calm m p f t Hm (or_intror (ex_intro _ c E)))).
    set (f1 := dset f p (EFile [])). assert (E1 : dget f1 p = Some (EFile [])) by apply dget_dset_eq.
    rewrite (bind_run _ _ _ _ _ (run_open_r fates calm n p f1 (S t) [] Hn E1)).
    assert (L : copy_loop fates k 1 (render n p) (render m p) 0 (f1, S (S t)) = ((dset f1 p (EFile []), S (S (S (S t)))), Ok tt)).
    { cbn [copy_loop]. rewrite (bind_run _ _ _ _ _ (run_read fates calm n p f1 _ [] 0 k Hn E1)). rewrite (bind_run _ _ _ _ _ (run_write fates calm m p f1 _ [] _ Hm E1)).
      replace (firstn k (skipn 0 (@nil N))) with (@nil N) by (destruct k; reflexivity). cbn [length app]. destruct (Nat.ltb_spec 0 k); [reflexivity|lia]. }
    unfold bindM at 1. cbn [fst]. rewrite (place_render n p Hn), E1. cbn [length]. rewrite L. rewrite (bind_run _ _ _ _ _ (run_close fates calm _ _)), (run_close fates calm).
    eexists _, _. split; [reflexivity|]. intros l. destruct (list_eq_dec (list_eq_dec N.eq_dec) l p) as [->|Hl]; [apply dget_dset_eq|]. unfold f1. now rewrite !dget_dset_neq by congruence.
  Qed.

  Lemma iter_self fuel n m (p : loc) : absolute n p -> absolute m p ->
    (forall c f t, name c -> okfs f -> dget f (p ++ [c]) <> None -> (forall r, dget f ((p ++ [c]) ++ r) <> Some EOther) -> deep f (p ++ [c]) fuel ->
      exists f' t', copyTo cwd fates k fuel (render n (p ++ [c])) (render m (p ++ [c])) (f, t) = ((f', t'), Ok tt) /\
        (forall r, dget f' ((p ++ [c]) ++ r) = emptied (dget f ((p ++ [c]) ++ r))) /\ (forall l, ~ below (p ++ [c]) l -> dget f' l = dget f l)) ->
    forall cs, Forall name cs -> NoDup cs -> forall f t, okfs f ->
    (forall c, In c cs -> dget f (p ++ [c]) <> None /\ (forall r, dget f ((p ++ [c]) ++ r) <> Some EOther) /\ deep f (p ++ [c]) fuel) ->
    exists f' t', iterM (fun c => bindM (lift (child cwd (render m p) (basename c))) (fun d => copyTo cwd fates k fuel c d)) (map (fun c => render n (p ++ [c])) cs) (f, t) = ((f', t'), Ok tt) /\
      (forall c r, In c cs -> dget f' ((p ++ [c]) ++ r) = emptied (dget f ((p ++ [c]) ++ r))) /\ (forall l, (forall c, In c cs -> ~ below (p ++ [c]) l) -> dget f' l = dget f l).
  Proof.
    intros Hp Hq HC. induction cs as [|c cs IH]; intros Hn Hu f t Hf Hc; [exists f, t; split; [reflexivity|]; split; [intros c r []|reflexivity]|]. cbn [map iterM].
    inversion Hn as [|? ? Hcn Hn']; subst. inversion Hu as [|? ? Hi Hu']; subst. pose proof (abs_snoc n p c Hp Hcn) as Hpc.
    rewrite (proj1 (base_render n p c Hpc)), (child_name cwd m p c Hq Hcn).
    match goal with |- context [bindM ?mm _ (f, t)] => change mm with (copyTo cwd fates k fuel (render n (p ++ [c])) (render m (p ++ [c]))) end.
    destruct (Hc c (or_introl eq_refl)) as (C1 & C2 & C3). destruct (HC c f t Hcn Hf C1 C2 C3) as (f1 & t1 & R & A & B).
    pose proof (keeps_copy cwd fates k fuel n (p ++ [c]) m (p ++ [c]) Hpc (abs_snoc m p c Hq Hcn) (f, t) Hf) as (K & _). rewrite R in K. cbn [fst] in K.
    rewrite (bind_run _ _ _ _ _ R).
    assert (Hne : forall d, In d cs -> c <> d) by (intros d Hd ->; contradiction).
    assert (Ed : forall d r, In d cs -> dget f1 ((p ++ [d]) ++ r) = dget f ((p ++ [d]) ++ r)).
    { intros d r Hd. apply B. rewrite <- app_assoc. intros Hb. apply snoc_below in Hb. now apply (Hne d). }
    destruct (IH Hn' Hu' f1 t1 K) as (f2 & t2 & R2 & A2 & B2).
    { intros d Hd. destruct (Hc d (or_intror Hd)) as (D1 & D2 & D3). split; [|split].
      - specialize (Ed d [] Hd). rewrite !app_nil_r in Ed. congruence.
      - intros r. rewrite Ed by exact Hd. apply D2.
      - intros r. rewrite Ed by exact Hd. apply D3. }
    exists f2, t2. split; [exact R2|]. split.
    - intros d r [<-|Hd].
      + rewrite B2; [apply A|]. intros d Hd Hb. rewrite <- app_assoc in Hb. apply snoc_below in Hb. now apply (Hne d).
      + rewrite A2 by exact Hd. now rewrite Ed.
    - intros l Hl. rewrite B2; [|intros d Hd; apply Hl; now right]. apply B. apply Hl. now left.
  Qed.

  Theorem copy_self : forall fuel n m (p : loc) f t, absolute n p -> absolute m p -> okfs f -> dget f p <> None -> (forall r, dget f (p ++ r) <> Some EOther) -> deep f p fuel ->
    exists f' t', copyTo cwd fates k fuel (render n p) (render m p) (f, t) = ((f', t'), Ok tt) /\
      (forall r, dget f' (p ++ r) = emptied (dget f (p ++ r))) /\ (forall l, ~ below p l -> dget f' l = dget f l).
  Proof.
    induction fuel as [|fuel IH]; intros n m p f t Hn Hm Hf Hfp Ho Hde.
    - exfalso. specialize (Hde []). rewrite app_nil_r in Hde. specialize (Hde Hfp). cbn in Hde. lia.
    - cbn [copyTo]. rewrite (bind_run _ _ _ _ _ (run_probe fates calm n p f t Hn)). pose proof (Ho []) as O0. rewrite app_nil_r in O0.
      destruct (dget f p) as [[c| |]|] eqn:E; try congruence.
      + rewrite (bind_run (retM (Some (EFile c))) _ _ (f, S t) (Some (EFile c)) eq_refl).
        destruct (file_self n m p f (S t) c Hn Hm Hf E) as (f' & t' & R & A). exists f', t'. split; [exact R|]. split.
        * intros r. rewrite A. destruct r as [|x r].
          -- rewrite app_nil_r, E. destruct (list_eq_dec (list_eq_dec N.eq_dec) p p); [reflexivity|congruence].
          -- assert (E0 : dget f (p ++ x :: r) = None) by (apply (no_below f p (x :: r) Hf); [rewrite E; discriminate|discriminate]). rewrite E0.
             destruct (list_eq_dec (list_eq_dec N.eq_dec) (p ++ x :: r) p) as [X|X]; [|reflexivity]. rewrite <- (app_nil_r p) in X at 2. apply app_inv_head in X. discriminate X.
        * intros l Hl. rewrite A. destruct (list_eq_dec (list_eq_dec N.eq_dec) l p) as [->|X]; [|reflexivity]. destruct Hl. exists []. now rewrite app_nil_r.
      + rewrite (bind_run _ _ _ _ _ (run_probe fates calm m p f (S t) Hm)). rewrite E. rewrite (bind_run (retM tt) _ _ (f, S (S t)) tt eq_refl).
        rewrite (bind_run _ _ _ _ _ (run_children cwd fates calm n p f _ Hn Hf E)).
        destruct (iter_self fuel n m p Hn Hm) with (cs := names f p) (f := f) (t := S (S (S t))) as (f' & t' & R & A & B); auto using names_names.
        * intros c g u Hc Hg G1 G2 G3. apply IH; auto using abs_snoc.
        * apply names_nodup, Hf.
        * intros c Hc. apply names_spec in Hc; [|apply Hf]. split; [exact Hc|]. split.
          -- intros r. rewrite <- app_assoc. apply Ho.
          -- intros r. rewrite <- app_assoc. cbn [app]. intros H. apply Hde in H. cbn in H. lia.
        * exists f', t'. split; [exact R|].
          assert (Top : forall l, (forall c, In c (names f p) -> ~ below (p ++ [c]) l) -> dget f' l = dget f l) by exact B. split.
          -- intros [|c r].
             ++ rewrite app_nil_r, Top; [now rewrite E|]. intros c _. apply snoc_not_below.
             ++ destruct (in_dec (list_eq_dec N.eq_dec) c (names f p)) as [i|i].
                ** specialize (A c r i). rewrite <- app_assoc in A. exact A.
                ** rewrite Top.
                   --- assert (E0 : dget f (p ++ c :: r) = None); [|now rewrite E0].
                       assert (Ec : dget f (p ++ [c]) = None) by (destruct (dget f (p ++ [c])) eqn:Ex; [|reflexivity]; destruct i; apply names_spec; [apply Hf|congruence]).
                       destruct r as [|x r]; [exact Ec|]. replace (p ++ c :: x :: r) with ((p ++ [c]) ++ x :: r) by (now rewrite <- app_assoc). apply (no_below f (p ++ [c]) (x :: r) Hf); [rewrite Ec; discriminate|discriminate].
                   --- intros d Hd Hb. replace (p ++ c :: r) with (p ++ [c] ++ r) in Hb by reflexivity. apply snoc_below in Hb. subst. contradiction.
          -- intros l Hl. apply Top. intros c _ Hb. apply Hl. now apply below_snoc in Hb.
  Qed.
End Self.
