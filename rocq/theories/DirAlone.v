(** * One process alone: the makedirs of DirRace.v against the one of FileMake.v *)

From Coq Require Import NArith String List Bool Arith Lia.
From Verif Require Import Py PyStr PySplit FilePath FileTree FileTreeMore FileMake DirRace.
Import ListNotations.
Open Scope list_scope.
Open Scope nat_scope.

Definition gos (n : nat) : list event := repeat (Go 0) n.

Lemma gos_add a b : gos (a + b) = gos a ++ gos b.
Proof. apply repeat_app. Qed.

Lemma off_stays n : forall s, at_ s 0 = Off -> run s (gos n) = (s, []).
Proof. induction n as [|n IH]; intros s H; [reflexivity|]. cbn [gos repeat run step]. rewrite H. fold (gos n). now rewrite (IH s H). Qed.

(** going down to the lowest place that exists *)
Lemma downs l j e d : forall s, at_ s 0 = Down l (j + d) -> (forall m, j < m <= j + d -> dget (disk s) (firstn m l) = None) -> dget (disk s) (firstn j l) = Some e ->
  exists s', run s (gos (S d)) = (s', []) /\ disk s' = disk s /\ at_ s' 0 = Up l (S j).
Proof.
  induction d as [|d IH]; intros s H0 Hn Hj.
  - rewrite Nat.add_0_r in H0. cbn [gos repeat run step]. rewrite H0. rewrite Hj. eexists. split; [reflexivity|]. split; reflexivity.
  - change (gos (S (S d))) with (Go 0 :: gos (S d)). cbn [run step]. rewrite H0. rewrite (Hn (j + S d)) by lia. replace (j + S d) with (S (j + d)) by lia.
    match goal with |- exists s', (let (s2, o2) := run ?s1 _ in _) = _ /\ _ => destruct (IH s1) as (s' & E & D & A) end.
    + reflexivity.
    + intros m Hm. apply Hn. lia.
    + exact Hj.
    + rewrite E. exists s'. auto.
Qed.

Lemma started f l : run (boot f) [Makedirs 0 l] = (St f (put (fun _ => Off) 0 (match length l with O => Up l 0 | S k => Down l k end)), []).
Proof. reflexivity. Qed.

(** where makedirs cannot succeed it changes nothing, and ends with one error *)
Lemma alone_exists f l n : okfs f -> dget f l <> None -> 2 * length l + 1 <= n ->
  disk (fst (run (boot f) (Makedirs 0 l :: gos n))) = f /\ snd (run (boot f) (Makedirs 0 l :: gos n)) = [(0, l, Exists)].
Proof.
  intros Hf Hl Hn. change (Makedirs 0 l :: gos n) with ([Makedirs 0 l] ++ gos n). rewrite run_app, started. destruct (dget f l) as [e|] eqn:E; [|congruence].
  destruct l as [|c0 l0] using rev_ind.
  - cbn [length]. destruct n as [|n]; [cbn in Hn; lia|]. change (gos (S n)) with (Go 0 :: gos n). cbn [run step at_ put Nat.eqb disk firstn]. unfold sys_mkdir. rewrite E. cbn [length Nat.ltb Nat.leb]. rewrite off_stays by reflexivity. split; reflexivity.
  - clear IHl0. rewrite app_length. cbn [length]. replace (length l0 + 1) with (S (length l0)) by lia. set (s0 := St f _).
    assert (Hp : dget f l0 = Some EDir) by exact (ok_above f Hf _ _ _ E).
    destruct (downs (l0 ++ [c0]) (length l0) EDir 0 s0) as (s1 & R & D & A).
    + unfold s0. cbn. now rewrite Nat.add_0_r.
    + intros m Hm. lia.
    + rewrite firstn_app, firstn_all, Nat.sub_diag. cbn [firstn]. now rewrite app_nil_r.
    + rewrite app_length in Hn. cbn [length] in Hn. replace n with (1 + (1 + (n - 2))) by lia. rewrite gos_add, run_app, R. rewrite gos_add, run_app. change (gos 1) with [Go 0]. cbn [run step]. rewrite A, D. change (disk s0) with f. rewrite firstn_all2 by (rewrite app_length; cbn; lia). unfold sys_mkdir. rewrite E.
      rewrite app_length. cbn [length]. replace (S (length l0) <? length l0 + 1) with false by (symmetry; apply Nat.ltb_ge; lia). rewrite off_stays by reflexivity. split; reflexivity.
Qed.

Lemma alone_refused f l j n : okfs f -> j < length l -> (forall m, j < m <= length l -> dget f (firstn m l) = None) -> dget f (firstn j l) <> None -> dget f (firstn j l) <> Some EDir -> 2 * length l + 1 <= n ->
  disk (fst (run (boot f) (Makedirs 0 l :: gos n))) = f /\ snd (run (boot f) (Makedirs 0 l :: gos n)) = [(0, l, Refused)].
Proof.
  intros Hf Hj Hm H1 H2 Hn. change (Makedirs 0 l :: gos n) with ([Makedirs 0 l] ++ gos n). rewrite run_app, started. destruct (dget f (firstn j l)) as [e|] eqn:E; [|congruence].
  destruct (length l) as [|k] eqn:EL; [lia|]. set (s0 := St f _).
  destruct (downs l j e (k - j) s0) as (s1 & R & D & A).
  - unfold s0. cbn. f_equal. lia.
  - intros m X. apply Hm. lia.
  - exact E.
  - replace n with (S (k - j) + (1 + (n - S (k - j) - 1))) by lia. rewrite gos_add, run_app, R. rewrite gos_add, run_app. change (gos 1) with [Go 0]. cbn [run step]. rewrite A, D. change (disk s0) with f. unfold sys_mkdir. rewrite (Hm (S j)) by lia.
    assert (P : has_parent f (firstn (S j) l) = false).
    { unfold has_parent. rewrite removelast_firstn by lia. destruct (firstn (S j) l); [reflexivity|]. match goal with |- match ?d with _ => _ end = _ => replace d with (Some e) by (symmetry; exact E) end. destruct e; congruence. }
    rewrite P. destruct (S j <? length l); (rewrite off_stays by reflexivity; split; reflexivity).
Qed.

(** the highest place on the way that is no directory, if the way is not clear *)
Lemma blocked f l : okfs f -> dget f l = None -> ~ (forall q, below q l -> dget f q = None \/ dget f q = Some EDir) ->
  exists j, j < length l /\ (forall m, j < m <= length l -> dget f (firstn m l) = None) /\ dget f (firstn j l) <> None /\ dget f (firstn j l) <> Some EDir.
Proof.
  intros Hf H0 Hc. assert (X : forall k, k <= length l -> (forall m, m <= k -> dget f (firstn m l) = None \/ dget f (firstn m l) = Some EDir) \/ exists j, j <= k /\ dget f (firstn j l) <> None /\ dget f (firstn j l) <> Some EDir).
  { induction k as [|k IH]; intros Hk.
    - left. intros m Hm. replace m with 0 by lia. right. exact (ok_root f Hf).
    - destruct (IH ltac:(lia)) as [A|(j & J1 & J2)]; [|right; exists j; split; [lia|exact J2]]. destruct (dget f (firstn (S k) l)) as [[c| |]|] eqn:E.
      + right. exists (S k). rewrite E. split; [lia|]. split; discriminate.
      + left. intros m Hm. destruct (Nat.eq_dec m (S k)) as [->|]; [auto|apply A; lia].
      + right. exists (S k). rewrite E. split; [lia|]. split; discriminate.
      + left. intros m Hm. destruct (Nat.eq_dec m (S k)) as [->|]; [auto|apply A; lia]. }
  destruct (X (length l) (le_n _)) as [A|(j & J1 & J2 & J3)].
  - exfalso. apply Hc. intros q (r & ->). specialize (A (length q)). rewrite app_length, firstn_app, firstn_all, Nat.sub_diag in A. cbn [firstn] in A. rewrite app_nil_r in A. apply A. lia.
  - assert (Jl : j < length l) by (destruct (Nat.eq_dec j (length l)) as [->|]; [rewrite firstn_all in J2; congruence|lia]). exists j. split; [exact Jl|]. split; [|auto].
    intros m Hm. destruct (dget f (firstn m l)) eqn:E; [|reflexivity]. exfalso. apply J3.
    assert (S1 : firstn m l = firstn j l ++ skipn j (firstn m l)). { rewrite <- (firstn_skipn j (firstn m l)) at 1. f_equal. rewrite firstn_firstn. f_equal. lia. }
    apply (ok_below f (firstn j l) (skipn j (firstn m l)) Hf).
    + intros Z. apply (f_equal (@length _)) in Z. rewrite skipn_length, firstn_length in Z. cbn [length] in Z. lia.
    + rewrite <- S1, E. discriminate.
Qed.

Lemma one_end n : forall s, length (snd (run s (gos n))) <= 1.
Proof.
  induction n as [|n IH]; intros s; [cbn; lia|]. change (gos (S n)) with (Go 0 :: gos n). cbn [run].
  assert (H : snd (step s (Go 0)) = [] \/ (length (snd (step s (Go 0))) = 1 /\ at_ (fst (step s (Go 0))) 0 = Off)).
  { cbn [step]. destruct (at_ s 0) as [|q k|q k|q]; [now left|now left| |].
    - destruct (sys_mkdir (disk s) (firstn k q)) as [f r]. destruct (k <? length q); [destruct r|]; cbn; auto.
    - destruct (sys_mkdir (disk s) q) as [f r]. cbn. auto. }
  destruct (step s (Go 0)) as [s1 o1]. cbn [fst snd] in H. destruct H as [-> |[H1 H2]].
  - specialize (IH s1). destruct (run s1 (gos n)). exact IH.
  - rewrite (off_stays n s1 H2). cbn [snd]. rewrite app_nil_r. lia.
Qed.

Lemma goes_gos n : goes 0 (gos n) = n.
Proof. unfold goes, gos. induction n as [|n IH]; cbn; [reflexivity|]. now rewrite IH. Qed.

Lemma gos_only n e : In e (gos n) -> e = Go 0.
Proof. apply repeat_spec. Qed.
