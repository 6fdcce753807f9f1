(** * epsilon/extime.py: Time and POSIX timestamps *)

From Coq Require Import ZArith QArith Qabs Lqa Lia.
From Verif Require Import Py Cal PyTime Extime PyFloat.
Open Scope Z_scope.
Open Scope py_scope.

(** extime.py:14, _EPOCH: the first of January 1970 *)
Definition EPOCH : Z := (ymd2ord (D 1970 1 1) - 1) * DAY.

(** the float written [1e-6] *)
Definition c6 : Q := fl (1 # 1000000).

(** extime.py:53-81, _timedeltaToSeconds.  [offset.days * 60*60*24 +
    offset.seconds] is an int; adding a float to it converts it to a float
    first. *)
Definition timedeltaToSeconds (offset : Z) : Q :=
  let days := offset / DAY in
  let seconds := offset mod DAY / SECOND in
  let microseconds := offset mod SECOND in
  fl (fl (inject_Z (days * 60 * 60 * 24 + seconds)) + fl (inject_Z microseconds * c6)).

(** extime.py:663-670, asPOSIXTimestamp *)
Definition asPOSIXTimestamp (self : time) : Q := timedeltaToSeconds (t_us self - EPOCH).

(** a number given for a timestamp: an int or a (finite) float *)
Inductive number := NInt (n : Z) | NFloat (q : Q).

(** [datetime.timedelta(seconds=secs)] (C implementation of the standard
    library, [accum] and [delta_new]): the whole seconds of a float are taken
    exactly, the rest is multiplied by 1e6 as a float and rounded to an
    integer, ties to even *)
Definition accum (secs : number) : Z :=
  match secs with
  | NInt n => n * 1000000
  | NFloat q => trunc q * 1000000 + rne (fl ((q - inject_Z (trunc q)) * inject_Z 1000000))
  end.
Definition timedelta_seconds (secs : number) : res Z :=
  let us := accum secs in if td_ok us then Ok us else Err OverflowError.

(** extime.py:608-620, fromPOSIXTimestamp *)
Definition fromPOSIXTimestamp (secs : number) : res time :=
  d <- timedelta_seconds secs ;;
  l <- add_td EPOCH d ;;
  t <- fromDatetime (Dt l None) ;;
  Ok (T (t_us t) 0).

(** ** Proofs *)

Lemma trunc_bound q : (Qabs (q - inject_Z (trunc q)) < 1)%Q.
Proof.
  destruct q as [n d]. unfold trunc. cbn [Qnum Qden].
  pose proof (Z.quot_rem n (Zpos d) ltac:(lia)) as E. pose proof (Z.rem_bound_abs n (Zpos d) ltac:(lia)) as B.
  set (a := Z.quot n (Zpos d)) in *. set (r := Z.rem n (Zpos d)) in *. clearbody a r.
  assert (H : ((n # d) - inject_Z a == r # d)%Q). { unfold Qeq, Qminus, Qplus, Qopp, inject_Z. cbn [Qnum Qden]. nia. }
  rewrite H. unfold Qabs, Qlt. cbn [Qnum Qden]. lia.
Qed.

Lemma trunc_Z q z : (q == inject_Z z)%Q -> trunc q = z.
Proof.
  intros H. unfold trunc. unfold Qeq, inject_Z in H. cbn [Qnum Qden] in H. rewrite Z.mul_1_r in H. rewrite H. apply Z.quot_mul. lia.
Qed.

Lemma c6_near : (Qabs (c6 - (1 # 1000000)) <= 1 # (2 ^ 72))%Q.
Proof. vm_compute. discriminate. Qed.

(** the microseconds since 1970 that a number of seconds stands for *)
Definition number_us (x : number) : Q :=
  match x with NInt n => inject_Z (n * 1000000) | NFloat q => (q * inject_Z 1000000)%Q end.

Lemma accum_near x : (Qabs (inject_Z (accum x) - number_us x) <= (1 # 2) + (1 # (2 ^ 34)))%Q.
Proof.
  destruct x as [n|q]; cbn [number_us accum].
  - setoid_replace (inject_Z (n * 1000000) - inject_Z (n * 1000000))%Q with 0%Q by ring. discriminate.
  - set (f := (q - inject_Z (trunc q))%Q).
    pose proof (trunc_bound q) as B. fold f in B. apply Qabs_Qlt_condition in B as [B1 B2].
    change (inject_Z 1000000) with (1000000 # 1)%Q in *.
    assert (F : (Qabs (fl (f * (1000000 # 1)) - f * (1000000 # 1)) <= 2 ^ (20 - 54))%Q).
    { apply fl_err; [|lia]. change (2 ^ 20)%Q with (1048576 # 1)%Q. apply Qabs_lt; lra. }
    set (b := fl (f * (1000000 # 1))) in *. pose proof (rne_bound b) as R.
    apply Qabs_Qle_condition in F. apply Qabs_Qle_condition in R. rewrite inject_Z_plus, inject_Z_mult.
    change (inject_Z 1000000) with (1000000 # 1)%Q. change (2 ^ (20 - 54))%Q with (1 # (2 ^ 34))%Q in F.
    assert (Ef : (q * (1000000 # 1) == inject_Z (trunc q) * (1000000 # 1) + f * (1000000 # 1))%Q) by (unfold f; ring).
    rewrite Ef. clear Ef. clearbody b. generalize dependent (inject_Z (rne b)). generalize (inject_Z (trunc q)).
    intros k m R. change (1 # 2 ^ 34)%Q with (1 # 17179869184)%Q in *. apply Qabs_Qle_condition. split; lra.
Qed.

Lemma split_us d : d = d / SECOND * 1000000 + d mod SECOND /\ 0 <= d mod SECOND < 1000000 /\
  d / DAY * 60 * 60 * 24 + d mod DAY / SECOND = d / SECOND.
Proof. unfold DAY, SECOND. lia. Qed.

Lemma us_near u : 0 <= u < 1000000 ->
  (Qabs (fl (inject_Z u * c6) - inject_Z u * (1 # 1000000)) <= 1 # (2 ^ 51))%Q.
Proof.
  intros Hu. pose proof c6_near as C. apply Qabs_Qle_condition in C as [C1 C2].
  change (1 # 2 ^ 72)%Q with (1 # 4722366482869645213696)%Q in *.
  assert (U : (0 <= inject_Z u <= 999999 # 1)%Q) by (split; unfold Qle, inject_Z; cbn [Qnum Qden]; lia).
  assert (X : (inject_Z u * c6 - inject_Z u * (1 # 1000000) == inject_Z u * (c6 - (1 # 1000000)))%Q) by ring.
  set (m := inject_Z u) in *. clearbody m. set (e := (c6 - (1 # 1000000))%Q) in *.
  assert (E : (- (1 # 4503599627370496) <= m * e <= 1 # 4503599627370496)%Q) by (split; nra).
  assert (F : (Qabs (fl (m * c6) - m * c6) <= 2 ^ (0 - 54))%Q).
  { apply fl_err; [|lia]. change (2 ^ 0)%Q with 1%Q. apply Qabs_lt; lra. }
  change (2 ^ (0 - 54))%Q with (1 # 18014398509481984)%Q in F. apply Qabs_Qle_condition in F.
  change (1 # 2 ^ 51)%Q with (1 # 2251799813685248)%Q. apply Qabs_Qle_condition. split; lra.
Qed.

(** how near the float is to the number of seconds *)
Lemma seconds_near d k : - 2 ^ k < d / SECOND < 2 ^ k -> 0 <= k <= 40 ->
  (Qabs (timedeltaToSeconds d * (1000000 # 1) - inject_Z d) <= (1000000 # 1) * (2 ^ (k - 54) + (1 # (2 ^ 51))))%Q.
Proof.
  intros Hd Hk. destruct (split_us d) as (Ed & Hu & Es). unfold timedeltaToSeconds. rewrite Es.
  assert (P : 2 ^ k <= 2 ^ 40) by (apply Z.pow_le_mono_r; lia). change (2 ^ 40) with 1099511627776 in P.
  set (a := d / SECOND) in *. set (u := d mod SECOND) in *. clearbody a u. subst d.
  pose proof (us_near u Hu) as B. set (b := fl (inject_Z u * c6)) in *. clearbody b.
  assert (A : (fl (inject_Z a) == inject_Z a)%Q) by (apply fl_Z; lia). set (fa := fl (inject_Z a)) in *. clearbody fa.
  apply Qabs_Qle_condition in B. change (1 # 2 ^ 51)%Q with (1 # 2251799813685248)%Q in *.
  assert (U : (0 <= inject_Z u <= 999999 # 1)%Q) by (split; unfold Qle, inject_Z; cbn [Qnum Qden]; lia).
  assert (K : (inject_Z (2 ^ k) == 2 ^ k)%Q) by (rewrite (Qpower.Zpower_Qpower 2 k) by lia; reflexivity).
  assert (L : (- inject_Z (2 ^ k) + 1 <= inject_Z a)%Q).
  { rewrite <- inject_Z_opp. change 1%Q with (inject_Z 1). rewrite <- inject_Z_plus, <- Zle_Qle. lia. }
  assert (R : (inject_Z a + 1 <= inject_Z (2 ^ k))%Q).
  { change 1%Q with (inject_Z 1). rewrite <- inject_Z_plus, <- Zle_Qle. lia. }
  rewrite K in L, R.
  assert (F : (Qabs (fl (fa + b) - (fa + b)) <= 2 ^ (k - 54))%Q).
  { apply fl_err; [|lia]. apply Qabs_lt; lra. }
  apply Qabs_Qle_condition in F. rewrite inject_Z_plus, inject_Z_mult. change (inject_Z 1000000) with (1000000 # 1)%Q.
  set (s := fl (fa + b)) in *. clearbody s. generalize dependent (2 ^ (k - 54))%Q. intros w F. apply Qabs_Qle_condition. split; lra.
Qed.

Lemma EPOCH_eq : EPOCH = 719162 * DAY. Proof. reflexivity. Qed.

(** ** A timestamp read as a time *)
Theorem from_Ok x t : fromPOSIXTimestamp x = Ok t <-> ok_time t /\ t = T (EPOCH + accum x) 0.
Proof.
  unfold fromPOSIXTimestamp, timedelta_seconds. split.
  - destruct (td_ok (accum x)); cbn [rbind]; [|discriminate].
    destruct (add_td EPOCH (accum x)) as [l|] eqn:El; cbn [rbind fromDatetime dt_tz dt_local t_us]; [|discriminate].
    intros H. injection H as <-. apply add_td_Ok in El as [-> Hl]. now split.
  - intros [H ->]. unfold ok_time in H. cbn [t_us] in H.
    assert (E : td_ok (accum x) = true). { unfold td_ok. rewrite EPOCH_eq in H. unfold MAXT, DAY in *. lia. }
    rewrite E. cbn [rbind]. rewrite (proj2 (add_td_Ok EPOCH (accum x) _) (conj eq_refl H)). reflexivity.
Qed.

Theorem from_Err x e : fromPOSIXTimestamp x = Err e <-> e = OverflowError /\ ~ 0 <= EPOCH + accum x < MAXT.
Proof.
  destruct (fromPOSIXTimestamp x) as [t|e'] eqn:E.
  - apply from_Ok in E as [H ->]. split; [discriminate|]. intros [_ H']. now destruct (H' H).
  - assert (N : ~ 0 <= EPOCH + accum x < MAXT).
    { intros H. rewrite (proj2 (from_Ok x (T (EPOCH + accum x) 0)) (conj H eq_refl)) in E. discriminate. }
    assert (e' = OverflowError) as ->.
    { revert E. unfold fromPOSIXTimestamp, timedelta_seconds, add_td. destruct (td_ok (accum x)); cbn [rbind]; [|congruence].
      destruct (in_range (EPOCH + accum x)); cbn [rbind fromDatetime dt_tz dt_local]; congruence. }
    split; [intros H; injection H as <-; now split|now intros [-> _]].
Qed.

Theorem from_near x t : fromPOSIXTimestamp x = Ok t ->
  ok_time t /\ t_res t = 0 /\ (Qabs (inject_Z (t_us t - EPOCH) - number_us x) <= (1 # 2) + (1 # (2 ^ 34)))%Q.
Proof.
  intros H. apply from_Ok in H as [H ->]. split; [exact H|]. split; [reflexivity|].
  cbn [t_us]. replace (EPOCH + accum x - EPOCH) with (accum x) by lia. apply accum_near.
Qed.

(** ** The round trip *)
Lemma round_near t k e : - 2 ^ k < (t_us t - EPOCH) / SECOND < 2 ^ k -> 0 <= k <= 40 ->
  ((1000000 # 1) * (2 ^ (k - 54) + (1 # (2 ^ 51))) + (1 # 2) + (1 # (2 ^ 34)) < inject_Z e + 1)%Q ->
  Z.abs (accum (NFloat (asPOSIXTimestamp t)) - (t_us t - EPOCH)) <= e.
Proof.
  unfold asPOSIXTimestamp. set (d := t_us t - EPOCH). clearbody d. intros Hs Hk He. pose proof (seconds_near d k Hs Hk) as N.
  pose proof (accum_near (NFloat (timedeltaToSeconds d))) as A. cbn [number_us] in A. change (inject_Z 1000000) with (1000000 # 1)%Q in A.
  set (a := accum _) in *. set (s := (timedeltaToSeconds d * (1000000 # 1))%Q) in *. clearbody a s.
  apply Qabs_Qle_condition in N. apply Qabs_Qle_condition in A.
  assert (L : (inject_Z (a - d) < inject_Z (e + 1))%Q).
  { unfold Z.sub. rewrite !inject_Z_plus, inject_Z_opp. change (inject_Z 1) with 1%Q. lra. }
  assert (R : (inject_Z (d - a) < inject_Z (e + 1))%Q).
  { unfold Z.sub. rewrite !inject_Z_plus, inject_Z_opp. change (inject_Z 1) with 1%Q. lra. }
  rewrite <- Zlt_Qlt in L, R. lia.
Qed.

Theorem posix_round t : ok_time t -> - 2 ^ 33 < (t_us t - EPOCH) / SECOND < 2 ^ 33 ->
  fromPOSIXTimestamp (NFloat (asPOSIXTimestamp t)) = Ok (T (t_us t) 0).
Proof.
  intros Ht Hs. pose proof (round_near t 33 0 Hs ltac:(lia) ltac:(reflexivity)) as R. apply from_Ok.
  replace (EPOCH + accum (NFloat (asPOSIXTimestamp t))) with (t_us t) by lia. now split.
Qed.

Lemma in_36 t : ok_time t -> - 2 ^ 38 < (t_us t - EPOCH) / SECOND < 2 ^ 38.
Proof. unfold ok_time. rewrite EPOCH_eq. unfold MAXT, DAY, SECOND. lia. Qed.

(** for every time at all *)
Theorem posix_close t u : ok_time t -> fromPOSIXTimestamp (NFloat (asPOSIXTimestamp t)) = Ok u ->
  Z.abs (t_us u - t_us t) <= 15.
Proof.
  intros Ht Hu. apply from_Ok in Hu as [_ ->]. cbn [t_us].
  pose proof (round_near t 38 15 (in_36 t Ht) ltac:(lia) ltac:(reflexivity)) as R. lia.
Qed.

Theorem posix_total t : 15 <= t_us t -> t_us t + 15 < MAXT -> exists u, fromPOSIXTimestamp (NFloat (asPOSIXTimestamp t)) = Ok u.
Proof.
  intros H1 H2. assert (Ht : ok_time t) by (unfold ok_time; lia).
  pose proof (round_near t 38 15 (in_36 t Ht) ltac:(lia) ltac:(reflexivity)) as R.
  eexists. apply from_Ok. split; [|reflexivity]. unfold ok_time. cbn [t_us]. lia.
Qed.

(** whole seconds *)
Lemma seconds_whole n : Z.abs n < 2 ^ 53 -> (timedeltaToSeconds (n * SECOND) == inject_Z n)%Q.
Proof.
  intros H. unfold timedeltaToSeconds. destruct (split_us (n * SECOND)) as (_ & _ & E). rewrite E.
  rewrite Z.div_mul, Z.mod_mul by discriminate.
  assert (Z0 : (fl (inject_Z 0 * c6) == 0)%Q) by reflexivity.
  assert (A : (fl (inject_Z n) == inject_Z n)%Q) by now apply fl_Z.
  set (a := fl (inject_Z n)) in *. set (z := fl (inject_Z 0 * c6)) in *. clearbody a z.
  rewrite (fl_exact n 0 (a + z)); [rewrite A, Z0; ring| |exact H|lia].
  rewrite A, Z0. change (2 ^ 0)%Q with 1%Q. ring.
Qed.

Lemma accum_whole q n : (q == inject_Z n)%Q -> accum (NFloat q) = n * SECOND.
Proof.
  intros H. cbn [accum]. rewrite (trunc_Z q n H). change 1000000 with SECOND. set (r := ((q - inject_Z n) * inject_Z SECOND)%Q).
  assert (R : (r == 0)%Q) by (unfold r; rewrite H; ring).
  assert (E : (fl r == r)%Q) by (apply (fl_exact 0 0); [rewrite R; ring|reflexivity|lia]).
  rewrite (rne_compat (fl r) (inject_Z 0)) by (rewrite E, R; reflexivity). rewrite rne_Z. ring.
Qed.

Theorem posix_whole t n : ok_time t -> t_us t = EPOCH + n * SECOND ->
  (asPOSIXTimestamp t == inject_Z n)%Q /\ fromPOSIXTimestamp (NFloat (asPOSIXTimestamp t)) = Ok (T (t_us t) 0).
Proof.
  intros Ht E. assert (W : (asPOSIXTimestamp t == inject_Z n)%Q).
  { unfold asPOSIXTimestamp. rewrite E. replace (EPOCH + n * SECOND - EPOCH) with (n * SECOND) by lia. apply seconds_whole.
    unfold ok_time in Ht. rewrite E, EPOCH_eq in Ht. unfold MAXT, DAY, SECOND in Ht. lia. }
  split; [exact W|]. apply from_Ok. rewrite (accum_whole _ _ W), <- E. now split.
Qed.

(** ** Order *)
Lemma rne_mono p q : (p <= q)%Q -> rne p <= rne q.
Proof.
  intros H. pose proof (rne_bound p) as P. pose proof (rne_bound q) as Q. apply Qabs_Qle_condition in P, Q.
  destruct (Z_le_gt_dec (rne p) (rne q)) as [L|G]; [exact L|exfalso].
  assert (G1 : (inject_Z (rne q) + 1 <= inject_Z (rne p))%Q). { change 1%Q with (inject_Z 1). rewrite <- inject_Z_plus, <- Zle_Qle. lia. }
  assert (E : (p == q)%Q) by lra. rewrite (rne_compat p q E) in G. lia.
Qed.

Lemma flog2_mono p q : (0 < p)%Q -> (p <= q)%Q -> flog2 p <= flog2 q.
Proof.
  intros H0 H. pose proof (flog2_lower p H0) as L. pose proof (flog2_upper q ltac:(lra)) as U.
  assert (flog2 p < flog2 q + 1) by (apply pow2_lt_inv; lra). lia.
Qed.

Lemma fl_pos_mono p q : (0 < p)%Q -> (p <= q)%Q -> (fl_pos p <= fl_pos q)%Q.
Proof.
  intros H0 H. unfold fl_pos. cbv zeta. pose proof (flog2_mono p q H0 H) as M.
  assert (U : ulp_exp p <= ulp_exp q) by (unfold ulp_exp; lia).
  destruct (Z.eq_dec (ulp_exp p) (ulp_exp q)) as [E|N].
  - rewrite E. apply Qmult_le_r; [apply pow2_pos|]. rewrite <- Zle_Qle. apply rne_mono. apply Qmult_le_r; [apply pow2_pos|exact H].
  - (* between them lies the power of two 2 ^ (ulp_exp q + 52) *)
    assert (Eq : ulp_exp q = flog2 q - 52) by (unfold ulp_exp in *; lia).
    set (a := ulp_exp p) in *. set (b := ulp_exp q) in *.
    assert (P1 : (p * 2 ^ (- a) <= inject_Z (2 ^ (b + 52 - a)))%Q).
    { rewrite Qpower.Zpower_Qpower by lia. change (inject_Z 2) with 2%Q. unfold Z.sub. rewrite pow2_plus. apply Qmult_le_r; [apply pow2_pos|].
      pose proof (flog2_upper p H0) as Up. assert (flog2 p + 1 <= b + 52).
      { unfold a, ulp_exp in N. assert (flog2 p <> flog2 q) by (intros E; apply N; unfold b, ulp_exp; now rewrite E). lia. }
      pose proof (pow2_mono _ _ H1). lra. }
    assert (Q1 : (inject_Z (2 ^ 52) <= q * 2 ^ (- b))%Q).
    { pose proof (flog2_lower q ltac:(lra)) as Lq. replace (flog2 q) with (52 + b) in Lq by lia. rewrite pow2_plus in Lq.
      pose proof (pow2_pos (- b)) as Pb. pose proof (pow2_neg b) as Nb. change (inject_Z (2 ^ 52)) with (2 ^ 52)%Q.
      apply Qle_trans with ((2 ^ 52 * 2 ^ b) * 2 ^ (- b))%Q; [|now apply Qmult_le_r].
      rewrite <- Qmult_assoc, (Qmult_comm (2 ^ b)), Nb. lra. }
    apply rne_mono in P1, Q1. rewrite rne_Z in P1, Q1. rewrite (Zle_Qle (rne (p * 2 ^ - a))) in P1. rewrite (Zle_Qle _ (rne (q * 2 ^ - b))) in Q1.
    apply Qle_trans with (2 ^ 52 * 2 ^ b)%Q; [|change (inject_Z (2 ^ 52)) with (2 ^ 52)%Q in Q1; apply Qmult_le_r; [apply pow2_pos|exact Q1]].
    apply Qle_trans with (inject_Z (2 ^ (b + 52 - a)) * 2 ^ a)%Q; [apply Qmult_le_r; [apply pow2_pos|exact P1]|].
    rewrite Qpower.Zpower_Qpower by lia. change (inject_Z 2) with 2%Q. rewrite <- !pow2_plus.
    replace (b + 52 - a + a) with (52 + b) by lia. lra.
Qed.

Lemma fl_pos_nonneg q : (0 < q)%Q -> (0 <= fl_pos q)%Q.
Proof.
  intros H. unfold fl_pos. cbv zeta. apply Qmult_le_0_compat; [|apply Qlt_le_weak, pow2_pos].
  assert (G : (inject_Z 0 <= q * 2 ^ (- ulp_exp q))%Q). { apply Qmult_le_0_compat; [lra|apply Qlt_le_weak, pow2_pos]. }
  apply rne_mono in G. rewrite rne_Z in G. change 0%Q with (inject_Z 0). now rewrite <- Zle_Qle.
Qed.

Theorem fl_mono p q : (p <= q)%Q -> (fl p <= fl q)%Q.
Proof.
  intros H. unfold fl.
  assert (S : forall x, (match (Qnum x ?= 0)%Z with Lt => x < 0 | Eq => x == 0 | Gt => 0 < x end)%Q).
  { intros [n d]. cbn [Qnum]. destruct (Z.compare_spec n 0); unfold Qeq, Qlt; cbn [Qnum Qden]; lia. }
  pose proof (S p) as Sp. pose proof (S q) as Sq. destruct (Qnum p ?= 0)%Z, (Qnum q ?= 0)%Z; try lra.
  - now apply fl_pos_nonneg.
  - pose proof (fl_pos_nonneg (- p) ltac:(lra)). lra.
  - pose proof (fl_pos_mono (- q) (- p) ltac:(lra) ltac:(lra)). lra.
  - pose proof (fl_pos_nonneg (- p) ltac:(lra)). pose proof (fl_pos_nonneg q ltac:(lra)). lra.
  - now apply fl_pos_mono.
Qed.

Theorem posix_mono t u : ok_time t -> ok_time u -> t_us t <= t_us u -> (asPOSIXTimestamp t <= asPOSIXTimestamp u)%Q.
Proof.
  intros Ht Hu H. pose proof (in_36 t Ht) as Bt. pose proof (in_36 u Hu) as Bu. unfold asPOSIXTimestamp.
  set (d := t_us t - EPOCH) in *. set (e := t_us u - EPOCH) in *. assert (L : d <= e) by lia. clearbody d e. clear Ht Hu H.
  unfold timedeltaToSeconds. destruct (split_us d) as (Ed & Hd & ->). destruct (split_us e) as (Ee & He & ->).
  set (a := d / SECOND) in *. set (b := e / SECOND) in *. set (m := d mod SECOND) in *. set (n := e mod SECOND) in *. clearbody a b m n.
  assert (A : (fl (inject_Z a) == inject_Z a)%Q) by (apply fl_Z; lia). assert (B : (fl (inject_Z b) == inject_Z b)%Q) by (apply fl_Z; lia).
  apply fl_mono. rewrite A, B. destruct (Z_lt_le_dec a b) as [G|G].
  - assert (G1 : (inject_Z a + 1 <= inject_Z b)%Q). { change 1%Q with (inject_Z 1). rewrite <- inject_Z_plus, <- Zle_Qle. lia. }
    pose proof (us_near m Hd) as M. pose proof (us_near n He) as N. apply Qabs_Qle_condition in M, N.
    set (x := fl (inject_Z m * c6)) in *. set (y := fl (inject_Z n * c6)) in *. clearbody x y.
    assert (U : (inject_Z m <= 999999 # 1)%Q) by (unfold Qle, inject_Z; cbn [Qnum Qden]; lia).
    assert (V : (0 <= inject_Z n)%Q) by (unfold Qle, inject_Z; cbn [Qnum Qden]; lia).
    change (1 # 2 ^ 51)%Q with (1 # 2251799813685248)%Q in *. lra.
  - assert (a = b) by lia. subst b. assert (m <= n) by lia. apply Qplus_le_r, fl_mono. apply Qmult_le_r; [reflexivity|]. rewrite <- Zle_Qle. lia.
Qed.

(** near enough 1970, different times have different timestamps *)
Theorem posix_injective t u : ok_time t -> ok_time u ->
  - 2 ^ 33 < (t_us t - EPOCH) / SECOND < 2 ^ 33 -> - 2 ^ 33 < (t_us u - EPOCH) / SECOND < 2 ^ 33 ->
  (asPOSIXTimestamp t == asPOSIXTimestamp u)%Q -> t_us t = t_us u.
Proof.
  unfold asPOSIXTimestamp. intros _ _ Bt Bu H. pose proof (seconds_near _ 33 Bt ltac:(lia)) as T. pose proof (seconds_near _ 33 Bu ltac:(lia)) as U.
  set (d := t_us t - EPOCH) in *. set (e := t_us u - EPOCH) in *. assert (d = e); [|lia]. clearbody d e. rewrite H in T.
  apply Qabs_Qle_condition in T, U. set (s := timedeltaToSeconds e) in *. clearbody s.
  change ((1000000 # 1) * (2 ^ (33 - 54) + (1 # 2 ^ 51)))%Q with ((1000000 # 1) * ((1 # 2097152) + (1 # 2251799813685248)))%Q in *.
  assert (L : (inject_Z d < inject_Z (e + 1))%Q). { rewrite inject_Z_plus. change (inject_Z 1) with 1%Q. lra. }
  assert (R : (inject_Z e < inject_Z (d + 1))%Q). { rewrite inject_Z_plus. change (inject_Z 1) with 1%Q. lra. }
  rewrite <- Zlt_Qlt in L, R. lia.
Qed.
