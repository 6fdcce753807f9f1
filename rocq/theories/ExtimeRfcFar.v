(** * asRFC1123 far from 1970 (epsilon/extime.py:732-740; the model is in ExtimeRfc.v) *)

From Coq Require Import ZArith NArith QArith Qabs Lqa String List Bool Lia.
From Verif Require Import Py PyNum Cal PyTime Extime PyFloat ExtimeIsoFmt ExtimePosix ExtimeRfc ExtimeRfcVal ExtimeRfcFmt.
Import ListNotations.
Open Scope Z_scope.

(** reading a float of at least [n] seconds gives no less *)
Lemma accum_least q n : (inject_Z n <= q)%Q -> n * SECOND <= accum (NFloat q).
Proof.
  intros H. cbn [accum]. change SECOND with 1000000. pose proof (trunc_bound q) as T. apply Qabs_Qlt_condition in T. set (k := trunc q) in *. clearbody k.
  assert (K : n <= k). { destruct (Z_lt_le_dec k n) as [L|L]; [exfalso|exact L]. assert (L' : (inject_Z k + 1 <= inject_Z n)%Q) by (change 1%Q with (inject_Z 1); rewrite <- inject_Z_plus, <- Zle_Qle; lia). lra. }
  destruct (Z_lt_le_dec n k) as [L|L].
  - assert (M : (fl (inject_Z (-1000000)) <= fl ((q - inject_Z k) * inject_Z 1000000))%Q).
    { apply fl_mono. change (inject_Z (-1000000)) with (-1 * inject_Z 1000000)%Q. apply Qmult_le_r; [reflexivity|]. lra. }
    apply rne_mono in M. assert (E : rne (fl (inject_Z (-1000000))) = -1000000) by (vm_compute; reflexivity). rewrite E in M. lia.
  - assert (k = n) by lia. subst k. assert (M : (fl 0 <= fl ((q - inject_Z n) * inject_Z 1000000))%Q).
    { apply fl_mono. apply Qmult_le_0_compat; [lra|discriminate]. }
    apply rne_mono in M. change (rne (fl 0)) with 0 in M. lia.
Qed.

Lemma mod_over t b c : 0 < b -> 0 < c -> t mod (b * c) / b = (t / b) mod c.
Proof.
  intros Hb Hc. rewrite Z.rem_mul_r by lia. rewrite (Z.mul_comm b), Z.div_add by lia. rewrite Z.div_small by (apply Z.mod_pos_bound; exact Hb). lia.
Qed.
(** the date and the time of day to the second depend on the second only *)
Lemma whole_second a b : a / SECOND = b / SECOND -> whole (fields_of a) = whole (fields_of b).
Proof.
  intros H.
  assert (D : a / DAY = b / DAY). { change DAY with (SECOND * 86400). rewrite <- !Z.div_div by (cbv; congruence). now rewrite H. }
  assert (Hh : a mod DAY / HOUR = b mod DAY / HOUR). { change DAY with (HOUR * 24). rewrite !mod_over by reflexivity. change HOUR with (SECOND * 3600). rewrite <- !Z.div_div by (cbv; congruence). now rewrite H. }
  assert (M : a mod HOUR / MINUTE = b mod HOUR / MINUTE). { change HOUR with (MINUTE * 60). rewrite !mod_over by reflexivity. change MINUTE with (SECOND * 60). rewrite <- !Z.div_div by (cbv; congruence). now rewrite H. }
  assert (S : a mod MINUTE / SECOND = b mod MINUTE / SECOND). { change MINUTE with (SECOND * 60). rewrite !mod_over by reflexivity. now rewrite H. }
  unfold whole, fields_of. cbn [f_date f_hour f_min f_sec]. now rewrite D, Hh, M, S.
Qed.

(** what is written lies between the start of the second and 15 microseconds after *)
Theorem written_second t : ok_time t ->
  t_us t / SECOND * SECOND <= EPOCH + accum (NFloat (asPOSIXTimestamp t)) <= t_us t + 15.
Proof.
  intros Ht. pose proof (round_near t 38 15 (in_36 t Ht) ltac:(lia) ltac:(reflexivity)) as R. split; [|lia].
  set (s := T (t_us t / SECOND * SECOND) 0). assert (Hs : ok_time s) by (unfold ok_time, s in *; cbn [t_us]; unfold MAXT, DAY, SECOND in *; lia).
  assert (E : t_us s = EPOCH + (t_us s - EPOCH) / SECOND * SECOND). { unfold s. cbn [t_us]. rewrite EPOCH_eq. unfold DAY, SECOND in *. lia. }
  destruct (posix_whole s _ Hs E) as [W _]. assert (L : t_us s <= t_us t) by (unfold s; cbn [t_us]; unfold SECOND; lia).
  pose proof (posix_mono s t Hs Ht L) as P. rewrite W in P. apply accum_least in P. change (t_us s) with (t_us t / SECOND * SECOND) in *. lia.
Qed.

Theorem as_1123_far t : ok_time t ->
  (exists s, asRFC1123 t = Ok s /\
     (rfc_text (whole (fields_of (t_us t))) 0 s \/
      SECOND - 15 <= t_us t mod SECOND /\ rfc_text (whole (fields_of (t_us t + 15))) 0 s)) \/
  (asRFC1123 t = Err ValueError /\ MAXT - 15 <= t_us t).
Proof.
  intros Ht. pose proof (written_second t Ht) as W. pose proof (formatdate_text (asPOSIXTimestamp t)) as F. cbv zeta in F. unfold asRFC1123.
  set (w := EPOCH + accum (NFloat (asPOSIXTimestamp t))) in *. destruct (Z_lt_le_dec w MAXT) as [L|L].
  - left. assert (R : 0 <= w < MAXT). { unfold ok_time in Ht. clear F. unfold SECOND in W. lia. } destruct (F R) as (s & E & X). exists s. split; [exact E|].
    destruct (Z.eq_dec (w / SECOND) (t_us t / SECOND)) as [Q|Q]; [left; now rewrite <- (whole_second w (t_us t) Q)|right].
    assert (Q' : SECOND - 15 <= t_us t mod SECOND /\ w / SECOND = (t_us t + 15) / SECOND) by (clear - W Q; clearbody w; unfold SECOND in *; lia).
    destruct Q' as [Q1 Q2]. split; [exact Q1|]. now rewrite <- (whole_second _ _ Q2).
  - right. split; [|clear - W L; clearbody w; lia]. unfold formatdate. fold w. unfold in_range. replace (w <? MAXT) with false by (symmetry; apply Z.ltb_ge; exact L). now rewrite andb_false_r.
Qed.
