(** * Properties C59 and C91: POSIX timestamps *)

From Coq Require Import ZArith QArith Qabs Lqa Lia.
From Verif Require Import Py Cal PyTime Extime PyFloat ExtimePosix.
Open Scope Z_scope.

(** ** C59 *)

(** the full claim: every time comes back from its timestamp *)
Definition C59_full : Prop := forall t, ok_time t ->
  exists u, fromPOSIXTimestamp (NFloat (asPOSIXTimestamp t)) = Ok u /\ t_us u = t_us t.

(** It is false: a float cannot hold the microseconds of a far date.  The last
    microsecond of the year 9999 even raises OverflowError, and
    9000-01-01T00:00:00.000001 comes back as another time. *)
Theorem C59_round_refuted :
  (exists t, ok_time t /\ fromPOSIXTimestamp (NFloat (asPOSIXTimestamp t)) = Err OverflowError) /\
  (exists t u, ok_time t /\ fields_of (t_us t) = F (D 9000 1 1) 0 0 0 1 /\
    fromPOSIXTimestamp (NFloat (asPOSIXTimestamp t)) = Ok u /\ t_us u <> t_us t) /\
  ~ C59_full.
Proof.
  assert (H1 : ok_time (T (MAXT - 1) 1) /\ fromPOSIXTimestamp (NFloat (asPOSIXTimestamp (T (MAXT - 1) 1))) = Err OverflowError).
  { split; [split; [discriminate|reflexivity]|vm_compute; reflexivity]. }
  split; [exact (ex_intro _ _ H1)|]. split.
  - exists (T ((ymd2ord (D 9000 1 1) - 1) * DAY + 1) 1). eexists. split; [split; [discriminate|reflexivity]|].
    split; [vm_compute; reflexivity|]. split; [vm_compute; reflexivity|]. discriminate.
  - intros H. destruct H1 as [A B]. destruct (H _ A) as (u & E & _). congruence.
Qed.
Print Assumptions C59_round_refuted.

(** What holds: less than 2^33 seconds from 1970 (the years 1698 to 2242) the
    time comes back to the microsecond. *)
Theorem C59_round_partial : forall t, ok_time t -> - 2 ^ 33 < (t_us t - EPOCH) / SECOND < 2 ^ 33 ->
  exists u, fromPOSIXTimestamp (NFloat (asPOSIXTimestamp t)) = Ok u /\ t_us u = t_us t.
Proof. intros t H1 H2. exists (T (t_us t) 0). split; [now apply posix_round|reflexivity]. Qed.
Print Assumptions C59_round_partial.

(** A time of whole seconds has its count of seconds for a timestamp and comes
    back, whatever its date. *)
Theorem C59_seconds_partial : forall t n, ok_time t -> t_us t = EPOCH + n * SECOND ->
  (asPOSIXTimestamp t == inject_Z n)%Q /\
  exists u, fromPOSIXTimestamp (NFloat (asPOSIXTimestamp t)) = Ok u /\ t_us u = t_us t.
Proof.
  intros t n H1 H2. destruct (posix_whole t n H1 H2) as [E R]. split; [exact E|].
  exists (T (t_us t) 0). now split.
Qed.
Print Assumptions C59_seconds_partial.

(** Any time comes back within 15 microseconds, unless it is that near to
    either end of the calendar. *)
Theorem C59_close_partial : forall t, 15 <= t_us t -> t_us t + 15 < MAXT ->
  exists u, fromPOSIXTimestamp (NFloat (asPOSIXTimestamp t)) = Ok u /\ Z.abs (t_us u - t_us t) <= 15.
Proof.
  intros t H1 H2. destruct (posix_total t H1 H2) as [u Hu]. exists u. split; [exact Hu|].
  apply (posix_close t u); [unfold ok_time; lia|exact Hu].
Qed.
Print Assumptions C59_close_partial.

(** The time read from a number of seconds, int or float, lies at most half a
    microsecond (and the rounding of the fraction) from it; OverflowError is
    raised only for numbers outside the calendar. *)
Theorem C59_reads : forall x,
  match fromPOSIXTimestamp x with
  | Ok t => ok_time t /\ (Qabs (inject_Z (t_us t - EPOCH) - number_us x) <= (1 # 2) + (1 # (2 ^ 34)))%Q
  | Err e => e = OverflowError /\ (number_us x < inject_Z (- EPOCH) + 1 \/ inject_Z (MAXT - EPOCH) - 1 < number_us x)%Q
  end.
Proof.
  intros x. destruct (fromPOSIXTimestamp x) as [t|e] eqn:E.
  - apply from_near in E as (H & _ & N). now split.
  - apply from_Err in E as [-> N]. split; [reflexivity|]. pose proof (accum_near x) as A. apply Qabs_Qle_condition in A.
    change (1 # 2 ^ 34)%Q with (1 # 17179869184)%Q in A.
    assert (C : accum x <= - EPOCH - 1 \/ MAXT - EPOCH <= accum x) by lia. destruct C as [C|C].
    + left. rewrite Zle_Qle in C. unfold Z.sub in C. rewrite inject_Z_plus in C. change (inject_Z (- (1))) with (- (1))%Q in C. lra.
    + right. rewrite Zle_Qle in C. lra.
Qed.
Print Assumptions C59_reads.

Theorem C59_reads_int : forall n, 0 <= EPOCH + n * SECOND < MAXT ->
  fromPOSIXTimestamp (NInt n) = Ok (T (EPOCH + n * SECOND) 0).
Proof. intros n H. apply from_Ok. now split. Qed.
Print Assumptions C59_reads_int.

Example C59_nonvacuous : let t := T ((ymd2ord (D 2242 3 15) - 1) * DAY + 123457) 1 in
  ok_time t /\ - 2 ^ 33 < (t_us t - EPOCH) / SECOND < 2 ^ 33 /\ t_us t mod SECOND <> 0 /\
  fromPOSIXTimestamp (NFloat (asPOSIXTimestamp t)) = Ok (T (t_us t) 0) /\
  fields_of EPOCH = F (D 1970 1 1) 0 0 0 0.
Proof.
  cbv zeta. split; [split; [discriminate|reflexivity]|]. split; [split; reflexivity|]. split; [discriminate|].
  split; vm_compute; reflexivity.
Qed.

(** ** C91 *)

(** Timestamps keep the order of times *)
Theorem C91_order : forall t u, ok_time t -> ok_time u -> t_us t <= t_us u ->
  (asPOSIXTimestamp t <= asPOSIXTimestamp u)%Q.
Proof. exact posix_mono. Qed.
Print Assumptions C91_order.

(** and less than 2^33 seconds from 1970 keep them apart. *)
Theorem C91_distinct : forall t u, ok_time t -> ok_time u ->
  - 2 ^ 33 < (t_us t - EPOCH) / SECOND < 2 ^ 33 -> - 2 ^ 33 < (t_us u - EPOCH) / SECOND < 2 ^ 33 ->
  t_us t < t_us u -> (asPOSIXTimestamp t < asPOSIXTimestamp u)%Q.
Proof.
  intros t u Ht Hu Bt Bu H. destruct (Qlt_le_dec (asPOSIXTimestamp t) (asPOSIXTimestamp u)) as [L|G]; [exact L|exfalso].
  pose proof (posix_mono t u Ht Hu ltac:(lia)) as L.
  assert (E : (asPOSIXTimestamp t == asPOSIXTimestamp u)%Q) by lra.
  pose proof (posix_injective t u Ht Hu Bt Bu E). lia.
Qed.
Print Assumptions C91_distinct.

Example C91_nonvacuous : let t := T EPOCH 1 in let u := T (EPOCH + 1) 1 in
  ok_time t /\ ok_time u /\ t_us t < t_us u /\ (asPOSIXTimestamp t < asPOSIXTimestamp u)%Q.
Proof. cbv zeta. split; [split; [discriminate|reflexivity]|]. split; [split; [discriminate|reflexivity]|]. split; vm_compute; reflexivity. Qed.
