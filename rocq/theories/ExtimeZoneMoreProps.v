(** * C167 and C168: noon, midnight and bounds in timezones with summer time *)

From Coq Require Import ZArith NArith String List Bool Lia.
From Verif Require Import Py PyNum Cal PyTime Extime ExtimeHumanly ExtimeZone ExtimeZoneProps ExtimeZoneMore.
Import ListNotations.
Open Scope Z_scope.

(** São Paulo from 2005 to 2006: from the midnight before October 16th to the one before
    February 19th *)
Definition sp_summer (l : Z) : bool := (63265017600000000 <=? l) && (l <? 63275904000000000).
Definition sp : tzone := summer_zone (-3 * HOUR) HOUR sp_summer.
Example sp_dates : datetime (F (D 2005 10 16) 0 0 0 0) = Ok 63265017600000000 /\ datetime (F (D 2006 2 19) 0 0 0 0) = Ok 63275904000000000.
Proof. vm_compute. split; reflexivity. Qed.

(** ** C167: noon and midnight typed in a zone *)

(** from the start of the current hour on, and shown as typed *)
Definition C167_full : Prop := forall std save (summer : Z -> bool) now (noon : bool), usable std save now -> isTimezoneDependent now = true ->
  exists u l l', asDatetimeZ now (summer_zone std save summer) = Ok l /\ fromNoonZ now (summer_zone std save summer) noon = Ok u /\
    t_us now - l mod HOUR <= t_us u /\ asDatetimeZ u (summer_zone std save summer) = Ok l' /\ l' mod DAY = (if noon then 12 * HOUR else 0).

(** In the evening before summer starts, at 22:30, midnight is taken to be 23:00. *)
Theorem C167_midnight_refuted :
  let now := T (63265017600000000 + 3 * HOUR - 90 * MINUTE) 1 in
  asDatetimeZ now sp = datetime (F (D 2005 10 15) 22 30 0 0) /\
  (exists u, fromNoonZ now sp false = Ok u /\ asDatetimeZ u sp = datetime (F (D 2005 10 15) 23 0 0 0)) /\ ~ C167_full.
Proof.
  cbv zeta. split; [vm_compute; reflexivity|]. split; [exists (T (63265017600000000 + 2 * HOUR) MINUTE); split; vm_compute; reflexivity|]. intros F.
  destruct (F (-3 * HOUR) HOUR sp_summer (T (63265017600000000 + 3 * HOUR - 90 * MINUTE) 1) false) as (u & l & l' & _ & E2 & _ & E4 & E5).
  - unfold usable, HOUR, MINUTE, MAXT, DAY. cbn [t_us]. lia.
  - reflexivity.
  - vm_compute in E2. injection E2 as <-. vm_compute in E4. injection E4 as <-. vm_compute in E5. discriminate.
Qed.
Print Assumptions C167_midnight_refuted.

(** What is typed is the next noon or midnight, from the start of the current hour on, of
    a clock never put back or forward, [L], at the offset of it; it is shown as [L]
    exactly if the clock does not skip [L], and is before the current hour exactly if the
    clock is put forward by [L], which is less than the saving from the start of that
    hour. *)
Theorem C167_exact_partial : forall std save (summer : Z -> bool) now (noon : bool), usable std save now -> isTimezoneDependent now = true -> 7 * DAY <= t_us now < MAXT - 7 * DAY ->
  let l := if summer (t_us now + std) then t_us now + std + save else t_us now + std in
  exists L u l', asDatetimeZ now (summer_zone std save summer) = Ok l /\
    (l - l mod HOUR <= L < l - l mod HOUR + DAY /\ L mod DAY = if noon then 12 * HOUR else 0) /\
    fromNoonZ now (summer_zone std save summer) noon = Ok u /\ t_res u = MINUTE /\ t_us u = (if summer L then L - std - save else L - std) /\
    asDatetimeZ u (summer_zone std save summer) = Ok l' /\ (l' = L <-> ~ (summer L = true /\ summer (L - save) = false)) /\
    (t_us u < t_us now - l mod HOUR <-> summer (t_us now + std) = false /\ summer L = true /\ L - (l - l mod HOUR) < save).
Proof. exact noon_exact. Qed.
Print Assumptions C167_exact_partial.

(** For any tzinfo: the local time of the next noon or midnight is read with the offset the
    tzinfo gives it. *)
Theorem C167_any_partial : forall now z (noon : bool) l, asDatetimeZ now z = Ok l -> 0 <= l < MAXT - DAY ->
  exists L, (l - l mod HOUR <= L < l - l mod HOUR + DAY /\ L mod DAY = if noon then 12 * HOUR else 0) /\
    forall u, fromNoonZ now z noon = Ok u <-> - DAY < z_off z L < DAY /\ 0 <= L - z_off z L < MAXT /\ u = T (L - z_off z L) MINUTE.
Proof.
  intros now z noon l E Hl. destruct (noon_reads now z noon l E Hl) as (L & N & R). exists L. split; [exact N|]. intros u. rewrite R. split.
  - destruct (fromDatetimeZ L z) as [t|] eqn:F; [|discriminate]. cbn [rbind]. intros H. injection H as <-. apply reads_Ok in F. destruct F as (F1 & F2 & ->). auto.
  - intros (F1 & F2 & ->). rewrite (proj2 (reads_Ok L z (T (L - z_off z L) 1))) by auto. reflexivity.
Qed.
Print Assumptions C167_any_partial.

(** at 8:30 on a morning in August: that noon and that midnight *)
Example C167_nonvacuous : let now := T (63265017600000000 - 60 * DAY + 11 * HOUR + 30 * MINUTE) 1 in usable (-3 * HOUR) HOUR now /\ isTimezoneDependent now = true /\
  7 * DAY <= t_us now < MAXT - 7 * DAY /\ asDatetimeZ now sp = datetime (F (D 2005 8 17) 8 30 0 0) /\
  (exists u, fromNoonZ now sp true = Ok u /\ asDatetimeZ u sp = datetime (F (D 2005 8 17) 12 0 0 0)) /\
  (exists u, fromNoonZ now sp false = Ok u /\ asDatetimeZ u sp = datetime (F (D 2005 8 18) 0 0 0 0)).
Proof.
  cbv zeta. split; [unfold usable, HOUR, MINUTE, MAXT, DAY; cbn [t_us]; lia|]. split; [reflexivity|]. split; [unfold HOUR, MINUTE, MAXT, DAY; cbn [t_us]; lia|]. split; [vm_compute; reflexivity|].
  split; [exists (T (63265017600000000 - 60 * DAY + 15 * HOUR) MINUTE)|exists (T (63265017600000000 - 60 * DAY + 27 * HOUR) MINUTE)]; split; vm_compute; reflexivity.
Qed.

(** ** C168: bounds in a zone *)

(** every instant shown in the zone as a local time of the period is within the bounds *)
Definition C168_full (lt : time -> time -> res bool) : Prop := forall std save (summer : Z -> bool) t,
  DAY <= t_res t -> - DAY < std < DAY -> 0 < save < DAY -> - DAY < std + save < DAY -> 4 * DAY <= t_us t -> t_us t + t_res t < MAXT - 4 * DAY ->
  exists lo hi, getBoundsZ lt t (summer_zone std save summer) = Ok (lo, hi) /\
    forall i l, isTimezoneDependent i = true -> usable std save i -> asDatetimeZ i (summer_zone std save summer) = Ok l ->
      t_us t <= l < t_us t + t_res t -> t_us lo <= t_us i < t_us hi.

(** Python 3 cannot order the Times. With the order of Python 2: the bounds of the last day
    before summer, in São Paulo, end an hour before the day does. *)
Theorem C168_bounds_refuted : (forall t z, exists e, getBoundsZ py3_lt t z = Err e) /\ ~ C168_full py3_lt /\
  (let day := T (63265017600000000 - DAY) DAY in let i := T (63265017600000000 + 3 * HOUR - 30 * MINUTE) 1 in
   asDatetimeZ i sp = datetime (F (D 2005 10 15) 23 30 0 0) /\
   exists lo hi, getBoundsZ py2_lt day sp = Ok (lo, hi) /\ t_us hi = t_us i - 30 * MINUTE) /\ ~ C168_full py2_lt.
Proof.
  assert (P : 63265017600000000 + 14 * DAY < MAXT) by (unfold MAXT, DAY; lia).
  split; [exact boundsZ_py3|]. split.
  - intros F. destruct (F (-3 * HOUR) HOUR sp_summer (T (63265017600000000 - DAY) DAY)) as (lo & hi & E & _); try (unfold HOUR, DAY in *; cbn [t_us t_res]; lia).
    destruct (boundsZ_py3 (T (63265017600000000 - DAY) DAY) (summer_zone (-3 * HOUR) HOUR sp_summer)) as (e & E'). rewrite E in E'. discriminate.
  - split; [cbv zeta; split; [vm_compute; reflexivity|]; exists (T (63265017600000000 - DAY) 1), (T (63265017600000000 + 2 * HOUR) 1); split; vm_compute; reflexivity|].
    intros F. destruct (F (-3 * HOUR) HOUR sp_summer (T (63265017600000000 - DAY) DAY)) as (lo & hi & E & H); try (unfold HOUR, DAY in *; cbn [t_us t_res]; lia).
    vm_compute in E. injection E as <- <-.
    destruct (H (T (63265017600000000 + 3 * HOUR - 30 * MINUTE) 1) (63265017600000000 - 30 * MINUTE)) as [_ B].
    + reflexivity.
    + unfold usable, HOUR, MINUTE, DAY in *; cbn [t_us]; lia.
    + vm_compute; reflexivity.
    + unfold MINUTE, DAY; cbn [t_us t_res]; lia.
    + vm_compute in B. discriminate.
Qed.
Print Assumptions C168_bounds_refuted.

(** With the order of Python 2 it holds if the clock is neither put back nor forward
    around the start and the end of the period. *)
Theorem C168_steady_partial : forall std save (summer : Z -> bool) t, 
  DAY <= t_res t -> - DAY < std < DAY -> 0 < save < DAY -> - DAY < std + save < DAY -> 4 * DAY <= t_us t -> t_us t + t_res t < MAXT - 4 * DAY ->
  (forall x, t_us t - save <= x <= t_us t -> summer x = summer (t_us t)) ->
  (forall x, t_us t + t_res t - save <= x <= t_us t + t_res t -> summer x = summer (t_us t + t_res t)) ->
  exists lo hi, getBoundsZ py2_lt t (summer_zone std save summer) = Ok (lo, hi) /\ t_us lo <= t_us t /\ t_us t + t_res t <= t_us hi /\
    forall i l, isTimezoneDependent i = true -> usable std save i -> asDatetimeZ i (summer_zone std save summer) = Ok l ->
      t_us t <= l < t_us t + t_res t -> t_us lo <= t_us i < t_us hi.
Proof.
  intros std save summer t Hr H1 H2 H3 H4 H5 S0 S1. assert (Ht : ok_time t) by (unfold ok_time, DAY in *; lia).
  destruct (boundsZ_hold std save summer t Ht Hr H1 H2 H3 H4 H5 S0 S1) as (lo & hi & E & L & U & B). exists lo, hi. split; [exact E|]. split; [exact L|]. split; [exact U|].
  intros i l Hd Hu El Hl. pose proof Hu as (_ & _ & _ & Hi). apply (B i l Hd); auto. unfold ok_time, DAY in *. lia.
Qed.
Print Assumptions C168_steady_partial.

(** For any tzinfo, the bounds: of the start and the end, each as if in UTC and as in the
    zone, the outer ones. *)
Theorem C168_any_partial : forall t z, ok_time t -> DAY <= t_res t -> t_us t + t_res t < MAXT ->
  let e := t_us t + t_res t in
  (forall l, l = t_us t \/ l = e -> - DAY < z_off z l < DAY /\ 0 <= l - z_off z l < MAXT) ->
  exists lo hi, getBoundsZ py2_lt t z = Ok (lo, hi) /\ t_us lo = Z.min (t_us t) (t_us t - z_off z (t_us t)) /\ t_us hi = Z.max e (e - z_off z e).
Proof. exact boundsZ_py2. Qed.
Print Assumptions C168_any_partial.

(** a week of summer *)
Example C168_nonvacuous : let t := T (63265017600000000 + 7 * DAY) (7 * DAY) in
  DAY <= t_res t /\ 4 * DAY <= t_us t /\ t_us t + t_res t < MAXT - 4 * DAY /\
  (forall x, t_us t - HOUR <= x <= t_us t -> sp_summer x = sp_summer (t_us t)) /\
  (forall x, t_us t + t_res t - HOUR <= x <= t_us t + t_res t -> sp_summer x = sp_summer (t_us t + t_res t)) /\
  (let i := T (63265017600000000 + 14 * DAY + HOUR) 1 in usable (-3 * HOUR) HOUR i /\ isTimezoneDependent i = true /\ asDatetimeZ i sp = datetime (F (D 2005 10 29) 23 0 0 0)) /\
  exists lo hi, getBoundsZ py2_lt t sp = Ok (lo, hi) /\ t_us lo = t_us t /\ t_us hi = t_us t + 7 * DAY + 2 * HOUR.
Proof.
  cbv zeta. do 3 (split; [unfold HOUR, MAXT, DAY; cbn [t_us t_res]; lia|]).
  do 2 (split; [unfold sp_summer, HOUR, DAY; cbn [t_us t_res]; intros; lia|]).
  split; [split; [unfold usable, HOUR, MAXT, DAY; cbn [t_us]; lia|split; [reflexivity|vm_compute; reflexivity]]|].
  exists (T (63265017600000000 + 7 * DAY) 1), (T (63265017600000000 + 14 * DAY + 2 * HOUR) 1). split; [vm_compute; reflexivity|]. split; vm_compute; reflexivity.
Qed.
