(** * C158 to C160: Times in timezones with summer time *)

From Coq Require Import ZArith NArith String List Bool Lia.
From Verif Require Import Py PyNum Cal PyTime Extime ExtimeIso ExtimeIsoFmt ExtimeRfc ExtimeRfcFmt ExtimeRfcProps ExtimeZone.
Import ListNotations.
Open Scope Z_scope.

(** New York in 2005: from 2:00 on April 3rd to 2:00 on October 30th *)
Definition ny_summer (l : Z) : bool := (63248090400000000 <=? l) && (l <? 63266234400000000).
Definition ny : tzone := summer_zone (-5 * HOUR) HOUR ny_summer.
Example ny_dates : datetime (F (D 2005 4 3) 2 0 0 0) = Ok 63248090400000000 /\ datetime (F (D 2005 10 30) 2 0 0 0) = Ok 63266234400000000.
Proof. vm_compute. split; reflexivity. Qed.
(** 6:30 UTC on that October 30th *)
Definition t0 : time := T 63266250600000000 1.
Lemma t0_usable : usable (-5 * HOUR) HOUR t0.
Proof. unfold usable, t0, HOUR, MAXT, DAY. cbn [t_us]. lia. Qed.

(** ** C158: shown in a zone and read back *)

Definition C158_full : Prop := forall std save (summer : Z -> bool) t, usable std save t -> isTimezoneDependent t = true ->
  exists l u, asDatetimeZ t (summer_zone std save summer) = Ok l /\ fromDatetimeZ l (summer_zone std save summer) = Ok u /\ time_eq u t = true.

(** The last hour of summer is shown an hour late: half past one in the morning is shown
    as half past two, and read back as another time. *)
Theorem C158_round_refuted :
  asDatetimeZ t0 ny = datetime (F (D 2005 10 30) 2 30 0 0) /\
  (exists l, asDatetimeZ t0 ny = Ok l /\ fromDatetimeZ l ny = Ok (T (t_us t0 + HOUR) 1)) /\ ~ C158_full.
Proof.
  split; [vm_compute; reflexivity|]. split; [exists 63266236200000000; split; vm_compute; reflexivity|]. intros F.
  destruct (F (-5 * HOUR) HOUR ny_summer t0 t0_usable eq_refl) as (l & u & E1 & E2 & E3). vm_compute in E1. injection E1 as <-. vm_compute in E2. injection E2 as <-. vm_compute in E3. discriminate.
Qed.
Print Assumptions C158_round_refuted.

(** At any other time it comes back; and in that hour it comes back later by the
    saving. *)
Theorem C158_exact_partial : forall std save (summer : Z -> bool) t, usable std save t -> isTimezoneDependent t = true ->
  exists l u, asDatetimeZ t (summer_zone std save summer) = Ok l /\ fromDatetimeZ l (summer_zone std save summer) = Ok u /\
    l = (if summer (t_us t + std) then t_us t + std + save else t_us t + std) /\
    t_us u = (if ending std save summer (t_us t) then t_us t + save else t_us t) /\
    (time_eq u t = true <-> ~ (summer (t_us t + std) = true /\ summer (t_us t + std + save) = false)).
Proof.
  intros std save summer t H Hd. pose proof (summer_shows std save summer t H Hd) as E. pose proof (summer_reads std save summer t _ H Hd E) as R.
  eexists; eexists. split; [exact E|]. split; [exact R|]. split; [reflexivity|]. destruct H as (_ & H & _). unfold ending, time_eq. cbn [t_us].
  destruct (summer (t_us t + std)), (summer (t_us t + std + save)); cbn [andb negb]; split; try lia; rewrite Z.eqb_eq; split; try lia; try tauto; intros _ [? ?]; discriminate.
Qed.
Print Assumptions C158_exact_partial.

(** For any tzinfo at all: it comes back exactly if the offset of the local time shown
    is the offset it is shown with. *)
Theorem C158_any_partial : forall t z l, ok_time t -> asDatetimeZ t z = Ok l ->
  (fromDatetimeZ l z = Ok (T (t_us t) 1) <-> - DAY < z_off z l < DAY /\ l - t_us t = z_off z l).
Proof. exact round_exact. Qed.
Print Assumptions C158_any_partial.

(** A struct_time says whether it is summer, but this is not read. *)
Theorem C158_struct_partial : forall std save (summer : Z -> bool) t, usable std save t -> isTimezoneDependent t = true ->
  std mod SECOND = 0 -> save mod SECOND = 0 -> (forall l, summer (l - l mod SECOND) = summer l) ->
  exists st u, asStructTimeZ t (summer_zone std save summer) = Ok st /\ fromStructTimeZ (st_six st) (summer_zone std save summer) = Ok u /\
    t_us u = (if ending std save summer (t_us t) then t_us t + save else t_us t) - t_us t mod SECOND /\ t_res u = SECOND.
Proof.
  intros std save summer t H Hd Hs Hv Hw. pose proof (summer_shows std save summer t H Hd) as E. unfold asStructTimeZ. rewrite E. cbn [rbind].
  destruct (off_after std save summer t H) as (O1 & O2 & O3 & O4). set (l := if summer (t_us t + std) then t_us t + std + save else t_us t + std) in *.
  pose proof H as (H1 & H2 & H3 & H4). rewrite off_ok by (cbn [summer_zone z_dst]; destruct (summer l); unfold DAY in *; lia). cbn [rbind]. eexists; eexists. split; [reflexivity|].
  set (dst := if _ =? 0 then 0 else 1). unfold fromStructTimeZ.
  change (six_fields (st_six (build_struct l dst))) with (six_fields (st_six (build_struct l 0))). pose proof (struct_round l O2) as R.
  destruct (six_fields (st_six (build_struct l 0))) as [f|]; cbn [rbind] in *; [|discriminate]. rewrite R. cbn [rbind].
  assert (M : l mod SECOND = t_us t mod SECOND).
  { unfold l. destruct (summer (t_us t + std)); unfold SECOND in *; lia. }
  rewrite (proj2 (reads_Ok (l - l mod SECOND) _ (T (l - l mod SECOND - z_off (summer_zone std save summer) l) 1))).
  - cbn [rbind]. split; [reflexivity|]. split; [|reflexivity]. cbn [t_us]. rewrite M. clear - O4. clearbody l. revert O4. destruct (ending std save summer (t_us t)); intros O4; lia.
  - assert (Z : z_off (summer_zone std save summer) (l - l mod SECOND) = z_off (summer_zone std save summer) l) by (cbn [summer_zone z_off]; now rewrite Hw).
    rewrite Z. split; [exact O1|]. split; [|reflexivity]. clear - O4 O3 H2 H4 M. clearbody l. revert O4. destruct (ending std save summer (t_us t)); intros O4; unfold DAY in *; pose proof (Z.mod_pos_bound (t_us t) SECOND eq_refl) as P; unfold SECOND in *; rewrite M; lia.
Qed.
Print Assumptions C158_struct_partial.

(** a constant offset is such a zone *)
Theorem C158_fixed : forall t off l, (asDatetimeZ t (fixed off) = Ok l -> asDatetime t (Some off) = Ok (Dt l (Some off))) /\
  fromDatetimeZ l (fixed off) = fromDatetime (Dt l (Some off)).
Proof. intros t off l. split; [|apply fixed_reads]. intros E. pose proof (fixed_shows t off) as F. now rewrite E in F. Qed.
Print Assumptions C158_fixed.

Example C158_nonvacuous : usable (-5 * HOUR) HOUR t0 /\ isTimezoneDependent t0 = true /\ ending (-5 * HOUR) HOUR ny_summer (t_us t0) = true /\
  ending (-5 * HOUR) HOUR ny_summer (t_us t0 - HOUR) = false /\ asDatetimeZ (T (t_us t0 - HOUR) 1) ny = datetime (F (D 2005 10 30) 1 30 0 0) /\
  (forall l, ny_summer (l - l mod SECOND) = ny_summer l).
Proof.
  split; [exact t0_usable|]. repeat (split; [vm_compute; reflexivity|]). intros l. unfold ny_summer, SECOND. lia.
Qed.

(** ** C159: texts in a zone *)

Definition C159_full : Prop := forall std save (summer : Z -> bool) t d, usable std save t -> t_res t = 1 -> 0 <= std -> std mod MINUTE = 0 -> save mod MINUTE = 0 ->
  exists s u, asISOZ t d (summer_zone std save summer) true = Ok s /\ fromISO s None = Ok u /\ time_eq u t = true.

(** In the last hour of summer the texts give another time. *)
Theorem C159_texts_refuted :
  asISOZ t0 true ny true = Ok (lit "2005-10-30T02:30:00-05:00") /\ asRFC2822Z t0 ny true = Ok (lit "Sun, 30 Oct 2005 02:30:00 -0500") /\
  fromISO (lit "2005-10-30T02:30:00-05:00") None = Ok (T (t_us t0 + HOUR) SECOND) /\ ~ C159_full.
Proof.
  do 3 (split; [vm_compute; reflexivity|]). intros F.
  destruct (F HOUR HOUR ny_summer (T (63266234400000000 - HOUR - HOUR) 1) true) as (s & u & E1 & E2 & E3); try reflexivity.
  - unfold usable, HOUR, MAXT, DAY. cbn [t_us]. lia.
  - discriminate.
  - vm_compute in E1. injection E1 as <-. vm_compute in E2. injection E2 as <-. vm_compute in E3. discriminate.
Qed.
Print Assumptions C159_texts_refuted.

(** In any other hour they give the time (the offsets whole minutes, and whole hours if
    west of Greenwich; the time the start of the second, minute or hour that is its
    resolution), and in that hour a time later by the saving. *)
Theorem C159_iso_partial : forall std save (summer : Z -> bool) t d tz', usable std save t -> t_res t <= HOUR ->
  std mod MINUTE = 0 -> save mod MINUTE = 0 -> 0 <= std \/ std mod HOUR = 0 /\ save mod HOUR = 0 ->
  starts (t_res t) (if summer (t_us t + std) then t_us t + std + save else t_us t + std) ->
  exists s u, asISOZ t d (summer_zone std save summer) true = Ok s /\ fromISO s tz' = Ok u /\
    t_us u = (if ending std save summer (t_us t) then t_us t + save else t_us t).
Proof.
  intros std save summer t d tz' H Hr Hs Hv Hw St. assert (Hd : isTimezoneDependent t = true) by (unfold isTimezoneDependent, HOUR, DAY in *; lia).
  pose proof (summer_shows std save summer t H Hd) as E. destruct (off_after std save summer t H) as (O1 & O2 & O3 & O4).
  set (l := if summer (t_us t + std) then t_us t + std + save else t_us t + std) in *. rewrite (iso_as_fixed t d _ true l Hd E O2 O1 O3).
  assert (W : written (T (l - z_off (summer_zone std save summer) l) (t_res t)) (Some (z_off (summer_zone std save summer) l)) = l).
  { unfold written. cbn [t_res t_us offset_of]. unfold isTimezoneDependent in Hd. rewrite Hd. lia. }
  destruct (iso_round (T (l - z_off (summer_zone std save summer) l) (t_res t)) d (Some (z_off (summer_zone std save summer) l)) true tz') as (s & u & E1 & E2 & E3).
  - exact O3.
  - exact O1.
  - rewrite W. exact O2.
  - rewrite W. exact St.
  - left. exact Hr.
  - cbn [t_res]. unfold HOUR, DAY in *. lia.
  - cbn [offset_of]. destruct H as (H1 & H2 & _). cbn [summer_zone z_off]. destruct (summer l); unfold MINUTE, HOUR in *; lia.
  - exists s, u. split; [exact E1|]. split; [exact E2|]. unfold time_eq in E3. apply Z.eqb_eq in E3. rewrite E3. cbn [t_us]. rewrite O4. clear. destruct (ending std save summer (t_us t)); lia.
Qed.
Print Assumptions C159_iso_partial.

Theorem C159_rfc_partial : forall ulower uupper uisdigit, strs ulower uupper uisdigit ->
  forall std save (summer : Z -> bool) t dow, usable std save t -> isTimezoneDependent t = true -> std mod MINUTE = 0 -> save mod MINUTE = 0 ->
  100 <= d_year (f_date (fields_of (if summer (t_us t + std) then t_us t + std + save else t_us t + std))) ->
  exists s u, asRFC2822Z t (summer_zone std save summer) dow = Ok s /\ fromRFC2822 ulower uupper uisdigit s = Ok u /\
    t_us u = (if ending std save summer (t_us t) then t_us t + save else t_us t) - t_us t mod SECOND /\ t_res u = SECOND.
Proof.
  intros ulower uupper uisdigit S std save summer t dow H Hd Hs Hv Hy. pose proof (summer_shows std save summer t H Hd) as E.
  destruct (off_after std save summer t H) as (O1 & O2 & O3 & O4). set (l := if summer (t_us t + std) then t_us t + std + save else t_us t + std) in *.
  rewrite (rfc_as_fixed t dow _ l Hd E O2 O1 O3).
  destruct (C58_round_partial ulower uupper uisdigit S (T (l - z_off (summer_zone std save summer) l) (t_res t)) (Some (z_off (summer_zone std save summer) l)) dow) as (s & u & E1 & E2 & E3 & E4).
  - exact O3.
  - exact Hd.
  - exact O1.
  - cbn [offset_of summer_zone z_off]. destruct (summer l); unfold MINUTE in *; lia.
  - cbn [offset_of t_us]. lia.
  - cbn [offset_of t_us]. replace (l - z_off (summer_zone std save summer) l + z_off (summer_zone std save summer) l) with l by lia. exact Hy.
  - exists s, u. split; [exact E1|]. split; [exact E2|]. split; [|exact E4]. rewrite E3. cbn [t_us]. rewrite O4. clear - Hv.
    destruct (ending std save summer (t_us t)); unfold MINUTE, SECOND in *; lia.
Qed.
Print Assumptions C159_rfc_partial.

Example C159_nonvacuous : let t := T (t_us t0 - 90 * DAY) 1 in usable (-5 * HOUR) HOUR t /\ t_res t <= HOUR /\ (-5 * HOUR) mod MINUTE = 0 /\ (-5 * HOUR) mod HOUR = 0 /\
  ending (-5 * HOUR) HOUR ny_summer (t_us t) = false /\ asISOZ t true ny true = Ok (lit "2005-08-01T02:30:00-04:00") /\
  asRFC2822Z (T (t_us t + 180 * DAY) 1) ny false = Ok (lit "28 Jan 2006 01:30:00 -0500").
Proof. cbv zeta. split; [unfold usable, t0, HOUR, MAXT, DAY; cbn [t_us]; lia|]. split; [discriminate|]. repeat (split; [vm_compute; reflexivity|]). vm_compute; reflexivity. Qed.

(** ** C160: clock times typed in a zone *)

(** from the start of the current minute on, and shown as typed *)
Definition C160_full : Prop := forall std save (summer : Z -> bool) now h m, usable std save now -> isTimezoneDependent now = true -> 0 <= h < 24 -> 0 <= m < 60 ->
  exists u l, fromClockZ now (summer_zone std save summer) h m = Ok u /\ t_us now - t_us now mod MINUTE <= t_us u /\
    asDatetimeZ u (summer_zone std save summer) = Ok l /\ l mod DAY = h * HOUR + m * MINUTE.

(** In the night the clock is put forward, at 1:50, the time 2:30 is taken to be 1:30. *)
Theorem C160_clock_refuted :
  let now := T (63248090400000000 + 5 * HOUR - 10 * MINUTE) 1 in
  asDatetimeZ now ny = datetime (F (D 2005 4 3) 1 50 0 0) /\
  (exists u, fromClockZ now ny 2 30 = Ok u /\ t_us u = t_us now - 20 * MINUTE /\ asDatetimeZ u ny = datetime (F (D 2005 4 3) 1 30 0 0)) /\ ~ C160_full.
Proof.
  cbv zeta. split; [vm_compute; reflexivity|]. split; [exists (T (63248090400000000 + 5 * HOUR - 30 * MINUTE) MINUTE); repeat split; vm_compute; reflexivity|]. intros F.
  destruct (F (-5 * HOUR) HOUR ny_summer (T (63248090400000000 + 5 * HOUR - 10 * MINUTE) 1) 2 30) as (u & l & E1 & E2 & _); try reflexivity; try lia.
  - unfold usable, HOUR, MINUTE, MAXT, DAY. cbn [t_us]. lia.
  - vm_compute in E1. injection E1 as <-. apply E2. vm_compute. reflexivity.
Qed.
Print Assumptions C160_clock_refuted.

(** What is typed is the next time of the local clock as if it were never put back or
    forward, [L], at the offset of it; it is shown as [L] exactly if the clock does not
    skip [L], and is in the past exactly if the clock is put forward before [L], less
    than the saving from now. *)
Theorem C160_exact_partial : forall std save (summer : Z -> bool) now h m, usable std save now -> isTimezoneDependent now = true -> 0 <= h < 24 -> 0 <= m < 60 ->
  std mod MINUTE = 0 -> save mod MINUTE = 0 -> 7 * DAY <= t_us now < MAXT - 7 * DAY ->
  let l := if summer (t_us now + std) then t_us now + std + save else t_us now + std in
  exists L u l', asDatetimeZ now (summer_zone std save summer) = Ok l /\ next_local l h m L /\
    fromClockZ now (summer_zone std save summer) h m = Ok u /\ t_res u = MINUTE /\ t_us u = (if summer L then L - std - save else L - std) /\
    asDatetimeZ u (summer_zone std save summer) = Ok l' /\ (l' = L <-> ~ (summer L = true /\ summer (L - save) = false)) /\
    (t_us u < t_us now - t_us now mod MINUTE <-> summer (t_us now + std) = false /\ summer L = true /\ L - (l - l mod MINUTE) < save).
Proof.
  intros std save summer now h m H Hd Hh Hm Hs Hv Hn l. pose proof (summer_shows std save summer now H Hd) as E. fold l in E. pose proof H as (H1 & H2 & H3 & H4).
  assert (Hl : 0 <= l < MAXT - DAY) by (unfold l; destruct (summer (t_us now + std)); unfold DAY in *; lia).
  destruct (clock_reads now (summer_zone std save summer) h m l Hh Hm E Hl) as (L & N & R).
  assert (B : t_us now - 2 * DAY <= L <= t_us now + 2 * DAY + DAY).
  { destruct N as [N _]. unfold l in N. destruct (summer (t_us now + std)); unfold MINUTE, DAY in *; lia. }
  assert (Er : fromDatetimeZ L (summer_zone std save summer) = Ok (T (if summer L then L - std - save else L - std) 1)).
  { apply reads_Ok. cbn [summer_zone z_off]. destruct (summer L); (split; [unfold DAY in *; lia|]); (split; [unfold DAY in *; lia|]); f_equal; lia. }
  rewrite Er in R. cbn [rbind t_us] in R. set (u := T (if summer L then L - std - save else L - std) MINUTE) in *.
  assert (Hu : usable std save u) by (unfold usable, u; cbn [t_us]; destruct (summer L); unfold DAY in *; lia).
  assert (Ud : isTimezoneDependent u = true) by reflexivity.
  exists L, u. eexists. split; [exact E|]. split; [exact N|]. split; [exact R|]. split; [reflexivity|]. split; [reflexivity|].
  split; [apply summer_shows; assumption|]. split.
  - unfold u. cbn [t_us]. destruct (summer L) eqn:SL.
    + replace (L - std - save + std) with (L - save) by lia. destruct (summer (L - save)).
      * split; [intros _ [_ X]; discriminate|lia].
      * split; [lia|intros X; exfalso; apply X; now split].
    + replace (L - std + std) with L by lia. rewrite SL. split; [intros _ [X _]; discriminate|lia].
  - assert (M : l mod MINUTE = t_us now mod MINUTE) by (unfold l; destruct (summer (t_us now + std)); unfold MINUTE in *; lia).
    destruct N as [N _]. rewrite M in *. unfold u. cbn [t_us]. unfold l in *. destruct (summer (t_us now + std)), (summer L); split; intros X; try lia; try (destruct X as (X1 & X2 & X3); discriminate || lia); repeat split; lia.
Qed.
Print Assumptions C160_exact_partial.

Example C160_nonvacuous : let now := T (t_us t0 - 90 * DAY) 1 in usable (-5 * HOUR) HOUR now /\ isTimezoneDependent now = true /\ 7 * DAY <= t_us now < MAXT - 7 * DAY /\
  (exists u, fromClockZ now ny 1 15 = Ok u /\ asDatetimeZ now ny = datetime (F (D 2005 8 1) 2 30 0 0) /\ asDatetimeZ u ny = datetime (F (D 2005 8 2) 1 15 0 0)).
Proof.
  cbv zeta. split; [unfold usable, t0, HOUR, MAXT, DAY; cbn [t_us]; lia|]. split; [reflexivity|]. split; [vm_compute; split; congruence|].
  exists (T (t_us t0 - 89 * DAY - 75 * MINUTE) MINUTE). repeat split; vm_compute; reflexivity.
Qed.
