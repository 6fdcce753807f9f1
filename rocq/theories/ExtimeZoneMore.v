(** * epsilon/extime.py: noon, midnight and bounds in timezones with summer time

    The zones are those of ExtimeZone.v. *)

From Coq Require Import ZArith NArith String List Bool Lia.
From Verif Require Import Py PyNum Cal PyTime Extime ExtimeHumanly ExtimeHumanlyVal ExtimeZone.
Import ListNotations.
Open Scope Z_scope.
Open Scope py_scope.

(** extime.py:255-263, the end of _fromNoonOrMidnight, with the hour typed (249-254): 12
    for noon, 0 for midnight *)
Definition fromNoonZ (now : time) (z : tzone) (noon : bool) : res time :=
  l <- asDatetimeZ now z ;;
  dtnow <- replace_clock l (f_hour (fields_of l)) 0 0 0 ;;
  dtthen <- replace_clock dtnow (if noon then 12 else 0) 0 0 0 ;;
  dtthen <- (if dtthen <? dtnow then add_td dtthen DAY else Ok dtthen) ;;
  t <- fromDatetimeZ dtthen z ;;
  Ok (T (t_us t) MINUTE).

(** extime.py:860-902, getBounds with a tzinfo; [time + self.resolution] moves the local
    time *)
Definition getBoundsZ (lt : time -> time -> res bool) (self : time) (z : tzone) : res (time * time) :=
  let read l := if DAY <=? t_res self then fromDatetimeZ l z else fromDatetime (Dt l None) in
  a <- read (t_us self) ;;
  b <- fromDatetime (Dt (t_us self) None) ;;
  lo <- py_min lt a b ;;
  e1 <- add_td (t_us self) (t_res self) ;;
  c <- read e1 ;;
  e2 <- add_td (t_us self) (t_res self) ;;
  d <- fromDatetime (Dt e2 None) ;;
  hi <- py_max lt c d ;;
  Ok (lo, hi).

(** ** Specification *)

(** [L] is the first noon or midnight, from the start of the hour of [l] on, of a clock that
    is never put back or forward *)
Definition next_noon (l : Z) (noon : bool) (L : Z) : Prop :=
  l - l mod HOUR <= L < l - l mod HOUR + DAY /\ L mod DAY = if noon then 12 * HOUR else 0.

(** the clock is not put back or forward from [save] before the local time [l] to [l] *)
Definition steady (save : Z) (summer : Z -> bool) (l : Z) : Prop := forall x, l - save <= x <= l -> summer x = summer l.

(** ** Proofs *)

Lemma noon_reads now z noon l : asDatetimeZ now z = Ok l -> 0 <= l < MAXT - DAY ->
  exists L, next_noon l noon L /\ fromNoonZ now z noon = (t <- fromDatetimeZ L z ;; Ok (T (t_us t) MINUTE)).
Proof.
  intros E Hl. unfold fromNoonZ. rewrite E. cbn [rbind]. rewrite hour_Ok by (unfold DAY in *; lia). cbn [rbind].
  assert (Hn : 0 <= l - l mod HOUR < MAXT) by (unfold HOUR, DAY in *; lia).
  rewrite replace_Ok by (assumption || destruct noon; lia). cbn [rbind]. set (n := l - l mod HOUR) in *.
  assert (Nl : n <= l) by (unfold n, HOUR; lia).
  set (x := if noon then 12 * HOUR else 0). assert (Hx : 0 <= x < DAY) by (unfold x, HOUR, DAY; destruct noon; lia).
  set (th := n - n mod DAY + x). assert (T : n - n mod DAY + (if noon then 12 else 0) * HOUR + 0 * MINUTE = th) by (unfold th, x; destruct noon; lia). rewrite T.
  assert (HL : (if th <? n then add_td th DAY else Ok th) = Ok (if th <? n then th + DAY else th)).
  { destruct (th <? n) eqn:C; [|reflexivity]. apply add_ok. apply Z.ltb_lt in C. unfold th, DAY in *. lia. }
  rewrite HL. cbn [rbind]. eexists. split; [|reflexivity]. unfold next_noon. fold x n. clear T HL. clearbody n x. subst th.
  destruct (n - n mod DAY + x <? n) eqn:C; [apply Z.ltb_lt in C|apply Z.ltb_ge in C]; unfold DAY in *; lia.
Qed.

Theorem noon_exact std save (summer : Z -> bool) now noon : usable std save now -> isTimezoneDependent now = true -> 7 * DAY <= t_us now < MAXT - 7 * DAY ->
  let l := if summer (t_us now + std) then t_us now + std + save else t_us now + std in
  exists L u l', asDatetimeZ now (summer_zone std save summer) = Ok l /\ next_noon l noon L /\
    fromNoonZ now (summer_zone std save summer) noon = Ok u /\ t_res u = MINUTE /\ t_us u = (if summer L then L - std - save else L - std) /\
    asDatetimeZ u (summer_zone std save summer) = Ok l' /\ (l' = L <-> ~ (summer L = true /\ summer (L - save) = false)) /\
    (t_us u < t_us now - l mod HOUR <-> summer (t_us now + std) = false /\ summer L = true /\ L - (l - l mod HOUR) < save).
Proof.
  intros H Hd Hn l. pose proof (summer_shows std save summer now H Hd) as E. fold l in E. pose proof H as (H1 & H2 & H3 & H4).
  assert (Hl : 0 <= l < MAXT - DAY) by (unfold l; destruct (summer (t_us now + std)); unfold DAY in *; lia).
  destruct (noon_reads now (summer_zone std save summer) noon l E Hl) as (L & N & R).
  assert (B : t_us now - 2 * DAY <= L <= t_us now + 2 * DAY + DAY).
  { destruct N as [N _]. unfold l in N. destruct (summer (t_us now + std)); unfold HOUR, DAY in *; lia. }
  assert (Er : fromDatetimeZ L (summer_zone std save summer) = Ok (T (if summer L then L - std - save else L - std) 1)).
  { apply reads_Ok. cbn [summer_zone z_off]. destruct (summer L); (split; [unfold DAY in *; lia|]); (split; [unfold DAY in *; lia|]); f_equal; lia. }
  rewrite Er in R. cbn [rbind t_us] in R. set (u := T (if summer L then L - std - save else L - std) MINUTE) in *.
  assert (Hu : usable std save u) by (unfold usable, u; cbn [t_us]; destruct (summer L); unfold DAY in *; lia).
  assert (Ud : isTimezoneDependent u = true) by reflexivity.
  exists L, u. eexists. split; [exact E|]. split; [exact N|]. split; [exact R|]. split; [reflexivity|]. split; [reflexivity|].
  split; [apply summer_shows; assumption|]. split.
  - unfold u. cbn [t_us]. destruct (summer L) eqn:SL.
    + replace (L - std - save + std) with (L - save) by lia. destruct (summer (L - save)).
      * split; [intros _ [_ X]; discriminate|lia].
      * split; [lia|intros X; exfalso; apply X; now split].
    + replace (L - std + std) with L by lia. rewrite SL. split; [intros _ [X _]; discriminate|lia].
  - destruct N as [N _]. unfold u. cbn [t_us]. set (r := l mod HOUR) in *. clearbody r. unfold l in *.
    destruct (summer (t_us now + std)), (summer L); split; intros X; try lia; try (destruct X as (X1 & X2 & X3); discriminate || lia); repeat split; lia.
Qed.

Lemma boundsZ_py3 t z : exists e, getBoundsZ py3_lt t z = Err e.
Proof.
  unfold getBoundsZ. cbv zeta. destruct (if DAY <=? t_res t then _ else _); cbn [rbind]; [|eauto].
  destruct (fromDatetime (Dt (t_us t) None)); cbn [rbind]; [|eauto]. cbn [py_min py3_lt rbind]. eauto.
Qed.

Theorem boundsZ_py2 t z : ok_time t -> DAY <= t_res t -> t_us t + t_res t < MAXT ->
  let e := t_us t + t_res t in
  (forall l, l = t_us t \/ l = e -> - DAY < z_off z l < DAY /\ 0 <= l - z_off z l < MAXT) ->
  exists lo hi, getBoundsZ py2_lt t z = Ok (lo, hi) /\ t_us lo = Z.min (t_us t) (t_us t - z_off z (t_us t)) /\ t_us hi = Z.max e (e - z_off z e).
Proof.
  intros Ht Hr He e Hz. unfold getBoundsZ. cbv zeta. replace (DAY <=? t_res t) with true by lia.
  destruct (Hz (t_us t) (or_introl eq_refl)) as [A1 A2]. destruct (Hz e (or_intror eq_refl)) as [B1 B2].
  rewrite (proj2 (reads_Ok (t_us t) z (T (t_us t - z_off z (t_us t)) 1))) by auto. cbn [rbind].
  change (fromDatetime (Dt (t_us t) None)) with (Ok (T (t_us t) 1)). cbn [rbind]. unfold py_min, py_max, py2_lt. cbn [rbind].
  rewrite (proj2 (add_td_Ok (t_us t) (t_res t) e)) by (unfold ok_time, e, DAY in *; lia). cbn [rbind].
  rewrite (proj2 (reads_Ok e z (T (e - z_off z e) 1))) by auto. cbn [rbind].
  change (fromDatetime (Dt e None)) with (Ok (T e 1)). cbn [rbind]. do 2 eexists. split; [reflexivity|]. rewrite !cmp_lt. cbn [t_us].
  destruct (Z.ltb_spec (t_us t) (t_us t - z_off z (t_us t))), (Z.ltb_spec (e - z_off z e) e); cbn [t_us]; lia.
Qed.

(** every instant shown as a local time of the period is within the bounds *)
Theorem boundsZ_hold std save (summer : Z -> bool) t : ok_time t -> DAY <= t_res t -> - DAY < std < DAY -> 0 < save < DAY -> - DAY < std + save < DAY ->
  4 * DAY <= t_us t -> t_us t + t_res t < MAXT - 4 * DAY -> steady save summer (t_us t) -> steady save summer (t_us t + t_res t) ->
  exists lo hi, getBoundsZ py2_lt t (summer_zone std save summer) = Ok (lo, hi) /\ t_us lo <= t_us t /\ t_us t + t_res t <= t_us hi /\
    forall i l, isTimezoneDependent i = true -> ok_time i -> asDatetimeZ i (summer_zone std save summer) = Ok l -> t_us t <= l < t_us t + t_res t ->
      2 * DAY <= t_us i < MAXT - 2 * DAY -> t_us lo <= t_us i < t_us hi.
Proof.
  intros Ht Hr H1 H2 H3 H4 H5 S0 S1. set (e := t_us t + t_res t) in *. set (z := summer_zone std save summer).
  assert (Ho : forall l, z_off z l = if summer l then std + save else std) by reflexivity.
  destruct (boundsZ_py2 t z Ht Hr ltac:(fold e; unfold DAY in *; lia)) as (lo & hi & E & Elo & Ehi).
  { intros l Hl. rewrite Ho. fold e in Hl. assert (4 * DAY <= l < MAXT - 4 * DAY) by (unfold e, DAY in *; destruct Hl; lia). destruct (summer l); unfold DAY in *; lia. }
  fold e in Ehi. exists lo, hi. split; [exact E|]. split; [lia|]. split; [lia|]. intros i l Hd Hi El Hl Hu.
  unfold z in El. rewrite (summer_shows std save summer i (conj H1 (conj H2 (conj H3 Hu))) Hd) in El. injection El as El. rewrite Ho in *.
  unfold steady in S0, S1. clear E. split.
  - rewrite Elo. clear Ehi Elo. destruct (summer (t_us i + std)) eqn:C.
    + destruct (summer (t_us t)) eqn:D; [lia|].
      destruct (Z_le_gt_dec (t_us i + std) (t_us t)) as [G|G]; [|lia]. rewrite (S0 (t_us i + std)) in C by lia. discriminate.
    + destruct (summer (t_us t)) eqn:D; lia.
  - rewrite Ehi. clear Ehi Elo. destruct (summer (t_us i + std)) eqn:C.
    + destruct (summer e) eqn:D; lia.
    + destruct (summer e) eqn:D; [|lia]. destruct (Z_lt_ge_dec (t_us i + std) (e - save)) as [G|G]; [lia|]. rewrite (S1 (t_us i + std)) in C by lia. discriminate.
Qed.
