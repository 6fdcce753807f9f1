(** * Python's datetime module: the part epsilon/extime.py uses

    Not code of /repo; CPython's semantics (Lib/_pydatetime.py and
    Modules/_datetimemodule.c).  Simplifications: a tzinfo is a constant
    offset from UTC with no daylight saving part, which is what
    extime.FixedOffset is (extime.py:79-96). *)

From Coq Require Import ZArith List Bool Lia.
From Verif Require Import Py Cal.
Import ListNotations.
Open Scope Z_scope.
Open Scope py_scope.

(** microseconds *)
Definition SECOND : Z := 1000000.
Definition MINUTE : Z := 60000000.
Definition HOUR : Z := 3600000000.
Definition DAY : Z := 86400000000.
Definition WEEK : Z := 604800000000.

(** A [timedelta] is a number of microseconds (the sum of its days, seconds
    and microseconds).  The range: timedelta.min, timedelta.max *)
Definition td_ok (d : Z) : bool := (- (999999999 * DAY) <=? d) && (d <? 1000000000 * DAY).

(** ** datetime *)

(** A naive datetime is the number of microseconds since 0001-01-01T00:00.
    MAXORDINAL = 3652059 *)
Definition MAXT : Z := 3652059 * DAY.

Record fields := F { f_date : date; f_hour : Z; f_min : Z; f_sec : Z; f_us : Z }.

Definition valid_fields (f : fields) : Prop :=
  1 <= d_year (f_date f) <= 9999 /\ valid_date (f_date f) /\
  0 <= f_hour f < 24 /\ 0 <= f_min f < 60 /\ 0 <= f_sec f < 60 /\ 0 <= f_us f < 1000000.

(** _check_date_fields, _check_time_fields *)
Definition fields_okb (f : fields) : bool :=
  let x := f_date f in
  (1 <=? d_year x) && (d_year x <=? 9999) && (1 <=? d_month x) && (d_month x <=? 12) &&
  (1 <=? d_day x) && (d_day x <=? days_in_month (d_year x) (d_month x)) &&
  (0 <=? f_hour f) && (f_hour f <=? 23) && (0 <=? f_min f) && (f_min f <=? 59) &&
  (0 <=? f_sec f) && (f_sec f <=? 59) && (0 <=? f_us f) && (f_us f <=? 999999).

(** the time of day *)
Definition day_us (f : fields) : Z := f_hour f * HOUR + f_min f * MINUTE + f_sec f * SECOND + f_us f.

(** datetime.datetime(...) *)
Definition datetime (f : fields) : res Z :=
  if fields_okb f then Ok ((ymd2ord (f_date f) - 1) * DAY + day_us f) else Err ValueError.

(** the attributes year ... microsecond *)
Definition fields_of (t : Z) : fields :=
  F (ord2ymd (t / DAY + 1)) (t mod DAY / HOUR) (t mod HOUR / MINUTE) (t mod MINUTE / SECOND) (t mod SECOND).

Definition in_range (t : Z) : bool := (0 <=? t) && (t <? MAXT).

(** datetime + timedelta *)
Definition add_td (t d : Z) : res Z := if in_range (t + d) then Ok (t + d) else Err OverflowError.

(** datetime.weekday(): Monday is 0 *)
Definition weekday (t : Z) : Z := (t / DAY + 1 + 6) mod 7.

(** _isoweek1monday *)
Definition isoweek1monday (year : Z) : Z :=
  let firstday := ymd2ord (D year 1 1) in
  let firstweekday := (firstday + 6) mod 7 in
  let week1monday := firstday - firstweekday in
  if 3 <? firstweekday then week1monday + 7 else week1monday.

(** datetime.isocalendar(), on the ordinal of the day *)
Definition isocalendar (today : Z) : Z * Z * Z :=
  let year := d_year (ord2ymd today) in
  let week1monday := isoweek1monday year in
  let week := (today - week1monday) / 7 in let day := (today - week1monday) mod 7 in
  if week <? 0 then
    let year := year - 1 in
    let week1monday := isoweek1monday year in
    (year, (today - week1monday) / 7 + 1, (today - week1monday) mod 7 + 1)
  else if (52 <=? week) && (isoweek1monday (year + 1) <=? today) then (year + 1, 1, day + 1)
  else (year, week + 1, day + 1).

(** the number of days since January 1, plus one (_build_struct_time) *)
Definition yearday (t : Z) : Z :=
  let x := ord2ymd (t / DAY + 1) in days_before_month (d_year x) (d_month x) + d_day x.

(** ** Aware datetimes *)

(** local time and tzinfo *)
Record dt := Dt { dt_local : Z; dt_tz : option Z }.

(** utcoffset(), checked: strictly between -24 and 24 hours *)
Definition utcoffset (off : Z) : res Z :=
  if (- DAY <? off) && (off <? DAY) then Ok off else Err ValueError.

(** datetime.astimezone(tz) of an aware datetime whose tzinfo is not [tz]
    itself; tzinfo.fromutc *)
Definition astimezone (local off off' : Z) : res dt :=
  o <- utcoffset off ;;
  utc <- add_td local (- o) ;;
  o' <- utcoffset off' ;;
  l' <- add_td utc o' ;;
  Ok (Dt l' (Some off')).

(** the instant *)
Definition instant (x : dt) : Z := match dt_tz x with None => dt_local x | Some off => dt_local x - off end.

(** ** Facts *)

Lemma MAXT_eq : MAXT = days_before_year 10000 * DAY.
Proof. reflexivity. Qed.

Lemma fields_okb_spec f : fields_okb f = true <-> valid_fields f.
Proof.
  unfold fields_okb, valid_fields, valid_date. cbv zeta. split.
  - rewrite !andb_true_iff, !Z.leb_le. intros H. rewrite month_length_eq by tauto. lia.
  - intros (H1 & [H2 H3] & H4). rewrite month_length_eq in H3 by exact H2. rewrite !andb_true_iff, !Z.leb_le. lia.
Qed.

Lemma day_us_range f : 0 <= f_hour f < 24 -> 0 <= f_min f < 60 -> 0 <= f_sec f < 60 -> 0 <= f_us f < 1000000 -> 0 <= day_us f < DAY.
Proof. unfold day_us, DAY, HOUR, MINUTE, SECOND. lia. Qed.

Lemma ord_range x : valid_date x -> 1 <= d_year x <= 9999 -> 1 <= ymd2ord x <= 3652059.
Proof.
  intros Hv Hy. pose proof (year_range (ymd2ord x) 1 9999) as H. rewrite ymd2ord_inv in H by exact Hv.
  apply H in Hy. change (days_before_year 1) with 0 in Hy. change (days_before_year (9999 + 1)) with 3652059 in Hy. lia.
Qed.

Lemma datetime_range f t : datetime f = Ok t -> 0 <= t < MAXT.
Proof.
  unfold datetime. destruct (fields_okb f) eqn:E; [|discriminate]. intros H. injection H as <-.
  apply fields_okb_spec in E. destruct E as (H1 & H2 & H3 & H4 & H5 & H6).
  pose proof (ord_range _ H2 H1). pose proof (day_us_range f H3 H4 H5 H6). unfold MAXT, DAY in *. lia.
Qed.

Lemma split_day d u : 0 <= u < DAY -> (d * DAY + u) / DAY = d /\ (d * DAY + u) mod DAY = u.
Proof. unfold DAY. lia. Qed.

Lemma clock h m s u : 0 <= h < 24 -> 0 <= m < 60 -> 0 <= s < 60 -> 0 <= u < 1000000 ->
  let x := h * HOUR + m * MINUTE + s * SECOND + u in
  x / HOUR = h /\ x mod HOUR / MINUTE = m /\ x mod MINUTE / SECOND = s /\ x mod SECOND = u.
Proof. unfold HOUR, MINUTE, SECOND. cbv zeta. intros. lia. Qed.

Lemma mod_day t : t mod HOUR = t mod DAY mod HOUR /\ t mod MINUTE = t mod DAY mod MINUTE /\ t mod SECOND = t mod DAY mod SECOND.
Proof.
  unfold HOUR, MINUTE, SECOND, DAY. repeat split; apply Znumtheory.Zmod_div_mod; try lia;
  [exists 24|exists 1440|exists 86400]; reflexivity.
Qed.

(** reading back what was given *)
Theorem fields_datetime f : valid_fields f -> exists t, datetime f = Ok t /\ fields_of t = f.
Proof.
  intros Hv. unfold datetime. rewrite (proj2 (fields_okb_spec f) Hv). eexists. split; [reflexivity|].
  destruct Hv as (H1 & H2 & H3 & H4 & H5 & H6). pose proof (day_us_range f H3 H4 H5 H6) as Hu.
  unfold fields_of. set (t := (ymd2ord (f_date f) - 1) * DAY + day_us f).
  destruct (split_day (ymd2ord (f_date f) - 1) (day_us f) Hu) as [Ed Em]. fold t in Ed, Em.
  destruct (mod_day t) as (Eh & Emi & Es). rewrite Ed, Eh, Emi, Es, Em.
  destruct (clock _ _ _ _ H3 H4 H5 H6) as (C1 & C2 & C3 & C4). unfold day_us. rewrite C1, C2, C3, C4.
  replace (ymd2ord (f_date f) - 1 + 1) with (ymd2ord (f_date f)) by lia. rewrite ymd2ord_inv by exact H2. now destruct f.
Qed.

Theorem datetime_invalid f : ~ valid_fields f -> datetime f = Err ValueError.
Proof. intros H. unfold datetime. destruct (fields_okb f) eqn:E; [apply fields_okb_spec in E; contradiction|reflexivity]. Qed.

Theorem datetime_fields t : 0 <= t < MAXT -> valid_fields (fields_of t) /\ datetime (fields_of t) = Ok t.
Proof.
  intros Ht. assert (Hv : valid_fields (fields_of t)).
  { unfold valid_fields, fields_of. cbn [f_date f_hour f_min f_sec f_us].
    assert (Hd : 0 <= t / DAY < 3652059) by (unfold MAXT, DAY in *; lia).
    split; [|split; [apply ord2ymd_spec|]].
    - apply (year_range (t / DAY + 1) 1 9999). change (days_before_year 1) with 0. change (days_before_year (9999 + 1)) with 3652059. lia.
    - unfold HOUR, MINUTE, SECOND, DAY. lia. }
  split; [exact Hv|]. unfold datetime. rewrite (proj2 (fields_okb_spec _) Hv). f_equal.
  unfold fields_of, day_us. cbn [f_date f_hour f_min f_sec f_us]. rewrite (proj2 (ord2ymd_spec _)).
  unfold HOUR, MINUTE, SECOND, DAY. lia.
Qed.

Lemma datetime_Ok f t : datetime f = Ok t <-> valid_fields f /\ 0 <= t < MAXT /\ fields_of t = f.
Proof.
  split.
  - intros H. split; [|split; [eapply datetime_range; exact H|]].
    + unfold datetime in H. destruct (fields_okb f) eqn:E; [|discriminate]. now apply fields_okb_spec.
    + assert (Hv : valid_fields f) by (unfold datetime in H; destruct (fields_okb f) eqn:E; [now apply fields_okb_spec|discriminate]).
      destruct (fields_datetime f Hv) as (t' & H1 & H2). congruence.
  - intros (Hv & Ht & <-). apply datetime_fields, Ht.
Qed.

(** the order of times is the order of their fields *)
Definition fields_lt (f g : fields) : Prop :=
  date_lt (f_date f) (f_date g) \/ f_date f = f_date g /\ day_us f < day_us g.

Theorem datetime_lt f g t u : datetime f = Ok t -> datetime g = Ok u -> (t < u <-> fields_lt f g).
Proof.
  unfold datetime. destruct (fields_okb f) eqn:Ef; [|discriminate]. destruct (fields_okb g) eqn:Eg; [|discriminate].
  intros H1 H2. injection H1 as <-. injection H2 as <-. apply fields_okb_spec in Ef, Eg.
  destruct Ef as (_ & Hf & A3 & A4 & A5 & A6). destruct Eg as (_ & Hg & B3 & B4 & B5 & B6).
  pose proof (day_us_range f A3 A4 A5 A6). pose proof (day_us_range g B3 B4 B5 B6).
  unfold fields_lt. rewrite (ord_lt _ _ Hf Hg). split.
  - intros Hl. destruct (Z.lt_trichotomy (ymd2ord (f_date f)) (ymd2ord (f_date g))) as [Hc|[Hc|Hc]]; [now left| |].
    + right. split; [now apply ord_inj|]. lia.
    + unfold DAY in *. lia.
  - intros [Hc|[Hc Hl]]; [unfold DAY in *; lia|]. rewrite Hc. lia.
Qed.

(** *** Weekdays *)

Lemma weekday_range t : 0 <= weekday t < 7.
Proof. unfold weekday. lia. Qed.

(** *** ISO weeks: a week belongs to the year its Thursday is in *)
Definition iso_spec (n : Z) : Z * Z * Z :=
  let thursday := n - (n + 6) mod 7 + 3 in
  let year := d_year (ord2ymd thursday) in
  (year, (thursday - ymd2ord (D year 1 1)) / 7 + 1, (n + 6) mod 7 + 1).

Lemma week1_monday y : let m := isoweek1monday y in
  (m + 6) mod 7 = 0 /\ m - 4 < ymd2ord (D y 1 1) <= m + 3.
Proof.
  cbv zeta. unfold isoweek1monday. set (f := ymd2ord (D y 1 1)). destruct (Z.ltb_spec 3 ((f + 6) mod 7)); lia.
Qed.

Lemma jan1 y : ymd2ord (D y 1 1) = days_before_year y + 1.
Proof. unfold ymd2ord. cbn [d_year d_month d_day]. change (days_before_month y 1) with 0. rewrite Z.add_0_r. reflexivity. Qed.

Lemma year_of n y : days_before_year y < n <= days_before_year (y + 1) -> d_year (ord2ymd n) = y.
Proof. intros H. pose proof (proj2 (year_range n y y) H). lia. Qed.

Lemma year_len y : days_before_year y + 365 <= days_before_year (y + 1) <= days_before_year y + 366.
Proof. rewrite before_year_next. destruct (leap y); cbn [b2z]; lia. Qed.

Theorem isocalendar_spec n : isocalendar n = iso_spec n.
Proof.
  unfold isocalendar, iso_spec. cbv zeta. pose proof (year_bounds n) as Hy. set (y := d_year (ord2ymd n)) in *.
  pose proof (week1_monday y) as [M1 M2]. pose proof (week1_monday (y - 1)) as [P1 P2]. pose proof (week1_monday (y + 1)) as [N1 N2].
  rewrite jan1 in M2, P2, N2. replace (y - 1 + 1) with y in * by lia.
  pose proof (year_len (y - 1)) as Lp. pose proof (year_len y) as Ly. pose proof (year_len (y + 1)) as Ln.
  replace (y - 1 + 1) with y in * by lia.
  set (m := isoweek1monday y) in *. set (mp := isoweek1monday (y - 1)) in *. set (mn := isoweek1monday (y + 1)) in *.
  set (th := n - (n + 6) mod 7 + 3).
  destruct (Z.ltb_spec ((n - m) / 7) 0) as [H|H].
  - assert (E : d_year (ord2ymd th) = y - 1). { apply year_of. replace (y - 1 + 1) with y by lia. unfold th. lia. }
    rewrite E, jan1. f_equal; [f_equal|]; unfold th; lia.
  - destruct (Z.leb_spec 52 ((n - m) / 7)) as [H2|H2]; cbn [andb].
    + destruct (Z.leb_spec mn n) as [H3|H3].
      * assert (E : d_year (ord2ymd th) = y + 1). { apply year_of. unfold th. lia. }
        rewrite E, jan1. f_equal; [f_equal|]; unfold th; lia.
      * assert (E : d_year (ord2ymd th) = y). { apply year_of. unfold th. lia. }
        rewrite E, jan1. f_equal; [f_equal|]; unfold th; lia.
    + assert (E : d_year (ord2ymd th) = y). { apply year_of. unfold th. lia. }
      rewrite E, jan1. f_equal; [f_equal|]; unfold th; lia.
Qed.

(** *** Offsets *)

Lemma utcoffset_Ok o o' : utcoffset o = Ok o' <-> - DAY < o < DAY /\ o' = o.
Proof.
  unfold utcoffset. split.
  - destruct ((- DAY <? o) && (o <? DAY)) eqn:E; [|discriminate]. intros H. injection H as <-.
    apply andb_true_iff in E. rewrite !Z.ltb_lt in E. lia.
  - intros [H ->]. replace (- DAY <? o) with true by (symmetry; apply Z.ltb_lt; lia).
    replace (o <? DAY) with true by (symmetry; apply Z.ltb_lt; lia). reflexivity.
Qed.

Lemma in_range_spec t : in_range t = true <-> 0 <= t < MAXT.
Proof. unfold in_range. rewrite andb_true_iff, Z.leb_le, Z.ltb_lt. lia. Qed.

Lemma add_td_Ok t d u : add_td t d = Ok u <-> u = t + d /\ 0 <= u < MAXT.
Proof.
  unfold add_td. split.
  - destruct (in_range (t + d)) eqn:E; [|discriminate]. intros H. injection H as <-. apply in_range_spec in E. auto.
  - intros [-> H]. now rewrite (proj2 (in_range_spec _) H).
Qed.

Lemma add_td_Err t d e : add_td t d = Err e <-> e = OverflowError /\ ~ 0 <= t + d < MAXT.
Proof.
  unfold add_td. split.
  - destruct (in_range (t + d)) eqn:E; [discriminate|]. intros H. injection H as <-. split; [reflexivity|].
    intros Hr. apply in_range_spec in Hr. congruence.
  - intros [-> H]. destruct (in_range (t + d)) eqn:E; [apply in_range_spec in E; contradiction|reflexivity].
Qed.

Lemma astimezone_Ok l o o' x : astimezone l o o' = Ok x <->
  - DAY < o < DAY /\ - DAY < o' < DAY /\ 0 <= l - o < MAXT /\ 0 <= l - o + o' < MAXT /\ x = Dt (l - o + o') (Some o').
Proof.
  unfold astimezone. split.
  - destruct (utcoffset o) as [a|] eqn:E1; [|discriminate]. apply utcoffset_Ok in E1. destruct E1 as [E1 ->]. cbn [rbind].
    destruct (add_td l (- o)) as [u|] eqn:E2; [|discriminate]. apply add_td_Ok in E2. destruct E2 as [-> E2]. cbn [rbind].
    destruct (utcoffset o') as [b|] eqn:E3; [|discriminate]. apply utcoffset_Ok in E3. destruct E3 as [E3 ->]. cbn [rbind].
    destruct (add_td (l + - o) o') as [v|] eqn:E4; [|discriminate]. apply add_td_Ok in E4. destruct E4 as [-> E4]. cbn [rbind].
    intros H. injection H as <-. replace (l + - o) with (l - o) in * by lia. auto.
  - intros (H1 & H2 & H3 & H4 & ->).
    rewrite (proj2 (utcoffset_Ok o o)) by auto. cbn [rbind].
    rewrite (proj2 (add_td_Ok l (- o) (l - o))) by lia. cbn [rbind].
    rewrite (proj2 (utcoffset_Ok o' o')) by auto. cbn [rbind].
    rewrite (proj2 (add_td_Ok (l - o) o' (l - o + o'))) by lia. reflexivity.
Qed.
