(** * Properties of ISO 8601 texts: C57, C60, C61, C62, C90 *)

From Coq Require Import ZArith NArith String List Bool Lia.
From Verif Require Import Py Cal PyTime Extime ExtimeIso ExtimeIsoVal ExtimeIsoFmt ExtimeIsoStart ExtimeIsoAll.
Import ListNotations.
Open Scope Z_scope.

(** ** C57 *)

Definition C57_full : Prop := forall txt tz0 t d tz, fromISO txt tz0 = Ok t ->
  - DAY < offset_of tz < DAY -> offset_of tz mod MINUTE = 0 -> 0 <= written t tz < MAXT ->
  exists s u, asISO t d tz true = Ok s /\ fromISO s None = Ok u /\ time_eq u t = true.

(** Half a second is lost; a zone west of Greenwich with minutes is read an
    hour out; a week is written as its month. *)
Theorem C57_round_refuted :
  (exists t s u, fromISO (lit "2004-05-06T07:08:09.5") None = Ok t /\
     asISO t true None true = Ok s /\ s = lit "2004-05-06T07:08:09+00:00" /\ fromISO s None = Ok u /\ t_us u = t_us t - 500000) /\
  (exists t s u, fromISO (lit "2004-05-06T07:08:09") None = Ok t /\
     asISO t true (Some (- (3 * HOUR + 30 * MINUTE))) true = Ok s /\ s = lit "2004-05-06T03:38:09-03:30" /\ fromISO s None = Ok u /\ t_us u = t_us t - HOUR) /\
  (exists t s u, fromISO (lit "2004-W20") None = Ok t /\
     asISO t true None true = Ok s /\ s = lit "2004-05" /\ fromISO s None = Ok u /\ t_us u = t_us t - 9 * DAY) /\
  ~ C57_full.
Proof.
  split; [|split; [|split]].
  - eexists _, _, _. repeat (split; [vm_compute; reflexivity|]). vm_compute. reflexivity.
  - eexists _, _, _. repeat (split; [vm_compute; reflexivity|]). vm_compute. reflexivity.
  - eexists _, _, _. repeat (split; [vm_compute; reflexivity|]). vm_compute. reflexivity.
  - intros H. destruct (H (lit "2004-05-06T07:08:09.5") None (T 63219424089500000 100000) true None) as (s & u & H1 & H2 & H3).
    + vm_compute. reflexivity.
    + vm_compute. split; reflexivity.
    + reflexivity.
    + vm_compute. split; [discriminate|reflexivity].
    + vm_compute in H1. injection H1 as <-. vm_compute in H2. injection H2 as <-. vm_compute in H3. discriminate.
Qed.
Print Assumptions C57_round_refuted.

(** A time that is the start of the period its resolution makes it written as
    comes back, with or without delimiters, with the zone written (then the
    zone must be whole minutes, and whole hours if west of Greenwich) or
    passed to the parser.  Periods between an hour and a day are written
    without the zone, so it must be Greenwich; the parser takes no bare 9999. *)
Theorem C57_round_partial : forall (t : time) (d : bool) (tz : option Z) (incl : bool) (tz' : option Z),
  ok_time t -> - DAY < offset_of tz < DAY -> 0 <= written t tz < MAXT -> starts (t_res t) (written t tz) ->
  t_res t <= HOUR \/ DAY <= t_res t \/ offset_of tz = 0 ->
  (31 * DAY < t_res t -> d_year (f_date (fields_of (written t tz))) < 9999) ->
  (if incl then offset_of tz mod MINUTE = 0 /\ (0 <= offset_of tz \/ offset_of tz mod HOUR = 0) else tz' = tz) ->
  exists s u, asISO t d tz incl = Ok s /\ fromISO s tz' = Ok u /\ time_eq u t = true.
Proof. exact iso_round. Qed.
Print Assumptions C57_round_partial.

(** In general what comes back is the first moment [k] of the period of the
    resolution in which the time falls, on the clock of the zone. *)
Theorem C57_start_partial : forall (t : time) (d : bool) (tz : option Z) (incl : bool) (tz' : option Z) k,
  ok_time t -> - DAY < offset_of tz < DAY -> 0 <= written t tz < MAXT -> t_res t <= 366 * DAY ->
  datetime (clip (t_res t) (fields_of (written t tz))) = Ok k -> 0 <= t_us t - (written t tz - k) < MAXT ->
  t_res t <= HOUR \/ DAY <= t_res t \/ offset_of tz = 0 ->
  (31 * DAY < t_res t -> d_year (f_date (fields_of (written t tz))) < 9999) ->
  (if incl then offset_of tz mod MINUTE = 0 /\ (0 <= offset_of tz \/ offset_of tz mod HOUR = 0) else tz' = tz) ->
  exists s u, asISO t d tz incl = Ok s /\ fromISO s tz' = Ok u /\ t_us u = t_us t - (written t tz - k).
Proof. exact iso_start. Qed.
Print Assumptions C57_start_partial.

(** So without a zone a time comes back exactly if it is such a first moment, and not
    a bare 9999. *)
Theorem C57_exact_partial : forall t d tz', ok_time t ->
  (exists s u, asISO t d None true = Ok s /\ fromISO s tz' = Ok u /\ time_eq u t = true) <->
  starts (t_res t) (t_us t) /\ (31 * DAY < t_res t -> d_year (f_date (fields_of (t_us t))) < 9999).
Proof. exact iso_exact. Qed.
Print Assumptions C57_exact_partial.

(** In every zone, written or not: what is read is the first moment [k] of the period, on
    the clock of the zone, less the zone that is read ([zone_read]: the one written, to the
    nearest minute and with minutes west added instead of subtracted; the one given to the
    parser if none is written; none at all for a date).  Reading fails exactly if that
    zone is not less than a day or leads out of the calendar. *)
Theorem C57_zone_partial : forall (t : time) (d : bool) (tz : option Z) (incl : bool) (tz' : option Z),
  ok_time t -> - DAY < offset_of tz < DAY -> 0 <= written t tz < MAXT -> t_res t <= 366 * DAY ->
  (31 * DAY < t_res t -> d_year (f_date (fields_of (written t tz))) < 9999) ->
  exists s k, asISO t d tz incl = Ok s /\ datetime (clip (t_res t) (fields_of (written t tz))) = Ok k /\
    let z := zone_read t tz incl tz' in
    (forall u, fromISO s tz' = Ok u -> t_us u = k - z /\ (- DAY < z < DAY /\ 0 <= k - z < MAXT)) /\
    (- DAY < z < DAY -> 0 <= k - z < MAXT -> exists u, fromISO s tz' = Ok u).
Proof. exact iso_zone. Qed.
Print Assumptions C57_zone_partial.

(** So exactly these times come back, *)
Theorem C57_zone_exact_partial : forall (t : time) (d : bool) (tz : option Z) (incl : bool) (tz' : option Z),
  ok_time t -> - DAY < offset_of tz < DAY -> 0 <= written t tz < MAXT -> t_res t <= 366 * DAY ->
  (31 * DAY < t_res t -> d_year (f_date (fields_of (written t tz))) < 9999) ->
  (exists s u, asISO t d tz incl = Ok s /\ fromISO s tz' = Ok u /\ time_eq u t = true) <->
  - DAY < zone_read t tz incl tz' < DAY /\ datetime (clip (t_res t) (fields_of (written t tz))) = Ok (t_us t + zone_read t tz incl tz').
Proof. exact iso_zone_exact. Qed.
Print Assumptions C57_zone_exact_partial.

(** and none with a clock time and minutes west of Greenwich. *)
Theorem C57_west_refuted : forall t d tz tz', ok_time t -> - DAY < offset_of tz < 0 -> offset_of tz mod MINUTE = 0 -> offset_of tz mod HOUR <> 0 ->
  0 <= written t tz < MAXT -> t_res t <= HOUR ->
  ~ exists s u, asISO t d tz true = Ok s /\ fromISO s tz' = Ok u /\ time_eq u t = true.
Proof. exact iso_west_never. Qed.
Print Assumptions C57_west_refuted.

Example C57_zone_nonvacuous :
  let t := T 63219424089000000 1 in let tz := Some (- (3 * HOUR + 30 * MINUTE)) in
  ok_time t /\ - DAY < offset_of tz < 0 /\ offset_of tz mod MINUTE = 0 /\ offset_of tz mod HOUR <> 0 /\ 0 <= written t tz < MAXT /\ t_res t <= HOUR /\
  zone_read t tz true None = - (2 * HOUR + 30 * MINUTE) /\ zone_read t (Some (DAY - 1)) true None = DAY /\ zone_read t (Some (90 * SECOND)) true None = 2 * MINUTE /\
  asISO t true tz true = Ok (lit "2004-05-06T03:38:09-03:30") /\ fromISO (lit "2004-05-06T03:38:09-03:30") None = Ok (T (63219424089000000 - HOUR) SECOND).
Proof. vm_compute. repeat split; discriminate || reflexivity. Qed.

Example C57_nonvacuous :
  let t := T 63219424089012340 1 in
  let tz := Some (5 * HOUR + 30 * MINUTE) in
  ok_time t /\ - DAY < offset_of tz < DAY /\ 0 <= written t tz < MAXT /\ starts (t_res t) (written t tz) /\ offset_of tz mod MINUTE = 0
  /\ asISO t true tz true = Ok (lit "2004-05-06T12:38:09.01234+05:30") /\ asISO t false tz false = Ok (lit "20040506T123809.01234")
  /\ (let m := T ((ymd2ord (D 2004 2 1) - 1) * DAY) (29 * DAY) in
      starts (t_res m) (written m None) /\ asISO m true None true = Ok (lit "2004-02") /\ fromISO (lit "2004-02") None = Ok m).
Proof. vm_compute. repeat split; discriminate || reflexivity. Qed.

Example C57_nonvacuous_start :
  let t := T 63219424089512340 MINUTE in let tz := Some (5 * HOUR + 30 * MINUTE) in
  written t tz = 63219443889512340 /\ datetime (clip (t_res t) (fields_of (written t tz))) = Ok 63219443880000000 /\
  asISO t true tz true = Ok (lit "2004-05-06T12:38+05:30") /\ fromISO (lit "2004-05-06T12:38+05:30") None = Ok (T (63219424089512340 - 9512340) MINUTE).
Proof. vm_compute. repeat split. Qed.

(** ** C60 *)

(** [f] the local date and clock time of the text, [l] the same as a datetime *)
Definition C60_full : Prop := forall i s tz t f l, iso_text i s -> fromISO s tz = Ok t ->
  names i (f_us f) f -> f_us f = frac_us (iso_frac i) -> datetime f = Ok l -> t_us t = l - offset_of (zone_of i tz).

(** -03:30 is taken as three hours west and thirty minutes east *)
Theorem C60_sign_refuted :
  (exists i f l t, iso_text i (lit "2004-05-06T07:08:09-03:30") /\ zone_of i None = Some (- (3 * HOUR + 30 * MINUTE)) /\
     names i 0 f /\ datetime f = Ok l /\ fromISO (lit "2004-05-06T07:08:09-03:30") None = Ok t /\ t_us t = l + 2 * HOUR + 30 * MINUTE) /\ ~ C60_full.
Proof.
  set (i := Iso (lit "2004") (IDay (lit "05") (lit "06")) (Some (CSecond (lit "07") (lit "08") (lit "09"), ZOff 45 (lit "03") (Some (lit "30"))))).
  assert (Hi : iso_text i (lit "2004-05-06T07:08:09-03:30")).
  { exists (lit "-05-06"), (lit "T07:08:09-03:30"), [].
    assert (Hd : forall a b, digits 2 [48 + a; 48 + b]%N <-> dig (48 + a) = true /\ dig (48 + b) = true).
    { intros a b. split; [intros [_ H]; inversion H as [|? ? H1 H2]; inversion H2; auto|intros [H1 H2]; split; [reflexivity|now repeat constructor]]. }
    split; [split; [reflexivity|repeat constructor]|]. split; [apply (T_day [45%N] (lit "05") [45%N] (lit "06")); (now right) || (split; [reflexivity|repeat constructor])|].
    split; [apply (T_time _ _ (lit "07:08:09") (lit "-03:30"))|split; [intros _; exact Logic.I|split; [now left|reflexivity]]].
    - apply (T_hms (lit "07") [58%N] (lit "08") [58%N] (lit "09")); (now right) || (split; [reflexivity|repeat constructor]).
    - apply (T_offm 45 (lit "03") [58%N] (lit "30")); (now right) || (split; [reflexivity|repeat constructor]). }
  split.
  - exists i, (F (D 2004 5 6) 7 8 9 0), 63219424089000000, (T 63219433089000000 1000000). split; [exact Hi|]. split; [reflexivity|].
    split; [vm_compute; repeat split|]. split; [vm_compute; reflexivity|]. split; vm_compute; reflexivity.
  - intros H. specialize (H i _ None (T 63219433089000000 1000000) (F (D 2004 5 6) 7 8 9 0) 63219424089000000 Hi).
    assert (E : 63219433089000000 = 63219424089000000 - - (3 * HOUR + 30 * MINUTE)); [|discriminate E].
    apply H; vm_compute; repeat split.
Qed.
Print Assumptions C60_sign_refuted.

(** Every other offset is honoured: none written, Z, whole hours either way,
    hours and minutes east. *)
Theorem C60_offset_partial : forall i s tz t f l, iso_text i s -> plain_zone i -> fromISO s tz = Ok t ->
  names i (f_us f) f -> f_us f = frac_us (iso_frac i) -> datetime f = Ok l -> t_us t = l - offset_of (zone_of i tz).
Proof. exact parse_offset. Qed.
Print Assumptions C60_offset_partial.

(** And the remaining ones: hours west with minutes have the minutes added where
    they should be subtracted, so the instant is early by twice the minutes. *)
Theorem C60_west : forall i s tz t f l c h m, iso_text i s -> i_time i = Some (c, ZOff 45 h (Some m)) -> fromISO s tz = Ok t ->
  names i (f_us f) f -> f_us f = frac_us (iso_frac i) -> datetime f = Ok l ->
  t_us t = l + uval h * HOUR - uval m * MINUTE /\ t_us t = l - offset_of (zone_of i tz) - 2 * (uval m * MINUTE).
Proof.
  intros i s tz t f l c h m Hi Hz H Hn Eu Hf. rewrite (parse_west i s tz t f l c h m Hi Hz H Hn Eu Hf). split; [reflexivity|].
  unfold zone_of. rewrite Hz. cbn [zone_means offset_of N.eqb Pos.eqb]. unfold HOUR, MINUTE. lia.
Qed.
Print Assumptions C60_west.

(** With an explicit zone the tzinfo argument changes nothing; nor does it for
    a text without a time. *)
Theorem C60_override_partial : forall i s tz tz', iso_text i s ->
  match i_time i with Some (_, ZNone) => False | _ => True end -> fromISO s tz = fromISO s tz'.
Proof. exact parse_override. Qed.
Print Assumptions C60_override_partial.

Example C60_nonvacuous :
  fromISO (lit "2004-05-06T07:08:09+03:30") (Some HOUR) = Ok (T (63219424089000000 - (3 * HOUR + 30 * MINUTE)) SECOND)
  /\ fromISO (lit "2004-05-06T07:08:09-03") (Some HOUR) = Ok (T (63219424089000000 + 3 * HOUR) SECOND)
  /\ fromISO (lit "20040506T070809Z") (Some HOUR) = Ok (T 63219424089000000 SECOND)
  /\ fromISO (lit "20040506T070809") (Some HOUR) = Ok (T (63219424089000000 - HOUR) SECOND).
Proof. vm_compute. repeat split. Qed.

(** ** C61 *)

(** What is parsed reads back, in the zone written, as the date and clock time
    written, each within its range; what is not of the form raises ValueError,
    as does what names no date and time. *)
Definition C61_full : Prop :=
  (forall s tz t, fromISO s tz = Ok t -> exists i f x, iso_text i s /\ valid_fields f /\ minutes_ok i /\
     names i (f_us f) f /\ near_us (iso_frac i) (f_us f) /\ asDatetime t (zone_of i tz) = Ok x /\ fields_of (dt_local x) = f) /\
  (forall s tz i, iso_text i s -> (forall f, near_us (iso_frac i) (f_us f) -> names i (f_us f) f -> ~ valid_fields f) -> fromISO s tz = Err ValueError).

(** The minutes of an offset are not checked; and day 366 of year 9999 raises
    OverflowError. *)
Theorem C61_ranges_refuted :
  (exists t i, fromISO (lit "2004-05-06T07+00:99") None = Ok t /\ iso_text i (lit "2004-05-06T07+00:99") /\ ~ minutes_ok i) /\
  fromISO (lit "9999-366") None = Err OverflowError /\ ~ C61_full.
Proof.
  assert (Hm : exists i, iso_match (lit "2004-05-06T07+00:99") = Some (caps_of i) /\ ~ minutes_ok i).
  { exists (Iso (lit "2004") (IDay (lit "05") (lit "06")) (Some (CHour (lit "07"), ZOff 43 (lit "00") (Some (lit "99"))))). split; [vm_compute; reflexivity|].
    vm_compute. intros [_ H]. apply H. reflexivity. }
  destruct Hm as (i & Em & Hm). assert (Hi : iso_text i (lit "2004-05-06T07+00:99")).
  { apply match_sound in Em. destruct Em as (j & Hj & Ec). apply (f_equal uncaps) in Ec. rewrite !uncaps_of in Ec. now subst j. }
  assert (Ep : fromISO (lit "2004-05-06T07+00:99") None = Ok (T (63219423600000000 - 99 * MINUTE) HOUR)) by (vm_compute; reflexivity).
  split; [eauto|]. split; [vm_compute; reflexivity|]. intros [H _]. destruct (H _ _ _ Ep) as (j & f & x & Hj & _ & Hmj & _).
  rewrite (iso_one i j _ Hi Hj) in Hm. contradiction.
Qed.
Print Assumptions C61_ranges_refuted.

(** The first part holds but for the range of the offset's minutes and the
    sign of C60. *)
Theorem C61_fields_partial : forall s tz t, fromISO s tz = Ok t -> exists i, iso_text i s /\ (plain_zone i ->
  exists f x, valid_fields f /\ names i (f_us f) f /\ near_us (iso_frac i) (f_us f) /\ asDatetime t (zone_of i tz) = Ok x /\ fields_of (dt_local x) = f).
Proof.
  intros s tz t H. destruct (iso_match s) as [c|] eqn:E; [|unfold fromISO in H; rewrite E in H; discriminate].
  apply match_sound in E. destruct E as (i & Hi & _). exists i. split; [exact Hi|]. intros Hp. exact (parse_fields i s tz t Hi Hp H).
Qed.
Print Assumptions C61_fields_partial.

(** A text has one reading. *)
Theorem C61_one_reading : forall i j s, iso_text i s -> iso_text j s -> i = j.
Proof. exact iso_one. Qed.
Print Assumptions C61_one_reading.

(** What is not of the form raises ValueError. *)
Theorem C61_form : forall s tz, (forall i, ~ iso_text i s) -> fromISO s tz = Err ValueError.
Proof. exact fromISO_none. Qed.
Print Assumptions C61_form.

(** What names no date and time is never accepted; only in year 9999 is the
    error another. *)
Theorem C61_rejects_partial : forall i s tz, iso_text i s ->
  (forall f, near_us (iso_frac i) (f_us f) -> names i (f_us f) f -> ~ valid_fields f) ->
  fromISO s tz = Err ValueError \/ (fromISO s tz = Err OverflowError /\ iso_year i = 9999).
Proof. exact parse_rejects. Qed.
Print Assumptions C61_rejects_partial.

(** And what does name one is accepted, if the instant is one a Time can be
    (and the text is not just 9999). *)
Theorem C61_accepts_partial : forall i s tz f l, iso_text i s -> (length (match iso_frac i with Some x => x | None => [] end) <= 6)%nat ->
  near_us (iso_frac i) (f_us f) -> names i (f_us f) f -> datetime f = Ok l -> plain_zone i ->
  - DAY < offset_of (zone_of i tz) < DAY -> 0 <= l - offset_of (zone_of i tz) < MAXT ->
  (i_time i = None -> i_date i = IYear -> iso_year i < 9999) ->
  fromISO s tz = Ok (T (l - offset_of (zone_of i tz)) (period i)).
Proof. exact parse_accepts. Qed.
Print Assumptions C61_accepts_partial.

Example C61_nonvacuous :
  fromISO (lit "2004-02-30") None = Err ValueError /\ fromISO (lit "2003-366") None = Err ValueError /\ fromISO (lit "2004-366") None = Ok (T ((ymd2ord (D 2004 12 31) - 1) * DAY) DAY)
  /\ fromISO (lit "2004-05-06T24") None = Err ValueError /\ fromISO (lit "2004-05-06T23:59:60") None = Err ValueError
  /\ fromISO (lit "2004-05-06T23:59:59,123456") None = Ok (T ((ymd2ord (D 2004 5 6) - 1) * DAY + DAY - SECOND + 123456) 1)
  /\ fromISO (lit "2004-5-6") None = Err ValueError.
Proof. vm_compute. repeat split. Qed.

(** ** C62 *)

(** [iso_spec n]: the year the Thursday of the week of day [n] is in, the
    number of that Thursday in its year, and the day of the week. *)

(** A week date that parses is the day of that year, week and weekday (Monday
    if none is written), in the zone written. *)
Theorem C62_right_day : forall i s tz t, iso_text i s -> plain_zone i -> fromISO s tz = Ok t ->
  forall w wd, (i_date i = IWeekDay w wd \/ (i_date i = IWeek w /\ wd = lit "1")) ->
  exists x, asDatetime t (zone_of i tz) = Ok x /\ iso_spec (ymd2ord (f_date (fields_of (dt_local x)))) = (iso_year i, uval w, uval wd).
Proof.
  intros i s tz t Hi Hp H w wd Hd. destruct (parse_fields i s tz t Hi Hp H) as (f & x & _ & (Hn & _) & _ & Hx & Ef).
  exists x. split; [exact Hx|]. rewrite Ef. destruct Hd as [E|[E ->]]; rewrite E in Hn; exact Hn.
Qed.
Print Assumptions C62_right_day.

(** Every day a Time can be is reached by its week date. *)
Theorem C62_every_day : forall x y w wd i s tz, valid_date x -> 1 <= d_year x <= 9999 -> iso_spec (ymd2ord x) = (y, w, wd) ->
  iso_text i s -> iso_year i = y -> i_time i = None ->
  (exists a b, i_date i = IWeekDay a b /\ uval a = w /\ uval b = wd) \/ (exists a, i_date i = IWeek a /\ uval a = w /\ wd = 1) ->
  exists r, fromISO s tz = Ok (T ((ymd2ord x - 1) * DAY) r).
Proof.
  intros x y w wd i s tz Hv Hy Hx Hi Ey Et Hd. exists (period i).
  pose proof (parse_accepts i s tz (F x 0 0 0 0) ((ymd2ord x - 1) * DAY) Hi) as H. unfold zone_of, plain_zone, iso_frac in H. rewrite Et in H.
  cbn [offset_of f_us] in H. rewrite Z.sub_0_r in H. apply H.
  - repeat constructor.
  - reflexivity.
  - unfold names, iso_hour, iso_minute, iso_second. rewrite Et. cbn [f_date f_hour f_min f_sec f_us]. repeat split.
    destruct Hd as [(a & b & -> & <- & <-)|(a & -> & <- & ->)]; cbn [day_named]; now rewrite Ey.
  - now apply datetime_midnight.
  - exact Logic.I.
  - split; reflexivity.
  - apply (datetime_range (F x 0 0 0 0)). now apply datetime_midnight.
  - intros _ E. destruct Hd as [(a & b & Ea & _)|(a & Ea & _)]; rewrite E in Ea; discriminate.
Qed.
Print Assumptions C62_every_day.

(** A week date that no day has is rejected. *)
Theorem C62_no_such_day : forall i s tz w wd, iso_text i s ->
  (i_date i = IWeekDay w wd \/ (i_date i = IWeek w /\ wd = lit "1")) ->
  (forall n, iso_spec n <> (iso_year i, uval w, uval wd)) ->
  fromISO s tz = Err ValueError \/ fromISO s tz = Err OverflowError.
Proof.
  intros i s tz w wd Hi Hd Hno. destruct (parse_rejects i s tz Hi) as [H|[H _]]; auto.
  intros f _ (Hn & _) _. destruct Hd as [E|[E ->]]; rewrite E in Hn; exact (Hno _ Hn).
Qed.
Print Assumptions C62_no_such_day.

(** A year has a week 53 just if January 1 is a Thursday, or a Wednesday in a
    leap year (day 1, 0001-01-01, is a Monday). *)
Theorem C62_week_53 : forall y, (exists n d, iso_spec n = (y, 53, d)) <->
  (ymd2ord (D y 1 1) - 1) mod 7 = 3 \/ (leap y = true /\ (ymd2ord (D y 1 1) - 1) mod 7 = 2).
Proof. exact week53. Qed.
Print Assumptions C62_week_53.

Example C62_nonvacuous :
  fromISO (lit "2004-W53-6") None = Ok (T ((ymd2ord (D 2005 1 1) - 1) * DAY) DAY) /\ fromISO (lit "2005-W53-1") None = Err ValueError
  /\ fromISO (lit "2009W011") None = Ok (T ((ymd2ord (D 2008 12 29) - 1) * DAY) DAY) /\ fromISO (lit "9999-W53") None = Err OverflowError
  /\ iso_spec (ymd2ord (D 2005 1 1)) = (2004, 53, 6).
Proof. vm_compute. repeat split. Qed.

(** ** C90 *)

(** The resolution of a parsed Time is the length of the smallest unit the
    text writes: of that month, of that year, of the last digit of the
    fraction but no less than a microsecond. *)
Theorem C90_precision : forall i s tz t, iso_text i s -> fromISO s tz = Ok t -> t_res t = period i.
Proof. exact parse_period. Qed.
Print Assumptions C90_precision.

(** So a month, a week or a year ends where the next begins. *)
Theorem C90_next_month : forall y m, 1 <= m < 12 -> ymd2ord (D y (m + 1) 1) = ymd2ord (D y m 1) + month_length y m.
Proof. exact next_month. Qed.
Print Assumptions C90_next_month.

Theorem C90_next_year : forall y, ymd2ord (D (y + 1) 1 1) = ymd2ord (D y 12 1) + month_length y 12
  /\ ymd2ord (D (y + 1) 1 1) = ymd2ord (D y 1 1) + (if leap y then 366 else 365).
Proof.
  intros y. rewrite !jan1, before_year_next. split.
  - unfold ymd2ord. cbn [d_year d_month d_day]. pose proof (dec_end y) as H. change (month_length y 12) with 31. lia.
  - destruct (leap y); cbn [b2z]; lia.
Qed.
Print Assumptions C90_next_year.

Example C90_nonvacuous :
  fromISO (lit "2004-02") None = Ok (T ((ymd2ord (D 2004 2 1) - 1) * DAY) (29 * DAY))
  /\ fromISO (lit "2005") None = Ok (T ((ymd2ord (D 2005 1 1) - 1) * DAY) (365 * DAY))
  /\ fromISO (lit "2004-12") None = Ok (T ((ymd2ord (D 2004 12 1) - 1) * DAY) (31 * DAY))
  /\ fromISO (lit "2004-05-06T07:08:09.25") None = Ok (T 63219424089250000 10000).
Proof. vm_compute. repeat split. Qed.
