(** * epsilon/extime.py: Times in timezones with summer time

    Extime.v, ExtimeIso.v and ExtimeRfc.v take a tzinfo to be a constant offset,
    as extime.FixedOffset is.  Here a tzinfo is any object whose utcoffset and dst
    are functions of the datetime's local time (and never None), with the fromutc
    that datetime.tzinfo has.  Not modelled: the attribute [fold] (the inherited
    fromutc leaves it 0), tzinfos with a fromutc of their own. *)

From Coq Require Import ZArith NArith String List Bool Lia.
From Verif Require Import Py PyNum Cal PyTime Extime ExtimeIso ExtimeIsoFmt PyInt ExtimeRfc ExtimeHumanly ExtimeHumanlyVal.
Import ListNotations.
Open Scope Z_scope.
Open Scope py_scope.

(** tzinfo.utcoffset and tzinfo.dst, in microseconds *)
Record tzone := Zone { z_off : Z -> Z; z_dst : Z -> Z }.

(** The standard library, tzinfo.fromutc (Modules/_datetimemodule.c): [utc] is the
    time in UTC, labelled with the zone.  [utcoffset] is the check of the results of
    utcoffset and dst. *)
Definition fromutc (z : tzone) (utc : Z) : res Z :=
  off <- utcoffset (z_off z utc) ;;
  dst <- utcoffset (z_dst z utc) ;;
  l <- add_td utc (off - dst) ;;
  dst' <- utcoffset (z_dst z l) ;;
  add_td l dst'.

(** extime.py:672-684, asDatetime with a tzinfo: the local time of the datetime *)
Definition asDatetimeZ (t : time) (z : tzone) : res Z :=
  if negb (isTimezoneDependent t) then Ok (t_us t)
  else utc <- add_td (t_us t) (- fixed_offset 0 0) ;; fromutc z utc.

(** extime.py:592-604, fromDatetime of the datetime with that local time and tzinfo *)
Definition fromDatetimeZ (local : Z) (z : tzone) : res time :=
  o <- utcoffset (z_off z local) ;; utc <- add_td local (- o) ;; l <- add_td utc (fixed_offset 0 0) ;; Ok (T l 1).

(** extime.py:800-810, asStructTime with a tzinfo: [timetuple], whose tm_isdst is
    whether dst() is not zero *)
Definition asStructTimeZ (t : time) (z : tzone) : res struct_time :=
  l <- asDatetimeZ t z ;; dst <- utcoffset (z_dst z l) ;; Ok (build_struct l (if dst =? 0 then 0 else 1)).

(** extime.py:573-588, fromStructTime with a tzinfo *)
Definition fromStructTimeZ (l : list Z) (z : tzone) : res time :=
  f <- six_fields l ;; local <- datetime f ;; t <- fromDatetimeZ local z ;; Ok (T (t_us t) SECOND).

(** extime.py:743-798, asISO8601TimeAndDate with a tzinfo.  Without the dependence on
    the zone the tzinfo is dropped. *)
Definition asISOZ (self : time) (includeDelimiters : bool) (z : tzone) (includeTimezone : bool) : res str :=
  if negb (isTimezoneDependent self) then asISO self includeDelimiters None includeTimezone else
  l <- asDatetimeZ self z ;;
  let '(dateSep, timeSep) := if includeDelimiters then (lit "-", lit ":") else ([], []) in
  timezone <- (if includeTimezone then
                 o <- utcoffset (z_off z l) ;;
                 let '(sign, hour, min) := signHrMin o in
                 Ok (sign ++ zpad 2 hour ++ timeSep ++ zpad 2 min)%list
               else Ok []) ;;
  let f := fields_of l in
  let us := rstrip0 (zpad 6 (f_us f)) in
  let microsecond := match us with [] => [] | _ => lit "." ++ us end%list in
  let parts := [ (zpad 4 (d_year (f_date f)), 366 * DAY);
                 (dateSep ++ zpad 2 (d_month (f_date f)), 31 * DAY);
                 (dateSep ++ zpad 2 (d_day (f_date f)), DAY);
                 (lit "T", HOUR);
                 (zpad 2 (f_hour f), HOUR);
                 (timeSep ++ zpad 2 (f_min f), MINUTE);
                 (timeSep ++ zpad 2 (f_sec f), SECOND);
                 (microsecond, 1);
                 (timezone, HOUR) ]%list in
  Ok (flat_map (fun '(part, minResolution) => if t_res self <=? minResolution then part else []) parts).

(** extime.py:695-729, asRFC2822 with a tzinfo *)
Definition asRFC2822Z (self : time) (z : tzone) (includeDayOfWeek : bool) : res str :=
  l <- asDatetimeZ self z ;;
  o <- utcoffset (z_off z l) ;;
  let '(sign, hr, min) := signHrMin o in
  let rfcoffset := (sign ++ zpad 2 hr ++ zpad 2 min)%list in
  let f := fields_of l in
  Ok ((if includeDayOfWeek then at_index rfc2822Weekdays (weekday l) ++ lit ", " else []) ++
      zdec (d_day (f_date f)) ++ lit " " ++ at_index rfc2822Months (d_month (f_date f) - 1) ++ lit " " ++
      spad 4 (d_year (f_date f)) ++ lit " " ++
      zpad 2 (f_hour f) ++ lit ":" ++ zpad 2 (f_min f) ++ lit ":" ++ zpad 2 (f_sec f) ++ lit " " ++ rfcoffset)%list.

(** extime.py:238-246, the end of _fromTime, with the hour and minute typed: the
    comparison of two datetimes with one tzinfo is that of the local times *)
Definition fromClockZ (now : time) (z : tzone) (hour minute : Z) : res time :=
  l <- asDatetimeZ now z ;;
  dtnow <- replace_clock l (f_hour (fields_of l)) (f_min (fields_of l)) 0 0 ;;
  dtthen <- replace_clock dtnow hour minute 0 0 ;;
  dtthen <- (if dtthen <? dtnow then add_td dtthen DAY else Ok dtthen) ;;
  t <- fromDatetimeZ dtthen z ;;
  Ok (T (t_us t) MINUTE).

(** a FixedOffset *)
Definition fixed (off : Z) : tzone := Zone (fun _ => off) (fun _ => 0).

(** ** Specification: a zone with summer time

    [std] ahead of Greenwich, and [save] more when the clock shows a time of the summer *)
Definition summer_zone (std save : Z) (summer : Z -> bool) : tzone :=
  Zone (fun l => if summer l then std + save else std) (fun l => if summer l then save else 0).

(** the offsets are less than a day, and it is not the first or last days of the calendar *)
Definition usable (std save : Z) (t : time) : Prop :=
  - DAY < std < DAY /\ 0 < save < DAY /\ - DAY < std + save < DAY /\ 2 * DAY <= t_us t < MAXT - 2 * DAY.

(** at the instant [i] it is summer, but no longer by the clock put forward: the last
    [save] before the clock is put back, as standard time *)
Definition ending (std save : Z) (summer : Z -> bool) (i : Z) : bool := summer (i + std) && negb (summer (i + std + save)).

(** [L] is the first time from the start of the minute of [l] on at which a clock that
    is never put back or forward shows [h]:[m] *)
Definition next_local (l h m L : Z) : Prop :=
  l - l mod MINUTE <= L < l - l mod MINUTE + DAY /\ L mod DAY = h * HOUR + m * MINUTE.

(** ** Lemmas *)

Lemma fixed_shows t off : match asDatetimeZ t (fixed off) with Ok l => asDatetime t (Some off) = Ok (Dt l (Some off)) | Err e => asDatetime t (Some off) = Err e end.
Proof.
  unfold asDatetimeZ, asDatetime. destruct (isTimezoneDependent t); cbn [negb]; [|reflexivity]. unfold astimezone, fromutc. rewrite fixed00. cbn [fixed z_off z_dst].
  change (utcoffset 0) with (@Ok Z 0). cbn [rbind]. destruct (add_td (t_us t) (- 0)) as [u|e]; cbn [rbind]; [|reflexivity].
  assert (Eo : utcoffset off = Ok off \/ exists e, utcoffset off = Err e) by (unfold utcoffset; destruct ((- DAY <? off) && (off <? DAY)); eauto).
  destruct Eo as [Eo|[e Eo]]; rewrite Eo; cbn [rbind]; [|reflexivity]. rewrite Z.sub_0_r.
  destruct (add_td u off) as [l|] eqn:E; cbn [rbind]; [|reflexivity]. change (utcoffset 0) with (@Ok Z 0). cbn [rbind].
  unfold add_td in E |- *. destruct (in_range (u + off)) eqn:R; [|discriminate]. injection E as <-. rewrite Z.add_0_r, R. reflexivity.
Qed.

Lemma fixed_reads l off : fromDatetimeZ l (fixed off) = fromDatetime (Dt l (Some off)).
Proof.
  unfold fromDatetimeZ, fromDatetime, astimezone. cbn [fixed z_off dt_tz dt_local]. destruct (utcoffset off) as [o|]; cbn [rbind]; [|reflexivity].
  destruct (add_td l (- o)) as [u|]; cbn [rbind]; [|reflexivity]. rewrite fixed00. change (utcoffset 0) with (@Ok Z 0). cbn [rbind]. now destruct (add_td u 0).
Qed.

Lemma add_ok a d : 0 <= a + d < MAXT -> add_td a d = Ok (a + d).
Proof. intros H. unfold add_td, in_range. replace ((0 <=? a + d) && (a + d <? MAXT)) with true by lia. reflexivity. Qed.
Lemma off_ok o : - DAY < o < DAY -> utcoffset o = Ok o.
Proof. intros H. unfold utcoffset. replace ((- DAY <? o) && (o <? DAY)) with true by lia. reflexivity. Qed.

Lemma reads_Ok l z t : fromDatetimeZ l z = Ok t <-> - DAY < z_off z l < DAY /\ 0 <= l - z_off z l < MAXT /\ t = T (l - z_off z l) 1.
Proof.
  unfold fromDatetimeZ. rewrite fixed00. unfold utcoffset. split.
  - destruct ((- DAY <? z_off z l) && (z_off z l <? DAY)) eqn:E; cbn [rbind]; [|discriminate]. unfold add_td at 1.
    destruct (in_range (l + - z_off z l)) eqn:R; cbn [rbind]; [|discriminate]. unfold add_td. rewrite Z.add_0_r, R. cbn [rbind]. intros [= <-].
    unfold in_range in R. split; [lia|]. split; [lia|]. f_equal; lia.
  - intros (H1 & H2 & ->). replace ((- DAY <? z_off z l) && (z_off z l <? DAY)) with true by lia. cbn [rbind]. rewrite add_ok by lia. cbn [rbind]. rewrite add_ok by lia. cbn [rbind].
    do 2 f_equal; lia.
Qed.

(** any zone: the time comes back exactly if the offset of the local time shown is the
    difference of the local time and it *)
Lemma round_exact t z l : ok_time t -> asDatetimeZ t z = Ok l -> (fromDatetimeZ l z = Ok (T (t_us t) 1) <-> - DAY < z_off z l < DAY /\ l - t_us t = z_off z l).
Proof.
  intros Ht _. rewrite reads_Ok. unfold ok_time in Ht. split.
  - intros (H1 & H2 & [= E]). split; [exact H1|lia].
  - intros (H1 & H2). split; [exact H1|]. split; [lia|]. f_equal; lia.
Qed.

Lemma summer_shows std save summer t : usable std save t -> isTimezoneDependent t = true ->
  asDatetimeZ t (summer_zone std save summer) = Ok (if summer (t_us t + std) then t_us t + std + save else t_us t + std).
Proof.
  intros (H1 & H2 & H3 & H4) Hd. unfold asDatetimeZ. rewrite Hd. cbn [negb]. rewrite fixed00. rewrite add_ok by (unfold DAY in *; lia). cbn [rbind].
  unfold fromutc. cbn [summer_zone z_off z_dst]. replace (t_us t + - 0) with (t_us t) by lia.
  rewrite off_ok by (destruct (summer (t_us t)); lia). cbn [rbind]. rewrite off_ok by (destruct (summer (t_us t)); unfold DAY in *; lia). cbn [rbind].
  replace ((if summer (t_us t) then std + save else std) - (if summer (t_us t) then save else 0)) with std by (destruct (summer (t_us t)); lia).
  rewrite add_ok by (unfold DAY in *; lia). cbn [rbind]. rewrite off_ok by (destruct (summer (t_us t + std)); unfold DAY in *; lia). cbn [rbind].
  destruct (summer (t_us t + std)); rewrite add_ok by (unfold DAY in *; lia); [reflexivity|]. f_equal. lia.
Qed.

(** the hour in which it is wrong *)
Lemma summer_reads std save summer t l : usable std save t -> isTimezoneDependent t = true -> asDatetimeZ t (summer_zone std save summer) = Ok l ->
  fromDatetimeZ l (summer_zone std save summer) = Ok (T (t_us t + (if ending std save summer (t_us t) then save else 0)) 1).
Proof.
  intros H Hd E. rewrite (summer_shows _ _ _ _ H Hd) in E. injection E as <-. destruct H as (H1 & H2 & H3 & H4). apply reads_Ok. cbn [summer_zone z_off].
  unfold ending. destruct (summer (t_us t + std)) eqn:S1; [destruct (summer (t_us t + std + save)) eqn:S2|rewrite S1]; cbn [andb negb].
  - split; [lia|]. split; [unfold DAY in *; lia|]. f_equal; lia.
  - split; [lia|]. split; [unfold DAY in *; lia|]. f_equal; lia.
  - split; [lia|]. split; [unfold DAY in *; lia|]. f_equal; lia.
Qed.

(** texts in a zone are the texts in the constant offset of the local time *)
Lemma iso_as_fixed t d z incl l : isTimezoneDependent t = true -> asDatetimeZ t z = Ok l -> 0 <= l < MAXT -> - DAY < z_off z l < DAY -> 0 <= l - z_off z l < MAXT ->
  asISOZ t d z incl = asISO (T (l - z_off z l) (t_res t)) d (Some (z_off z l)) incl.
Proof.
  intros Hd E Hl Ho Hu. unfold asISOZ, asISO. rewrite Hd. cbn [negb]. unfold isTimezoneDependent in *. cbn [t_res]. rewrite Hd. rewrite E. cbn [rbind].
  rewrite (proj2 (asDatetime_Ok (T (l - z_off z l) (t_res t)) (z_off z l) (Dt l (Some (z_off z l))) Hd)).
  - cbn [rbind dt_local]. reflexivity.
  - split; [exact Ho|]. split; [exact Hu|]. cbn [t_us]. split; [lia|]. f_equal. lia.
Qed.

Lemma rfc_as_fixed t dow z l : isTimezoneDependent t = true -> asDatetimeZ t z = Ok l -> 0 <= l < MAXT -> - DAY < z_off z l < DAY -> 0 <= l - z_off z l < MAXT ->
  asRFC2822Z t z dow = asRFC2822 (T (l - z_off z l) (t_res t)) (Some (z_off z l)) dow.
Proof.
  intros Hd E Hl Ho Hu. unfold asRFC2822Z, asRFC2822. rewrite E. cbn [rbind].
  rewrite (proj2 (asDatetime_Ok (T (l - z_off z l) (t_res t)) (z_off z l) (Dt l (Some (z_off z l))) Hd)).
  - cbn [rbind dt_local]. rewrite (off_ok _ Ho). cbn [rbind]. destruct (signHrMin (z_off z l)) as [[a b] c]. cbn [rbind]. reflexivity.
  - split; [exact Ho|]. split; [exact Hu|]. cbn [t_us]. split; [lia|]. f_equal. lia.
Qed.

Lemma off_after std save (summer : Z -> bool) t : usable std save t -> let l := if summer (t_us t + std) then t_us t + std + save else t_us t + std in
  let z := summer_zone std save summer in - DAY < z_off z l < DAY /\ 0 <= l < MAXT /\ 0 <= l - z_off z l < MAXT /\
  l - z_off z l = t_us t + (if ending std save summer (t_us t) then save else 0).
Proof.
  intros (H1 & H2 & H3 & H4) l z. unfold l, z. cbn [summer_zone z_off].
  unfold ending. destruct (summer (t_us t + std)) eqn:S1; [destruct (summer (t_us t + std + save)) eqn:S2|rewrite S1]; cbn [andb negb]; unfold DAY in *; repeat split; lia.
Qed.

Lemma next_one l h m L L' : next_local l h m L -> next_local l h m L' -> L = L'.
Proof. intros [A B] [A' B']. rewrite <- B' in B. clear B'. set (n := l - l mod MINUTE) in *. clearbody n. clear l h m. unfold DAY in *. lia. Qed.

Lemma clock_reads now z h m l : 0 <= h < 24 -> 0 <= m < 60 -> asDatetimeZ now z = Ok l -> 0 <= l < MAXT - DAY ->
  exists L, next_local l h m L /\ fromClockZ now z h m = (t <- fromDatetimeZ L z ;; Ok (T (t_us t) MINUTE)).
Proof.
  intros Hh Hm E Hl. unfold fromClockZ. rewrite E. cbn [rbind]. rewrite minute_Ok by (unfold DAY in *; lia). cbn [rbind].
  assert (Hn : 0 <= l - l mod MINUTE < MAXT) by (unfold MINUTE, DAY in *; lia).
  rewrite replace_Ok by (assumption || lia). cbn [rbind]. set (n := l - l mod MINUTE) in *.
  assert (Nl : n <= l) by (unfold n, MINUTE; lia).
  assert (N0 : n mod MINUTE = 0) by (unfold n, MINUTE; lia).
  assert (Hx : 0 <= h * HOUR + m * MINUTE < DAY /\ (h * HOUR + m * MINUTE) mod MINUTE = 0) by (unfold HOUR, MINUTE, DAY; lia).
  set (x := h * HOUR + m * MINUTE) in *.
  set (th := n - n mod DAY + x). assert (T : n - n mod DAY + h * HOUR + m * MINUTE = th) by (unfold th, x; lia). rewrite T.
  assert (HL : (if th <? n then add_td th DAY else Ok th) = Ok (if th <? n then th + DAY else th)).
  { destruct (th <? n) eqn:C; [|reflexivity]. apply add_ok. apply Z.ltb_lt in C. unfold th, DAY in *. lia. }
  rewrite HL. cbn [rbind]. eexists. split; [|reflexivity]. unfold next_local. fold x n. clear T HL. clearbody n x. subst th.
  destruct (n - n mod DAY + x <? n) eqn:C; [apply Z.ltb_lt in C|apply Z.ltb_ge in C]; unfold DAY in *; lia.
Qed.
