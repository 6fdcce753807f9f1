(** * Property C173: the words for days, for somebody in a timezone *)

From Coq Require Import ZArith NArith String List Bool Lia.
From Verif Require Import Py PyNum Cal PyTime Extime ExtimeRfcVal ExtimeHumanly ExtimeHumanlyVal ExtimeHumanlyAll ExtimeHumanlyFmt ExtimeHumanlyProps ExtimeDayWords.
Import ListNotations.
Open Scope Z_scope.

(** The full claim: "today" is the day it is where the user is, "tomorrow" and "yesterday"
    the days next to it, and a weekday the first such day after it.  Days are counted from
    0001-01-01, a Monday. *)
Definition C173_full : Prop := forall ulower ualnum, lowers ulower -> forall tz now x,
  ok_time now -> DAY <= t_us now -> t_us now + 8 * DAY < MAXT -> asDatetime now tz = Ok x ->
  let today := dt_local x / DAY in
  (forall w k s, In (w, k) [("today"%string, 0); ("tomorrow"%string, 1); ("yesterday"%string, -1)] -> word_text w s ->
    exists u, fromHumanly ulower ualnum s tz now = Ok u /\ t_us u / DAY = today + k) /\
  (forall wd s, weekday_text wd s ->
    exists u, fromHumanly ulower ualnum s tz now = Ok u /\ (t_us u / DAY) mod 7 = wd /\ today < t_us u / DAY <= today + 7).

(** Monday, 6 December 2004, 22:00 in New York: 03:00 of the seventh in UTC *)
Definition evening : time := T (t_us now0 - t_us now0 mod DAY + DAY + 3 * HOUR) 1.

(** False: the zone is not looked at.  On the evening of the sixth "today" is the seventh,
    which is not shown as today; and "Tuesday", which is tomorrow, is in eight days.  East of
    Greenwich, on a Tuesday morning, "Tuesday" is that same day. *)
Theorem C173_zone_refuted :
  asDatetime evening (Some (-5 * HOUR)) = Ok (Dt (t_us evening - 5 * HOUR) (Some (-5 * HOUR))) /\
  fromHumanly lower0 alnum0 (lit "today") (Some (-5 * HOUR)) evening = Ok (T ((t_us now0 / DAY + 1) * DAY) DAY) /\
  asHumanly (T ((t_us now0 / DAY + 1) * DAY) DAY) (Some (-5 * HOUR)) evening MINUTES = Ok (lit "7 Dec") /\
  fromHumanly lower0 alnum0 (lit "tuesday") (Some (-5 * HOUR)) evening = Ok (T ((t_us now0 / DAY + 8) * DAY) DAY) /\
  (let morning := T (t_us evening - 5 * HOUR) 1 in
   asDatetime morning (Some (9 * HOUR)) = Ok (Dt ((t_us now0 / DAY + 1) * DAY + 7 * HOUR) (Some (9 * HOUR))) /\
   fromHumanly lower0 alnum0 (lit "tuesday") (Some (9 * HOUR)) morning = Ok (T ((t_us now0 / DAY + 1) * DAY) DAY)) /\
  ~ C173_full.
Proof.
  split; [vm_compute; reflexivity|]. split; [vm_compute; reflexivity|]. split; [vm_compute; reflexivity|].
  split; [vm_compute; reflexivity|]. split; [split; vm_compute; reflexivity|]. intros F.
  destruct (F lower0 alnum0 lower0_ok (Some (-5 * HOUR)) evening (Dt (t_us evening - 5 * HOUR) (Some (-5 * HOUR)))) as [F1 _].
  - vm_compute. split; [discriminate|reflexivity].
  - vm_compute. discriminate.
  - vm_compute. reflexivity.
  - vm_compute. reflexivity.
  - destruct (F1 "today"%string 0 (lit "today")) as (u & E & X).
    + left. reflexivity.
    + exists (lit "today"). split; [reflexivity|]. exists [], []. split; [constructor|]. split; [constructor|reflexivity].
    + assert (E' : fromHumanly lower0 alnum0 (lit "today") (Some (-5 * HOUR)) evening = Ok (T ((t_us now0 / DAY + 1) * DAY) DAY)) by (vm_compute; reflexivity).
      rewrite E' in E. apply (f_equal (fun r => match r with Ok v => t_us v | Err _ => 0 end)) in E. cbv beta iota in E.
      rewrite <- E in X. vm_compute in X. discriminate X.
Qed.
Print Assumptions C173_zone_refuted.

(** What holds: all three words miss by as many days as the date in UTC is ahead of the
    user's, which is one at most. *)
Theorem C173_words_partial : forall ulower ualnum, lowers ulower -> forall tz now x,
  ok_time now -> DAY <= t_us now -> t_us now + 8 * DAY < MAXT -> asDatetime now tz = Ok x ->
  let today := dt_local x / DAY in
  forall w k s, In (w, k) [("today"%string, 0); ("tomorrow"%string, 1); ("yesterday"%string, -1)] -> word_text w s ->
  exists u, fromHumanly ulower ualnum s tz now = Ok u /\ t_res u = DAY /\ t_us u mod DAY = 0 /\ t_us u / DAY = today + k + ahead now tz /\ -1 <= ahead now tz <= 1.
Proof.
  intros ulower ualnum L tz now x Hn H1 H8 E today w k s Hw Hs.
  destruct (word_days ulower ualnum L tz now x Hn H1 H8 E w k s Hw Hs) as (u & U1 & U2 & U3 & U4). exists u.
  split; [exact U1|]. split; [exact U2|]. split; [exact U3|]. split; [exact U4|]. apply (local_day now tz x Hn E).
Qed.
Print Assumptions C173_words_partial.

(** A weekday is the first such day after the date in UTC, so it is the first after today
    but for two cases: the weekday of today typed where the date is ahead of UTC's, and the
    weekday of tomorrow typed where it is behind. *)
Theorem C173_weekday_partial : forall ulower ualnum, lowers ulower -> forall tz now x,
  ok_time now -> t_us now + 8 * DAY < MAXT -> asDatetime now tz = Ok x ->
  let today := dt_local x / DAY in
  forall wd s, weekday_text wd s ->
  exists u, fromHumanly ulower ualnum s tz now = Ok u /\ t_res u = DAY /\ t_us u mod DAY = 0 /\ (t_us u / DAY) mod 7 = wd /\
    today + ahead now tz < t_us u / DAY <= today + ahead now tz + 7 /\
    (today < t_us u / DAY <= today + 7 <->
      ~ (ahead now tz = -1 /\ wd = today mod 7) /\ ~ (ahead now tz = 1 /\ wd = (today + 1) mod 7)).
Proof. exact @weekday_days. Qed.
Print Assumptions C173_weekday_partial.

(** "today", shown at once to who typed it, is "all day" (today) exactly when the dates agree. *)
Theorem C173_shown_partial : forall ulower ualnum, lowers ulower -> forall tz now x s,
  ok_time now -> asDatetime now tz = Ok x -> word_text "today" s ->
  exists u, fromHumanly ulower ualnum s tz now = Ok u /\ (asHumanly u tz now MINUTES = Ok (lit "all day") <-> ahead now tz = 0).
Proof. exact @today_shown. Qed.
Print Assumptions C173_shown_partial.

Example C173_nonvacuous : ok_time evening /\ DAY <= t_us evening /\ t_us evening + 8 * DAY < MAXT /\
  ahead evening (Some (-5 * HOUR)) = 1 /\ ahead (T (t_us evening - 5 * HOUR) 1) (Some (9 * HOUR)) = -1 /\ ahead now0 (Some (-5 * HOUR)) = 0 /\
  asHumanly (T ((t_us now0 / DAY) * DAY) DAY) (Some (-5 * HOUR)) now0 MINUTES = Ok (lit "all day").
Proof.
  split; [split; vm_compute; [discriminate|reflexivity]|]. split; [vm_compute; discriminate|].
  split; [vm_compute; reflexivity|]. split; [vm_compute; reflexivity|]. split; [vm_compute; reflexivity|].
  split; vm_compute; reflexivity.
Qed.
