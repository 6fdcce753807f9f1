(** * Properties C67, C68, C95 to C100: times typed by, and written for, people *)

From Coq Require Import ZArith NArith String List Bool Lia.
From Verif Require Import Py PyNum Cal PyTime Extime ExtimeRfcVal ExtimeHumanly ExtimeHumanlyVal ExtimeHumanlyAll ExtimeHumanlyFmt.
Import ListNotations.
Open Scope Z_scope.

(** [ulower] is [str.lower], of which only the effect on ASCII is assumed
    ([lowers]); [ualnum] says which other characters belong to words. *)
Definition lower0 : str -> str := map ascii_lower.
Definition alnum0 (c : N) : bool := false.
Lemma lower0_ok : lowers lower0.
Proof. intros s _. reflexivity. Qed.

(** Monday 2004-12-06, 12:30 UTC *)
Definition now0 : time := T 63237933000000000 1.
Example now0_is : datetime (F (D 2004 12 6) 12 30 0 0) = Ok (t_us now0).
Proof. vm_compute. reflexivity. Qed.
Lemma now0_roomy off : - DAY < off < DAY -> roomy now0 off.
Proof. intros H. unfold roomy. split; [reflexivity|]. repeat split; try apply H; vm_compute; congruence. Qed.
Lemma pad0 v : padded v v.
Proof. exists [], []. rewrite app_nil_r. repeat split; constructor. Qed.

(** ** C67: clock times *)

Definition C67_full : Prop := forall ulower ualnum, lowers ulower -> forall s h m tz now,
  clock_text s h m -> h < 24 -> m < 60 -> roomy now (offset tz) ->
  exists u, fromHumanly ulower ualnum s tz now = Ok (T u MINUTE) /\
    first_showing (minute_start (offset tz) (t_us now)) (offset tz) h m u.

(** No time of the hour after noon can be typed with pm. *)
Theorem C67_next_refuted :
  clock_text (lit "12:30 pm") 12 30 /\ fromHumanly lower0 alnum0 (lit "12:30 pm") None now0 = Err ValueError /\ ~ C67_full.
Proof.
  assert (C : clock_text (lit "12:30 pm") (12 mod 12 + 12) 30).
  { apply (CT_pm _ (lit "12") (lit "30") (lit " ") (lit "pm")).
    - split; [split; [discriminate|split; reflexivity]|right; reflexivity].
    - lia.
    - split; [discriminate|split; reflexivity].
    - reflexivity.
    - apply Forall_cons; [reflexivity|apply Forall_nil].
    - reflexivity.
    - apply pad0. }
  assert (E : fromHumanly lower0 alnum0 (lit "12:30 pm") None now0 = Err ValueError) by (vm_compute; reflexivity).
  split; [exact C|]. split; [exact E|]. intros F.
  destruct (F lower0 alnum0 lower0_ok _ 12 30 None now0 C ltac:(lia) ltac:(lia) (now0_roomy 0 ltac:(unfold DAY; lia))) as (u & Eu & _). congruence.
Qed.
Print Assumptions C67_next_refuted.

(** Every other clock time: the first instant from the start of the current
    minute on. *)
Theorem C67_next_partial : forall ulower ualnum, lowers ulower -> forall s h m tz now,
  clock_text s h m -> h < 24 -> m < 60 -> ~ noon_hour s -> roomy now (offset tz) ->
  exists u, fromHumanly ulower ualnum s tz now = Ok (T u MINUTE) /\
    first_showing (minute_start (offset tz) (t_us now)) (offset tz) h m u.
Proof. exact human_clock. Qed.
Print Assumptions C67_next_partial.

(** The excluded texts are all refused. *)
Theorem C67_noon_refused : forall ulower ualnum, lowers ulower -> forall s tz now,
  noon_hour s -> fromHumanly ulower ualnum s tz now = Err ValueError.
Proof. exact human_noon_hour. Qed.
Print Assumptions C67_noon_refused.

Example C67_nonvacuous : clock_text (lit "9:15") 9 15 /\ roomy now0 (-5 * HOUR) /\
  fromHumanly lower0 alnum0 (lit "9:15") (Some (-5 * HOUR)) now0 = Ok (T (t_us now0 + 105 * MINUTE) MINUTE).
Proof.
  split; [|split; [apply now0_roomy; unfold DAY, HOUR; lia|vm_compute; reflexivity]].
  apply (CT_24 _ (lit "9") (lit "15")); [|split; [discriminate|split; reflexivity]|reflexivity|apply pad0].
  split; [split; [discriminate|split; reflexivity]|left; reflexivity].
Qed.

(** ** C68: weekdays; day 0, 0001-01-01, was a Monday *)

Theorem C68_weekday : forall ulower ualnum, lowers ulower -> forall s wd tz now,
  weekday_text wd s -> ok_time now -> t_us now + 8 * DAY < MAXT ->
  exists n, 1 <= n <= 7 /\ fromHumanly ulower ualnum s tz now = Ok (T (t_us now - t_us now mod DAY + n * DAY) DAY) /\
    ((t_us now - t_us now mod DAY + n * DAY) / DAY) mod 7 = wd.
Proof. exact human_weekday. Qed.
Print Assumptions C68_weekday.

(** from a Monday, Monday is a week ahead *)
Example C68_nonvacuous : weekday_text 0 (lit "next MONDAY ") /\ ok_time now0 /\ t_us now0 + 8 * DAY < MAXT /\
  fromHumanly lower0 alnum0 (lit "next MONDAY ") None now0 = Ok (T (t_us now0 - t_us now0 mod DAY + 7 * DAY) DAY).
Proof.
  split; [|split; [unfold ok_time, now0, MAXT, DAY; cbn [t_us]; lia|split; [vm_compute; reflexivity|vm_compute; reflexivity]]].
  split; [lia|]. exists (lit "next "), (lit "MONDAY"). split; [reflexivity|]. split.
  - exists [], (lit " "). split; [constructor|]. split; [apply Forall_cons; [reflexivity|apply Forall_nil]|reflexivity].
  - right. exists (lit "next"), (lit " "). split; [reflexivity|]. split; [left; reflexivity|].
    split; [apply Forall_cons; [reflexivity|apply Forall_nil]|discriminate].
Qed.

(** ** C95: what is refused, and how *)

Definition C95_full : Prop := forall ulower ualnum, lowers ulower -> forall s tz now e, ok_time now ->
  fromHumanly ulower ualnum s tz now = Err e -> e = ValueError.

(** A long s or a dotless i passes the pattern (the comparison ignores case)
    but not the assertion; the calendar may end. *)
Theorem C95_errors_refuted :
  fromHumanly lower0 alnum0 (lit "ye" ++ [383%N] ++ lit "terday")%list None now0 = Err AssertionError /\
  fromHumanly lower0 alnum0 (lit "m" ++ [305%N] ++ lit "dnight")%list None now0 = Err AssertionError /\
  fromHumanly lower0 alnum0 (lit "tomorrow") None (T (MAXT - 1) 1) = Err OverflowError /\ ~ C95_full.
Proof.
  assert (E : fromHumanly lower0 alnum0 (lit "tomorrow") None (T (MAXT - 1) 1) = Err OverflowError) by (vm_compute; reflexivity).
  split; [vm_compute; reflexivity|]. split; [vm_compute; reflexivity|]. split; [exact E|]. intros F.
  assert (O : ok_time (T (MAXT - 1) 1)) by (unfold ok_time, MAXT, DAY; cbn [t_us]; lia).
  specialize (F lower0 alnum0 lower0_ok _ _ _ _ O E). discriminate.
Qed.
Print Assumptions C95_errors_refuted.

(** No other exception, whatever the text, the zone and the time. *)
Theorem C95_errors_partial : forall ulower ualnum s tz now e,
  fromHumanly ulower ualnum s tz now = Err e -> e = ValueError \/ e = OverflowError \/ e = AssertionError.
Proof. exact human_errors. Qed.
Print Assumptions C95_errors_partial.

(** An ASCII text, away from the ends of the calendar: accepted exactly when it
    is one of the documented forms, refused with ValueError otherwise. *)
Theorem C95_exact_partial : forall ulower ualnum, lowers ulower -> forall s tz now,
  is_ascii s = true -> roomy now (offset tz) -> t_us now + 8 * DAY < MAXT ->
  (human_text s /\ exists u, fromHumanly ulower ualnum s tz now = Ok u) \/
  (~ human_text s /\ fromHumanly ulower ualnum s tz now = Err ValueError).
Proof. exact human_exact. Qed.
Print Assumptions C95_exact_partial.

Example C95_nonvacuous : is_ascii (lit "25:00") = true /\ roomy now0 0 /\ t_us now0 + 8 * DAY < MAXT /\
  fromHumanly lower0 alnum0 (lit "25:00") None now0 = Err ValueError.
Proof.
  split; [reflexivity|]. split; [apply now0_roomy; unfold DAY; lia|]. split; [vm_compute; reflexivity|]. vm_compute. reflexivity.
Qed.

(** ** C96: today, tomorrow, yesterday *)

Theorem C96_days : forall ulower ualnum, lowers ulower -> forall s tz now, ok_time now ->
  let midnight := t_us now - t_us now mod DAY in
  (word_text "today" s -> fromHumanly ulower ualnum s tz now = Ok (T midnight DAY)) /\
  (word_text "tomorrow" s -> t_us now + DAY < MAXT -> fromHumanly ulower ualnum s tz now = Ok (T (midnight + DAY) DAY)) /\
  (word_text "yesterday" s -> DAY <= t_us now -> fromHumanly ulower ualnum s tz now = Ok (T (midnight - DAY) DAY)).
Proof.
  intros ulower ualnum L s tz now H midnight. split; [|split]; intros Hw.
  - now apply human_today.
  - intros Hr. now apply human_tomorrow.
  - intros Hr. now apply human_yesterday.
Qed.
Print Assumptions C96_days.

Example C96_nonvacuous : word_text "tomorrow" (lit " ToMorrow") /\ ok_time now0 /\ t_us now0 + DAY < MAXT /\
  fromHumanly lower0 alnum0 (lit " ToMorrow") (Some (-10 * HOUR)) now0 = Ok (T 63237974400000000 DAY) /\
  datetime (F (D 2004 12 7) 0 0 0 0) = Ok 63237974400000000.
Proof.
  split; [|split; [unfold ok_time, now0, MAXT, DAY; cbn [t_us]; lia|split; [vm_compute; reflexivity|split; vm_compute; reflexivity]]].
  exists (lit "ToMorrow"). split; [reflexivity|]. exists (lit " "), []. rewrite app_nil_r.
  split; [apply Forall_cons; [reflexivity|apply Forall_nil]|]. split; [constructor|reflexivity].
Qed.

(** ** C97: noon, midnight, now *)

Definition C97_full : Prop := forall ulower ualnum, lowers ulower -> forall s tz now (noon : bool),
  roomy now (offset tz) -> word_text (if noon then "noon" else "midnight") s ->
  exists u, fromHumanly ulower ualnum s tz now = Ok (T u MINUTE) /\
    first_showing (minute_start (offset tz) (t_us now)) (offset tz) (if noon then 12 else 0) 0 u.

(** At half past twelve, noon was half an hour ago. *)
Theorem C97_next_refuted :
  fromHumanly lower0 alnum0 (lit "noon") None now0 = Ok (T (t_us now0 - 30 * MINUTE) MINUTE) /\ ~ C97_full.
Proof.
  assert (E : fromHumanly lower0 alnum0 (lit "noon") None now0 = Ok (T (t_us now0 - 30 * MINUTE) MINUTE)) by (vm_compute; reflexivity).
  split; [exact E|]. intros F.
  destruct (F lower0 alnum0 lower0_ok (lit "noon") None now0 true (now0_roomy 0 ltac:(unfold DAY; lia)) (ex_intro _ (lit "noon") (conj eq_refl (pad0 _)))) as (u & Eu & Hu & _).
  rewrite E in Eu. injection Eu as <-. vm_compute in Hu. congruence.
Qed.
Print Assumptions C97_next_refuted.

(** The first noon or midnight from the start of the current local hour on. *)
Theorem C97_next_partial : forall ulower ualnum, lowers ulower -> forall s tz now (noon : bool),
  roomy now (offset tz) -> word_text (if noon then "noon" else "midnight") s ->
  exists u, fromHumanly ulower ualnum s tz now = Ok (T u MINUTE) /\
    first_showing (t_us now - (t_us now + offset tz) mod HOUR) (offset tz) (if noon then 12 else 0) 0 u.
Proof. exact human_noon. Qed.
Print Assumptions C97_next_partial.

Theorem C97_now : forall ulower ualnum, lowers ulower -> forall s tz now,
  ok_time now -> word_text "now" s -> fromHumanly ulower ualnum s tz now = Ok (T (t_us now) 1).
Proof. exact human_now. Qed.
Print Assumptions C97_now.

Example C97_nonvacuous : roomy now0 HOUR /\ word_text "midnight" (lit "Midnight") /\
  fromHumanly lower0 alnum0 (lit "Midnight") (Some HOUR) now0 = Ok (T (t_us now0 + 630 * MINUTE) MINUTE) /\
  word_text "now" (lit "NOW") /\ fromHumanly lower0 alnum0 (lit "NOW") (Some HOUR) now0 = Ok now0.
Proof.
  split; [apply now0_roomy; unfold DAY, HOUR; lia|]. split; [exists (lit "Midnight"); split; [reflexivity|apply pad0]|].
  split; [vm_compute; reflexivity|]. split; [exists (lit "NOW"); split; [reflexivity|apply pad0]|vm_compute; reflexivity].
Qed.

(** ** C98: letter case and surrounding white space *)

Theorem C98_case : forall ulower ualnum, lowers ulower -> forall s tz now,
  is_ascii s = true -> fromHumanly ulower ualnum (map ascii_lower s) tz now = fromHumanly ulower ualnum s tz now.
Proof. exact human_case. Qed.
Print Assumptions C98_case.

Theorem C98_space : forall ulower ualnum a s b tz now,
  Forall (fun c => is_space c = true) a -> Forall (fun c => is_space c = true) b ->
  fromHumanly ulower ualnum (a ++ s ++ b)%list tz now = fromHumanly ulower ualnum s tz now.
Proof. exact human_around. Qed.
Print Assumptions C98_space.

Example C98_nonvacuous : is_ascii (lit "THIS Friday") = true /\ is_space 9%N = true /\ is_space 12288%N = true /\
  fromHumanly lower0 alnum0 (9%N :: lit "THIS Friday" ++ [12288%N])%list None now0 = Ok (T 63238233600000000 DAY).
Proof. repeat split; vm_compute; reflexivity. Qed.

(** ** C99: different times look different *)

Theorem C99_distinct : forall t u tz now p s x y, ok_time t -> ok_time u ->
  asHumanly t tz now p = Ok s -> asHumanly u tz now p = Ok s ->
  asDatetime t tz = Ok x -> asDatetime u tz = Ok y ->
  let f := fields_of (dt_local x) in let g := fields_of (dt_local y) in
  f_date f = f_date g /\ (t_res t = DAY <-> t_res u = DAY) /\
  (t_res t <> DAY -> f_hour f = f_hour g /\ f_min f = f_min g /\ (p = SECONDS -> f_sec f = f_sec g)).
Proof.
  intros t u tz now p s x y Ht Hu H1 H2 Ex Ey.
  pose proof (human_distinct t u tz now p s x y H1 H2 Ex Ey (local_range _ _ _ Ht Ex) (local_range _ _ _ Hu Ey)) as (A & B & C).
  unfold isAllDay in B, C. split; [exact A|]. split; [lia|]. intros D. apply C. lia.
Qed.
Print Assumptions C99_distinct.

Example C99_nonvacuous :
  asHumanly (T (t_us now0 + 90000000) 1) None now0 SECONDS = Ok (lit "12:31:30 pm") /\
  asHumanly (T (t_us now0 + 2 * DAY) 1) None now0 MINUTES = Ok (lit "8 Dec, 12:30 pm") /\
  asHumanly (T (t_us now0 - t_us now0 mod DAY - 365 * DAY) DAY) None now0 MINUTES = Ok (lit "7 Dec 2003").
Proof. repeat split; vm_compute; reflexivity. Qed.

(** ** C100: the text of a time later today reads back *)

Definition later_today (t now : time) (off : Z) : Prop :=
  (t_us now + off) / DAY = (t_us t + off) / DAY /\ minute_start off (t_us now) <= minute_start off (t_us t).

Definition C100_full : Prop := forall ulower ualnum, lowers ulower -> forall t tz now s,
  asHumanly t tz now MINUTES = Ok s -> t_res t < DAY -> roomy now (offset tz) -> ok_time t ->
  later_today t now (offset tz) ->
  fromHumanly ulower ualnum s tz now = Ok (T (minute_start (offset tz) (t_us t)) MINUTE).

(** In the hour after noon the text written cannot be read. *)
Theorem C100_round_refuted :
  asHumanly now0 None now0 MINUTES = Ok (lit "12:30 pm") /\
  fromHumanly lower0 alnum0 (lit "12:30 pm") None now0 = Err ValueError /\ ~ C100_full.
Proof.
  assert (E : asHumanly now0 None now0 MINUTES = Ok (lit "12:30 pm")) by (vm_compute; reflexivity).
  assert (E2 : fromHumanly lower0 alnum0 (lit "12:30 pm") None now0 = Err ValueError) by (vm_compute; reflexivity).
  split; [exact E|]. split; [exact E2|]. intros F.
  assert (O : ok_time now0) by (unfold ok_time, now0, MAXT, DAY; cbn [t_us]; lia).
  specialize (F lower0 alnum0 lower0_ok now0 None now0 _ E eq_refl (now0_roomy 0 ltac:(unfold DAY; lia)) O (conj eq_refl (Z.le_refl _))).
  congruence.
Qed.
Print Assumptions C100_round_refuted.

Theorem C100_round_partial : forall ulower ualnum, lowers ulower -> forall t tz now s,
  asHumanly t tz now MINUTES = Ok s -> t_res t < DAY -> roomy now (offset tz) -> ok_time t ->
  later_today t now (offset tz) -> f_hour (fields_of (t_us t + offset tz)) <> 12 ->
  fromHumanly ulower ualnum s tz now = Ok (T (minute_start (offset tz) (t_us t)) MINUTE).
Proof. intros ulower ualnum L t tz now s H D R O [L1 L2] N12. destruct (short_flags t D) as [A B]. exact (human_round ulower ualnum L t tz now s H A B R O L1 L2 N12). Qed.
Print Assumptions C100_round_partial.

(** A time of today already past is read as the same clock time tomorrow. *)
Theorem C100_earlier : forall ulower ualnum, lowers ulower -> forall t tz now s,
  asHumanly t tz now MINUTES = Ok s -> t_res t < DAY -> roomy now (offset tz) -> ok_time t ->
  (t_us now + offset tz) / DAY = (t_us t + offset tz) / DAY -> minute_start (offset tz) (t_us t) < minute_start (offset tz) (t_us now) ->
  f_hour (fields_of (t_us t + offset tz)) <> 12 ->
  fromHumanly ulower ualnum s tz now = Ok (T (minute_start (offset tz) (t_us t) + DAY) MINUTE).
Proof. intros ulower ualnum L t tz now s H D. destruct (short_flags t D) as [A B]. now apply human_earlier. Qed.
Print Assumptions C100_earlier.

(** What is written of any time of the hour after noon, today, is refused. *)
Theorem C100_noon_refused : forall ulower ualnum, lowers ulower -> forall t tz now s,
  asHumanly t tz now MINUTES = Ok s -> t_res t < DAY -> roomy now (offset tz) ->
  (t_us now + offset tz) / DAY = (t_us t + offset tz) / DAY -> f_hour (fields_of (t_us t + offset tz)) = 12 ->
  fromHumanly ulower ualnum s tz now = Err ValueError.
Proof. intros ulower ualnum L t tz now s H D. destruct (short_flags t D) as [A B]. now apply human_at_noon. Qed.
Print Assumptions C100_noon_refused.

Example C100_nonvacuous : let t := T (t_us now0 + 3 * HOUR + 17) 1 in
  asHumanly t (Some HOUR) now0 MINUTES = Ok (lit "04:30 pm") /\ t_res t < DAY /\ roomy now0 HOUR /\ ok_time t /\
  later_today t now0 HOUR /\ f_hour (fields_of (t_us t + HOUR)) <> 12.
Proof.
  split; [vm_compute; reflexivity|]. split; [reflexivity|]. split; [apply now0_roomy; unfold DAY, HOUR; lia|].
  split; [unfold ok_time, now0, MAXT, DAY, HOUR; cbn [t_us]; lia|]. split; [split; vm_compute; [reflexivity|discriminate]|vm_compute; discriminate].
Qed.
