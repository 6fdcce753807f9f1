(** * Properties C58, C92, C93, C94: dates of RFC 2822 and RFC 1123 *)

From Coq Require Import ZArith NArith String List Bool Lia.
From Verif Require Import Py PyNum Cal PyTime Extime ExtimeIsoFmt ExtimePosix ExtimeRfc ExtimeRfcVal ExtimeRfcFmt ExtimeRfcFar.
Import ListNotations.
Open Scope Z_scope.

(** [ulower], [uupper] and [uisdigit] are [str.lower], [str.upper] and
    [str.isdigit]; only what they do on ASCII is assumed. *)
Definition strs (ulower uupper : str -> str) (uisdigit : N -> bool) : Prop :=
  lowers ulower /\ uppers uupper /\ digit_test uisdigit.
Definition lower0 : str -> str := map ascii_lower.
Definition upper0 : str -> str := map ascii_upper.

Lemma strs_ok : strs lower0 upper0 is_digit.
Proof. split; [|split]; intros x H; try reflexivity. exact H. Qed.

(** ** C58 *)

(** the full claim, with the zone of whole minutes and the local time and the
    time itself in the calendar *)
Definition C58_full : Prop := forall ulower uupper uisdigit, strs ulower uupper uisdigit ->
  forall t tz dow, ok_time t -> - DAY < offset_of tz < DAY -> offset_of tz mod MINUTE = 0 -> 0 <= t_us t + offset_of tz < MAXT ->
  exists s u, asRFC2822 t tz dow = Ok s /\ fromRFC2822 ulower uupper uisdigit s = Ok u /\ t_us u = t_us t - t_us t mod SECOND.

(** A year before 100 is read as one of the last or this century; a time of a
    whole day is written in the zone without being converted to it. *)
Theorem C58_round_refuted :
  (exists t s u, ok_time t /\ asRFC2822 t None true = Ok s /\ s = lit "Wed, 6 Dec   45 00:00:00 -0000" /\
     fromRFC2822 lower0 upper0 is_digit s = Ok u /\ f_date (fields_of (t_us t)) = D 45 12 6 /\ f_date (fields_of (t_us u)) = D 2045 12 6) /\
  (exists t s u, ok_time t /\ isTimezoneDependent t = false /\ asRFC2822 t (Some HOUR) true = Ok s /\ s = lit "Mon, 6 Dec 2004 00:00:00 +0100" /\
     fromRFC2822 lower0 upper0 is_digit s = Ok u /\ t_us u = t_us t - HOUR) /\
  ~ C58_full.
Proof.
  split; [|split].
  - exists (T ((ymd2ord (D 45 12 6) - 1) * DAY) 1). do 2 eexists. split; [split; [discriminate|reflexivity]|].
    repeat (split; [vm_compute; reflexivity|]). vm_compute. reflexivity.
  - exists (T ((ymd2ord (D 2004 12 6) - 1) * DAY) DAY). do 2 eexists. split; [split; [discriminate|reflexivity]|].
    repeat (split; [vm_compute; reflexivity|]). vm_compute. reflexivity.
  - intros H. destruct (H _ _ _ strs_ok (T ((ymd2ord (D 2004 12 6) - 1) * DAY) DAY) (Some HOUR) true) as (s & u & E1 & E2 & E3);
      [split; [discriminate|reflexivity]|split; reflexivity|reflexivity|split; [discriminate|reflexivity]|].
    vm_compute in E1. injection E1 as <-. vm_compute in E2. injection E2 as <-. vm_compute in E3. discriminate.
Qed.
Print Assumptions C58_round_refuted.

(** From the year 100 on, a time with a resolution below a day comes back
    truncated to the second. *)
Theorem C58_round_partial : forall ulower uupper uisdigit, strs ulower uupper uisdigit ->
  forall t tz dow, ok_time t -> isTimezoneDependent t = true ->
  - DAY < offset_of tz < DAY -> offset_of tz mod MINUTE = 0 -> 0 <= t_us t + offset_of tz < MAXT ->
  100 <= d_year (f_date (fields_of (t_us t + offset_of tz))) ->
  exists s u, asRFC2822 t tz dow = Ok s /\ fromRFC2822 ulower uupper uisdigit s = Ok u /\
    t_us u = t_us t - t_us t mod SECOND /\ t_res u = SECOND.
Proof.
  intros ulower uupper uisdigit (H1 & H2 & H3) t tz dow Ht Hd Ho Hm Hl Hy.
  assert (Hx : exists o, asDatetime t tz = Ok (Dt (t_us t + offset_of tz) o)).
  { destruct tz as [off|]; cbn [offset_of] in *.
    - exists (Some off). apply asDatetime_Ok; [exact Hd|]. cbn [dt_local]. repeat split; try apply Ho; try apply Hl; apply Ht.
    - exists (Some 0). rewrite Z.add_0_r. now apply asDatetime_utc. }
  destruct Hx as [o Hx].
  destruct (rfc_round ulower uupper uisdigit H1 H2 H3 t tz dow _ Hx Hl Ho Hm Hy) as (s & E1 & E2).
  { cbn [dt_local]. unfold ok_time in Ht. lia. }
  cbv zeta in E2. cbn [dt_local] in E2. replace (t_us t + offset_of tz - offset_of tz) with (t_us t) in E2 by lia.
  exists s. eexists. split; [exact E1|]. split; [exact E2|]. now split.
Qed.
Print Assumptions C58_round_partial.

(** Before the year 100 the date comes back as the same day and clock time of
    1969 to 2068. *)
Theorem C58_century : forall ulower uupper uisdigit, strs ulower uupper uisdigit ->
  forall t tz dow, ok_time t -> isTimezoneDependent t = true ->
  - DAY < offset_of tz < DAY -> offset_of tz mod MINUTE = 0 -> 0 <= t_us t + offset_of tz < MAXT ->
  forall y m d h mi sc us, fields_of (t_us t + offset_of tz) = F (D y m d) h mi sc us -> y < 100 ->
  exists s u, asRFC2822 t tz dow = Ok s /\ fromRFC2822 ulower uupper uisdigit s = Ok u /\
    fields_of (t_us u + offset_of tz) = F (D (if y <? 69 then 2000 + y else 1900 + y) m d) h mi sc 0 /\ t_res u = SECOND.
Proof.
  intros ulower uupper uisdigit (H1 & H2 & H3) t tz dow Ht Hd Ho Hm Hl y m d h mi sc us Ef Hy.
  assert (Hx : exists o, asDatetime t tz = Ok (Dt (t_us t + offset_of tz) o)).
  { destruct tz as [off|]; cbn [offset_of] in *.
    - exists (Some off). apply asDatetime_Ok; [exact Hd|]. cbn [dt_local]. repeat split; try apply Ho; try apply Hl; apply Ht.
    - exists (Some 0). rewrite Z.add_0_r. now apply asDatetime_utc. }
  destruct Hx as [o Hx].
  destruct (rfc_century ulower uupper uisdigit H1 H2 H3 t tz dow _ Hx Hl Ho Hm) as (s & i & E1 & E2 & E3).
  { cbn [dt_local]. rewrite Ef. exact Hy. }
  exists s. eexists. split; [exact E1|]. split; [exact E2|]. cbn [t_us t_res]. split; [|reflexivity]. rewrite E3. cbn [dt_local]. rewrite Ef.
  unfold in_century, whole, century. cbn [f_date f_hour f_min f_sec f_us d_year d_month d_day]. replace (y <? 100) with true by lia. reflexivity.
Qed.
Print Assumptions C58_century.

(** And a whole day (or longer period) comes back wrong by the offset. *)
Theorem C58_day : forall ulower uupper uisdigit, strs ulower uupper uisdigit ->
  forall t tz dow, ok_time t -> isTimezoneDependent t = false ->
  - DAY < offset_of tz < DAY -> offset_of tz mod MINUTE = 0 -> 0 <= t_us t - offset_of tz < MAXT ->
  100 <= d_year (f_date (fields_of (t_us t))) ->
  exists s u, asRFC2822 t tz dow = Ok s /\ fromRFC2822 ulower uupper uisdigit s = Ok u /\
    t_us u = t_us t - t_us t mod SECOND - offset_of tz /\ t_res u = SECOND.
Proof.
  intros ulower uupper uisdigit (H1 & H2 & H3) t tz dow Ht Hd Ho Hm Hl Hy.
  assert (Hx : exists o, asDatetime t tz = Ok (Dt (t_us t) o)) by (unfold asDatetime; rewrite Hd; eexists; reflexivity).
  destruct Hx as [o Hx].
  destruct (rfc_round ulower uupper uisdigit H1 H2 H3 t tz dow _ Hx Ht Ho Hm Hy Hl) as (s & E1 & E2).
  cbv zeta in E2. cbn [dt_local] in E2. exists s. eexists. split; [exact E1|]. split; [exact E2|]. cbn [t_us t_res]. split; [|reflexivity].
  assert (M : offset_of tz mod SECOND = 0) by (unfold MINUTE, SECOND in *; lia).
  assert (E : (t_us t - offset_of tz) mod SECOND = t_us t mod SECOND) by (unfold SECOND in *; lia). lia.
Qed.
Print Assumptions C58_day.

(** A whole day before the year 100: both. *)
Theorem C58_day_century : forall ulower uupper uisdigit, strs ulower uupper uisdigit ->
  forall t tz dow, ok_time t -> isTimezoneDependent t = false ->
  - DAY < offset_of tz < DAY -> offset_of tz mod MINUTE = 0 ->
  forall y m d h mi sc us, fields_of (t_us t) = F (D y m d) h mi sc us -> y < 100 ->
  exists s u, asRFC2822 t tz dow = Ok s /\ fromRFC2822 ulower uupper uisdigit s = Ok u /\
    fields_of (t_us u + offset_of tz) = F (D (if y <? 69 then 2000 + y else 1900 + y) m d) h mi sc 0 /\ t_res u = SECOND.
Proof.
  intros ulower uupper uisdigit (H1 & H2 & H3) t tz dow Ht Hd Ho Hm y m d h mi sc us Ef Hy.
  assert (Hx : exists o, asDatetime t tz = Ok (Dt (t_us t) o)) by (unfold asDatetime; rewrite Hd; eexists; reflexivity).
  destruct Hx as [o Hx].
  destruct (rfc_century ulower uupper uisdigit H1 H2 H3 t tz dow _ Hx Ht Ho Hm) as (s & i & E1 & E2 & E3).
  { cbn [dt_local]. rewrite Ef. exact Hy. }
  exists s. eexists. split; [exact E1|]. split; [exact E2|]. cbn [t_us t_res]. split; [|reflexivity]. rewrite E3. cbn [dt_local]. rewrite Ef.
  unfold in_century, whole, century. cbn [f_date f_hour f_min f_sec f_us d_year d_month d_day]. replace (y <? 100) with true by lia. reflexivity.
Qed.
Print Assumptions C58_day_century.

Example C58_nonvacuous : let t := T ((ymd2ord (D 2004 12 6) - 1) * DAY + 500000) 1 in let tz := Some (- (3 * HOUR + 30 * MINUTE)) in
  ok_time t /\ isTimezoneDependent t = true /\ - DAY < offset_of tz < DAY /\ offset_of tz mod MINUTE = 0 /\ 0 <= t_us t + offset_of tz < MAXT /\
  100 <= d_year (f_date (fields_of (t_us t + offset_of tz))) /\
  asRFC2822 t tz true = Ok (lit "Sun, 5 Dec 2004 20:30:00 -0330").
Proof.
  cbv zeta. split; [split; [discriminate|reflexivity]|]. split; [reflexivity|]. split; [split; reflexivity|]. split; [reflexivity|].
  split; [split; [discriminate|reflexivity]|]. split; [vm_compute; discriminate|vm_compute; reflexivity].
Qed.

(** ** C92: RFC 1123 *)

(** [s] writes the UTC date and time of [t], seconds truncated *)
Definition names_second (t : time) (s : str) : Prop := rfc_text (whole (fields_of (t_us t))) 0 s.

Definition C92_full : Prop := forall t, ok_time t -> exists s, asRFC1123 t = Ok s /\ names_second t s.

(** The seconds go through a float: far from 1970 they round up, and the last
    microsecond of the calendar raises. *)
Theorem C92_second_refuted :
  (exists t, ok_time t /\ asRFC1123 t = Err ValueError) /\
  (exists t, ok_time t /\ fields_of (t_us t) = F (D 9000 1 1) 0 0 0 999999 /\ asRFC1123 t = Ok (lit "Wed, 01 Jan 9000 00:00:01 GMT")) /\
  ~ C92_full.
Proof.
  assert (H : ok_time (T (MAXT - 1) 1) /\ asRFC1123 (T (MAXT - 1) 1) = Err ValueError).
  { split; [split; [discriminate|reflexivity]|vm_compute; reflexivity]. }
  split; [exact (ex_intro _ _ H)|]. split.
  - exists (T ((ymd2ord (D 9000 1 1) - 1) * DAY + 999999) 1). split; [split; [discriminate|reflexivity]|]. split; vm_compute; reflexivity.
  - intros F. destruct H as [A B]. destruct (F _ A) as (s & E & _). congruence.
Qed.
Print Assumptions C92_second_refuted.

(** Right for every time less than 2^33 seconds from 1970, and for every time
    of whole seconds. *)
Theorem C92_second_partial : forall t, ok_time t ->
  - 2 ^ 33 < (t_us t - EPOCH) / SECOND < 2 ^ 33 \/ t_us t mod SECOND = 0 ->
  exists s, asRFC1123 t = Ok s /\ names_second t s.
Proof. intros t Ht [H|H]; [now apply as_1123_near|now apply as_1123_whole]. Qed.
Print Assumptions C92_second_partial.

Example C92_nonvacuous : let t := T (EPOCH + 3 * DAY + 999999) 1 in
  ok_time t /\ - 2 ^ 33 < (t_us t - EPOCH) / SECOND < 2 ^ 33 /\ asRFC1123 t = Ok (lit "Sun, 04 Jan 1970 00:00:00 GMT").
Proof. cbv zeta. split; [split; [discriminate|reflexivity]|]. split; [split; reflexivity|]. vm_compute. reflexivity. Qed.

(** Everywhere on the calendar: the second of the time is written, or the next one for
    a time at most 15 microseconds before it; only a time at most 15 microseconds
    before the end of the calendar can raise, and that is ValueError. *)
Theorem C92_far_partial : forall t, ok_time t ->
  (exists s, asRFC1123 t = Ok s /\
     (names_second t s \/
      SECOND - 15 <= t_us t mod SECOND /\ rfc_text (whole (fields_of (t_us t + 15))) 0 s)) \/
  (asRFC1123 t = Err ValueError /\ MAXT - 15 <= t_us t).
Proof. exact as_1123_far. Qed.
Print Assumptions C92_far_partial.

Example C92_far_nonvacuous : let t := T ((ymd2ord (D 9000 1 1) - 1) * DAY + 999999) 1 in
  ok_time t /\ SECOND - 15 <= t_us t mod SECOND /\ asRFC1123 t = Ok (lit "Wed, 01 Jan 9000 00:00:01 GMT").
Proof. cbv zeta. split; [split; [discriminate|reflexivity]|]. split; [vm_compute; congruence|]. vm_compute. reflexivity. Qed.

(** ** C93: what a text means *)

(** A text that writes a date and a zone below a day is read as that instant, years of
    two digits counting from 2000 up to 68 and from 1900 up to 99, if there is such a
    date. *)
Theorem C93_reads : forall ulower uupper uisdigit, strs ulower uupper uisdigit ->
  forall f off s, rfc_text f off s -> valid_fields (in_century f) -> -1440 < off < 1440 ->
  exists l, datetime (in_century f) = Ok l /\
    fromRFC2822 ulower uupper uisdigit s =
      (if in_range (l - off * MINUTE) then Ok (T (l - off * MINUTE) SECOND) else Err OverflowError).
Proof.
  intros ulower uupper uisdigit (H1 & H2 & H3) f off s Hs Hv Ho. destruct (fields_datetime (in_century f) Hv) as (l & Hl & _). exists l. split; [exact Hl|].
  assert (Bo : - DAY < off * MINUTE < DAY) by (unfold DAY, MINUTE; lia).
  destruct (rfc_reads ulower uupper uisdigit H1 H2 H3 f off s l Hs Hl) as [E|[_ E]].
  - rewrite E. destruct (in_range (l - off * MINUTE)) eqn:R.
    + apply in_range_spec in R. rewrite (proj2 (fromDatetime_Ok l (off * MINUTE) (T (l - off * MINUTE) 1)) (conj Bo (conj R eq_refl))). reflexivity.
    + unfold fromDatetime, astimezone. cbn [dt_tz dt_local]. rewrite fixed00.
      rewrite (proj2 (utcoffset_Ok (off * MINUTE) (off * MINUTE)) (conj Bo eq_refl)). cbn [rbind].
      destruct (off * MINUTE =? 0) eqn:Z.
      * exfalso. apply Z.eqb_eq in Z. rewrite Z, Z.sub_0_r in R. pose proof (datetime_range (in_century f) l Hl) as D. apply in_range_spec in D. congruence.
      * unfold add_td. replace (l + - (off * MINUTE)) with (l - off * MINUTE) by lia. rewrite R. reflexivity.
  - exfalso. unfold td_ok in E. unfold DAY in *. lia.
Qed.
Print Assumptions C93_reads.

(** dates of four digits are meant as they are, those of two digits as said *)
Example C93_century : map century [0; 68; 69; 99; 100; 2004] = [2000; 2068; 1969; 1999; 100; 2004].
Proof. reflexivity. Qed.


Example C93_nonvacuous : let f := F (D 2004 12 6) 9 15 16 0 in
  valid_fields (in_century f) /\ rfc_text f (-300) (lit "Monday,6 DECEMBER   2004 09:15:16 est ") /\ rfc_text f 345 (lit "Mon, 06 Dec 2004 9:15:16 +0545").
Proof.
  assert (N : forall t z, t <> [] -> all_digits t = true -> Z.of_N (dec_val t) = z -> num t z) by now repeat split.
  assert (W : forall s, forallb (fun c => negb (is_space c)) (lit s) = true -> lit s <> [] -> word (lit s)) by exact word_lit.
  cbv zeta. split; [unfold valid_fields, valid_date; cbn -[month_length]; repeat split; vm_compute; congruence|]. split.
  - exists (lit "6"), (lit "DECEMBER"), (lit "2004"), (lit "09:15:16"), [lit "est"], [lit "Monday,6"; lit "DECEMBER"; lit "2004"; lit "09:15:16"; lit "est"].
    split; [now apply N|]. split; [split; [split; discriminate|left; reflexivity]|]. split; [now apply N|].
    split; [exact (CW_second (lit "09") (lit "15") (lit "16") 9 15 16 (N (lit "09") 9 ltac:(discriminate) eq_refl eq_refl) (N (lit "15") 15 ltac:(discriminate) eq_refl eq_refl) (N (lit "16") 16 ltac:(discriminate) eq_refl eq_refl))|].
    split; [reflexivity|]. split; [right; eexists; split; [reflexivity|]; apply (ZW_name _ "EST"); [cbn; tauto|reflexivity]|].
    split; [exact (DT_glued (lit "6") _ (lit "Monday") eq_refl)|].
    apply (SP_word [] (lit "Monday,6") _ (lit " DECEMBER   2004 09:15:16 est ")); [constructor|now apply W| |reflexivity].
    apply (SP_word (lit " ") (lit "DECEMBER") _ (lit "   2004 09:15:16 est ")); [repeat constructor|now apply W| |reflexivity].
    apply (SP_word (lit "   ") (lit "2004") _ (lit " 09:15:16 est ")); [repeat constructor|now apply W| |reflexivity].
    apply (SP_word (lit " ") (lit "09:15:16") _ (lit " est ")); [repeat constructor|now apply W| |reflexivity].
    apply (SP_word (lit " ") (lit "est") _ (lit " ")); [repeat constructor|now apply W| |reflexivity].
    constructor. repeat constructor.
  - exists (lit "06"), (lit "Dec"), (lit "2004"), (lit "9:15:16"), [lit "+0545"], [lit "Mon,"; lit "06"; lit "Dec"; lit "2004"; lit "9:15:16"; lit "+0545"].
    split; [now apply N|]. split; [split; [split; discriminate|right; reflexivity]|]. split; [now apply N|].
    split; [exact (CW_second (lit "9") (lit "15") (lit "16") 9 15 16 (N (lit "9") 9 ltac:(discriminate) eq_refl eq_refl) (N (lit "15") 15 ltac:(discriminate) eq_refl eq_refl) (N (lit "16") 16 ltac:(discriminate) eq_refl eq_refl))|].
    split; [reflexivity|]. split; [right; eexists; split; [reflexivity|]; exact (ZW_num 43 (lit "05") (lit "45") 5 45 (or_introl eq_refl) eq_refl eq_refl (N (lit "05") 5 ltac:(discriminate) eq_refl eq_refl) (N (lit "45") 45 ltac:(discriminate) eq_refl eq_refl))|].
    split; [exact (DT_word (lit "06") _ (lit "Mon"))|].
    exact (spaced_1123 (lit "Mon,") (lit "06") (lit "Dec") (lit "2004") (lit "9:15:16") (lit "+0545") (W "Mon,"%string eq_refl ltac:(discriminate)) (W "06"%string eq_refl ltac:(discriminate)) (W "Dec"%string eq_refl ltac:(discriminate)) (W "2004"%string eq_refl ltac:(discriminate)) (W "9:15:16"%string eq_refl ltac:(discriminate)) (W "+0545"%string eq_refl ltac:(discriminate))).
Qed.

(** ** C94: errors *)

Definition C94_full : Prop := forall ulower uupper uisdigit, strs ulower uupper uisdigit ->
  (forall s, s <> [] -> ulower s <> []) ->
  forall s e, fromRFC2822 ulower uupper uisdigit s = Err e -> e = ValueError.

(** A zone that leads out of the calendar, and a huge one, raise OverflowError. *)
Theorem C94_errors_refuted :
  fromRFC2822 lower0 upper0 is_digit (lit "31 Dec 9999 23:59:59 -0100") = Err OverflowError /\
  fromRFC2822 lower0 upper0 is_digit (lit "1 Jan 2000 0:00 +99999999999999999999") = Err OverflowError /\
  ~ C94_full.
Proof.
  assert (H : fromRFC2822 lower0 upper0 is_digit (lit "31 Dec 9999 23:59:59 -0100") = Err OverflowError) by (vm_compute; reflexivity).
  split; [exact H|]. split; [vm_compute; reflexivity|]. intros F.
  specialize (F _ _ _ strs_ok (fun s Hs E => Hs (map_eq_nil _ _ E)) _ _ H). discriminate.
Qed.
Print Assumptions C94_errors_refuted.

(** No other exception than these two, whatever the text. *)
Theorem C94_errors_partial : forall ulower uupper uisdigit, (forall s, s <> [] -> ulower s <> []) ->
  forall s e, fromRFC2822 ulower uupper uisdigit s = Err e -> e = ValueError \/ e = OverflowError.
Proof. exact rfc_errors. Qed.
Print Assumptions C94_errors_partial.

Example C94_nonvacuous : fromRFC2822 lower0 upper0 is_digit (lit "some invalid date") = Err ValueError.
Proof. vm_compute. reflexivity. Qed.
