(** * Properties of Time: C55, C56, C63-C66, C69, C88, C89 *)

From Coq Require Import ZArith List Bool Lia.
From Verif Require Import Py Cal PyTime Extime.
Import ListNotations.
Open Scope Z_scope.

(** ** C55 *)

(** Every valid calendar time can be made into a Time, and read back in each
    way; the weekday and day of the year are those of the date, counting days
    from Monday 0001-01-01. *)
Theorem C55_read_back : forall f, valid_fields f -> exists local t,
  datetime f = Ok local /\ fromDatetime (Dt local None) = Ok t /\
  (exists x, asDatetime t None = Ok x /\ fields_of (dt_local x) = f /\ dt_tz x = Some 0) /\
  (exists x, asNaiveDatetime t None = Ok x /\ fields_of (dt_local x) = f /\ dt_tz x = None) /\
  (exists st, asStructTime t None = Ok st /\
     st_six st = [d_year (f_date f); d_month (f_date f); d_day (f_date f); f_hour f; f_min f; f_sec f] /\
     st_wday st = (ymd2ord (f_date f) - 1) mod 7 /\
     st_yday st = ymd2ord (f_date f) - ymd2ord (D (d_year (f_date f)) 1 1) + 1).
Proof.
  intros f Hv. destruct (read_back f Hv) as (l & t & H1 & H2 & Ho & H3 & H4). exists l, t.
  assert (Et : t = T l 1) by (injection H2 as <-; reflexivity). subst t.
  split; [exact H1|]. split; [exact H2|]. split; [|split].
  - eexists. split; [apply asDatetime_utc, Ho|]. split; [exact H4|reflexivity].
  - eexists. split; [exact H3|]. split; [exact H4|reflexivity].
  - eexists. split; [apply asStruct_utc, Ho|]. cbn [t_us build_struct st_six st_wday st_yday]. rewrite yearday_spec, H4.
    split; [reflexivity|]. split; [|reflexivity]. unfold weekday. rewrite <- H4. unfold fields_of. cbn [f_date].
    rewrite (proj2 (ord2ymd_spec _)). lia.
Qed.
Print Assumptions C55_read_back.

(** Different calendar times give different Times, later ones later Times. *)
Theorem C55_order : forall f g t u, datetime f = Ok t -> datetime g = Ok u -> (t < u <-> fields_lt f g).
Proof. exact datetime_lt. Qed.
Print Assumptions C55_order.

(** Every Time has a valid calendar time, and no other calendar time gives it. *)
Theorem C55_every_time : forall t, ok_time t -> exists x f,
  asNaiveDatetime t None = Ok x /\ fields_of (dt_local x) = f /\ valid_fields f /\
  forall g local, datetime g = Ok local -> (fromDatetime (Dt local None) = Ok (T (t_us t) 1) <-> g = f).
Proof.
  intros t Ht. exists (Dt (t_us t) None), (fields_of (t_us t)). split; [|split; [reflexivity|split]].
  - unfold asNaiveDatetime. rewrite (asDatetime_utc _ Ht). reflexivity.
  - apply datetime_fields, Ht.
  - intros g local Hg. cbn [fromDatetime dt_tz dt_local]. apply datetime_Ok in Hg. destruct Hg as (Hv & Hr & Hf). split.
    + intros H. injection H as ->. now symmetry.
    + intros E. do 2 f_equal. destruct (datetime_fields _ Hr) as [_ H1]. destruct (datetime_fields _ Ht) as [_ H2].
      rewrite Hf, E, H2 in H1. congruence.
Qed.
Print Assumptions C55_every_time.

(** What numbering days means: 0001-01-01 is 1, the day after is one more. *)
Theorem C55_days : ymd2ord (D 1 1 1) = 1 /\ forall x, valid_date x -> ymd2ord (next_day x) = ymd2ord x + 1.
Proof. split; [reflexivity|]. exact ord_next. Qed.
Print Assumptions C55_days.

Example C55_nonvacuous :
  valid_fields (F (D 2004 2 29) 23 59 59 999999) /\ valid_fields (F (D 9999 12 31) 0 0 0 0)
  /\ exists st, asStructTime (T ((ymd2ord (D 2004 2 29) - 1) * DAY + 5 * HOUR) 1) (Some (- 6 * HOUR)) = Ok st
     /\ st = ST [2004; 2; 28; 23; 0; 0] 5 59 0.
Proof.
  split; [|split].
  - unfold valid_fields, valid_date, month_length. cbn. lia.
  - unfold valid_fields, valid_date, month_length. cbn. lia.
  - eexists. split; [vm_compute; reflexivity|reflexivity].
Qed.

(** ** C56 *)

(** Writing a Time in a zone gives the local time that is the offset later,
    and reading that back gives the Time. *)
Theorem C56_round : forall t off x, t_res t < DAY -> asDatetime t (Some off) = Ok x ->
  dt_tz x = Some off /\ dt_local x = t_us t + off /\ fromDatetime x = Ok (T (t_us t) 1).
Proof. intros t off x H. apply zone_round. unfold isTimezoneDependent. now apply Z.ltb_lt. Qed.
Print Assumptions C56_round.

(** It fails exactly when the offset is a day or more, or the local time is
    not in years 1 to 9999. *)
Theorem C56_defined : forall t off, t_res t < DAY -> ok_time t ->
  ((exists x, asDatetime t (Some off) = Ok x) <-> - DAY < off < DAY /\ 0 <= t_us t + off < MAXT).
Proof.
  intros t off H Ht. assert (Hd : isTimezoneDependent t = true) by (apply Z.ltb_lt, H). split.
  - intros [x Hx]. apply (asDatetime_Ok _ _ _ Hd) in Hx. tauto.
  - intros [H1 H2]. eexists. apply (asDatetime_Ok _ _ _ Hd). auto.
Qed.
Print Assumptions C56_defined.

(** Times made from datetimes in any zones are equal just if the datetimes are
    the same instant. *)
Theorem C56_same_instant : forall x y t u, fromDatetime x = Ok t -> fromDatetime y = Ok u ->
  (time_eq t u = true <-> instant x = instant y).
Proof. exact same_instant. Qed.
Print Assumptions C56_same_instant.

Example C56_nonvacuous :
  fromDatetime (Dt (13 * DAY + 5 * HOUR) (Some (5 * HOUR + 30 * MINUTE))) = Ok (T (12 * DAY + 23 * HOUR + 30 * MINUTE) 1)
  /\ fromDatetime (Dt (12 * DAY + 19 * HOUR) (Some (- (4 * HOUR + 30 * MINUTE)))) = Ok (T (12 * DAY + 23 * HOUR + 30 * MINUTE) 1)
  /\ asDatetime (T (12 * DAY + 23 * HOUR + 30 * MINUTE) MINUTE) (Some (- (4 * HOUR + 30 * MINUTE)))
     = Ok (Dt (12 * DAY + 19 * HOUR) (Some (- (4 * HOUR + 30 * MINUTE)))).
Proof. vm_compute. repeat split. Qed.

(** ** C63 *)

Definition C63_full : Prop := forall y mo d h mi s rest, exists f,
  six_fields (sanitizeStructTime (y :: mo :: d :: h :: mi :: s :: rest)) = Ok f /\ valid_fields f.

(** February 30 stays as it is, and there is no such day. *)
Theorem C63_valid_refuted :
  (exists l f, length l = 9%nat /\ six_fields (sanitizeStructTime l) = Ok f /\ f_date f = D 2005 2 30 /\ datetime f = Err ValueError) /\ ~ C63_full.
Proof.
  split.
  - exists [2005; 2; 30; 12; 0; 0; 0; 1; 0]. eexists. split; [reflexivity|]. split; [reflexivity|]. split; [reflexivity|]. vm_compute. reflexivity.
  - intros H. destruct (H 2005 2 30 12 0 0 []) as (f & H1 & H2). cbn in H1. injection H1 as <-.
    destruct H2 as (_ & [_ H2] & _). cbn in H2. lia.
Qed.
Print Assumptions C63_valid_refuted.

(** Each field becomes the closest value in its range; the other elements stay. *)
Theorem C63_closest_partial : forall y mo d h mi s rest, exists y' mo' d' h' mi' s',
  sanitizeStructTime (y :: mo :: d :: h :: mi :: s :: rest) = y' :: mo' :: d' :: h' :: mi' :: s' :: rest /\
  closest 1 9999 y y' /\ closest 1 12 mo mo' /\ closest 1 31 d d' /\ closest 0 23 h h' /\ closest 0 59 mi mi' /\ closest 0 59 s s'.
Proof. exact sanitize_closest. Qed.
Print Assumptions C63_closest_partial.

(** Valid ones are unchanged. *)
Theorem C63_unchanged_partial : forall f rest, valid_fields f ->
  let x := f_date f in
  let l := d_year x :: d_month x :: d_day x :: f_hour f :: f_min f :: f_sec f :: rest in
  sanitizeStructTime l = l.
Proof. exact sanitize_valid. Qed.
Print Assumptions C63_unchanged_partial.

(** The result exists in the calendar unless its month is too short. *)
Theorem C63_valid_partial : forall l, (6 <= length l)%nat ->
  (forall y mo d, firstn 3 (sanitizeStructTime l) = [y; mo; d] -> d <= month_length y mo) ->
  exists f, six_fields (sanitizeStructTime l) = Ok f /\ valid_fields f.
Proof. exact sanitize_denotes. Qed.
Print Assumptions C63_valid_partial.

Example C63_nonvacuous :
  sanitizeStructTime [20000; 13; 32; 24; 60; 61; 7; 400; -5] = [9999; 12; 31; 23; 59; 59; 7; 400; -5]
  /\ sanitizeStructTime [0; 0; 0; -1; -2; -3; -4; 0; 0] = [1; 1; 1; 0; 0; 0; -4; 0; 0]
  /\ (forall y mo d, firstn 3 (sanitizeStructTime [2004; 2; 29; 99; 0; 0; 0; 0; 0]) = [y; mo; d] -> d <= month_length y mo).
Proof. split; [reflexivity|]. split; [reflexivity|]. intros y mo d H. cbn in H. injection H as <- <- <-. vm_compute. discriminate. Qed.

(** ** C64 *)

(** The full claim: testing for containment gives an answer, the answer to
    whether the instants of the one period are instants of the other. *)
Definition C64_full : Prop := forall a b, ok_time a -> ok_time b -> 0 < t_res a -> 0 < t_res b ->
  exists r, contains a b = Ok r /\ (r = true <-> (forall i, during b i -> during a i)).

(** The last day does not contain itself: OverflowError. *)
Theorem C64_last_day_refuted :
  (exists a, ok_time a /\ oneDay a = Ok a /\ contains a a = Err OverflowError) /\ ~ C64_full.
Proof.
  set (a := T (MAXT - DAY) DAY). assert (Ha : ok_time a) by (unfold ok_time, a, MAXT, DAY; cbn; lia). split.
  - exists a. split; [exact Ha|]. split; [vm_compute; reflexivity|]. vm_compute. reflexivity.
  - intros H. destruct (H a a Ha Ha) as (r & Hr & _); [reflexivity|reflexivity|]. vm_compute in Hr. discriminate.
Qed.
Print Assumptions C64_last_day_refuted.

(** An answer is right. *)
Theorem C64_period_partial : forall a b r, 0 < t_res b -> contains a b = Ok r ->
  (r = true <-> (forall i, during b i -> during a i)).
Proof. exact contains_period. Qed.
Print Assumptions C64_period_partial.

(** The same with periods of length 0 as instants, which are in a period that
    ends with them. *)
Theorem C64_ends_partial : forall a b r, contains a b = Ok r ->
  (r = true <-> t_us a <= t_us b /\ t_us b + t_res b <= t_us a + t_res a).
Proof. exact contains_Ok. Qed.
Print Assumptions C64_ends_partial.

(** There is an answer if both periods end before year 10000, and otherwise
    the exception is OverflowError. *)
Theorem C64_answer_partial : forall a b,
  (ends_in_range a -> ends_in_range b -> exists r, contains a b = Ok r) /\
  (forall e, contains a b = Err e -> e = OverflowError /\ t_us a <= t_us b /\ (~ ends_in_range a \/ ~ ends_in_range b)).
Proof. intros a b. split; [apply contains_total|apply contains_errors]. Qed.
Print Assumptions C64_answer_partial.

Theorem C64_order_partial :
  (forall a, ends_in_range a -> contains a a = Ok true) /\
  (forall a b c, contains a b = Ok true -> contains b c = Ok true -> contains a c = Ok true) /\
  (forall a b, contains a b = Ok true -> contains b a = Ok true -> t_us a = t_us b /\ t_res a = t_res b).
Proof. split; [exact contains_refl|]. split; [exact contains_trans|]. intros a b H1 H2. now rewrite (contains_antisym a b H1 H2). Qed.
Print Assumptions C64_order_partial.

Example C64_nonvacuous :
  let week := T (7 * DAY) WEEK in let day := T (9 * DAY) DAY in let noon := T (9 * DAY + 12 * HOUR) 1 in
  contains week day = Ok true /\ contains day noon = Ok true /\ contains week noon = Ok true /\ contains day week = Ok false
  /\ contains noon day = Ok false /\ contains day (T (10 * DAY) 1) = Ok false /\ contains day (T (10 * DAY - 1) 1) = Ok true.
Proof. vm_compute. repeat split. Qed.

(** ** C65 *)

Theorem C65_add : forall t d u, ok_time t -> time_add t d = Ok u ->
  time_sub u t = Ok d /\ (exists t', time_sub_td u d = Ok t' /\ time_eq t' t = true /\ t_res t' = 1) /\
  t_us u = t_us t + d /\ t_res u = 1.
Proof.
  intros t d u Ht H. apply add_spec in H. destruct H as [-> Ho]. split; [|split; [|split; reflexivity]].
  - rewrite sub_spec by assumption. cbn [t_us]. f_equal. lia.
  - exists (T (t_us t) 1). split; [|split; [apply Z.eqb_refl|reflexivity]]. apply sub_td_spec. cbn [t_us]. split; [f_equal; lia|exact Ht].
Qed.
Print Assumptions C65_add.

Theorem C65_subtract : forall t d u, ok_time t -> time_sub_td t d = Ok u ->
  time_sub t u = Ok d /\ (exists t', time_add u d = Ok t' /\ time_eq t' t = true /\ t_res t' = 1) /\
  t_us u = t_us t - d /\ t_res u = 1.
Proof.
  intros t d u Ht H. apply sub_td_spec in H. destruct H as [-> Ho]. split; [|split; [|split; reflexivity]].
  - rewrite sub_spec by assumption. cbn [t_us]. f_equal. lia.
  - exists (T (t_us t) 1). split; [|split; [apply Z.eqb_refl|reflexivity]]. apply add_spec. cbn [t_us]. split; [f_equal; lia|exact Ht].
Qed.
Print Assumptions C65_subtract.

Theorem C65_difference : forall t u, ok_time t -> ok_time u ->
  time_sub t u = Ok (t_us t - t_us u) /\ exists t', time_add u (t_us t - t_us u) = Ok t' /\ time_eq t' t = true.
Proof.
  intros t u Ht Hu. split; [now apply sub_spec|]. exists (T (t_us t) 1). split; [|apply Z.eqb_refl].
  apply add_spec. split; [f_equal; lia|exact Ht].
Qed.
Print Assumptions C65_difference.

(** Out of years 1 to 9999, OverflowError. *)
Theorem C65_overflow : forall t d,
  (time_add t d = Err OverflowError <-> ~ 0 <= t_us t + d < MAXT) /\
  (time_sub_td t d = Err OverflowError <-> ~ 0 <= t_us t - d < MAXT) /\
  (forall e, time_add t d = Err e \/ time_sub_td t d = Err e -> e = OverflowError).
Proof.
  intros t d. split; [rewrite add_err; tauto|]. split; [rewrite sub_td_err; tauto|].
  intros e [H|H]; [apply add_err in H|apply sub_td_err in H]; tauto.
Qed.
Print Assumptions C65_overflow.

Example C65_nonvacuous :
  time_add (T (MAXT - 2) DAY) 1 = Ok (T (MAXT - 1) 1) /\ time_add (T (MAXT - 2) DAY) 2 = Err OverflowError
  /\ time_sub_td (T 5 1) 6 = Err OverflowError /\ time_sub (T 5 DAY) (T (3 * DAY) 1) = Ok (5 - 3 * DAY).
Proof. vm_compute. repeat split. Qed.

(** ** C66 *)

(** The full claim, given the way [<] works on Times. *)
Definition C66_full (lt : time -> time -> res bool) : Prop := forall t off, ok_time t -> 0 <= t_res t -> - DAY < off < DAY ->
  DAY <= t_us t - off -> t_us t + t_res t - off < MAXT - DAY ->
  exists lo hi, getBounds lt t (Some off) = Ok (lo, hi) /\ t_us lo <= t_us t /\ t_us t + t_res t <= t_us hi /\
  forall i, during t i -> t_us lo <= i < t_us hi /\ (DAY <= t_res t -> t_us lo <= i - off < t_us hi).

(** In Python 3, where Times have no order, getBounds never returns. *)
Theorem C66_python3_refuted :
  (forall t tz, exists e, getBounds py3_lt t tz = Err e) /\ getBounds py3_lt (T (733000 * DAY) DAY) (Some HOUR) = Err TypeError /\
  ~ C66_full py3_lt.
Proof.
  split; [exact bounds_py3|]. split; [vm_compute; reflexivity|].
  intros H. destruct (H (T (733000 * DAY) DAY) HOUR) as (lo & hi & Hb & _); try (unfold ok_time, MAXT, DAY, HOUR; cbn; lia).
  destruct (bounds_py3 (T (733000 * DAY) DAY) (Some HOUR)) as [e He]. congruence.
Qed.
Print Assumptions C66_python3_refuted.

(** It holds where [<] uses [__cmp__]. *)
Theorem C66_python2_partial : C66_full py2_lt.
Proof.
  intros t off Ht Hr Ho H1 H2. destruct (bounds_py2_total t off Ht Hr Ho H1 H2) as (lo & hi & Hb). exists lo, hi.
  split; [exact Hb|]. destruct (bounds_py2 _ _ _ _ Hb) as [-> ->]. split; [lia|]. split; [lia|]. unfold during, shift.
  intros i Hi. split; [lia|]. intros Hd. apply Z.leb_le in Hd. rewrite Hd. lia.
Qed.
Print Assumptions C66_python2_partial.

(** Nothing is gained by moving the bounds: they are the ends of the two periods. *)
Theorem C66_tight_partial : forall t tz lo hi, getBounds py2_lt t tz = Ok (lo, hi) ->
  t_us lo = Z.min (t_us t) (t_us t - shift t tz) /\ t_us hi = Z.max (t_us t + t_res t) (t_us t + t_res t - shift t tz).
Proof. exact bounds_py2. Qed.
Print Assumptions C66_tight_partial.

Example C66_nonvacuous :
  getBounds py2_lt (T (733000 * DAY) DAY) (Some (5 * HOUR)) = Ok (T (732999 * DAY + 19 * HOUR) 1, T (733001 * DAY) 1)
  /\ getBounds py2_lt (T (733000 * DAY) HOUR) (Some (5 * HOUR)) = Ok (T (733000 * DAY) 1, T (733000 * DAY + HOUR) 1)
  /\ getBounds py2_lt (T (733000 * DAY) DAY) (Some (- 5 * HOUR)) = Ok (T (733000 * DAY) 1, T (733001 * DAY + 5 * HOUR) 1).
Proof. vm_compute. repeat split. Qed.

(** ** C69 *)

Definition C69_full : Prop := forall t d x, ok_time t -> ok_time x -> oneDay t = Ok d ->
  t_res x = 1 -> f_date (fields_of (t_us x)) = f_date (fields_of (t_us t)) -> contains d x = Ok true.

Theorem C69_last_day_refuted :
  (exists t d, ok_time t /\ f_date (fields_of (t_us t)) = D 9999 12 31 /\ oneDay t = Ok d /\ contains d t = Err OverflowError) /\ ~ C69_full.
Proof.
  set (t := T (MAXT - HOUR) 1). assert (Ht : ok_time t) by (unfold ok_time, t, MAXT, DAY, HOUR; cbn; lia). split.
  - exists t, (T (MAXT - DAY) DAY). split; [exact Ht|]. split; [vm_compute; reflexivity|]. split; vm_compute; reflexivity.
  - intros H. specialize (H t (T (MAXT - DAY) DAY) t Ht Ht). assert (Hc : contains (T (MAXT - DAY) DAY) t = Ok true).
    { apply H; [vm_compute; reflexivity|reflexivity|reflexivity]. }
    vm_compute in Hc. discriminate.
Qed.
Print Assumptions C69_last_day_refuted.

(** It is midnight of the day, as a whole day; the day of a day is the same. *)
Theorem C69_midnight_partial : forall t, ok_time t -> exists d, oneDay t = Ok d /\ ok_time d /\
  fields_of (t_us d) = F (f_date (fields_of (t_us t))) 0 0 0 0 /\ t_res d = DAY /\ isAllDay d = true /\ oneDay d = Ok d.
Proof.
  intros t Ht. exists (T (t_us t - t_us t mod DAY) DAY). split; [now apply oneDay_Ok|].
  assert (Hd : ok_time (T (t_us t - t_us t mod DAY) DAY)) by (unfold ok_time, DAY in *; cbn [t_us]; lia). split; [exact Hd|].
  split; [|split; [reflexivity|split; [reflexivity|]]].
  - pose proof (midnight_Ok _ Ht) as H. unfold midnight in H. cbv zeta in H. apply datetime_Ok in H. apply H.
  - rewrite (oneDay_Ok _ Hd). cbn [t_us]. do 2 f_equal. unfold DAY. lia.
Qed.
Print Assumptions C69_midnight_partial.

(** Unless it is the last day, it contains just the Times of that day (which
    do not run over its end, and the instant that is its end). *)
Theorem C69_contains_partial : forall t d x, ok_time t -> oneDay t = Ok d -> ok_time x ->
  t_us t / DAY < 3652058 -> 0 <= t_res x -> t_us x mod DAY + t_res x <= DAY ->
  (contains d x = Ok true <-> f_date (fields_of (t_us x)) = f_date (fields_of (t_us t)) \/ t_res x = 0 /\ t_us x = t_us d + DAY).
Proof. exact oneDay_contains. Qed.
Print Assumptions C69_contains_partial.

Example C69_nonvacuous :
  oneDay (T (733000 * DAY + 7 * HOUR + 3) 1) = Ok (T (733000 * DAY) DAY) /\ (733000 * DAY + 7 * HOUR + 3) / DAY < 3652058
  /\ contains (T (733000 * DAY) DAY) (T (733000 * DAY + 23 * HOUR) MINUTE) = Ok true
  /\ contains (T (733000 * DAY) DAY) (T (732999 * DAY + 23 * HOUR) MINUTE) = Ok false.
Proof. vm_compute. repeat split. Qed.

(** ** C88 *)

Theorem C88_utc : forall t, ok_time t -> exists st, asStructTime t None = Ok st /\
  fromStructTime (st_six st) None = Ok (T (t_us t - t_us t mod SECOND) SECOND).
Proof. exact struct_utc. Qed.
Print Assumptions C88_utc.

Theorem C88_zone : forall t off st, ok_time t -> t_res t < DAY -> off mod SECOND = 0 ->
  asStructTime t (Some off) = Ok st -> fromStructTime (st_six st) (Some off) = Ok (T (t_us t - t_us t mod SECOND) SECOND).
Proof. intros t off st Ht Hd. apply struct_zone; [exact Ht|]. apply Z.ltb_lt, Hd. Qed.
Print Assumptions C88_zone.

(** A tuple whose six first elements are not a calendar time raises ValueError. *)
Theorem C88_invalid : forall y mo d h mi s rest tz, ~ valid_fields (F (D y mo d) h mi s 0) ->
  fromStructTime (y :: mo :: d :: h :: mi :: s :: rest) tz = Err ValueError.
Proof.
  intros. unfold fromStructTime. cbn [six_fields firstn rbind]. rewrite datetime_invalid by assumption. reflexivity.
Qed.
Print Assumptions C88_invalid.

Example C88_nonvacuous :
  let t := T ((ymd2ord (D 2005 3 1) - 1) * DAY + HOUR + 5 * SECOND + 17) 1 in
  asStructTime t (Some (- 2 * HOUR)) = Ok (ST [2005; 2; 28; 23; 0; 5] 0 59 0)
  /\ fromStructTime [2005; 2; 28; 23; 0; 5; 0; 59; 0] (Some (- 2 * HOUR)) = Ok (T (t_us t - 17) SECOND)
  /\ fromStructTime [2005; 2; 29; 23; 0; 5; 0; 59; 0] None = Err ValueError.
Proof. vm_compute. repeat split. Qed.

(** ** C89 *)

(** The full claim: [<] compares the starts of the periods. *)
Definition C89_full (lt : time -> time -> res bool) : Prop := forall a b, exists r, lt a b = Ok r /\ (r = true <-> t_us a < t_us b).

Theorem C89_python3_refuted : (forall a b, py3_lt a b = Err TypeError) /\ ~ C89_full py3_lt.
Proof. split; [reflexivity|]. intros H. destruct (H (T 0 1) (T 1 1)) as (r & Hr & _). discriminate. Qed.
Print Assumptions C89_python3_refuted.

Theorem C89_python2_partial : C89_full py2_lt.
Proof. intros a b. eexists. split; [reflexivity|]. rewrite cmp_lt. apply Z.ltb_lt. Qed.
Print Assumptions C89_python2_partial.

(** Equality agrees with [__cmp__], and [__cmp__] is a total order of instants
    that looks at nothing else. *)
Theorem C89_cmp_partial : forall a b,
  time_cmp a b = Z.sgn (t_us a - t_us b) /\ (time_eq a b = true <-> time_cmp a b = 0) /\ time_cmp b a = - time_cmp a b /\
  forall c, time_cmp a b <= 0 -> time_cmp b c <= 0 -> time_cmp a c <= 0.
Proof.
  intros a b. split; [apply cmp_sign|]. split; [|split].
  - unfold time_eq. rewrite cmp_sign, Z.eqb_eq. lia.
  - rewrite !cmp_sign. lia.
  - intros c. rewrite !cmp_sign. lia.
Qed.
Print Assumptions C89_cmp_partial.

Example C89_nonvacuous : py2_lt (T 3 DAY) (T 4 1) = Ok true /\ py2_lt (T 3 DAY) (T 3 1) = Ok false /\ time_eq (T 3 DAY) (T 3 1) = true.
Proof. vm_compute. repeat split. Qed.
