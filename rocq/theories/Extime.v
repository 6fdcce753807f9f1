(** * epsilon/extime.py: Time, its conversions to and from datetimes and
      struct_times, arithmetic, containment

    Simplifications: a tzinfo is a constant offset from UTC in microseconds
    (PyTime.v); an instance of datetime with a timezone is the pair of its
    local time and that offset; times made by [Time()] are any value. *)

From Coq Require Import ZArith List Bool Lia.
From Verif Require Import Py Cal PyTime.
Import ListNotations.
Open Scope Z_scope.
Open Scope py_scope.

(** extime.py:104, the attributes [_time] (a naive datetime, 162-164, 193,
    600-602) and [resolution] (181, 603) *)
Record time := T { t_us : Z; t_res : Z }.

(** extime.py:83-90, FixedOffset: timedelta(minutes = hours * 60 + minutes) *)
Definition fixed_offset (hours minutes : Z) : Z := (hours * 60 + minutes) * MINUTE.

(** extime.py:592-604 *)
Definition fromDatetime (x : dt) : res time :=
  match dt_tz x with
  | Some off => y <- astimezone (dt_local x) off (fixed_offset 0 0) ;; Ok (T (dt_local y) 1)
  | None => Ok (T (dt_local x) 1)
  end.

(** extime.py:924-930 *)
Definition isTimezoneDependent (t : time) : bool := t_res t <? DAY.

(** extime.py:920-922 *)
Definition isAllDay (t : time) : bool := t_res t =? DAY.

(** extime.py:672-684 *)
Definition asDatetime (t : time) (tzinfo : option Z) : res dt :=
  let tz := match tzinfo with None => fixed_offset 0 0 | Some o => o end in
  if negb (isTimezoneDependent t) then Ok (Dt (t_us t) (Some tz))
  else astimezone (t_us t) (fixed_offset 0 0) tz.

(** extime.py:686-693 *)
Definition asNaiveDatetime (t : time) (tzinfo : option Z) : res dt :=
  x <- asDatetime t tzinfo ;; Ok (Dt (dt_local x) None).

(** time.struct_time *)
Record struct_time := ST { st_six : list Z; st_wday : Z; st_yday : Z; st_isdst : Z }.

(** datetime's _build_struct_time *)
Definition build_struct (local dst : Z) : struct_time :=
  let f := fields_of local in
  ST [d_year (f_date f); d_month (f_date f); d_day (f_date f); f_hour f; f_min f; f_sec f]
     (weekday local) (yearday local) dst.

(** datetime.utctimetuple of an aware datetime *)
Definition utctimetuple (x : dt) (off : Z) : res struct_time :=
  o <- utcoffset off ;; u <- add_td (dt_local x) (- o) ;; Ok (build_struct u 0).

(** extime.py:800-810.  [timetuple] asks the tzinfo for its dst, a zero
    timedelta (extime.py:95-96), hence tm_isdst 0. *)
Definition asStructTime (t : time) (tzinfo : option Z) : res struct_time :=
  x <- asDatetime t tzinfo ;;
  match tzinfo with
  | None => utctimetuple x (fixed_offset 0 0)
  | Some _ => Ok (build_struct (dt_local x) 0)
  end.

(** extime.py:573-588.  A tuple with fewer than six elements: the datetime
    constructor needs three, and the missing of the others are 0. *)
Definition six_fields (l : list Z) : res fields :=
  match firstn 6 l with
  | [y; mo; d; h; mi; s] => Ok (F (D y mo d) h mi s 0)
  | [y; mo; d; h; mi] => Ok (F (D y mo d) h mi 0 0)
  | [y; mo; d; h] => Ok (F (D y mo d) h 0 0 0)
  | [y; mo; d] => Ok (F (D y mo d) 0 0 0 0)
  | _ => Err TypeError
  end.

Definition fromStructTime (l : list Z) (tzinfo : option Z) : res time :=
  f <- six_fields l ;;
  local <- datetime f ;;
  t <- fromDatetime (Dt local tzinfo) ;;
  Ok (T (t_us t) SECOND).

(** extime.py:24-34.  The elements from the seventh on are not looked at. *)
Definition clamps : list (Z * Z) := [(9999, 1); (12, 1); (31, 1); (23, 0); (59, 0); (59, 0)].

Definition sanitizeStructTime (l : list Z) : list Z :=
  map (fun '(v, (maxValue, minValue)) => Z.max minValue (Z.min v maxValue)) (combine (firstn 6 l) clamps) ++ skipn 6 l.

(** extime.py:941-944, 936-939 with compat.py's cmp *)
Definition time_eq (a b : time) : bool := t_us a =? t_us b.
Definition time_cmp (a b : time) : Z := b2z (t_us b <? t_us a) - b2z (t_us a <? t_us b).

(** extime.py:954-964 *)
Definition contains (self other : time) : res bool :=
  if t_us other <? t_us self then Ok false
  else a <- add_td (t_us self) (t_res self) ;;
       b <- add_td (t_us other) (t_res other) ;;
       Ok (negb (a <? b)).

(** extime.py:966-969 *)
Definition time_add (self : time) (addend : Z) : res time :=
  u <- add_td (t_us self) addend ;; fromDatetime (Dt u None).

(** extime.py:987-988 *)
Definition time_sub_td (self : time) (d : Z) : res time :=
  u <- add_td (t_us self) (- d) ;; fromDatetime (Dt u None).

(** extime.py:990-991.  The difference of two aware datetimes with tzinfos
    that are not the same object: the difference of the local times, corrected
    by the offsets. *)
Definition time_sub (self other : time) : res Z :=
  x <- asDatetime self None ;;
  y <- asDatetime other None ;;
  Ok (dt_local x - dt_local y + fixed_offset 0 0 - fixed_offset 0 0).

(** extime.py:904-914 *)
Definition midnight (local : Z) : res Z :=
  let f := fields_of local in datetime (F (f_date f) 0 0 0 0).

Definition oneDay (self : time) : res time :=
  x <- asDatetime self None ;;
  m <- midnight (dt_local x) ;;
  t <- fromDatetime (Dt m (dt_tz x)) ;;
  Ok (T (t_us t) DAY).

(** Python's min and max of two objects *)
Definition py_min (lt : time -> time -> res bool) (x y : time) : res time :=
  b <- lt y x ;; Ok (if b then y else x).
Definition py_max (lt : time -> time -> res bool) (x y : time) : res time :=
  b <- lt x y ;; Ok (if b then y else x).

(** The [<] of two Times.  Python 3 does not look at [__cmp__], and Time has
    no other ordering method: TypeError.  Python 2 calls [__cmp__]. *)
Definition py3_lt (a b : time) : res bool := Err TypeError.
Definition py2_lt (a b : time) : res bool := Ok (time_cmp a b <? 0).

(** extime.py:860-902 *)
Definition getBounds (lt : time -> time -> res bool) (self : time) (tzinfo : option Z) : res (time * time) :=
  let tz := if DAY <=? t_res self then tzinfo else None in
  a <- fromDatetime (Dt (t_us self) tz) ;;
  b <- fromDatetime (Dt (t_us self) None) ;;
  lo <- py_min lt a b ;;
  e1 <- add_td (t_us self) (t_res self) ;;
  c <- fromDatetime (Dt e1 tz) ;;
  e2 <- add_td (t_us self) (t_res self) ;;
  d <- fromDatetime (Dt e2 None) ;;
  hi <- py_max lt c d ;;
  Ok (lo, hi).

(** ** Lemmas *)

(** a Time's datetime exists *)
Definition ok_time (t : time) : Prop := 0 <= t_us t < MAXT.

Lemma fixed00 : fixed_offset 0 0 = 0.
Proof. reflexivity. Qed.

Lemma fromDatetime_Ok l off t : fromDatetime (Dt l (Some off)) = Ok t <->
  - DAY < off < DAY /\ 0 <= l - off < MAXT /\ t = T (l - off) 1.
Proof.
  unfold fromDatetime. cbn [dt_tz dt_local]. rewrite fixed00. split.
  - destruct (astimezone l off 0) as [y|] eqn:E; [|discriminate]. apply astimezone_Ok in E. cbn [rbind].
    intros H. injection H as <-. destruct E as (E1 & _ & E3 & _ & ->). cbn [dt_local]. replace (l - off + 0) with (l - off) by lia. auto.
  - intros (H1 & H2 & ->). rewrite (proj2 (astimezone_Ok l off 0 (Dt (l - off + 0) (Some 0)))); [|unfold DAY in *; repeat split; lia].
    cbn [rbind dt_local]. do 2 f_equal. lia.
Qed.

Lemma asDatetime_utc t : ok_time t -> asDatetime t None = Ok (Dt (t_us t) (Some 0)).
Proof.
  intros H. unfold asDatetime. destruct (isTimezoneDependent t); cbn [negb]; [|reflexivity]. rewrite fixed00.
  apply astimezone_Ok. unfold ok_time in H. unfold DAY. rewrite Z.sub_0_r, Z.add_0_r. repeat split; lia.
Qed.

Lemma asDatetime_Ok t off x : isTimezoneDependent t = true ->
  asDatetime t (Some off) = Ok x <-> - DAY < off < DAY /\ ok_time t /\ 0 <= t_us t + off < MAXT /\ x = Dt (t_us t + off) (Some off).
Proof.
  intros Hd. unfold asDatetime. rewrite Hd. cbn [negb]. rewrite fixed00, astimezone_Ok, Z.sub_0_r. unfold ok_time, DAY.
  intuition lia.
Qed.

(** *** reading back *)

Lemma read_back f : valid_fields f -> exists local t,
  datetime f = Ok local /\ fromDatetime (Dt local None) = Ok t /\ ok_time t /\
  asNaiveDatetime t None = Ok (Dt local None) /\ fields_of local = f.
Proof.
  intros Hv. destruct (fields_datetime f Hv) as (l & H1 & H2). exists l, (T l 1). split; [exact H1|]. split; [reflexivity|].
  assert (Ho : ok_time (T l 1)) by (exact (datetime_range _ _ H1)). split; [exact Ho|]. split; [|exact H2].
  unfold asNaiveDatetime. rewrite (asDatetime_utc _ Ho). reflexivity.
Qed.

Lemma asStruct_utc t : ok_time t -> asStructTime t None = Ok (build_struct (t_us t) 0).
Proof.
  intros H. unfold asStructTime. rewrite (asDatetime_utc _ H). cbn [rbind]. unfold utctimetuple. rewrite fixed00.
  cbn [dt_local]. rewrite (proj2 (utcoffset_Ok 0 0)) by (unfold DAY; lia). cbn [rbind].
  rewrite (proj2 (add_td_Ok _ _ (t_us t))) by (unfold ok_time in H; lia). reflexivity.
Qed.

Lemma asStruct_some t off x : asDatetime t (Some off) = Ok x -> asStructTime t (Some off) = Ok (build_struct (dt_local x) 0).
Proof. intros H. unfold asStructTime. rewrite H. reflexivity. Qed.

Lemma yearday_spec t : let x := f_date (fields_of t) in yearday t = ymd2ord x - ymd2ord (D (d_year x) 1 1) + 1.
Proof.
  cbv zeta. unfold yearday, fields_of. cbn [f_date]. set (x := ord2ymd (t / DAY + 1)). rewrite jan1. unfold ymd2ord. lia.
Qed.

(** whole seconds *)
Lemma fields_sec l : let f := fields_of l in fields_of (l - l mod SECOND) = F (f_date f) (f_hour f) (f_min f) (f_sec f) 0.
Proof.
  cbv zeta. unfold fields_of. cbn [f_date f_hour f_min f_sec]. set (k := l - l mod SECOND).
  assert (E : k / DAY = l / DAY /\ k mod DAY / HOUR = l mod DAY / HOUR /\ k mod HOUR / MINUTE = l mod HOUR / MINUTE /\ k mod MINUTE / SECOND = l mod MINUTE / SECOND /\ k mod SECOND = 0).
  { unfold k, DAY, HOUR, MINUTE, SECOND. lia. }
  destruct E as (-> & -> & -> & -> & ->). reflexivity.
Qed.

Lemma datetime_sec l : 0 <= l < MAXT -> let f := fields_of l in
  datetime (F (f_date f) (f_hour f) (f_min f) (f_sec f) 0) = Ok (l - l mod SECOND).
Proof.
  intros H. cbv zeta. pose proof (fields_sec l) as E. cbv zeta in E. rewrite <- E. apply datetime_fields.
  unfold SECOND. lia.
Qed.

Lemma struct_round local : 0 <= local < MAXT ->
  (f <- six_fields (st_six (build_struct local 0)) ;; datetime f) = Ok (local - local mod SECOND).
Proof. intros H. cbn [build_struct st_six six_fields firstn rbind].
  pose proof (datetime_sec local H) as E. cbv zeta in E. rewrite <- E. f_equal. f_equal. now destruct (f_date (fields_of local)).
Qed.

Lemma fromStruct_eq l tz : fromStructTime l tz =
  (local <- (f <- six_fields l ;; datetime f) ;; t <- fromDatetime (Dt local tz) ;; Ok (T (t_us t) SECOND)).
Proof. unfold fromStructTime. destruct (six_fields l); reflexivity. Qed.

Theorem struct_utc t : ok_time t -> exists st, asStructTime t None = Ok st /\
  fromStructTime (st_six st) None = Ok (T (t_us t - t_us t mod SECOND) SECOND).
Proof.
  intros H. exists (build_struct (t_us t) 0). split; [apply asStruct_utc, H|].
  rewrite fromStruct_eq, struct_round by exact H. reflexivity.
Qed.

Theorem struct_zone t off st : ok_time t -> isTimezoneDependent t = true -> off mod SECOND = 0 ->
  asStructTime t (Some off) = Ok st -> fromStructTime (st_six st) (Some off) = Ok (T (t_us t - t_us t mod SECOND) SECOND).
Proof.
  intros Ht Hd Ho H. unfold asStructTime in H. destruct (asDatetime t (Some off)) as [x|] eqn:E; [|discriminate].
  cbn [rbind] in H. injection H as <-. apply (asDatetime_Ok _ _ _ Hd) in E. destruct E as (E1 & E2 & E3 & ->). cbn [dt_local].
  rewrite fromStruct_eq, struct_round by exact E3. cbn [rbind].
  assert (Em : (t_us t + off) mod SECOND = t_us t mod SECOND).
  { rewrite Z.add_mod, Ho, Z.add_0_r, Z.mod_mod by (unfold SECOND; lia). reflexivity. }
  rewrite Em. rewrite (proj2 (fromDatetime_Ok _ off (T (t_us t + off - t_us t mod SECOND - off) 1))).
  - cbn [rbind t_us]. do 2 f_equal. lia.
  - split; [exact E1|]. split; [|reflexivity]. unfold ok_time, SECOND in *. lia.
Qed.

(** *** timezones *)

Theorem zone_round t off x : isTimezoneDependent t = true -> asDatetime t (Some off) = Ok x ->
  dt_tz x = Some off /\ dt_local x = t_us t + off /\ fromDatetime x = Ok (T (t_us t) 1).
Proof.
  intros Hd E. apply (asDatetime_Ok _ _ _ Hd) in E. destruct E as (E1 & E2 & E3 & ->). split; [reflexivity|]. split; [reflexivity|].
  rewrite (proj2 (fromDatetime_Ok _ off (T (t_us t + off - off) 1))).
  - do 2 f_equal. lia.
  - unfold ok_time in E2. repeat split; lia.
Qed.

Theorem same_instant x y t u : fromDatetime x = Ok t -> fromDatetime y = Ok u ->
  (time_eq t u = true <-> instant x = instant y).
Proof.
  intros Hx Hy. assert (H : forall z w, fromDatetime z = Ok w -> t_us w = instant z).
  { intros [l [off|]] w H.
    - apply fromDatetime_Ok in H. destruct H as (_ & _ & ->). reflexivity.
    - injection H as <-. reflexivity. }
  unfold time_eq. rewrite (H _ _ Hx), (H _ _ Hy). apply Z.eqb_eq.
Qed.

Theorem from_ok x t : 0 <= dt_local x < MAXT -> fromDatetime x = Ok t -> ok_time t.
Proof.
  destruct x as [l [off|]]; intros Hl H; [|now injection H as <-].
  apply fromDatetime_Ok in H. destruct H as (_ & H & ->). exact H.
Qed.

(** *** sanitizeStructTime *)

(** [w] is the value in [lo, hi] closest to [v] *)
Definition closest (lo hi v w : Z) : Prop := lo <= w <= hi /\ forall x, lo <= x <= hi -> x <> w -> Z.abs (w - v) < Z.abs (x - v).

Lemma clamp_closest lo hi v : lo <= hi -> closest lo hi v (Z.max lo (Z.min v hi)).
Proof. intros H. unfold closest. split; [lia|]. intros x Hx Hn. lia. Qed.

Theorem sanitize_closest y mo d h mi s rest : exists y' mo' d' h' mi' s',
  sanitizeStructTime (y :: mo :: d :: h :: mi :: s :: rest) = y' :: mo' :: d' :: h' :: mi' :: s' :: rest /\
  closest 1 9999 y y' /\ closest 1 12 mo mo' /\ closest 1 31 d d' /\ closest 0 23 h h' /\ closest 0 59 mi mi' /\ closest 0 59 s s'.
Proof.
  do 6 eexists. split; [reflexivity|]. repeat split; try (apply clamp_closest; lia); try lia.
Qed.

Lemma month_length_31 y m : month_length y m <= 31.
Proof. unfold month_length. destruct (m =? 2), (leap y), ((m =? 4) || (m =? 6) || (m =? 9) || (m =? 11)); lia. Qed.

Theorem sanitize_valid f rest : valid_fields f ->
  let x := f_date f in
  let l := d_year x :: d_month x :: d_day x :: f_hour f :: f_min f :: f_sec f :: rest in
  sanitizeStructTime l = l.
Proof.
  intros (H1 & [H2 H3] & H4 & H5 & H6 & _). cbv zeta. cbn [sanitizeStructTime firstn combine clamps map skipn app].
  pose proof (month_length_31 (d_year (f_date f)) (d_month (f_date f))).
  repeat f_equal; lia.
Qed.

Lemma sanitize_denotes l : (6 <= length l)%nat ->
  (forall y mo d, firstn 3 (sanitizeStructTime l) = [y; mo; d] -> d <= month_length y mo) ->
  exists f, six_fields (sanitizeStructTime l) = Ok f /\ valid_fields f.
Proof.
  intros Hl Hd. destruct l as [|y [|mo [|d [|h [|mi [|s rest]]]]]]; try (cbn in Hl; lia).
  eexists. split; [reflexivity|]. specialize (Hd _ _ _ eq_refl). unfold valid_fields, valid_date.
  cbn [f_date d_year d_month d_day f_hour f_min f_sec f_us]. clear Hl.
  repeat match goal with |- _ /\ _ => split end; try (clear Hd; lia). exact Hd.
Qed.

(** *** containment *)

Theorem contains_Ok a b r : contains a b = Ok r ->
  (r = true <-> t_us a <= t_us b /\ t_us b + t_res b <= t_us a + t_res a).
Proof.
  unfold contains. destruct (Z.ltb_spec (t_us b) (t_us a)); [intros H1; injection H1 as <-; split; [discriminate|lia]|].
  destruct (add_td (t_us a) (t_res a)) as [x|] eqn:E1; [|discriminate]. cbn [rbind].
  destruct (add_td (t_us b) (t_res b)) as [y|] eqn:E2; [|discriminate]. cbn [rbind].
  apply add_td_Ok in E1, E2. destruct E1 as [-> _], E2 as [-> _]. intros H1. injection H1 as <-.
  rewrite negb_true_iff, Z.ltb_ge. lia.
Qed.

Definition ends_in_range (t : time) : Prop := 0 <= t_us t + t_res t < MAXT.

Theorem contains_total a b : ends_in_range a -> ends_in_range b -> exists r, contains a b = Ok r.
Proof.
  intros Ha Hb. unfold contains. destruct (t_us b <? t_us a); [eauto|].
  rewrite (proj2 (add_td_Ok (t_us a) (t_res a) (t_us a + t_res a))) by (split; [reflexivity|exact Ha]).
  rewrite (proj2 (add_td_Ok (t_us b) (t_res b) (t_us b + t_res b))) by (split; [reflexivity|exact Hb]). cbn [rbind]. eauto.
Qed.

(** the instants of the period *)
Definition during (t : time) (i : Z) : Prop := t_us t <= i < t_us t + t_res t.

Lemma inclusion a b : 0 < t_res b ->
  (t_us a <= t_us b /\ t_us b + t_res b <= t_us a + t_res a) <-> (forall i, during b i -> during a i).
Proof.
  intros Hb. unfold during. split; [intros H i; lia|]. intros H.
  pose proof (H (t_us b)). pose proof (H (t_us b + t_res b - 1)). lia.
Qed.

Lemma contains_true_ranges a b : contains a b = Ok true -> ends_in_range a /\ ends_in_range b.
Proof.
  unfold contains. destruct (t_us b <? t_us a); [discriminate|].
  destruct (add_td (t_us a) (t_res a)) as [x|] eqn:E1; [|discriminate]. cbn [rbind].
  destruct (add_td (t_us b) (t_res b)) as [y|] eqn:E2; [|discriminate]. cbn [rbind]. intros _.
  apply add_td_Ok in E1, E2. unfold ends_in_range. destruct E1 as [-> ?], E2 as [-> ?]. auto.
Qed.

Theorem contains_trans a b c : contains a b = Ok true -> contains b c = Ok true -> contains a c = Ok true.
Proof.
  intros H1 H2. destruct (contains_true_ranges _ _ H1) as [Ra _]. destruct (contains_true_ranges _ _ H2) as [_ Rc].
  destruct (contains_total a c Ra Rc) as [r Hr]. rewrite Hr. f_equal. apply (contains_Ok _ _ _ Hr).
  pose proof (proj1 (contains_Ok _ _ _ H1) eq_refl). pose proof (proj1 (contains_Ok _ _ _ H2) eq_refl). lia.
Qed.

Theorem contains_antisym a b : contains a b = Ok true -> contains b a = Ok true -> a = b.
Proof.
  intros H1 H2. pose proof (proj1 (contains_Ok _ _ _ H1) eq_refl). pose proof (proj1 (contains_Ok _ _ _ H2) eq_refl).
  destruct a, b. cbn in *. f_equal; lia.
Qed.

Theorem contains_refl a : ends_in_range a -> contains a a = Ok true.
Proof.
  intros H. destruct (contains_total a a H H) as [r Hr]. rewrite Hr. f_equal. apply (contains_Ok _ _ _ Hr). lia.
Qed.

Theorem contains_period a b r : 0 < t_res b -> contains a b = Ok r -> (r = true <-> (forall i, during b i -> during a i)).
Proof. intros Hb H. rewrite (contains_Ok _ _ _ H). apply inclusion, Hb. Qed.

Theorem contains_errors a b e : contains a b = Err e -> e = OverflowError /\ t_us a <= t_us b /\ (~ ends_in_range a \/ ~ ends_in_range b).
Proof.
  unfold contains. destruct (Z.ltb_spec (t_us b) (t_us a)); [discriminate|].
  destruct (add_td (t_us a) (t_res a)) as [x|] eqn:E1; cbn [rbind].
  - destruct (add_td (t_us b) (t_res b)) as [y|] eqn:E2; [discriminate|]. cbn [rbind]. intros H1. injection H1 as <-.
    apply add_td_Err in E2. destruct E2. auto.
  - intros H1. injection H1 as <-. apply add_td_Err in E1. destruct E1. auto.
Qed.

(** *** arithmetic *)

Theorem add_spec t d u : time_add t d = Ok u <-> u = T (t_us t + d) 1 /\ ok_time u.
Proof.
  unfold time_add. split.
  - destruct (add_td (t_us t) d) as [x|] eqn:E; [|discriminate]. apply add_td_Ok in E. destruct E as [-> E]. cbn [rbind].
    intros H. injection H as <-. auto.
  - intros [-> H]. rewrite (proj2 (add_td_Ok (t_us t) d (t_us t + d))) by (split; [reflexivity|exact H]). reflexivity.
Qed.

Theorem add_err t d e : time_add t d = Err e <-> e = OverflowError /\ ~ 0 <= t_us t + d < MAXT.
Proof.
  unfold time_add. destruct (add_td (t_us t) d) as [x|e'] eqn:E; cbn [rbind].
  - apply add_td_Ok in E. destruct E as [-> E]. cbn [fromDatetime dt_tz dt_local]. split; [discriminate|]. intros [_ H]. contradiction.
  - apply add_td_Err in E. split; [intros H; injection H as <-; exact E|]. intros [-> _]. destruct E as [-> _]. reflexivity.
Qed.

Theorem sub_td_spec t d u : time_sub_td t d = Ok u <-> u = T (t_us t - d) 1 /\ ok_time u.
Proof.
  unfold time_sub_td. split.
  - destruct (add_td (t_us t) (- d)) as [x|] eqn:E; [|discriminate]. apply add_td_Ok in E. destruct E as [-> E]. cbn [rbind].
    intros H. injection H as <-. auto.
  - intros [-> H]. unfold ok_time in H. cbn [t_us] in H.
    rewrite (proj2 (add_td_Ok (t_us t) (- d) (t_us t - d))) by lia. reflexivity.
Qed.

Theorem sub_spec t u : ok_time t -> ok_time u -> time_sub t u = Ok (t_us t - t_us u).
Proof.
  intros Ht Hu. unfold time_sub. rewrite (asDatetime_utc _ Ht), (asDatetime_utc _ Hu). cbn [rbind dt_local]. f_equal. unfold fixed_offset. lia.
Qed.

Theorem sub_td_err t d e : time_sub_td t d = Err e <-> e = OverflowError /\ ~ 0 <= t_us t - d < MAXT.
Proof.
  unfold time_sub_td. destruct (add_td (t_us t) (- d)) as [x|e'] eqn:E; cbn [rbind].
  - apply add_td_Ok in E. destruct E as [-> E]. cbn [fromDatetime dt_tz dt_local]. split; [discriminate|]. intros [_ H]. exfalso. apply H. lia.
  - apply add_td_Err in E. replace (t_us t + - d) with (t_us t - d) in E by lia. split; [intros H; injection H as <-; exact E|]. intros [-> _]. destruct E as [-> _]. reflexivity.
Qed.

(** *** oneDay *)

Lemma midnight_Ok l : 0 <= l < MAXT -> midnight l = Ok (l - l mod DAY).
Proof.
  intros H. unfold midnight. cbv zeta.
  assert (E : fields_of (l - l mod DAY) = F (f_date (fields_of l)) 0 0 0 0).
  { unfold fields_of. cbn [f_date]. set (k := l - l mod DAY).
    assert (Ek : k / DAY = l / DAY /\ k mod DAY / HOUR = 0 /\ k mod HOUR / MINUTE = 0 /\ k mod MINUTE / SECOND = 0 /\ k mod SECOND = 0).
    { unfold k, DAY, HOUR, MINUTE, SECOND. lia. }
    destruct Ek as (-> & -> & -> & -> & ->). reflexivity. }
  rewrite <- E. apply datetime_fields. unfold DAY in *. lia.
Qed.

Theorem oneDay_Ok t : ok_time t -> oneDay t = Ok (T (t_us t - t_us t mod DAY) DAY).
Proof.
  intros H. unfold oneDay. rewrite (asDatetime_utc _ H). cbn [rbind dt_local dt_tz]. rewrite (midnight_Ok _ H). cbn [rbind].
  assert (Hr : 0 <= t_us t - t_us t mod DAY < MAXT) by (unfold ok_time, DAY in *; lia).
  rewrite (proj2 (fromDatetime_Ok _ 0 (T (t_us t - t_us t mod DAY - 0) 1))) by (unfold DAY in *; repeat split; lia).
  cbn [rbind t_us]. do 2 f_equal. lia.
Qed.

Lemma same_date l k : f_date (fields_of l) = f_date (fields_of k) <-> l / DAY = k / DAY.
Proof.
  unfold fields_of. cbn [f_date]. split; [|now intros ->]. intros H.
  pose proof (proj2 (ord2ymd_spec (l / DAY + 1))) as H1. pose proof (proj2 (ord2ymd_spec (k / DAY + 1))) as H2.
  rewrite H in H1. lia.
Qed.

Theorem oneDay_contains t d x : ok_time t -> oneDay t = Ok d -> ok_time x ->
  t_us t / DAY < 3652058 -> 0 <= t_res x -> t_us x mod DAY + t_res x <= DAY ->
  (contains d x = Ok true <-> f_date (fields_of (t_us x)) = f_date (fields_of (t_us t)) \/ t_res x = 0 /\ t_us x = t_us d + DAY).
Proof.
  intros Ht H Hx Hl Hr Hd. rewrite (oneDay_Ok _ Ht) in H. injection H as <-.
  set (d := T (t_us t - t_us t mod DAY) DAY). rewrite same_date. split.
  - intros Hc. pose proof (proj1 (contains_Ok _ _ _ Hc) eq_refl) as Hi. unfold d in *. cbn [t_us t_res] in *.
    unfold DAY in *. lia.
  - intros Hs. assert (Hi : t_us d <= t_us x /\ t_us x + t_res x <= t_us d + t_res d).
    { unfold d. cbn [t_us t_res]. destruct Hs as [Hs|[Hs1 Hs2]]; [unfold DAY in *; lia|]. unfold d in Hs2. cbn [t_us] in Hs2. lia. }
    destruct (contains_total d x) as [r Hr'].
    + unfold ends_in_range, d, ok_time in *. cbn [t_us t_res]. unfold MAXT, DAY in *. lia.
    + unfold ends_in_range, d, ok_time in *. cbn [t_us t_res] in *. unfold MAXT, DAY in *. lia.
    + rewrite Hr'. f_equal. apply (contains_Ok _ _ _ Hr'). exact Hi.
Qed.

(** *** getBounds *)

Theorem bounds_py3 t tz : exists e, getBounds py3_lt t tz = Err e.
Proof.
  unfold getBounds. cbv zeta. destruct (fromDatetime (Dt (t_us t) (if DAY <=? t_res t then tz else None))); cbn [rbind]; [|eauto].
  destruct (fromDatetime (Dt (t_us t) None)); cbn [rbind]; [|eauto]. cbn [py_min py3_lt rbind]. eauto.
Qed.

(** the start and the end of the period, written in the zone the caller gives
    (which matters for periods of a day and more only) *)
Definition shift (t : time) (tz : option Z) : Z :=
  match tz with Some off => if DAY <=? t_res t then off else 0 | None => 0 end.

Lemma cmp_lt a b : (time_cmp a b <? 0) = (t_us a <? t_us b).
Proof. unfold time_cmp. destruct (Z.ltb_spec (t_us b) (t_us a)), (Z.ltb_spec (t_us a) (t_us b)); cbn [b2z]; try reflexivity. lia. Qed.

Lemma fromDatetime_us l tz t : fromDatetime (Dt l tz) = Ok t -> t_us t = l - match tz with Some o => o | None => 0 end.
Proof.
  destruct tz as [o|]; intros H; [apply fromDatetime_Ok in H; destruct H as (_ & _ & ->); reflexivity|].
  injection H as <-. cbn. lia.
Qed.

Theorem bounds_py2 t tz lo hi : getBounds py2_lt t tz = Ok (lo, hi) ->
  t_us lo = Z.min (t_us t) (t_us t - shift t tz) /\ t_us hi = Z.max (t_us t + t_res t) (t_us t + t_res t - shift t tz).
Proof.
  unfold getBounds. cbv zeta. set (z := if DAY <=? t_res t then tz else None).
  assert (Ez : match z with Some o => o | None => 0 end = shift t tz).
  { unfold z, shift. destruct (DAY <=? t_res t), tz; reflexivity. }
  destruct (fromDatetime (Dt (t_us t) z)) as [a|] eqn:Ea; [|discriminate]. cbn [rbind].
  change (fromDatetime (Dt (t_us t) None)) with (Ok (T (t_us t) 1)). cbn [rbind]. unfold py_min, py_max, py2_lt. cbn [rbind].
  destruct (add_td (t_us t) (t_res t)) as [e|] eqn:Ee; [|discriminate]. cbn [rbind]. apply add_td_Ok in Ee. destruct Ee as [-> _].
  destruct (fromDatetime (Dt (t_us t + t_res t) z)) as [c|] eqn:Ec; [|discriminate]. cbn [rbind].
  change (fromDatetime (Dt (t_us t + t_res t) None)) with (Ok (T (t_us t + t_res t) 1)). cbn [rbind].
  apply fromDatetime_us in Ea, Ec. rewrite Ez in Ea, Ec. intros H. injection H as <- <-.
  rewrite !cmp_lt. cbn [t_us]. destruct (Z.ltb_spec (t_us t) (t_us a)), (Z.ltb_spec (t_us c) (t_us t + t_res t)); cbn [t_us]; lia.
Qed.

Theorem bounds_py2_total t off : ok_time t -> 0 <= t_res t -> - DAY < off < DAY ->
  DAY <= t_us t - off -> t_us t + t_res t - off < MAXT - DAY ->
  exists lo hi, getBounds py2_lt t (Some off) = Ok (lo, hi).
Proof.
  intros Ht Hr Ho H1 H2. unfold getBounds. cbv zeta.
  assert (Hf : forall l, 0 <= l - off < MAXT -> exists x, fromDatetime (Dt l (if DAY <=? t_res t then Some off else None)) = Ok x).
  { intros l Hl. destruct (DAY <=? t_res t); [|eexists; reflexivity]. exists (T (l - off) 1). apply fromDatetime_Ok. auto. }
  destruct (Hf (t_us t)) as [a Ea]; [unfold DAY in *; lia|]. rewrite Ea. cbn [rbind].
  change (fromDatetime (Dt (t_us t) None)) with (Ok (T (t_us t) 1)). cbn [rbind]. unfold py_min, py_max, py2_lt. cbn [rbind].
  rewrite (proj2 (add_td_Ok (t_us t) (t_res t) (t_us t + t_res t))) by (unfold ok_time, DAY in *; lia). cbn [rbind].
  destruct (Hf (t_us t + t_res t)) as [c Ec]; [unfold DAY in *; lia|]. rewrite Ec. cbn [rbind].
  change (fromDatetime (Dt (t_us t + t_res t) None)) with (Ok (T (t_us t + t_res t) 1)). cbn [rbind]. eauto.
Qed.

(** *** order *)

Theorem cmp_sign a b : time_cmp a b = Z.sgn (t_us a - t_us b).
Proof. unfold time_cmp. destruct (Z.ltb_spec (t_us b) (t_us a)), (Z.ltb_spec (t_us a) (t_us b)); cbn [b2z]; lia. Qed.
