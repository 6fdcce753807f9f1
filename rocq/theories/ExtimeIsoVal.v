(** * What an ISO 8601 text means: specification and lemmas *)

From Coq Require Import ZArith NArith QArith Qabs String List Bool Lia Lqa ZifyBool ZifyN.
From Verif Require Import Py PyStr PyNum PyInt Regex PyFloat Cal PyTime Extime ExtimeIso.
Import ListNotations.
Open Scope Z_scope.
Open Scope py_scope.
Open Scope list_scope.

(** ** Integers *)

Lemma space_not_digit c : is_space c = true -> dig c = false.
Proof.
  unfold is_space. intros H.
  assert (H' : In c [9;10;11;12;13;28;29;30;31;32;133;160;5760;8192;8193;8194;8195;8196;8197;8198;8199;8200;8201;8202;8232;8233;8239;8287;12288]%N).
  { cbn [In]. lia. }
  cbn [In] in H'. repeat (destruct H' as [<-|H']; [reflexivity|]). contradiction.
Qed.

Lemma decimal_bound zs c d : decimal_in zs c = Some d -> (d < 10)%N.
Proof. induction zs as [|z zs IH]; cbn [decimal_in]; [discriminate|]. destruct ((z <=? c)%N && (c <? z + 10)%N) eqn:E; [|exact IH]. intros H. injection H as <-. lia. Qed.

Lemma decimal_low zs c : (forall z, In z zs -> 127 <= z)%N -> (c < 127)%N -> decimal_in zs c = None.
Proof.
  induction zs as [|z zs IH]; cbn [decimal_in]; [reflexivity|]. intros Hz Hc.
  assert (127 <= z)%N by (apply Hz; now left). replace (z <=? c)%N with false by lia. cbn [andb]. apply IH; [|exact Hc]. intros y Hy. apply Hz. now right.
Qed.

Lemma dig_ascii c : dig c = true -> is_digit (to_ascii c) = true.
Proof.
  intros H. unfold to_ascii. destruct (N.ltb_spec c 127) as [Hc|Hc].
  - unfold dig in H. change (decimal_in decimal_zeros c) with
      (if (48 <=? c)%N && (c <? 48 + 10)%N then Some (c - 48)%N else decimal_in (tl decimal_zeros) c) in H.
    destruct ((48 <=? c)%N && (c <? 48 + 10)%N) eqn:E; [unfold is_digit; lia|]. exfalso.
    rewrite decimal_low in H; [discriminate| |exact Hc].
    assert (Hf : forallb (fun z => 127 <=? z)%N (tl decimal_zeros) = true) by reflexivity.
    rewrite forallb_forall in Hf. intros z Hz. apply N.leb_le, Hf, Hz.
  - destruct (is_space c) eqn:E; [apply space_not_digit in E; congruence|].
    unfold dig in H. destruct (decimal_in decimal_zeros c) as [d|] eqn:Ed; [|discriminate]. apply decimal_bound in Ed. unfold is_digit. lia.
Qed.

Lemma digits_ascii t : Forall (fun c => dig c = true) t -> all_digits (map to_ascii t) = true.
Proof.
  unfold all_digits. induction 1 as [|c t Hc Ht IH]; cbn [map forallb]; [reflexivity|]. now rewrite dig_ascii, IH.
Qed.

Lemma last_default (l : str) a b : l <> [] -> last l a = last l b.
Proof. induction l as [|x [|y l] IH]; intros H; [congruence|reflexivity|]. apply IH. discriminate. Qed.

Lemma strip_digits c t : all_digits t = true -> t <> [] -> is_space_b c = false -> strip is_space_b (c :: t) = c :: t.
Proof.
  intros Ht Hn Hc. apply strip_none; [exact Hc|]. destruct t as [|d t]; [congruence|].
  assert (E : last (c :: d :: t) c = last (d :: t) d).
  { change (last (c :: d :: t) c) with (last (d :: t) c). apply last_default. discriminate. }
  rewrite E. apply (digit_not_space (last (d :: t) d)). eapply all_digits_In; [exact Ht|apply last_In].
Qed.

Lemma py_int_digits t : t <> [] -> Forall (fun c => dig c = true) t -> py_int t = Ok (uval t).
Proof.
  intros Hn Hd. pose proof (digits_ascii t Hd) as Ha. unfold py_int, uval.
  assert (Hn' : map to_ascii t <> []) by (destruct t; [congruence|discriminate]).
  set (u := map to_ascii t) in *. clearbody u. destruct u as [|c u]; [congruence|].
  pose proof Ha as Ha'. unfold all_digits in Ha'. cbn [forallb] in Ha'. apply andb_prop in Ha' as [Hc Hu].
  assert (Es : strip is_space_b (c :: u) = c :: u).
  { apply strip_none; [apply (digit_not_space c Hc)|]. apply (digit_not_space (last (c :: u) c)). eapply all_digits_In; [exact Ha|apply last_In]. }
  rewrite Es. unfold is_digit in Hc. replace (c =? 45)%N with false by lia. replace (c =? 43)%N with false by lia.
  rewrite (digits_us_digits (c :: u)) by auto. reflexivity.
Qed.

Lemma py_int_sign g t : g = 43%N \/ g = 45%N -> t <> [] -> Forall (fun c => dig c = true) t ->
  py_int (g :: t) = Ok (if (g =? 45)%N then - uval t else uval t).
Proof.
  intros Hg Hn Hd. pose proof (digits_ascii t Hd) as Ha. unfold py_int, uval. cbn [map].
  replace (to_ascii g) with g by (destruct Hg as [-> | ->]; reflexivity).
  assert (Hn' : map to_ascii t <> []) by (destruct t; [congruence|discriminate]).
  rewrite strip_digits; [|exact Ha|exact Hn'|destruct Hg as [-> | ->]; reflexivity].
  destruct Hg as [-> | ->]; cbn [N.eqb Pos.eqb]; rewrite digits_us_digits by auto; reflexivity.
Qed.

Lemma uval_bound n t : digits n t -> 0 <= uval t < 10 ^ Z.of_nat n.
Proof.
  intros [<- Hd]. unfold uval. pose proof (dec_val_bound _ (digits_ascii t Hd)) as H. rewrite map_length in H.
  split; [lia|]. apply N2Z.inj_lt in H. rewrite N2Z.inj_pow, nat_N_Z in H. exact H.
Qed.

Lemma int_digits n t : digits (S n) t -> py_int t = Ok (uval t).
Proof. intros [Hl Hd]. apply py_int_digits; [|exact Hd]. destruct t; [discriminate|discriminate]. Qed.

(** ** The parts of a text, as numbers *)

Definition date_month (d : idate) : Z := match d with IMonth m | IDay m _ => uval m | _ => 1 end.
Definition date_day (d : idate) : Z := match d with IDay _ d => uval d | _ => 1 end.
Definition date_week (d : idate) : Z := match d with IWeek w | IWeekDay w _ => uval w | _ => 1 end.
Definition date_weekday (d : idate) : Z := match d with IWeekDay _ d => uval d | _ => 1 end.
Definition date_doy (d : idate) : Z := match d with IOrdinal n => uval n | _ => 1 end.

Definition clk_hour (k : iclock) : Z := match k with CHour h | CMinute h _ | CSecond h _ _ | CFrac h _ _ _ => uval h end.
Definition clk_minute (k : iclock) : Z := match k with CMinute _ m | CSecond _ m _ | CFrac _ m _ _ => uval m | _ => 0 end.
Definition clk_second (k : iclock) : Z := match k with CSecond _ _ s | CFrac _ _ s _ => uval s | _ => 0 end.
Definition clk_frac (k : iclock) : option str := match k with CFrac _ _ _ f => Some f | _ => None end.

Definition iso_hour (i : iso) : Z := match i_time i with Some (k, _) => clk_hour k | None => 0 end.
Definition iso_minute (i : iso) : Z := match i_time i with Some (k, _) => clk_minute k | None => 0 end.
Definition iso_second (i : iso) : Z := match i_time i with Some (k, _) => clk_second k | None => 0 end.
Definition iso_frac (i : iso) : option str := match i_time i with Some (k, _) => clk_frac k | None => None end.
Definition iso_year (i : iso) : Z := uval (i_year i).

(** the offset the code takes a zone to mean *)
Definition code_offset (z : izone) (tzinfo : option Z) : Z :=
  match z with
  | ZNone => match tzinfo with Some o => o | None => 0 end
  | Zulu => 0
  | ZOff g h m =>
    fixed_offset (if (g =? 45)%N then - uval h else uval h) (match m with Some m => uval m | None => 0 end)
  end.

Definition code_zone (i : iso) (tzinfo : option Z) : option Z :=
  match i_time i with Some (_, z) => Some (code_offset z tzinfo) | None => None end.

Definition iso_vals (i : iso) : vals :=
  V (iso_year i) (date_month (i_date i)) (date_day (i_date i)) (date_week (i_date i)) (date_weekday (i_date i)) (date_doy (i_date i))
    (iso_hour i) (iso_minute i) (iso_second i) (frac_us (iso_frac i)).

(** the ranges of extime.py:438-463 *)
Definition in_ranges (i : iso) : bool :=
  between 1 53 (date_week (i_date i)) && between 1 7 (date_weekday (i_date i)) && between 1 12 (date_month (i_date i)) &&
  between 1 31 (date_day (i_date i)) && between 0 24 (iso_hour i) && between 0 59 (iso_minute i) && between 0 61 (iso_second i) &&
  between 1 366 (date_doy (i_date i)).

Lemma group_app n a b : group n (a ++ b) = match group n a with Some t => Some t | None => group n b end.
Proof. induction a as [|[m t] a IH]; cbn [group app]; [reflexivity|]. destruct (Nat.eqb n m); [reflexivity|exact IH]. Qed.

Lemma coerce_eq i s : iso_text i s -> coerceGroups (caps_of i) = if in_ranges i then Ok (iso_vals i) else Err ValueError.
Proof.
  intros (dt & tt & nl & Hy & Hd & Ht & _). unfold coerceGroups, in_ranges, iso_vals, iso_year, iso_hour, iso_minute, iso_second, iso_frac, caps_of.
  destruct i as [y d o]. cbn [i_year i_date i_time] in *.
  assert (Ey : py_int y = Ok (uval y)) by apply (int_digits 3), Hy.
  unfold gint, gor, oint.
  destruct Hd; destruct Ht as [|k z ka zb Hk Hz]; try destruct Hk; try destruct Hz;
    cbn [caps_time caps_zone caps_clock caps_date app group g_year g_month1 g_week1 g_month2 g_day g_week2 g_weekday g_dayofyear g_hour
         g_minute g_second g_frac g_zulu g_tzhour g_tzmin Nat.eqb];
    rewrite ?Ey; repeat match goal with H : digits (S ?n) ?t |- _ => rewrite ?(int_digits n t H); clear H end; reflexivity.
Qed.

(** extime.py:494-552 *)
Definition iso_local (i : iso) : res Z :=
  let at_day x := F x (iso_hour i) (iso_minute i) (iso_second i) (frac_us (iso_frac i)) in
  match i_date i with
  | IWeek _ | IWeekDay _ _ =>
    let w := date_week (i_date i) in let wd := date_weekday (i_date i) in
    if negb ((0 <? w) && (w <=? 53)) then Err ValueError
    else
      t0 <- datetime (at_day (D (iso_year i) 1 4)) ;;
      t1 <- add_td t0 (- (weekday t0 * DAY)) ;;
      t2 <- add_td t1 (((w - 1) * 7 + wd - 1) * DAY) ;;
      let '(y, w', d) := isocalendar (t2 / DAY + 1) in
      if (y =? iso_year i) && (w' =? w) && (d =? wd) then Ok t2 else Err ValueError
  | IOrdinal n =>
    t0 <- datetime (at_day (D (iso_year i) 1 1)) ;;
    t1 <- add_td t0 ((uval n - 1) * DAY) ;;
    if negb (d_year (f_date (fields_of t1)) =? iso_year i) then Err ValueError else Ok t1
  | _ => datetime (at_day (D (iso_year i) (date_month (i_date i)) (date_day (i_date i))))
  end.

Definition iso_res (i : iso) (t : Z) : res Z :=
  match iso_frac i, i_time i, i_date i with
  | Some f, _, _ => Ok (Z.max 1 (if (length f <=? 6)%nat then 10 ^ (6 - Z.of_nat (length f)) else 0))
  | None, Some (CHour _, _), _ => Ok HOUR
  | None, Some (CMinute _ _, _), _ => Ok MINUTE
  | None, Some (_, _), _ => Ok SECOND
  | None, None, (IDay _ _ | IWeekDay _ _ | IOrdinal _) => Ok DAY
  | None, None, IWeek _ => Ok WEEK
  | None, None, IMonth _ =>
    let x := f_date (fields_of t) in
    if d_month x =? 12 then Ok (31 * DAY)
    else n <- replace_date t (D (d_year x) (d_month x + 1) (d_day x)) ;; Ok (n - t)
  | None, None, IYear =>
    let x := f_date (fields_of t) in
    n <- replace_date t (D (d_year x + 1) (d_month x) (d_day x)) ;; Ok (n - t)
  end.

Lemma zone_eq i s tz : iso_text i s ->
  (if matched (caps_of i) g_hour then tz <- calculateTimezone (caps_of i) tz ;; Ok (Some tz) else Ok None) = Ok (code_zone i tz).
Proof.
  intros (dt & tt & nl & Hy & Hd & Ht & _). destruct i as [y d o]. cbn [i_year i_date i_time] in *.
  unfold code_zone, caps_of, matched, calculateTimezone, gint. cbn [i_year i_date i_time].
  destruct Hd; destruct Ht as [|k z ka zb Hk Hz]; try destruct Hk; try destruct Hz;
    cbn [caps_time caps_zone caps_clock caps_date app group g_year g_month1 g_week1 g_month2 g_day g_week2 g_weekday g_dayofyear g_hour
         g_minute g_second g_frac g_zulu g_tzhour g_tzmin Nat.eqb rbind]; try reflexivity;
    repeat match goal with
      | Hg : ?g = _ \/ _, H : digits 2 ?h |- context [py_int (?g :: ?h)] =>
        let E := fresh in assert (E : h <> []) by (destruct H; destruct h; discriminate); rewrite (py_int_sign g h Hg E (proj2 H)); clear E
      | H : digits (S ?n) ?t |- context [py_int ?t] => rewrite (int_digits n t H)
      end; reflexivity.
Qed.

Lemma local_eq i s : iso_text i s -> calculateDtime (caps_of i) (iso_vals i) = iso_local i.
Proof.
  intros (dt & tt & nl & Hy & Hd & Ht & _). destruct i as [y d o]. cbn [i_year i_date i_time] in *.
  unfold iso_local, calculateDtime, caps_of, matched, clock_of. cbn [i_year i_date i_time].
  destruct Hd; destruct Ht as [|k z ka zb Hk Hz]; try destruct Hk; try destruct Hz; reflexivity.
Qed.

Lemma res_eq i s t : iso_text i s -> determineResolution (caps_of i) t = iso_res i t.
Proof.
  intros (dt & tt & nl & Hy & Hd & Ht & Hw & _). destruct i as [y d o]. cbn [i_year i_date i_time] in *.
  unfold iso_res, determineResolution, caps_of, matched. cbn [i_year i_date i_time].
  destruct Hd; destruct Ht as [|k z ka zb Hk Hz]; try destruct Hk; try destruct Hz; try reflexivity.
Qed.

(** what the parser does with a text of the grammar *)
Definition iso_value (i : iso) (tzinfo : option Z) : res time :=
  if in_ranges i then
    local <- iso_local i ;;
    self <- fromDatetime (Dt local (code_zone i tzinfo)) ;;
    r <- iso_res i (t_us self) ;;
    Ok (T (t_us self) r)
  else Err ValueError.

Theorem fromISO_eq i s tz : iso_text i s -> fromISO s tz = iso_value i tz.
Proof.
  intros H. unfold fromISO, iso_value. rewrite (match_complete i s H), (coerce_eq i s H).
  destruct (in_ranges i); [|reflexivity]. cbn [rbind]. rewrite (zone_eq i s tz H). cbn [rbind]. rewrite (local_eq i s H).
  destruct (iso_local i); [|reflexivity]. cbn [rbind]. destruct (fromDatetime _); [|reflexivity]. cbn [rbind]. now rewrite (res_eq i s _ H).
Qed.

Theorem fromISO_none s tz : (forall i, ~ iso_text i s) -> fromISO s tz = Err ValueError.
Proof.
  intros H. unfold fromISO. destruct (iso_match s) as [c|] eqn:E; [|reflexivity].
  apply match_sound in E. destruct E as (i & Hi & _). destruct (H i Hi).
Qed.

(** ** Specification: the day a text names, and the clock time *)

Definition day_named (y : Z) (d : idate) (x : date) : Prop :=
  match d with
  | IYear => x = D y 1 1
  | IMonth m => x = D y (uval m) 1
  | IDay m d => x = D y (uval m) (uval d)
  | IWeek w => iso_spec (ymd2ord x) = (y, uval w, 1)
  | IWeekDay w d => iso_spec (ymd2ord x) = (y, uval w, uval d)
  | IOrdinal n => d_year x = y /\ ymd2ord x - ymd2ord (D y 1 1) + 1 = uval n
  end.

(** the local date and clock time a text names; [us] microseconds *)
Definition names (i : iso) (us : Z) (f : fields) : Prop :=
  day_named (iso_year i) (i_date i) (f_date f) /\
  f_hour f = iso_hour i /\ f_min f = iso_minute i /\ f_sec f = iso_second i /\ f_us f = us.

Lemma iso_spec_inv n y w d : iso_spec n = (y, w, d) ->
  n = isoweek1monday y + 7 * (w - 1) + (d - 1) /\ 1 <= w <= 53 /\ 1 <= d <= 7.
Proof.
  unfold iso_spec. set (th := n - (n + 6) mod 7 + 3). pose proof (year_bounds th) as Hy. set (y' := d_year (ord2ymd th)) in *. cbv zeta.
  intros H. injection H as <- <- <-. pose proof (week1_monday y') as [M1 M2]. rewrite jan1 in *. pose proof (year_len y') as L.
  set (m := isoweek1monday y') in *. unfold th in *. lia.
Qed.

Lemma monday_jan4 y : isoweek1monday y = ymd2ord (D y 1 4) - (ymd2ord (D y 1 4) + 6) mod 7.
Proof.
  pose proof (week1_monday y) as [M1 M2]. assert (E : ymd2ord (D y 1 4) = ymd2ord (D y 1 1) + 3).
  { unfold ymd2ord. cbn [d_year d_month d_day]. lia. }
  rewrite E. lia.
Qed.

Lemma monday_range y : 1 <= y -> 1 <= isoweek1monday y.
Proof.
  intros H. pose proof (week1_monday y) as [M1 M2]. rewrite jan1 in M2.
  destruct (Z.eq_dec y 1) as [->|]; [change (isoweek1monday 1) with 1; lia|].
  assert (0 <= days_before_year (y - 1)). { unfold days_before_year. lia. }
  pose proof (year_len (y - 1)) as L. replace (y - 1 + 1) with y in L by lia. lia.
Qed.

Lemma iso_year_pos n y w d : 1 <= n -> iso_spec n = (y, w, d) -> 1 <= y.
Proof.
  intros Hn. unfold iso_spec. set (th := n - (n + 6) mod 7 + 3). pose proof (year_bounds th) as Hy. set (y' := d_year (ord2ymd th)) in *. cbv zeta.
  intros H. injection H as <- _ _. assert (1 <= th) by (unfold th; lia). 
  destruct (Z.le_gt_cases 1 y') as [|Hlt]; [assumption|]. exfalso.
  assert (days_before_year (y' + 1) <= 0). { unfold days_before_year. lia. }
  lia.
Qed.

Lemma datetime_eq f t : datetime f = Ok t <-> valid_fields f /\ t = (ymd2ord (f_date f) - 1) * DAY + day_us f.
Proof.
  unfold datetime. pose proof (fields_okb_spec f) as H. destruct (fields_okb f).
  - split; [intros E; injection E as <-; split; [now apply H|reflexivity]|intros [_ ->]; reflexivity].
  - split; [discriminate|]. intros [Hv _]. apply H in Hv. discriminate.
Qed.

(** the same clock time on another day *)
Lemma datetime_day f t x : datetime f = Ok t ->
  let g := F x (f_hour f) (f_min f) (f_sec f) (f_us f) in
  let u := t + (ymd2ord x - ymd2ord (f_date f)) * DAY in
  (valid_date x /\ 1 <= d_year x <= 9999 <-> valid_fields g) /\
  (valid_fields g -> datetime g = Ok u /\ 0 <= u < MAXT).
Proof.
  intros H g u. apply datetime_eq in H. destruct H as [Hv ->]. destruct Hv as (V1 & V2 & V3 & V4 & V5 & V6).
  split.
  - unfold valid_fields, g. cbn [f_date f_hour f_min f_sec f_us]. tauto.
  - intros Hg. assert (E : datetime g = Ok u).
    { apply datetime_eq. split; [exact Hg|]. unfold u, g, day_us. cbn [f_date f_hour f_min f_sec f_us]. lia. }
    split; [exact E|]. apply (datetime_range _ _ E).
Qed.

Lemma ord_back n : 1 <= n <= 3652059 -> valid_date (ord2ymd n) /\ ymd2ord (ord2ymd n) = n /\ 1 <= d_year (ord2ymd n) <= 9999.
Proof.
  intros H. destruct (ord2ymd_spec n) as [V E]. split; [exact V|]. split; [exact E|].
  apply year_range. change (days_before_year 1) with 0. change (days_before_year (9999 + 1)) with 3652059. lia.
Qed.

(** the local time is that of the day named *)
Theorem local_Ok i l : iso_year i <= 9999 -> in_ranges i = true -> (iso_local i = Ok l <-> exists f, names i (frac_us (iso_frac i)) f /\ datetime f = Ok l).
Proof.
  intros H99 Hr. unfold in_ranges, between in Hr. unfold iso_local, names. set (us := frac_us (iso_frac i)). cbv zeta.
  assert (Hcal : forall x, (datetime (F x (iso_hour i) (iso_minute i) (iso_second i) us) = Ok l) ->
     forall P : date -> Prop, P x ->
     exists f, (P (f_date f) /\ f_hour f = iso_hour i /\ f_min f = iso_minute i /\ f_sec f = iso_second i /\ f_us f = us) /\ datetime f = Ok l).
  { intros x Hx P Px. eexists. split; [|exact Hx]. repeat split. exact Px. }
  assert (Hweek : forall w wd, 1 <= w <= 53 -> 1 <= wd <= 7 ->
    ((if negb ((0 <? w) && (w <=? 53)) then Err ValueError
      else
      t0 <- datetime (F (D (iso_year i) 1 4) (iso_hour i) (iso_minute i) (iso_second i) us) ;;
      t1 <- add_td t0 (- (weekday t0 * DAY)) ;;
      t2 <- add_td t1 (((w - 1) * 7 + wd - 1) * DAY) ;;
      let '(y, w', d) := isocalendar (t2 / DAY + 1) in
      if (y =? iso_year i) && (w' =? w) && (d =? wd) then Ok t2 else Err ValueError) = Ok l <->
     exists f, (iso_spec (ymd2ord (f_date f)) = (iso_year i, w, wd) /\
       f_hour f = iso_hour i /\ f_min f = iso_minute i /\ f_sec f = iso_second i /\ f_us f = us) /\ datetime f = Ok l)).
  { intros w wd Hw Hwd. replace (negb ((0 <? w) && (w <=? 53))) with false by lia.
    set (y := iso_year i). set (h := iso_hour i) in *. set (m := iso_minute i) in *. set (s := iso_second i) in *.
    split.
    - destruct (datetime (F (D y 1 4) h m s us)) as [t0|] eqn:E0; cbn [rbind]; [|discriminate].
      pose proof E0 as E0'. apply datetime_eq in E0'. destruct E0' as [V0 D0]. cbn [f_date] in D0.
      assert (Hu : 0 <= day_us (F (D y 1 4) h m s us) < DAY) by (destruct V0 as (_ & _ & ? & ? & ? & ?); now apply day_us_range).
      destruct (add_td t0 _) as [t1|] eqn:E1; cbn [rbind]; [|discriminate]. apply add_td_Ok in E1. destruct E1 as [-> R1].
      destruct (add_td _ _) as [t2|] eqn:E2; cbn [rbind]; [|discriminate]. apply add_td_Ok in E2. destruct E2 as [E2 R2].
      rewrite isocalendar_spec. destruct (iso_spec (t2 / DAY + 1)) as [[y' w'] d'] eqn:Es.
      destruct ((y' =? y) && (w' =? w) && (d' =? wd)) eqn:Eb; [|discriminate]. intros H. injection H as ->.
      assert (y' = y /\ w' = w /\ d' = wd) as (-> & -> & ->) by lia.
      set (n := l / DAY + 1) in *. assert (Hn : 1 <= n <= 3652059) by (unfold n, MAXT, DAY in *; lia).
      destruct (ord_back n Hn) as (Vn & On & Yn).
      exists (F (ord2ymd n) h m s us). cbn [f_date f_hour f_min f_sec f_us]. rewrite On. split; [auto|].
      destruct (datetime_day _ _ (ord2ymd n) E0) as [G1 G2]. cbn [f_date f_hour f_min f_sec f_us] in G1, G2.
      destruct (G2 (proj1 G1 (conj Vn Yn))) as [G3 _]. rewrite G3. f_equal. rewrite On.
      unfold weekday in *. set (u := day_us _) in *. set (o4 := ymd2ord (D y 1 4)) in *.
      assert (Ew : t0 / DAY = o4 - 1) by (rewrite D0; apply split_day; exact Hu). rewrite Ew in E2.
      assert (En : n = o4 - (o4 - 1 + 1 + 6) mod 7 + ((w - 1) * 7 + wd - 1)).
      { unfold n. replace l with ((o4 - 1 - (o4 - 1 + 1 + 6) mod 7 + ((w - 1) * 7 + wd - 1)) * DAY + u) by lia.
        rewrite (proj1 (split_day _ _ Hu)). lia. }
      rewrite En. lia.
    - intros ([x h' m' s' us'] & (Hx & Eh & Em & Es & Eu) & Hd). cbn [f_date f_hour f_min f_sec f_us] in *. subst h' m' s' us'.
      pose proof Hd as Hd'. apply datetime_eq in Hd'. destruct Hd' as [Vx Dx]. cbn [f_date] in Dx.
      assert (Hu : 0 <= day_us (F x h m s us) < DAY) by (destruct Vx as (_ & _ & ? & ? & ? & ?); now apply day_us_range).
      pose proof (ord_range x (proj1 (proj2 Vx))) as Ro. pose proof (iso_year_pos _ _ _ _ (proj1 (Ro (proj1 Vx))) Hx) as Hy.
      assert (V4 : valid_date (D y 1 4) /\ 1 <= d_year (D y 1 4) <= 9999).
      { unfold valid_date, month_length, y in *. cbn [d_year d_month d_day Z.eqb Pos.eqb]. cbn. lia. }
      destruct (datetime_day _ _ (D y 1 4) Hd) as [G1 G2]. cbn [f_date f_hour f_min f_sec f_us] in G1, G2.
      destruct (G2 (proj1 G1 V4)) as [G3 G4]. rewrite G3. cbn [rbind].
      apply iso_spec_inv in Hx as Hx'. destruct Hx' as (Hx' & _ & _).
      pose proof (monday_jan4 y) as HM. pose proof (monday_range y Hy) as HM1. fold y in Hx'.
      set (o4 := ymd2ord (D y 1 4)) in *. set (ox := ymd2ord x) in *. set (u := day_us _) in *.
      assert (E0 : l + (o4 - ox) * DAY = (o4 - 1) * DAY + u) by lia.
      set (t0 := l + (o4 - ox) * DAY) in *. unfold weekday. rewrite E0, (proj1 (split_day _ _ Hu)), <- E0.
      set (wk := (o4 - 1 + 1 + 6) mod 7) in *.
      assert (Ewk : wk = (o4 + 6) mod 7) by (unfold wk; f_equal; lia). rewrite <- Ewk in HM.
      pose proof (datetime_range _ _ Hd) as Rl.
      rewrite (proj2 (add_td_Ok t0 (- (wk * DAY)) (t0 - wk * DAY))).
      2:{ assert (0 <= wk < 7) by (unfold wk; lia). unfold DAY in *. lia. }
      cbn [rbind].
      rewrite (proj2 (add_td_Ok (t0 - wk * DAY) (((w - 1) * 7 + wd - 1) * DAY) l)) by lia.
      cbn [rbind]. assert (El : l / DAY + 1 = ox) by (rewrite Dx, (proj1 (split_day _ _ Hu)); lia).
      rewrite El, isocalendar_spec, Hx. rewrite !Z.eqb_refl. reflexivity. }
  destruct (i_date i) as [| | w | |w d|n] eqn:Ed; cbn [date_month date_day date_week date_weekday date_doy day_named] in *.
  - split; [intros H; exact (Hcal _ H (fun z => z = _) eq_refl)|]. intros ([x0 h0 m0 s0 u0] & (Ex & H1 & H2 & H3 & H4) & H). cbn [f_date f_hour f_min f_sec f_us] in *. subst. exact H.
  - split; [intros H; exact (Hcal _ H (fun z => z = _) eq_refl)|]. intros ([x0 h0 m0 s0 u0] & (Ex & H1 & H2 & H3 & H4) & H). cbn [f_date f_hour f_min f_sec f_us] in *. subst. exact H.
  - apply Hweek; lia.
  - split; [intros H; exact (Hcal _ H (fun z => z = _) eq_refl)|]. intros ([x0 h0 m0 s0 u0] & (Ex & H1 & H2 & H3 & H4) & H). cbn [f_date f_hour f_min f_sec f_us] in *. subst. exact H.
  - apply Hweek; lia.
  - set (y := iso_year i) in *. set (h := iso_hour i) in *. set (m := iso_minute i) in *. set (s := iso_second i) in *. set (k := uval n) in *.
    split.
    + destruct (datetime (F (D y 1 1) h m s us)) as [t0|] eqn:E0; cbn [rbind]; [|discriminate].
      destruct (add_td t0 _) as [t1|] eqn:E1; cbn [rbind]; [|discriminate]. apply add_td_Ok in E1. destruct E1 as [E1 R1].
      destruct (Z.eqb_spec (d_year (f_date (fields_of t1))) y) as [Ey|]; cbn [negb]; [|discriminate]. intros H. injection H as ->.
      pose proof E0 as E0'. apply datetime_eq in E0'. destruct E0' as [V0 D0]. cbn [f_date] in D0.
      assert (Hu : 0 <= day_us (F (D y 1 1) h m s us) < DAY) by (destruct V0 as (_ & _ & ? & ? & ? & ?); now apply day_us_range).
      set (o1 := ymd2ord (D y 1 1)) in *. set (u := day_us _) in *.
      unfold fields_of in Ey. cbn [f_date] in Ey. set (p := l / DAY + 1) in *.
      assert (Hp : 1 <= p <= 3652059) by (unfold p, MAXT, DAY in *; lia).
      destruct (ord_back p Hp) as (Vn & On & Yn).
      assert (Ep : p = o1 + (k - 1)).
      { unfold p. replace l with ((o1 - 1 + (k - 1)) * DAY + u) by lia. rewrite (proj1 (split_day _ _ Hu)). lia. }
      exists (F (ord2ymd p) h m s us). cbn [f_date f_hour f_min f_sec f_us]. rewrite On. split; [repeat split; [exact Ey|lia]|].
      destruct (datetime_day _ _ (ord2ymd p) E0) as [G1 G2]. cbn [f_date f_hour f_min f_sec f_us] in G1, G2.
      destruct (G2 (proj1 G1 (conj Vn Yn))) as [G3 _]. rewrite G3. f_equal. rewrite On. fold o1. lia.
    + intros ([x h' m' s' us'] & ((Hx & Ho) & Eh & Em & Es & Eu) & Hd). cbn [f_date f_hour f_min f_sec f_us] in *. subst h' m' s' us'.
      pose proof Hd as Hd'. apply datetime_eq in Hd'. destruct Hd' as [Vx Dx]. cbn [f_date] in Dx.
      assert (Hu : 0 <= day_us (F x h m s us) < DAY) by (destruct Vx as (_ & _ & ? & ? & ? & ?); now apply day_us_range).
      assert (V1 : valid_date (D y 1 1) /\ 1 <= d_year (D y 1 1) <= 9999).
      { destruct Vx as (Vy & _). cbn [f_date] in Vy. unfold valid_date, month_length in *. cbn [d_year d_month d_day]. cbn. lia. }
      destruct (datetime_day _ _ (D y 1 1) Hd) as [G1 G2]. cbn [f_date f_hour f_min f_sec f_us] in G1, G2.
      destruct (G2 (proj1 G1 V1)) as [G3 G4]. rewrite G3. cbn [rbind].
      rewrite (proj2 (add_td_Ok _ _ l)); [|split; [lia|exact (datetime_range _ _ Hd)]]. cbn [rbind].
      apply datetime_Ok in Hd. destruct Hd as (_ & _ & ->). cbn [f_date]. rewrite Hx, Z.eqb_refl. reflexivity.
Qed.

(** ** Fractions of a second *)

(** the microseconds written, a rational number *)
Definition frac_q (f : str) : Q := (uval f * 1000000 # Z.to_pos (10 ^ Z.of_nat (length f))).

Lemma uval_frac f : Forall (fun c => dig c = true) f -> 0 <= uval f < 10 ^ Z.of_nat (length f).
Proof. intros H. now apply uval_bound. Qed.

Lemma frac_near f : Forall (fun c => dig c = true) f ->
  (Qabs (fl (frac_float (Some f) * inject_Z 1000000) - frac_q f) <= 1 # 8000000000)%Q.
Proof.
  intros Hf. pose proof (uval_frac f Hf) as Hu. unfold frac_float, frac_q.
  set (p := Z.to_pos (10 ^ Z.of_nat (length f))). assert (Hp : Zpos p = 10 ^ Z.of_nat (length f)) by (unfold p; rewrite Z2Pos.id; lia).
  rewrite <- Hp in Hu. clearbody p. set (v := uval f) in *. clearbody v. clear Hp Hf f.
  assert (Hx0 : (0 <= v # p)%Q) by (unfold Qle; cbn [Qnum Qden]; lia).
  assert (Hx1 : (v # p < 1)%Q) by (unfold Qlt; cbn [Qnum Qden]; lia).
  assert (E : (v * 1000000 # p == (v # p) * inject_Z 1000000)%Q) by (unfold Qeq; cbn [Qnum Qden inject_Z Qmult]; lia).
  rewrite E. set (x := v # p) in *. clearbody x. clear E Hu v p.
  assert (E1 : (Qabs (fl x - x) <= 2 ^ (-54))%Q).
  { apply (fl_err x 0); [|lia]. apply Qabs_Qlt_condition. change (2 ^ 0)%Q with 1%Q. split; lra. }
  apply Qabs_Qle_condition in E1. change (2 ^ (-54))%Q with (1 # 18014398509481984)%Q in E1.
  set (a := fl x) in *. clearbody a. change (inject_Z 1000000) with (1000000 # 1)%Q in *.
  assert (E2 : (Qabs (fl (a * (1000000 # 1)) - a * (1000000 # 1)) <= 2 ^ (-34))%Q).
  { apply (fl_err _ 20); [|lia]. apply Qabs_Qlt_condition. change (2 ^ 20)%Q with (1048576 # 1)%Q. split; lra. }
  apply Qabs_Qle_condition in E2. change (2 ^ (-34))%Q with (1 # 17179869184)%Q in E2.
  set (b := fl (a * (1000000 # 1))) in *. clearbody b. apply Qabs_Qle_condition. split; lra.
Qed.

Theorem frac_exact f : Forall (fun c => dig c = true) f -> (length f <= 6)%nat ->
  frac_us (Some f) = uval f * 10 ^ (6 - Z.of_nat (length f)).
Proof.
  intros Hf Hl. apply rne_near. pose proof (frac_near f Hf) as H.
  assert (E : (frac_q f == inject_Z (uval f * 10 ^ (6 - Z.of_nat (length f))))%Q).
  { unfold frac_q, Qeq. cbn [Qnum Qden inject_Z]. rewrite Z2Pos.id by lia.
    replace (uval f * 10 ^ (6 - Z.of_nat (length f)) * 10 ^ Z.of_nat (length f)) with (uval f * (10 ^ (6 - Z.of_nat (length f)) * 10 ^ Z.of_nat (length f))) by ring.
    rewrite <- Z.pow_add_r by lia. replace (6 - Z.of_nat (length f) + Z.of_nat (length f)) with 6 by lia. lia. }
  rewrite <- E. eapply Qle_lt_trans; [exact H|reflexivity].
Qed.

Theorem frac_close f : Forall (fun c => dig c = true) f ->
  (Qabs (inject_Z (frac_us (Some f)) - frac_q f) <= (1 # 2) + (1 # 8000000000))%Q.
Proof.
  intros Hf. pose proof (frac_near f Hf) as H. unfold frac_us. set (b := fl _) in *. pose proof (rne_bound b) as R.
  apply Qabs_Qle_condition in H. apply Qabs_Qle_condition in R. apply Qabs_Qle_condition. split; lra.
Qed.

(** a number of microseconds for the fraction written: exactly those, or with
    more than six digits one as near as a float can tell *)
Definition near_us (o : option str) (us : Z) : Prop :=
  match o with
  | None => us = 0
  | Some f =>
    ((length f <= 6)%nat -> us = uval f * 10 ^ (6 - Z.of_nat (length f))) /\
    (Qabs (inject_Z us - frac_q f) <= (1 # 2) + (1 # 8000000000))%Q
  end.

Lemma frac_us_near i s : iso_text i s -> near_us (iso_frac i) (frac_us (iso_frac i)).
Proof.
  intros (dt & tt & nl & _ & _ & Ht & _). unfold iso_frac. destruct Ht as [|k z a b Hk Hz]; [reflexivity|].
  destruct Hk; try reflexivity. cbn [clk_frac near_us]. split; [now apply frac_exact|now apply frac_close].
Qed.

(** ** Ranges *)

Lemma ranges_ok i us f : names i us f -> valid_fields f -> in_ranges i = true.
Proof.
  destruct f as [x h m s u]. unfold names, valid_fields. cbn [f_date f_hour f_min f_sec f_us].
  intros (Hd & -> & -> & -> & _) (Hy & Hv & Hh & Hm & Hs & _). unfold in_ranges, between.
  assert (Hc : (0 <=? iso_hour i) && (iso_hour i <=? 24) = true /\ (0 <=? iso_minute i) && (iso_minute i <=? 59) = true /\
    (0 <=? iso_second i) && (iso_second i <=? 61) = true) by lia.
  destruct Hc as (-> & -> & ->). clear Hh Hm Hs. rewrite !andb_true_r.
  destruct (i_date i) as [|m0|w0|m0 d0|w0 d0|n0]; cbn [day_named date_month date_day date_week date_weekday date_doy] in *.
  - reflexivity.
  - subst x. unfold valid_date in Hv. cbn [d_year d_month d_day] in Hv. lia.
  - apply iso_spec_inv in Hd. lia.
  - subst x. unfold valid_date in Hv. cbn [d_year d_month d_day] in Hv. pose proof (month_length_31 (iso_year i) (uval m0)). lia.
  - apply iso_spec_inv in Hd. lia.
  - destruct Hd as [Ey Hd]. destruct x as [y mo d]. cbn [d_year] in Ey. subst y. pose proof (in_year _ _ _ Hv) as Hi.
    rewrite jan1 in Hd. unfold ymd2ord in Hd. cbn [d_year d_month d_day] in Hd. destruct (leap (iso_year i)); cbn [b2z] in Hi; lia.
Qed.

Lemma year_99 i s : iso_text i s -> 0 <= iso_year i <= 9999.
Proof. intros (dt & tt & nl & Hy & _). pose proof (uval_bound _ _ Hy) as H. change (10 ^ Z.of_nat 4) with 10000 in H. unfold iso_year. lia. Qed.

(** the instant of a local time in a zone *)
Definition zone_instant (l : Z) (zone : option Z) (t : Z) : Prop :=
  match zone with None => t = l | Some off => - DAY < off < DAY /\ 0 <= l - off < MAXT /\ t = l - off end.

Lemma fromDatetime_zone l z t : fromDatetime (Dt l z) = Ok t <-> zone_instant l z (t_us t) /\ t_res t = 1.
Proof.
  destruct t as [u r]. cbn [t_us t_res]. destruct z as [off|]; cbn [zone_instant].
  - rewrite fromDatetime_Ok. split; [intros (H1 & H2 & H3); injection H3 as -> ->; auto|intros ((H1 & H2 & ->) & ->); auto].
  - unfold fromDatetime. cbn [dt_tz dt_local]. split; [intros H; injection H as <- <-; auto|intros [-> ->]; reflexivity].
Qed.

Theorem parse_Ok i s tz t : iso_text i s -> (fromISO s tz = Ok t <->
  exists f l, names i (frac_us (iso_frac i)) f /\ datetime f = Ok l /\ zone_instant l (code_zone i tz) (t_us t) /\ iso_res i (t_us t) = Ok (t_res t)).
Proof.
  intros Hi. rewrite (fromISO_eq i s tz Hi). unfold iso_value. pose proof (year_99 i s Hi) as Hy. split.
  - destruct (in_ranges i) eqn:Er; [|discriminate]. destruct (iso_local i) as [l|] eqn:El; cbn [rbind]; [|discriminate].
    apply (local_Ok i l (proj2 Hy) Er) in El. destruct El as (f & Hn & Hf).
    destruct (fromDatetime _) as [u|] eqn:Eu; cbn [rbind]; [|discriminate]. apply fromDatetime_zone in Eu.
    destruct (iso_res i (t_us u)) as [r|] eqn:Es; cbn [rbind]; [|discriminate]. intros H. injection H as <-. cbn [t_us t_res].
    exists f, l. tauto.
  - intros (f & l & Hn & Hf & Hz & Hs). assert (Er : in_ranges i = true).
    { apply (ranges_ok i _ f Hn). apply datetime_eq in Hf. tauto. }
    rewrite Er. rewrite (proj2 (local_Ok i l (proj2 Hy) Er)) by eauto. cbn [rbind].
    rewrite (proj2 (fromDatetime_zone l _ (T (t_us t) 1))) by (split; [exact Hz|reflexivity]). cbn [rbind t_us]. rewrite Hs. cbn [rbind].
    destruct t; reflexivity.
Qed.
