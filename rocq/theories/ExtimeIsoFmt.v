(** * ISO 8601: precision, errors, and output that parses back *)

From Coq Require Import ZArith NArith QArith Qabs String List Bool Lia ZifyBool ZifyN.
From Verif Require Import Py PyStr PyNum PyInt Regex PyFloat Cal PyTime Extime ExtimeIso ExtimeIsoVal.
Import ListNotations.
Open Scope Z_scope.
Open Scope py_scope.
Open Scope list_scope.

(** ** Specification: the length of the period a text names *)

Definition period (i : iso) : Z :=
  match i_time i with
  | Some (CFrac _ _ _ f, _) => Z.max 1 (SECOND / 10 ^ Z.of_nat (length f))
  | Some (CSecond _ _ _, _) => SECOND
  | Some (CMinute _ _, _) => MINUTE
  | Some (CHour _, _) => HOUR
  | None =>
    match i_date i with
    | IYear => (if leap (iso_year i) then 366 else 365) * DAY
    | IMonth m => month_length (iso_year i) (uval m) * DAY
    | IWeek _ => WEEK
    | IDay _ _ | IWeekDay _ _ | IOrdinal _ => DAY
    end
  end.

Lemma frac_period f : Z.max 1 (if (length f <=? 6)%nat then 10 ^ (6 - Z.of_nat (length f)) else 0) = Z.max 1 (SECOND / 10 ^ Z.of_nat (length (f : str))).
Proof.
  f_equal. destruct (Nat.leb_spec (length f) 6) as [H|H].
  - apply Z.div_unique_exact; [lia|]. rewrite <- Z.pow_add_r by lia. replace (Z.of_nat (length f) + _) with 6 by lia. reflexivity.
  - symmetry. apply Z.div_small. split; [unfold SECOND; lia|]. change SECOND with (10 ^ 6). apply Z.pow_lt_mono_r; lia.
Qed.

Lemma datetime_midnight x : valid_date x -> 1 <= d_year x <= 9999 -> datetime (F x 0 0 0 0) = Ok ((ymd2ord x - 1) * DAY).
Proof.
  intros Hv Hy. apply datetime_eq. split; [|unfold day_us; cbn [f_date f_hour f_min f_sec f_us]; lia].
  unfold valid_fields. cbn [f_date f_hour f_min f_sec f_us]. repeat split; try tauto; try lia; apply Hv || apply Hy.
Qed.

Lemma next_month y m : 1 <= m < 12 -> ymd2ord (D y (m + 1) 1) = ymd2ord (D y m 1) + month_length y m.
Proof. intros H. unfold ymd2ord. cbn [d_year d_month d_day]. rewrite (before_next y m H). lia. Qed.

Theorem res_period i s us f l tz t : iso_text i s -> us = frac_us (iso_frac i) -> names i us f -> datetime f = Ok l -> zone_instant l (code_zone i tz) t ->
  iso_res i t = if match i_time i, i_date i with None, IYear => iso_year i =? 9999 | _, _ => false end then Err ValueError else Ok (period i).
Proof.
  intros Hi Hus Hn Hf Hz. unfold iso_res, period, iso_frac in *. unfold code_zone in Hz.
  destruct (i_time i) as [[[h|h mi|h mi sc|h mi sc fr] z]|] eqn:Et; cbn [clk_frac]; try reflexivity.
  { now rewrite frac_period. }
  cbn [zone_instant] in Hz. subst t. change (frac_us None) with 0 in Hus. subst us.
  assert (Ef : f = F (f_date f) 0 0 0 0).
  { destruct f as [x a b c u]. destruct Hn as (_ & Ha & Hb & Hc & Hu). unfold iso_hour, iso_minute, iso_second in *. rewrite Et in *.
    cbn [f_hour f_min f_sec f_us f_date] in *. congruence. }
  destruct Hn as (Hd & _). apply datetime_Ok in Hf as Hf'. destruct Hf' as (Hv & _ & E). unfold replace_date. rewrite E.
  rewrite Ef in Hf, Hv |- *. set (x := f_date f) in *. clearbody x. clear Et Ef E f.
  cbn [f_date f_hour f_min f_sec f_us].
  assert (Vx : valid_date x /\ 1 <= d_year x <= 9999) by (destruct Hv; tauto).
  clear Hv. assert (El : l = (ymd2ord x - 1) * DAY) by (rewrite (datetime_midnight x (proj1 Vx) (proj2 Vx)) in Hf; congruence).
  destruct (i_date i) as [|m| | | |]; cbn [day_named] in Hd; try reflexivity.
  - subst x. destruct Vx as [Vx Yx]. cbn [d_year d_month d_day] in *. set (y := iso_year i) in *. destruct (Z.eqb_spec y 9999) as [->|Hne].
    + rewrite datetime_invalid; [reflexivity|]. intros [H _]. cbn [f_date d_year] in H. lia.
    + rewrite datetime_midnight; [|unfold valid_date, month_length; cbn; lia|cbn [d_year]; lia].
      cbn [rbind]. f_equal. rewrite El, !jan1, before_year_next. destruct (leap y); cbn [b2z]; lia.
  - subst x. destruct Vx as [Vx Yx]. cbn [d_year d_month d_day] in *. set (y := iso_year i) in *. set (mo := uval m) in *.
    destruct (Z.eqb_spec mo 12) as [->|Hne]; [reflexivity|].
    assert (Hm : 1 <= mo < 12) by (unfold valid_date in Vx; cbn [d_year d_month d_day] in Vx; lia).
    rewrite datetime_midnight; [|unfold valid_date; pose proof (month_length_pos y (mo + 1)); cbn [d_year d_month d_day]; lia|cbn [d_year]; lia].
    cbn [rbind]. f_equal. rewrite El, (next_month y mo Hm). lia.
Qed.

(** ** Errors *)

Lemma local_err i e : iso_year i <= 9999 -> in_ranges i = true -> iso_local i = Err e -> e = ValueError \/ e = OverflowError /\ iso_year i = 9999.
Proof.
  intros H99 Hr. unfold in_ranges, between in Hr. unfold iso_local. cbv zeta. set (us := frac_us (iso_frac i)).
  assert (Hweek : forall w wd, 1 <= w <= 53 -> 1 <= wd <= 7 ->
    (if negb ((0 <? w) && (w <=? 53)) then Err ValueError
      else
      t0 <- datetime (F (D (iso_year i) 1 4) (iso_hour i) (iso_minute i) (iso_second i) us) ;;
      t1 <- add_td t0 (- (weekday t0 * DAY)) ;;
      t2 <- add_td t1 (((w - 1) * 7 + wd - 1) * DAY) ;;
      let '(y, w', d) := isocalendar (t2 / DAY + 1) in
      if (y =? iso_year i) && (w' =? w) && (d =? wd) then Ok t2 else Err ValueError) = Err e -> e = ValueError \/ e = OverflowError /\ iso_year i = 9999).
  { intros w wd Hw Hwd. replace (negb ((0 <? w) && (w <=? 53))) with false by lia.
    set (y := iso_year i) in *. set (h := iso_hour i) in *. set (m := iso_minute i) in *. set (s := iso_second i) in *.
    destruct (datetime (F (D y 1 4) h m s us)) as [t0|e0] eqn:E0; cbn [rbind].
    2:{ intros H. injection H as <-. left. unfold datetime in E0. destruct (fields_okb _); [discriminate|]. congruence. }
    apply datetime_eq in E0. destruct E0 as [V0 D0]. cbn [f_date] in D0.
    assert (Hu : 0 <= day_us (F (D y 1 4) h m s us) < DAY) by (destruct V0 as (_ & _ & ? & ? & ? & ?); now apply day_us_range).
    set (u := day_us _) in *. pose proof (monday_jan4 y) as HM. destruct V0 as (Vy & _). cbn [f_date d_year] in Vy.
    pose proof (monday_range y (proj1 Vy)) as HM1. pose proof (week1_monday y) as [_ HM2]. rewrite jan1 in HM2.
    set (o4 := ymd2ord (D y 1 4)) in *.
    assert (Ew : t0 / DAY = o4 - 1) by (rewrite D0; apply split_day; exact Hu). unfold weekday. rewrite Ew. replace (o4 - 1 + 1 + 6) with (o4 + 6) by lia.
    set (wk := (o4 + 6) mod 7) in *. assert (Hwk : 0 <= wk < 7) by (unfold wk; lia). clearbody wk.
    destruct (add_td t0 _) as [t1|e1] eqn:E1; cbn [rbind].
    2:{ exfalso. apply add_td_Err in E1. destruct E1 as [_ E1]. apply E1. clear E1.
        assert (days_before_year y <= 3651694). { assert (HH : days_before_year y <= days_before_year 9999) by (unfold days_before_year; lia). change (days_before_year 9999) with 3651694 in HH. exact HH. }
        assert (o4 <= 3651705) by lia. clear - D0 Hu HM HM1 H0 Hwk. unfold MAXT, DAY in *. lia. }
    apply add_td_Ok in E1. destruct E1 as [-> _].
    destruct (add_td _ _) as [t2|e2] eqn:E2; cbn [rbind].
    2:{ apply add_td_Err in E2. destruct E2 as [-> E2]. intros H. injection H as <-. right. split; [reflexivity|].
        destruct (Z.eq_dec y 9999) as [|Hne]; [assumption|]. exfalso. apply E2.
        assert (days_before_year y <= 3651329). { assert (HH : days_before_year y <= days_before_year 9998) by (unfold days_before_year; lia). change (days_before_year 9998) with 3651329 in HH. exact HH. }
        assert (o4 <= 3651340) by lia. clear - D0 Hu HM HM1 H0 Hwk Hw Hwd. unfold MAXT, DAY in *. lia. }
    destruct (isocalendar _) as [[y' w'] d']. match goal with |- (if ?b then _ else _) = _ -> _ => destruct b end; [discriminate|]. intros H. injection H as <-. now left. }
  destruct (i_date i) as [| | w | |w d|n] eqn:Ed; cbn [date_month date_day date_week date_weekday date_doy] in *.
  - unfold datetime. destruct (fields_okb _); [discriminate|]. intros H. injection H as <-. now left.
  - unfold datetime. destruct (fields_okb _); [discriminate|]. intros H. injection H as <-. now left.
  - apply Hweek; lia.
  - unfold datetime. destruct (fields_okb _); [discriminate|]. intros H. injection H as <-. now left.
  - apply Hweek; lia.
  - clear Hweek. set (y := iso_year i) in *. destruct (datetime _) as [t0|e0] eqn:E0; cbn [rbind].
    2:{ intros H. injection H as <-. left. unfold datetime in E0. destruct (fields_okb _); [discriminate|]. congruence. }
    apply datetime_eq in E0. destruct E0 as [V0 D0]. cbn [f_date] in D0.
    assert (Hu : 0 <= day_us (F (D y 1 1) (iso_hour i) (iso_minute i) (iso_second i) us) < DAY) by (destruct V0 as (_ & _ & ? & ? & ? & ?); now apply day_us_range).
    set (u := day_us _) in *. destruct V0 as (Vy & _). cbn [f_date d_year] in Vy. rewrite jan1 in D0.
    assert (Hk : 1 <= uval n <= 366) by lia. clear Hr.
    destruct (add_td t0 _) as [t1|e1] eqn:E1; cbn [rbind].
    2:{ apply add_td_Err in E1. destruct E1 as [-> E1]. intros H. injection H as <-. right. split; [reflexivity|].
        destruct (Z.eq_dec y 9999) as [|Hne]; [assumption|]. exfalso. apply E1.
        assert (0 <= days_before_year y <= 3651329).
        { assert (HH : days_before_year y <= days_before_year 9998) by (unfold days_before_year; lia). change (days_before_year 9998) with 3651329 in HH.
          split; [unfold days_before_year; lia|exact HH]. }
        clear - D0 Hu H Hk. unfold MAXT, DAY in *. lia. }
    destruct (negb _); [|discriminate]. intros H. injection H as <-. now left.
Qed.

(** the instant of the zone exists *)
Lemma fromDatetime_err l z e : 0 <= l < MAXT -> fromDatetime (Dt l z) = Err e ->
  exists off, z = Some off /\ ((e = ValueError /\ ~ - DAY < off < DAY) \/ (e = OverflowError /\ - DAY < off < DAY /\ ~ 0 <= l - off < MAXT)).
Proof.
  intros Hl H. destruct z as [off|]; [|discriminate]. exists off. split; [reflexivity|].
  unfold fromDatetime in H. cbn [dt_tz dt_local] in H. rewrite fixed00 in H. unfold astimezone in H.
  destruct (utcoffset off) as [o|e1] eqn:E1; cbn [rbind] in H.
  2:{ injection H as <-. left. unfold utcoffset in E1. destruct ((- DAY <? off) && (off <? DAY)) eqn:E; [discriminate|]. injection E1 as <-. split; [reflexivity|]. lia. }
  apply utcoffset_Ok in E1. destruct E1 as [E1 ->]. destruct (add_td l (- off)) as [u|e2] eqn:E2; cbn [rbind] in H.
  2:{ injection H as <-. apply add_td_Err in E2. destruct E2 as [-> E2]. right. repeat split; try apply E1. intros H. apply E2. replace (l + - off) with (l - off) by lia. exact H. }
  apply add_td_Ok in E2. destruct E2 as [-> R]. unfold utcoffset in H. change ((- DAY <? 0) && (0 <? DAY)) with true in H. cbn [rbind] in H.
  rewrite (proj2 (add_td_Ok _ 0 (l + - off))) in H by lia. discriminate.
Qed.

Theorem parse_Err s tz e : fromISO s tz = Err e -> e = ValueError \/
  (e = OverflowError /\ exists i, iso_text i s /\
    (iso_year i = 9999 \/ exists f l off, names i (frac_us (iso_frac i)) f /\ datetime f = Ok l /\ code_zone i tz = Some off /\ ~ 0 <= l - off < MAXT)).
Proof.
  intros H. destruct (iso_match s) as [c|] eqn:Em.
  2:{ unfold fromISO in H. rewrite Em in H. left. congruence. }
  apply match_sound in Em. destruct Em as (i & Hi & _). rewrite (fromISO_eq i s tz Hi) in H. unfold iso_value in H.
  pose proof (year_99 i s Hi) as Hy.
  destruct (in_ranges i) eqn:Er; [|left; congruence]. destruct (iso_local i) as [l|e1] eqn:El; cbn [rbind] in H.
  2:{ injection H as ->. destruct (local_err i e (proj2 Hy) Er El) as [->|[-> E]]; [now left|]. right. split; [reflexivity|]. exists i. auto. }
  apply (local_Ok i l (proj2 Hy) Er) in El. destruct El as (f & Hn & Hf).
  destruct (fromDatetime _) as [u|e1] eqn:Eu; cbn [rbind] in H.
  - apply fromDatetime_zone in Eu. destruct Eu as [Eu _].
    rewrite (res_period i s _ f l tz (t_us u) Hi eq_refl Hn Hf Eu) in H.
    destruct (match i_time i with Some _ => false | None => _ end); cbn [rbind] in H; [left; congruence|discriminate].
  - injection H as ->. apply (fromDatetime_err l _ e) in Eu; [|eapply datetime_range, Hf].
    destruct Eu as (off & Ez & [[-> _]|(-> & _ & Ho)]); [now left|]. right. split; [reflexivity|]. exists i. split; [exact Hi|]. right.
    exists f, l, off. auto.
Qed.

(** ** Output *)

Lemma ascii_dig t : all_digits t = true -> Forall (fun c => dig c = true) t /\ map to_ascii t = t.
Proof.
  unfold all_digits. induction t as [|c t IH]; cbn [forallb map]; [split; [constructor|reflexivity]|]. intros H. apply andb_prop in H as [Hc Ht].
  destruct (IH Ht) as [I1 I2]. split.
  - constructor; [|exact I1]. unfold dig. change (decimal_in decimal_zeros c) with
      (if (48 <=? c)%N && (c <? 48 + 10)%N then Some (c - 48)%N else decimal_in (tl decimal_zeros) c).
    unfold is_digit in Hc. replace ((48 <=? c)%N && (c <? 48 + 10)%N) with true by lia. reflexivity.
  - rewrite I2. f_equal. unfold to_ascii. unfold is_digit in Hc. replace (c <? 127)%N with true by lia. reflexivity.
Qed.

Lemma zpad_digits w z : 0 <= z < 10 ^ Z.of_nat (S w) -> digits (S w) (zpad (S w) z) /\ uval (zpad (S w) z) = z.
Proof.
  intros H. unfold zpad, digits, uval. destruct (ascii_dig _ (pad0_digits (S w) (Z.to_N z))) as [D1 D2]. rewrite D2, dec_val_pad0.
  split; [split; [|exact D1]|lia]. apply pad0_length. rewrite <- (Z2N.id z) in H by lia. apply N2Z.inj_lt. rewrite N2Z.inj_pow, nat_N_Z. lia.
Qed.

Lemma drop0_all s : all_digits s = true -> all_digits (drop0 s) = true.
Proof. induction s as [|c s IH]; intros H; [reflexivity|]. cbn [drop0]. unfold all_digits in *. cbn [forallb] in H. apply andb_prop in H as [H1 H2]. destruct (N.eqb c 48); [auto|]. cbn [forallb]. now rewrite H1, H2. Qed.

Lemma rev_digits s : all_digits (rev s) = all_digits s.
Proof.
  unfold all_digits. induction s as [|c s IH]; [reflexivity|]. cbn [rev forallb]. rewrite forallb_app, IH. cbn [forallb].
  now rewrite andb_true_r, andb_comm.
Qed.

Lemma rstrip_val s : exists k, s = rstrip0 s ++ repeat 48%N k.
Proof.
  unfold rstrip0. assert (H : exists k, rev s = repeat 48%N k ++ drop0 (rev s)).
  { induction (rev s) as [|c t [k IH]]; [exists 0%nat; reflexivity|]. cbn [drop0]. destruct (N.eqb_spec c 48) as [->|]; [|exists 0%nat; reflexivity].
    exists (S k). cbn [repeat app]. now rewrite <- IH. }
  destruct H as [k H]. exists k. apply (f_equal (@rev N)) in H. rewrite rev_involutive, rev_app_distr in H. rewrite H at 1. f_equal.
  clear. induction k as [|k IH]; [reflexivity|]. cbn [repeat rev]. rewrite IH. clear. induction k as [|k IH]; [reflexivity|]. cbn [repeat app]. now rewrite IH.
Qed.

Lemma dec_val_zeros s k : dec_val (s ++ repeat 48%N k) = (dec_val s * 10 ^ N.of_nat k)%N.
Proof.
  induction k as [|k IH]; [cbn [repeat]; rewrite app_nil_r; lia|].
  assert (E : repeat 48%N (S k) = repeat 48%N k ++ [48%N]). { clear. induction k as [|k IH]; [reflexivity|]. cbn [repeat app] in *. now rewrite <- IH. }
  rewrite E, app_assoc, dec_val_snoc, IH. unfold digit_val. rewrite Nat2N.inj_succ, N.pow_succ_r'. lia.
Qed.

Lemma us_text u : 0 <= u < 1000000 -> let f := rstrip0 (zpad 6 u) in
  Forall (fun c => dig c = true) f /\ (length f <= 6)%nat /\ uval f * 10 ^ (6 - Z.of_nat (length f)) = u /\ (f = [] -> u = 0).
Proof.
  intros H f. destruct (zpad_digits 5 u H) as [[L _] V]. pose proof (pad0_digits 6 (Z.to_N u)) as A. fold (zpad 6 u) in A.
  destruct (rstrip_val (zpad 6 u)) as [k E]. fold f in E.
  assert (Af : all_digits f = true). { unfold f, rstrip0. rewrite rev_digits. apply drop0_all. rewrite rev_digits. exact A. }
  destruct (ascii_dig f Af) as [D1 D2]. assert (Lk : (length f + k = 6)%nat) by (rewrite E, app_length, repeat_length in L; exact L).
  split; [exact D1|]. split; [lia|].
  assert (Eu : uval f * 10 ^ (6 - Z.of_nat (length f)) = u).
  { rewrite <- V at 1. rewrite E. unfold uval. destruct (ascii_dig _ A) as [_ A2]. rewrite E in A2. rewrite A2, D2, dec_val_zeros, N2Z.inj_mul, N2Z.inj_pow, nat_N_Z.
    replace (6 - Z.of_nat (length f)) with (Z.of_nat k) by lia. reflexivity. }
  split; [exact Eu|]. intros En. rewrite En in Eu. change (uval []) with 0 in Eu. lia.
Qed.

(** the parts written, for a resolution *)
Definition printed (r : Z) (f : fields) (z : izone) : iso :=
  let h := zpad 2 (f_hour f) in let m := zpad 2 (f_min f) in let s := zpad 2 (f_sec f) in let u := rstrip0 (zpad 6 (f_us f)) in
  Iso (zpad 4 (d_year (f_date f)))
    (if r <=? DAY then IDay (zpad 2 (d_month (f_date f))) (zpad 2 (d_day (f_date f)))
     else if r <=? 31 * DAY then IMonth (zpad 2 (d_month (f_date f))) else IYear)
    (if r <=? HOUR then
       Some (if r <=? MINUTE then
               if r <=? SECOND then
                 if r <=? 1 then match u with [] => CSecond h m s | _ => CFrac h m s u end
                 else CSecond h m s
               else CMinute h m
             else CHour h, z)
     else None).

Definition text_of (r : Z) (f : fields) (dateSep timeSep timezone : str) : str :=
  let us := rstrip0 (zpad 6 (f_us f)) in
  let microsecond := match us with [] => [] | _ => lit "." ++ us end%list in
  flat_map (fun '(part, minResolution) => if r <=? minResolution then part else [])
               [ (zpad 4 (d_year (f_date f)), 366 * DAY);
                 (dateSep ++ zpad 2 (d_month (f_date f)), 31 * DAY);
                 (dateSep ++ zpad 2 (d_day (f_date f)), DAY);
                 (lit "T", HOUR);
                 (zpad 2 (f_hour f), HOUR);
                 (timeSep ++ zpad 2 (f_min f), MINUTE);
                 (timeSep ++ zpad 2 (f_sec f), SECOND);
                 (microsecond, 1);
                 (timezone, HOUR) ]%list.

Lemma text_printed r f a b z tz : valid_fields f -> r <= 366 * DAY -> maybe 45 a -> maybe 58 b -> zone_text z tz ->
  iso_text (printed r f z) (text_of r f a b tz).
Proof.
  intros (Hy & Hv & Hh & Hm & Hs & Hu) Hr Ha Hb Hz. unfold iso_text, printed, text_of.
  destruct f as [[y mo d] h m s u]. unfold valid_date in Hv. cbn [f_date f_hour f_min f_sec f_us d_year d_month d_day i_year i_date i_time] in *.
  pose proof (month_length_31 y mo) as H31.
  destruct (zpad_digits 3 y) as [Dy _]; [change (10 ^ Z.of_nat 4) with 10000; lia|].
  destruct (zpad_digits 1 mo) as [Dmo _]; [change (10 ^ Z.of_nat 2) with 100; lia|].
  destruct (zpad_digits 1 d) as [Dd _]; [change (10 ^ Z.of_nat 2) with 100; lia|].
  destruct (zpad_digits 1 h) as [Dh _]; [change (10 ^ Z.of_nat 2) with 100; lia|].
  destruct (zpad_digits 1 m) as [Dm _]; [change (10 ^ Z.of_nat 2) with 100; lia|].
  destruct (zpad_digits 1 s) as [Ds _]; [change (10 ^ Z.of_nat 2) with 100; lia|].
  pose proof (us_text u Hu) as (Du & _). cbv zeta in Du.
  set (Y := zpad 4 y) in *. set (MO := zpad 2 mo) in *. set (DD := zpad 2 d) in *. set (HH := zpad 2 h) in *. set (MI := zpad 2 m) in *.
  set (S' := zpad 2 s) in *. set (U := rstrip0 (zpad 6 u)) in *. clearbody Y MO DD HH MI S' U. clear Hy Hv Hh Hm Hs Hu H31.
  cbn [flat_map]. replace (r <=? 366 * DAY) with true by lia.
  assert (nl : maybe 10 []) by now left.
  destruct (Z.leb_spec r (31 * DAY)) as [H2|H2].
  2:{ replace (r <=? DAY) with false by (unfold DAY in *; lia). replace (r <=? HOUR) with false by (unfold DAY, HOUR in *; lia).
      replace (r <=? MINUTE) with false by (unfold DAY, MINUTE in *; lia). replace (r <=? SECOND) with false by (unfold DAY, SECOND in *; lia).
      replace (r <=? 1) with false by (unfold DAY in *; lia). cbn [app]. exists [], [], [].
      repeat split; try tauto; try constructor; try apply Dy; auto. }
  destruct (Z.leb_spec r DAY) as [H3|H3].
  2:{ replace (r <=? HOUR) with false by (unfold DAY, HOUR in *; lia).
      replace (r <=? MINUTE) with false by (unfold DAY, MINUTE in *; lia). replace (r <=? SECOND) with false by (unfold DAY, SECOND in *; lia).
      replace (r <=? 1) with false by (unfold DAY in *; lia). cbn [app]. exists (a ++ MO), [], []. rewrite !app_nil_r.
      split; [exact Dy|]. split; [now constructor|]. split; [constructor|]. split; [congruence|]. split; [auto|]. reflexivity. }
  destruct (Z.leb_spec r HOUR) as [H4|H4].
  2:{ replace (r <=? MINUTE) with false by (unfold HOUR, MINUTE in *; lia). replace (r <=? SECOND) with false by (unfold HOUR, SECOND in *; lia).
      replace (r <=? 1) with false by (unfold HOUR in *; lia). cbn [app]. exists (a ++ MO ++ a ++ DD), [], []. rewrite !app_nil_r.
      split; [exact Dy|]. split; [now constructor|]. split; [constructor|]. split; [congruence|]. split; [auto|]. now rewrite <- !app_assoc. }
  destruct (Z.leb_spec r MINUTE) as [H5|H5].
  2:{ replace (r <=? SECOND) with false by (unfold MINUTE, SECOND in *; lia). replace (r <=? 1) with false by (unfold MINUTE in *; lia).
      exists (a ++ MO ++ a ++ DD), (84%N :: HH ++ tz), []. rewrite !app_nil_r.
      split; [exact Dy|]. split; [now constructor|]. split; [apply T_time; [now constructor|exact Hz]|]. split; [constructor|]. split; [auto|]. cbn [app lit]. rewrite <- !app_assoc. reflexivity. }
  destruct (Z.leb_spec r SECOND) as [H6|H6].
  2:{ replace (r <=? 1) with false by (unfold SECOND in *; lia).
      exists (a ++ MO ++ a ++ DD), (84%N :: (HH ++ b ++ MI) ++ tz), []. rewrite !app_nil_r.
      split; [exact Dy|]. split; [now constructor|]. split; [apply T_time; [now constructor|exact Hz]|]. split; [constructor|]. split; [auto|]. cbn [app lit]. rewrite <- !app_assoc. reflexivity. }
  assert (Hsec : forall c t, clock_text c t -> iso_text (Iso Y (IDay MO DD) (Some (c, z))) (Y ++ a ++ MO ++ a ++ DD ++ 84%N :: t ++ tz)).
  { intros c t Hc. exists (a ++ MO ++ a ++ DD), (84%N :: t ++ tz), []. cbn [i_year i_date i_time].
    split; [exact Dy|]. split; [now constructor|]. split; [now constructor|]. split; [constructor|]. split; [auto|]. rewrite !app_nil_r, <- !app_assoc. reflexivity. }
  assert (Eh : lit "T" = [84%N]) by reflexivity. rewrite Eh. assert (Ed : lit "." = [46%N]) by reflexivity. rewrite Ed.
  destruct (Z.leb_spec r 1) as [H7|H7]; [destruct U as [|u0 U]|].
  - replace (Y ++ _) with (Y ++ a ++ MO ++ a ++ DD ++ 84%N :: (HH ++ b ++ MI ++ b ++ S') ++ tz) by (rewrite ?app_nil_r, <- ?app_assoc; cbn [app]; rewrite <- ?app_assoc; reflexivity).
    apply Hsec. now constructor.
  - replace (Y ++ _) with (Y ++ a ++ MO ++ a ++ DD ++ 84%N :: (HH ++ b ++ MI ++ b ++ S' ++ [46%N] ++ u0 :: U) ++ tz) by (rewrite ?app_nil_r, <- ?app_assoc; cbn [app]; rewrite <- ?app_assoc; reflexivity).
    apply Hsec. constructor; auto. discriminate.
  - replace (Y ++ _) with (Y ++ a ++ MO ++ a ++ DD ++ 84%N :: (HH ++ b ++ MI ++ b ++ S') ++ tz) by (rewrite ?app_nil_r, <- ?app_assoc; cbn [app]; rewrite <- ?app_assoc; reflexivity).
    apply Hsec. now constructor.
Qed.

(** ** Specification: the local time is the start of the period written *)
Definition starts (r local : Z) : Prop :=
  let x := f_date (fields_of local) in
  if r <=? 1 then True
  else if r <=? SECOND then local mod SECOND = 0
  else if r <=? MINUTE then local mod MINUTE = 0
  else if r <=? HOUR then local mod HOUR = 0
  else if r <=? DAY then local mod DAY = 0
  else if r <=? 31 * DAY then local mod DAY = 0 /\ d_day x = 1
  else if r <=? 366 * DAY then local mod DAY = 0 /\ d_day x = 1 /\ d_month x = 1
  else False.

Lemma mods L : (L mod DAY = 0 -> L mod HOUR = 0) /\ (L mod HOUR = 0 -> L mod MINUTE = 0) /\ (L mod MINUTE = 0 -> L mod SECOND = 0).
Proof.
  repeat split; intros H; apply Z.mod_divide in H; try discriminate; apply Z.mod_divide; try discriminate;
    (eapply Z.divide_trans; [|exact H]).
  - exists 24. reflexivity.
  - exists 60. reflexivity.
  - exists 60. reflexivity.
Qed.

Lemma printed_names r L z : 0 <= L < MAXT -> starts r L ->
  let i := printed r (fields_of L) z in names i (frac_us (iso_frac i)) (fields_of L) /\ iso_year i = d_year (f_date (fields_of L)).
Proof.
  intros HL Hs i. destruct (datetime_fields L HL) as [Hv _]. pose proof (mods L) as (Md & Mh & Mm).
  assert (Ef : f_hour (fields_of L) = L mod DAY / HOUR /\ f_min (fields_of L) = L mod HOUR / MINUTE /\ f_sec (fields_of L) = L mod MINUTE / SECOND /\ f_us (fields_of L) = L mod SECOND) by (repeat split).
  unfold starts in Hs. destruct (fields_of L) as [[y mo d] h m s u]. destruct Ef as (Eh & Em & Es & Eu).
  destruct Hv as (Hy & Hv & Hh & Hm & Hsc & Hu). unfold valid_date in Hv.
  cbn [f_date f_hour f_min f_sec f_us d_year d_month d_day] in *. cbv zeta in Hs. subst i. unfold names, printed, iso_year, iso_hour, iso_minute, iso_second, iso_frac.
  cbn [f_date f_hour f_min f_sec f_us d_year d_month d_day i_year i_date i_time].
  pose proof (month_length_31 y mo) as H31.
  destruct (zpad_digits 3 y) as [_ Dy]; [change (10 ^ Z.of_nat 4) with 10000; clear - Hy; lia|].
  destruct (zpad_digits 1 mo) as [_ Dmo]; [change (10 ^ Z.of_nat 2) with 100; clear - Hv; lia|].
  destruct (zpad_digits 1 d) as [_ Dd]; [change (10 ^ Z.of_nat 2) with 100; clear - Hv H31; lia|].
  destruct (zpad_digits 1 h) as [_ Dh]; [change (10 ^ Z.of_nat 2) with 100; clear - Hh; lia|].
  destruct (zpad_digits 1 m) as [_ Dm]; [change (10 ^ Z.of_nat 2) with 100; clear - Hm; lia|].
  destruct (zpad_digits 1 s) as [_ Ds]; [change (10 ^ Z.of_nat 2) with 100; clear - Hsc; lia|].
  pose proof (us_text u Hu) as (Du & Lu & Vu & Nu). cbv zeta in Du, Lu, Vu, Nu.
  set (Y := zpad 4 y) in *. set (MO := zpad 2 mo) in *. set (DD := zpad 2 d) in *. set (HH := zpad 2 h) in *. set (MI := zpad 2 m) in *.
  set (S' := zpad 2 s) in *. set (U := rstrip0 (zpad 6 u)) in *. clearbody Y MO DD HH MI S' U.
  split; [|exact Dy]. rewrite Dy. clear Dy Hy Hv H31 Hu Hh Hm Hsc.
  assert (B : DAY = 24 * HOUR /\ HOUR = 60 * MINUTE /\ MINUTE = 60 * SECOND /\ SECOND = 1000000) by (repeat split). destruct B as (B1 & B2 & B3 & B4).
  assert (Fu : frac_us None = 0) by reflexivity.
  destruct (Z.leb_spec r 1) as [H1|H1].
  { replace (r <=? DAY) with true by (symmetry; apply Z.leb_le; clear Hs Md Mh Mm Eh Em Es Eu; lia). replace (r <=? HOUR) with true by (symmetry; apply Z.leb_le; clear Hs Md Mh Mm Eh Em Es Eu; lia). replace (r <=? MINUTE) with true by (symmetry; apply Z.leb_le; clear Hs Md Mh Mm Eh Em Es Eu; lia).
    replace (r <=? SECOND) with true by (symmetry; apply Z.leb_le; clear Hs Md Mh Mm Eh Em Es Eu; lia). destruct U as [|u0 U]; cbn [day_named clk_hour clk_minute clk_second clk_frac].
    - rewrite Dmo, Dd, Dh, Dm, Ds, Fu. repeat split. now apply Nu.
    - rewrite Dmo, Dd, Dh, Dm, Ds, frac_exact by assumption. repeat split. symmetry. exact Vu. }
  clear Du Lu Vu Nu.
  destruct (Z.leb_spec r SECOND) as [H2|H2].
  { replace (r <=? DAY) with true by (symmetry; apply Z.leb_le; clear Hs Md Mh Mm Eh Em Es Eu; lia). replace (r <=? HOUR) with true by (symmetry; apply Z.leb_le; clear Hs Md Mh Mm Eh Em Es Eu; lia). replace (r <=? MINUTE) with true by (symmetry; apply Z.leb_le; clear Hs Md Mh Mm Eh Em Es Eu; lia).
    cbn [day_named clk_hour clk_minute clk_second clk_frac]. rewrite Dmo, Dd, Dh, Dm, Ds, Fu. repeat split. congruence. }
  destruct (Z.leb_spec r MINUTE) as [H3|H3].
  { replace (r <=? DAY) with true by (symmetry; apply Z.leb_le; clear Hs Md Mh Mm Eh Em Es Eu; lia). replace (r <=? HOUR) with true by (symmetry; apply Z.leb_le; clear Hs Md Mh Mm Eh Em Es Eu; lia).
    cbn [day_named clk_hour clk_minute clk_second clk_frac]. rewrite Dmo, Dd, Dh, Dm, Fu. rewrite (Mm Hs) in Eu. rewrite Hs in Es. change (0 / SECOND) with 0 in Es. repeat split; congruence. }
  destruct (Z.leb_spec r HOUR) as [H4|H4].
  { replace (r <=? DAY) with true by (symmetry; apply Z.leb_le; clear Hs Md Mh Mm Eh Em Es Eu; lia).
    cbn [day_named clk_hour clk_minute clk_second clk_frac]. rewrite Dmo, Dd, Dh, Fu. rewrite (Mm (Mh Hs)) in Eu. rewrite (Mh Hs) in Es. change (0 / SECOND) with 0 in Es. rewrite Hs in Em. change (0 / MINUTE) with 0 in Em. repeat split; congruence. }
  destruct (Z.leb_spec r DAY) as [H5|H5].
  { cbn [day_named]. rewrite Dmo, Dd, Fu. rewrite (Mm (Mh (Md Hs))) in Eu. rewrite (Mh (Md Hs)) in Es. change (0 / SECOND) with 0 in Es. rewrite (Md Hs) in Em. change (0 / MINUTE) with 0 in Em. rewrite Hs in Eh. change (0 / HOUR) with 0 in Eh. repeat split; congruence. }
  destruct (Z.leb_spec r (31 * DAY)) as [H6|H6].
  { destruct Hs as [Hs ->]. cbn [day_named]. rewrite Dmo, Fu. rewrite (Mm (Mh (Md Hs))) in Eu. rewrite (Mh (Md Hs)) in Es. change (0 / SECOND) with 0 in Es. rewrite (Md Hs) in Em. change (0 / MINUTE) with 0 in Em. rewrite Hs in Eh. change (0 / HOUR) with 0 in Eh. repeat split; congruence. }
  destruct (Z.leb_spec r (366 * DAY)) as [H7|H7]; [|contradiction].
  { destruct Hs as [Hs [-> ->]]. cbn [day_named]. rewrite Fu. rewrite (Mm (Mh (Md Hs))) in Eu. rewrite (Mh (Md Hs)) in Es. change (0 / SECOND) with 0 in Es. rewrite (Md Hs) in Em. change (0 / MINUTE) with 0 in Em. rewrite Hs in Eh. change (0 / HOUR) with 0 in Eh. repeat split; congruence. }
Qed.

(** the zone written *)
Lemma sign_text off b : maybe 58 b -> - DAY < off < DAY -> off mod MINUTE = 0 -> 0 <= off \/ off mod HOUR = 0 ->
  exists z, zone_text z (let '(sign, hour, min) := signHrMin off in sign ++ zpad 2 hour ++ b ++ zpad 2 min) /\ (forall tz, code_offset z tz = off).
Proof.
  intros Hb Ho Hm Hh. apply Z.mod_divide in Hm; [|discriminate]. destruct Hm as [k Hk]. unfold signHrMin.
  assert (E : rne (off # 60000000) = k).
  { rewrite (rne_compat (off # 60000000) (inject_Z k)); [apply rne_Z|]. unfold Qeq. cbn [Qnum Qden inject_Z]. rewrite Hk. unfold MINUTE. lia. }
  rewrite E. assert (Hk' : - 1440 < k < 1440) by (unfold DAY, MINUTE in *; lia). destruct (Z.ltb_spec k 0) as [Hn|Hp].
  - assert (Eh : k mod 60 = 0).
    { destruct Hh as [Hh|Hh]; [unfold MINUTE in *; lia|]. rewrite Hk in Hh. change HOUR with (60 * MINUTE) in Hh. rewrite Z.mul_mod_distr_r in Hh by discriminate.
      unfold MINUTE in Hh. lia. }
    destruct (zpad_digits 1 ((- k) / 60)) as [D1 V1]; [change (10 ^ Z.of_nat 2) with 100; lia|].
    destruct (zpad_digits 1 ((- k) mod 60)) as [D2 V2]; [change (10 ^ Z.of_nat 2) with 100; lia|].
    exists (ZOff 45 (zpad 2 ((- k) / 60)) (Some (zpad 2 ((- k) mod 60)))). split.
    + exact (T_offm 45%N _ b _ (or_intror eq_refl) D1 Hb D2).
    + intros tz. cbn [code_offset N.eqb Pos.eqb]. rewrite V1, V2. unfold fixed_offset, MINUTE in *. lia.
  - destruct (zpad_digits 1 (k / 60)) as [D1 V1]; [change (10 ^ Z.of_nat 2) with 100; lia|].
    destruct (zpad_digits 1 (k mod 60)) as [D2 V2]; [change (10 ^ Z.of_nat 2) with 100; lia|].
    exists (ZOff 43 (zpad 2 (k / 60)) (Some (zpad 2 (k mod 60)))). split.
    + exact (T_offm 43%N _ b _ (or_introl eq_refl) D1 Hb D2).
    + intros tz. cbn [code_offset N.eqb Pos.eqb]. rewrite V1, V2. unfold fixed_offset, MINUTE in *. lia.
Qed.

Definition offset_of (tz : option Z) : Z := match tz with Some o => o | None => 0 end.

(** the local time written: the zone plays no part in a period of a day or more *)
Definition written (t : time) (tz : option Z) : Z := if t_res t <? DAY then t_us t + offset_of tz else t_us t.

Lemma asISO_eq t d tz incl : ok_time t -> - DAY < offset_of tz < DAY -> 0 <= written t tz < MAXT ->
  asISO t d tz incl =
    let '(a, b) := if d then (lit "-", lit ":") else ([], []) in
    Ok (text_of (t_res t) (fields_of (written t tz)) a b
         (if incl then let '(sign, hour, min) := signHrMin (if t_res t <? DAY then offset_of tz else 0) in sign ++ zpad 2 hour ++ b ++ zpad 2 min else [])).
Proof.
  intros Ht Ho Hw. unfold asISO, written in *. unfold isTimezoneDependent. destruct (t_res t <? DAY) eqn:Ed.
  - destruct tz as [off|]; cbn [offset_of] in *.
    + rewrite (proj2 (asDatetime_Ok t off (Dt (t_us t + off) (Some off)) Ed)) by auto. cbn [rbind dt_local].
      rewrite (proj2 (utcoffset_Ok off off)) by auto. cbn [rbind]. destruct (signHrMin off) as [[sg hr] mn]. destruct d, incl; reflexivity.
    + rewrite (asDatetime_utc t Ht). cbn [rbind dt_local]. rewrite Z.add_0_r. destruct d, incl; reflexivity.
  - rewrite (asDatetime_utc t Ht). cbn [rbind dt_local]. destruct d, incl; reflexivity.
Qed.

Theorem iso_round (t : time) (d : bool) (tz : option Z) (incl : bool) (tz' : option Z) :
  ok_time t -> - DAY < offset_of tz < DAY -> 0 <= written t tz < MAXT -> starts (t_res t) (written t tz) ->
  t_res t <= HOUR \/ DAY <= t_res t \/ offset_of tz = 0 ->
  (31 * DAY < t_res t -> d_year (f_date (fields_of (written t tz))) < 9999) ->
  (if incl then offset_of tz mod MINUTE = 0 /\ (0 <= offset_of tz \/ offset_of tz mod HOUR = 0) else tz' = tz) ->
  exists s u, asISO t d tz incl = Ok s /\ fromISO s tz' = Ok u /\ time_eq u t = true.
Proof.
  intros Ht Ho Hw Hs Hr Hy Hi. rewrite (asISO_eq t d tz incl Ht Ho Hw).
  destruct (datetime_fields _ Hw) as [Hv Hd].
  assert (Hsep : exists a b, maybe 45 a /\ maybe 58 b /\ (if d then (lit "-", lit ":") else ([], [])) = (a, b)).
  { destruct d; eexists _, _; (split; [|split; [|reflexivity]]); [right|right|left|left]; reflexivity. }
  destruct Hsep as (a & b & Ha & Hb & ->).
  assert (H366 : t_res t <= 366 * DAY).
  { unfold starts in Hs. destruct (Z.leb_spec (t_res t) (366 * DAY)); [assumption|]. exfalso.
    cbv zeta in Hs. replace (t_res t <=? 1) with false in Hs by (unfold DAY in *; lia). replace (t_res t <=? SECOND) with false in Hs by (unfold DAY, SECOND in *; lia).
    replace (t_res t <=? MINUTE) with false in Hs by (unfold DAY, MINUTE in *; lia). replace (t_res t <=? HOUR) with false in Hs by (unfold DAY, HOUR in *; lia).
    replace (t_res t <=? DAY) with false in Hs by (unfold DAY in *; lia). replace (t_res t <=? 31 * DAY) with false in Hs by (unfold DAY in *; lia).
    exact Hs. }
  set (o := if t_res t <? DAY then offset_of tz else 0).
  assert (Hz : exists z, zone_text z (if incl then let '(sign, hour, min) := signHrMin o in sign ++ zpad 2 hour ++ b ++ zpad 2 min else []) /\
                         (t_res t <= HOUR -> code_offset z tz' = offset_of tz)).
  { destruct incl.
    - destruct (sign_text o b Hb) as (z & Hz & Ez).
      + unfold o. destruct (t_res t <? DAY); [exact Ho|unfold DAY; lia].
      + unfold o. destruct (t_res t <? DAY); [tauto|reflexivity].
      + unfold o. destruct (t_res t <? DAY); [tauto|lia].
      + exists z. split; [exact Hz|]. intros Hh. rewrite Ez. unfold o. destruct (Z.ltb_spec (t_res t) DAY); [reflexivity|unfold DAY, HOUR in *; lia].
    - exists ZNone. split; [constructor|]. intros _. subst tz'. reflexivity. }
  destruct Hz as (z & Hz & Ez). set (L := written t tz) in *.
  pose proof (text_printed (t_res t) (fields_of L) a b z _ Hv H366 Ha Hb Hz) as Htext.
  destruct (printed_names (t_res t) L z Hw Hs) as [Hn Eyr]. set (i := printed (t_res t) (fields_of L) z) in *.
  assert (Hzi : zone_instant L (code_zone i tz') (t_us t)).
  { unfold code_zone, i, printed. cbn [i_time]. unfold L, written.
    destruct (Z.leb_spec (t_res t) HOUR) as [Hh|Hh].
    - rewrite (Ez Hh). cbn [zone_instant]. replace (t_res t <? DAY) with true by (unfold DAY, HOUR in *; lia). split; [exact Ho|]. split; [unfold ok_time in Ht; lia|lia].
    - cbn [zone_instant]. destruct (Z.ltb_spec (t_res t) DAY); [|reflexivity]. unfold DAY in *; lia. }
  pose proof (res_period i _ _ _ _ _ _ Htext eq_refl Hn Hd Hzi) as Hres.
  assert (Hok : iso_res i (t_us t) = Ok (period i)).
  { rewrite Hres. replace (match i_time i with Some _ => false | None => _ end) with false; [reflexivity|]. symmetry.
    rewrite Eyr. unfold i, printed. cbn [i_time i_date]. destruct (t_res t <=? HOUR); [reflexivity|].
    destruct (t_res t <=? DAY); [reflexivity|]. destruct (Z.leb_spec (t_res t) (31 * DAY)); [reflexivity|]. specialize (Hy H). lia. }
  exists (text_of (t_res t) (fields_of L) a b (if incl then let '(sign, hour, min) := signHrMin o in sign ++ zpad 2 hour ++ b ++ zpad 2 min else [])), (T (t_us t) (period i)).
  split; [reflexivity|]. split; [|apply Z.eqb_refl].
  apply (parse_Ok i _ tz' _ Htext). exists (fields_of L), L. cbn [t_us t_res]. auto.
Qed.

(** ** Specification: zones *)

(** the offset a zone denotes *)
Definition zone_means (z : izone) (tzinfo : option Z) : Z :=
  match z with
  | ZNone => offset_of tzinfo
  | Zulu => 0
  | ZOff g h m => (if (g =? 45)%N then -1 else 1) * (uval h * 60 + match m with Some m => uval m | None => 0 end) * MINUTE
  end.

Definition zone_of (i : iso) (tzinfo : option Z) : option Z :=
  match i_time i with Some (_, z) => Some (zone_means z tzinfo) | None => None end.

(** not a negative offset with minutes *)
Definition plain_zone (i : iso) : Prop :=
  match i_time i with Some (_, ZOff g _ (Some m)) => g = 43%N \/ uval m = 0 | _ => True end.

Definition minutes_ok (i : iso) : Prop :=
  match i_time i with Some (_, ZOff _ _ (Some m)) => 0 <= uval m <= 59 | _ => True end.

Lemma plain_code i tz : plain_zone i -> code_zone i tz = zone_of i tz.
Proof.
  unfold plain_zone, code_zone, zone_of. destruct (i_time i) as [[k z]|]; [|reflexivity]. intros H. f_equal.
  destruct z as [| |g h [m|]]; cbn [code_offset zone_means]; try reflexivity; unfold fixed_offset.
  - destruct H as [-> | ->]; [cbn [N.eqb Pos.eqb]; lia|]. destruct (g =? 45)%N; lia.
  - destruct (g =? 45)%N; lia.
Qed.

(** *** a text has one meaning *)
Definition uncaps (c : caps) : iso :=
  let g n := match group n c with Some t => t | None => [] end in
  Iso (g g_year)
    (if matched c g_day then IDay (g g_month2) (g g_day) else if matched c g_weekday then IWeekDay (g g_week2) (g g_weekday)
     else if matched c g_dayofyear then IOrdinal (g g_dayofyear) else if matched c g_month1 then IMonth (g g_month1)
     else if matched c g_week1 then IWeek (g g_week1) else IYear)
    (if matched c g_hour then
       Some (if matched c g_frac then CFrac (g g_hour) (g g_minute) (g g_second) (g g_frac)
             else if matched c g_second then CSecond (g g_hour) (g g_minute) (g g_second)
             else if matched c g_minute then CMinute (g g_hour) (g g_minute) else CHour (g g_hour),
             if matched c g_zulu then Zulu else
             if matched c g_tzhour then ZOff (hd 0%N (g g_tzhour)) (tl (g g_tzhour)) (group g_tzmin c) else ZNone)
     else None).

Lemma uncaps_of i : uncaps (caps_of i) = i.
Proof. destruct i as [y d o]. destruct d, o as [[k z]|]; try destruct k; try destruct z as [| |zg zh [zm|]]; reflexivity. Qed.

Theorem iso_one i j s : iso_text i s -> iso_text j s -> i = j.
Proof. intros Hi Hj. rewrite <- (uncaps_of i), <- (uncaps_of j). now rewrite (iso_text_inj i j s Hi Hj). Qed.

(** *** one local time *)
Lemma names_local i s f l g k : iso_text i s -> names i (frac_us (iso_frac i)) f -> datetime f = Ok l ->
  names i (frac_us (iso_frac i)) g -> datetime g = Ok k -> f = g /\ l = k.
Proof.
  intros Hi Hf Dl Hg Dk. pose proof (year_99 i s Hi) as Hy. assert (Er : in_ranges i = true) by (apply (ranges_ok i _ f Hf); apply datetime_eq in Dl; tauto).
  assert (A : iso_local i = Ok l) by (apply local_Ok; [lia|exact Er|eauto]).
  assert (B : iso_local i = Ok k) by (apply local_Ok; [lia|exact Er|eauto]).
  assert (E : l = k) by congruence. split; [|exact E]. apply datetime_Ok in Dl, Dk. destruct Dl as (_ & _ & <-), Dk as (_ & _ & <-). now rewrite E.
Qed.

Lemma hour_res i : i_time i <> None -> period i < DAY.
Proof.
  intros H. unfold period. destruct (i_time i) as [[[| | |h m s f] z]|]; [reflexivity|reflexivity|reflexivity| |congruence].
  assert (SECOND / 10 ^ Z.of_nat (length f) <= SECOND) by (apply Z.div_le_upper_bound; [lia|]; unfold SECOND; nia). unfold DAY, SECOND in *. lia.
Qed.

Lemma day_res i : i_time i = None -> period i >= DAY.
Proof.
  intros H. unfold period. rewrite H. destruct (i_date i) as [|m| | | |]; try (unfold DAY, WEEK; lia).
  - destruct (leap _); unfold DAY; lia.
  - pose proof (month_length_pos (iso_year i) (uval m)). unfold DAY. lia.
Qed.

Theorem parse_fields i s tz t : iso_text i s -> plain_zone i -> fromISO s tz = Ok t ->
  exists f x, valid_fields f /\ names i (f_us f) f /\ near_us (iso_frac i) (f_us f) /\
    asDatetime t (zone_of i tz) = Ok x /\ fields_of (dt_local x) = f.
Proof.
  intros Hi Hp H. apply (parse_Ok i s tz t Hi) in H. destruct H as (f & l & Hn & Hf & Hz & Hr).
  pose proof (res_period i s _ f l tz _ Hi eq_refl Hn Hf Hz) as Er. rewrite Hr in Er.
  destruct (match i_time i with Some _ => false | None => _ end); [discriminate|]. injection Er as Er.
  exists f. assert (Eu : f_us f = frac_us (iso_frac i)) by apply Hn. apply datetime_Ok in Hf as Hf'. destruct Hf' as (Hv & Hl & Hfl).
  rewrite (plain_code i tz Hp) in Hz. unfold zone_of in *.
  destruct (i_time i) as [[k z]|] eqn:Et; cbn [zone_instant] in Hz.
  - destruct Hz as (Z1 & Z2 & Z3). exists (Dt l (Some (zone_means z tz))). split; [exact Hv|]. rewrite Eu. split; [exact Hn|].
    split; [apply (frac_us_near i s Hi)|]. cbn [dt_local]. split; [|exact Hfl].
    apply asDatetime_Ok.
    + unfold isTimezoneDependent. rewrite Er. apply Z.ltb_lt, hour_res. congruence.
    + unfold ok_time. rewrite Z3. replace (l - zone_means z tz + zone_means z tz) with l by lia. auto.
  - exists (Dt l (Some 0)). split; [exact Hv|]. rewrite Eu. split; [exact Hn|].
    split; [apply (frac_us_near i s Hi)|]. cbn [dt_local]. split; [|exact Hfl]. subst l. apply asDatetime_utc. exact Hl.
Qed.

Theorem parse_accepts i s tz f l : iso_text i s -> (length (match iso_frac i with Some x => x | None => [] end) <= 6)%nat ->
  near_us (iso_frac i) (f_us f) -> names i (f_us f) f -> datetime f = Ok l -> plain_zone i ->
  - DAY < offset_of (zone_of i tz) < DAY -> 0 <= l - offset_of (zone_of i tz) < MAXT ->
  (i_time i = None -> i_date i = IYear -> iso_year i < 9999) ->
  fromISO s tz = Ok (T (l - offset_of (zone_of i tz)) (period i)).
Proof.
  intros Hi Hlen Hus Hn Hf Hp Ho Hl Hy. apply (parse_Ok i s tz _ Hi). exists f, l. cbn [t_us t_res].
  assert (Eu : f_us f = frac_us (iso_frac i)).
  { pose proof (frac_us_near i s Hi) as N. unfold near_us in *. destruct (iso_frac i) as [x|]; [|rewrite Hus; reflexivity].
    rewrite (proj1 Hus Hlen), (proj1 N Hlen). reflexivity. }
  rewrite Eu in Hn. split; [exact Hn|]. split; [exact Hf|].
  assert (Hz : zone_instant l (code_zone i tz) (l - offset_of (zone_of i tz))).
  { rewrite (plain_code i tz Hp). unfold zone_of in *. destruct (i_time i) as [[k z]|]; cbn [zone_instant offset_of] in *; [auto|lia]. }
  split; [exact Hz|]. rewrite (res_period i s _ f l tz _ Hi eq_refl Hn Hf Hz).
  replace (match i_time i with Some _ => false | None => _ end) with false; [reflexivity|]. symmetry.
  destruct (i_time i); [reflexivity|]. destruct (i_date i); try reflexivity. specialize (Hy eq_refl eq_refl). lia.
Qed.

Theorem parse_rejects i s tz : iso_text i s ->
  (forall f, near_us (iso_frac i) (f_us f) -> names i (f_us f) f -> ~ valid_fields f) ->
  fromISO s tz = Err ValueError \/ (fromISO s tz = Err OverflowError /\ iso_year i = 9999).
Proof.
  intros Hi Hno. assert (Hno' : forall f, names i (frac_us (iso_frac i)) f -> ~ valid_fields f).
  { intros f Hn. assert (Eu : f_us f = frac_us (iso_frac i)) by apply Hn. apply Hno; rewrite Eu; [apply (frac_us_near i s Hi)|exact Hn]. }
  destruct (fromISO s tz) as [t|e] eqn:E.
  - exfalso. apply (parse_Ok i s tz t Hi) in E. destruct E as (f & l & Hn & Hf & _). apply (Hno' f Hn). apply datetime_eq in Hf. tauto.
  - apply parse_Err in E. destruct E as [->|(-> & j & Hj & E)]; [now left|]. right. split; [reflexivity|].
    rewrite (iso_one i j s Hi Hj). destruct E as [E|(f & l & off & Hn & Hf & _)]; [exact E|]. exfalso.
    rewrite <- (iso_one i j s Hi Hj) in Hn. apply (Hno' f Hn). apply datetime_eq in Hf. tauto.
Qed.

Theorem parse_period i s tz t : iso_text i s -> fromISO s tz = Ok t -> t_res t = period i.
Proof.
  intros Hi H. apply (parse_Ok i s tz t Hi) in H. destruct H as (f & l & Hn & Hf & Hz & Hr).
  rewrite (res_period i s _ f l tz _ Hi eq_refl Hn Hf Hz) in Hr.
  destruct (match i_time i with Some _ => false | None => _ end); [discriminate|]. congruence.
Qed.

Theorem parse_offset i s tz t f l : iso_text i s -> plain_zone i -> fromISO s tz = Ok t ->
  names i (f_us f) f -> f_us f = frac_us (iso_frac i) -> datetime f = Ok l -> t_us t = l - offset_of (zone_of i tz).
Proof.
  intros Hi Hp H Hn Eu Hf. apply (parse_Ok i s tz t Hi) in H. destruct H as (g & k & Hn' & Hg & Hz & _). rewrite Eu in Hn.
  destruct (names_local i s f l g k Hi Hn Hf Hn' Hg) as [-> ->]. rewrite (plain_code i tz Hp) in Hz.
  unfold zone_of in *. destruct (i_time i) as [[c z]|]; cbn [zone_instant offset_of] in *; lia.
Qed.

(** what becomes of the minutes west of Greenwich *)
Theorem parse_west i s tz t f l c h m : iso_text i s -> i_time i = Some (c, ZOff 45 h (Some m)) -> fromISO s tz = Ok t ->
  names i (f_us f) f -> f_us f = frac_us (iso_frac i) -> datetime f = Ok l -> t_us t = l + uval h * HOUR - uval m * MINUTE.
Proof.
  intros Hi Hz0 H Hn Eu Hf. apply (parse_Ok i s tz t Hi) in H. destruct H as (g & k & Hn' & Hg & Hz & _). rewrite Eu in Hn.
  destruct (names_local i s f l g k Hi Hn Hf Hn' Hg) as [-> ->]. unfold code_zone in Hz. rewrite Hz0 in Hz.
  cbn [code_offset zone_instant] in Hz. destruct Hz as (_ & _ & ->). unfold fixed_offset, HOUR, MINUTE. cbn [N.eqb Pos.eqb]. lia.
Qed.

(** an explicit zone makes tzinfo irrelevant *)
Theorem parse_override i s tz tz' : iso_text i s -> match i_time i with Some (_, ZNone) => False | _ => True end -> fromISO s tz = fromISO s tz'.
Proof.
  intros Hi H. rewrite (fromISO_eq i s tz Hi), (fromISO_eq i s tz' Hi). unfold iso_value, code_zone.
  destruct (i_time i) as [[c [| |g h m]]|]; try contradiction; reflexivity.
Qed.

(** *** weeks *)

Lemma week53 y : (exists n d, iso_spec n = (y, 53, d)) <->
  (ymd2ord (D y 1 1) - 1) mod 7 = 3 \/ (leap y = true /\ (ymd2ord (D y 1 1) - 1) mod 7 = 2).
Proof.
  rewrite jan1. split.
  - intros (n & d & H). unfold iso_spec in H. set (th := n - (n + 6) mod 7 + 3) in *. pose proof (year_bounds th) as B. rewrite before_year_next in B.
    set (y' := d_year (ord2ymd th)) in *. cbv zeta in H. injection H as -> Hw Hd. rewrite jan1 in Hw. unfold th in *. destruct (leap y); cbn [b2z] in B; lia.
  - intros H. set (b := days_before_year y) in *. pose proof (before_year_next y) as L. fold b in L.
    set (th := b + 1 + (if (b mod 7 =? 3) then 364 else 365)).
    assert (Et : d_year (ord2ymd th) = y) by (apply year_of; fold b; unfold th; destruct (leap y); cbn [b2z] in L; destruct (Z.eqb_spec (b mod 7) 3); lia).
    exists th, 4. unfold iso_spec.
    assert (E : th - (th + 6) mod 7 + 3 = th) by (unfold th; destruct (Z.eqb_spec (b mod 7) 3); lia).
    rewrite E, Et, jan1. fold b. cbv zeta. f_equal; [f_equal|]; unfold th; destruct (Z.eqb_spec (b mod 7) 3); lia.
Qed.
