(** * RFC 2822 and RFC 1123 output; the errors of reading *)

From Coq Require Import ZArith NArith QArith String List Bool Lia ZifyBool ZifyN.
From Verif Require Import Py PyStr PySplit PyNum PyInt PyFloat Cal PyTime Extime ExtimeIso ExtimeIsoVal ExtimeIsoFmt ExtimePosix ExtimeRfc ExtimeRfcVal.
Import ListNotations.
Open Scope Z_scope.
Open Scope py_scope.
Open Scope list_scope.

(** ** Numbers and words *)

Lemma num_zdec z : 0 <= z -> num (zdec z) z.
Proof.
  intros H. assert (E : zdec z = dec (Z.to_N z)) by (destruct z; [reflexivity|reflexivity|lia]). rewrite E.
  split; [apply dec_nonempty|]. split; [apply dec_digits|]. rewrite dec_val_dec. lia.
Qed.

Lemma num_zpad w z : 0 <= z -> num (zpad w z) z.
Proof.
  intros H. unfold zpad. split; [|split; [apply pad0_digits|rewrite dec_val_pad0; lia]].
  unfold pad0. intros E. apply app_eq_nil in E as [_ E]. now apply dec_nonempty in E.
Qed.

Lemma zpad_len z : 0 <= z < 100 -> length (zpad 2 z) = 2%nat.
Proof. intros H. destruct (zpad_digits 1 z) as [[L _] _]; [change (10 ^ Z.of_nat 2) with 100; lia|exact L]. Qed.

Lemma digit_nospace c : is_digit c = true -> is_space c = false.
Proof. unfold is_digit, is_space. lia. Qed.

Lemma num_word t z : num t z -> word t.
Proof.
  intros (Hn & Hd & _). split; [exact Hn|]. apply Forall_forall. intros c Hc. apply digit_nospace. exact (all_digits_In t c Hd Hc).
Qed.

Lemma word_app v w : word v -> word w -> word (v ++ w).
Proof. intros [H1 H2] [H3 H4]. split; [destruct v; [congruence|discriminate]|apply Forall_app; now split]. Qed.

Lemma word_lit s : forallb (fun c => negb (is_space c)) (lit s) = true -> lit s <> [] -> word (lit s).
Proof. intros H1 H2. split; [exact H2|]. apply Forall_forall. intros c Hc. rewrite forallb_forall in H1. specialize (H1 c Hc). now destruct (is_space c). Qed.

Lemma months_word m : 1 <= m <= 12 -> let w := at_index rfc2822Months (m - 1) in word w /\ month_word w m.
Proof.
  intros H. assert (C : m = 1 \/ m = 2 \/ m = 3 \/ m = 4 \/ m = 5 \/ m = 6 \/ m = 7 \/ m = 8 \/ m = 9 \/ m = 10 \/ m = 11 \/ m = 12) by lia.
  cbv zeta. split.
  - clear H. repeat (destruct C as [->|C]; [apply word_lit; [reflexivity|discriminate]|]). subst m. apply word_lit; [reflexivity|discriminate].
  - split; [exact H|]. right. clear H. repeat (destruct C as [->|C]; [reflexivity|]). now subst m.
Qed.

Lemma weekday_word n : 0 <= n < 7 -> word (at_index rfc2822Weekdays n ++ lit ",").
Proof.
  intros H. assert (C : n = 0 \/ n = 1 \/ n = 2 \/ n = 3 \/ n = 4 \/ n = 5 \/ n = 6) by lia. clear H.
  repeat (destruct C as [->|C]; [split; [discriminate|repeat constructor]|]). subst n. split; [discriminate|repeat constructor].
Qed.

Lemma sp1 : white (lit " "). Proof. repeat constructor. Qed.

Lemma spaced_indent ws s : spaced ws s -> spaced ws (lit " " ++ s).
Proof.
  intros H. inversion H as [b Hb|b w ws' rest Hb Hw Hr Hrest]; subst.
  - constructor. apply Forall_app. split; [apply sp1|exact Hb].
  - rewrite app_assoc. constructor; try assumption. apply Forall_app. split; [apply sp1|exact Hb].
Qed.

(** words with one space between them, more before the third *)
Lemma spaced_date a b k c d e : word a -> word b -> word c -> word d -> word e ->
  spaced [a; b; c; d; e] (a ++ lit " " ++ b ++ lit " " ++ (repeat 32%N k ++ c) ++ lit " " ++ d ++ lit " " ++ e).
Proof.
  intros Ha Hb Hc Hd He.
  assert (W : forall n, white (32%N :: repeat 32%N n)).
  { intros n. change (32%N :: repeat 32%N n) with (repeat 32%N (S n)). apply Forall_forall. intros x Hx. apply repeat_spec in Hx. now subst. }
  apply (SP_word [] a); [constructor|exact Ha| |reflexivity].
  apply (SP_word (lit " ") b); [apply sp1|exact Hb| |reflexivity].
  rewrite <- !app_assoc. change (lit " " ++ repeat 32%N k ++ c ++ lit " " ++ d ++ lit " " ++ e) with ((32%N :: repeat 32%N k) ++ c ++ lit " " ++ d ++ lit " " ++ e).
  apply SP_word; [apply W|exact Hc| |reflexivity].
  apply (SP_word (lit " ") d); [apply sp1|exact Hd| |reflexivity].
  rewrite <- (app_nil_r e) at 2. apply (SP_word (lit " ") e); [apply sp1|exact He| |exact I]. constructor. constructor.
Qed.

(** ** The text written *)

Definition text_2822 (dow : bool) (l : Z) (f : fields) (zone : str) : str :=
  (if dow then at_index rfc2822Weekdays (weekday l) ++ lit ", " else []) ++
  zdec (d_day (f_date f)) ++ lit " " ++ at_index rfc2822Months (d_month (f_date f) - 1) ++ lit " " ++
  spad 4 (d_year (f_date f)) ++ lit " " ++
  zpad 2 (f_hour f) ++ lit ":" ++ zpad 2 (f_min f) ++ lit ":" ++ zpad 2 (f_sec f) ++ lit " " ++ zone.

Definition whole (f : fields) : fields := F (f_date f) (f_hour f) (f_min f) (f_sec f) 0.

Lemma clock_word_ok f : valid_fields f -> let t := zpad 2 (f_hour f) ++ lit ":" ++ zpad 2 (f_min f) ++ lit ":" ++ zpad 2 (f_sec f) in
  word t /\ clock_word t (f_hour f) (f_min f) (f_sec f).
Proof.
  intros (_ & _ & Hh & Hm & Hs & _) t.
  pose proof (num_zpad 2 (f_hour f) ltac:(lia)) as Nh. pose proof (num_zpad 2 (f_min f) ltac:(lia)) as Nm. pose proof (num_zpad 2 (f_sec f) ltac:(lia)) as Ns.
  split; [|now constructor].
  assert (C : word (lit ":")) by (apply word_lit; [reflexivity|discriminate]).
  unfold t. apply word_app; [exact (num_word _ _ Nh)|]. apply word_app; [exact C|]. apply word_app; [exact (num_word _ _ Nm)|].
  apply word_app; [exact C|exact (num_word _ _ Ns)].
Qed.

Lemma text_rfc dow l f zone off : valid_fields f -> word zone -> zone_word zone off -> rfc_text (whole f) off (text_2822 dow l f zone).
Proof.
  intros V Wz Hz. pose proof V as (Hy & Hv & _). unfold valid_date in Hv.
  destruct (clock_word_ok f V) as [Wc Hc]. cbv zeta in Wc, Hc.
  pose proof (num_zdec (d_day (f_date f)) ltac:(lia)) as Nd. pose proof (num_zdec (d_year (f_date f)) ltac:(lia)) as Ny.
  destruct (months_word (d_month (f_date f)) ltac:(lia)) as [Wm Hm]. cbv zeta in Wm, Hm.
  set (mm := at_index rfc2822Months (d_month (f_date f) - 1)) in *. set (dd := zdec (d_day (f_date f))) in *.
  set (hms := zpad 2 (f_hour f) ++ lit ":" ++ zpad 2 (f_min f) ++ lit ":" ++ zpad 2 (f_sec f)) in *.
  set (body := dd ++ lit " " ++ mm ++ lit " " ++ spad 4 (d_year (f_date f)) ++ lit " " ++ hms ++ lit " " ++ zone).
  assert (S : spaced [dd; mm; zdec (d_year (f_date f)); hms; zone] body).
  { unfold body, spad. apply spaced_date; try assumption; eapply num_word; eassumption. }
  assert (E : text_2822 dow l f zone = (if dow then at_index rfc2822Weekdays (weekday l) ++ lit ", " else []) ++ body).
  { unfold text_2822, body, hms, dd, mm. now rewrite <- !app_assoc. }
  rewrite E.
  exists dd, mm, (zdec (d_year (f_date f))), hms, [zone], ((if dow then [at_index rfc2822Weekdays (weekday l) ++ lit ","] else []) ++ [dd; mm; zdec (d_year (f_date f)); hms; zone]).
  cbn [whole f_date f_hour f_min f_sec f_us]. repeat (split; [assumption|]). split; [reflexivity|]. split; [right; now exists zone|].
  destruct dow; cbn [app].
  - split; [apply DT_word|]. pose proof (weekday_word (weekday l) (weekday_range l)) as Ww.
    change (lit ", ") with (lit "," ++ lit " "). rewrite app_assoc, <- app_assoc.
    apply (SP_word []); [constructor|exact Ww| |reflexivity].
    apply spaced_indent. exact S.
  - split; [apply DT_none|exact S].
Qed.

Lemma zone_2822 off : - DAY < off < DAY -> off mod MINUTE = 0 ->
  let z := (let '(sign, hr, min) := signHrMin off in sign ++ zpad 2 hr ++ zpad 2 min) in
  word z /\ zone_word z (off / MINUTE).
Proof.
  intros Ho Hm. apply Z.mod_divide in Hm; [|discriminate]. destruct Hm as [k Hk]. unfold signHrMin.
  assert (E : rne (off # 60000000) = k).
  { rewrite (rne_compat (off # 60000000) (inject_Z k)); [apply rne_Z|]. unfold Qeq. cbn [Qnum Qden inject_Z]. rewrite Hk. unfold MINUTE. lia. }
  rewrite E. assert (Ek : off / MINUTE = k) by (rewrite Hk; apply Z.div_mul; discriminate). rewrite Ek. clear E Ek.
  assert (B : -1440 < k < 1440) by (subst off; unfold DAY, MINUTE in Ho; lia). clear Ho Hk.
  destruct (Z.ltb_spec k 0) as [N|N]; cbv zeta.
  - set (h := - k / 60). set (m := (- k) mod 60). assert (Hh : 0 <= h < 100 /\ 0 <= m < 100 /\ k = - (h * 60 + m)) by (unfold h, m; lia). clearbody h m.
    destruct Hh as (Hh & Hm & ->). split.
    + apply word_app; [apply word_lit; [reflexivity|discriminate]|]. apply word_app; eapply num_word; apply num_zpad; lia.
    + apply (ZW_num 45 (zpad 2 h) (zpad 2 m) h m); [now right|apply zpad_len; lia|apply zpad_len; lia|apply num_zpad; lia|apply num_zpad; lia].
  - set (h := k / 60). set (m := k mod 60). assert (Hh : 0 <= h < 100 /\ 0 <= m < 100 /\ k = h * 60 + m) by (unfold h, m; lia). clearbody h m.
    destruct Hh as (Hh & Hm & ->). split.
    + apply word_app; [apply word_lit; [reflexivity|discriminate]|]. apply word_app; eapply num_word; apply num_zpad; lia.
    + apply (ZW_num 43 (zpad 2 h) (zpad 2 m) h m); [now left|apply zpad_len; lia|apply zpad_len; lia|apply num_zpad; lia|apply num_zpad; lia].
Qed.

(** what [asRFC2822] writes *)
Theorem as_rfc t tz dow x : asDatetime t tz = Ok x -> 0 <= dt_local x < MAXT -> - DAY < offset_of tz < DAY -> offset_of tz mod MINUTE = 0 ->
  exists s, asRFC2822 t tz dow = Ok s /\ rfc_text (whole (fields_of (dt_local x))) (offset_of tz / MINUTE) s.
Proof.
  intros Hx Hr Ho Hm. unfold asRFC2822. rewrite Hx. cbn [rbind]. destruct (datetime_fields _ Hr) as [V _].
  destruct tz as [off|]; cbn [offset_of] in *.
  - rewrite (proj2 (utcoffset_Ok off off) (conj Ho eq_refl)). cbn [rbind].
    destruct (zone_2822 off Ho Hm) as [W Z]. cbv zeta in W, Z. destruct (signHrMin off) as [[sg h] m]. cbn [rbind].
    eexists. split; [reflexivity|]. exact (text_rfc dow (dt_local x) _ _ _ V W Z).
  - cbn [rbind]. eexists. split; [reflexivity|]. apply (text_rfc dow (dt_local x) _ (lit "-0000") 0 V).
    + apply word_lit; [reflexivity|discriminate].
    + apply (ZW_num 45 (lit "00") (lit "00") 0 0); try reflexivity; [now right|now repeat split|now repeat split].
Qed.

Lemma whole_sec l : 0 <= l < MAXT -> datetime (whole (fields_of l)) = Ok (l - l mod SECOND).
Proof. intros H. pose proof (datetime_sec l H) as E. exact E. Qed.

Theorem rfc_round ulower uupper uisdigit : lowers ulower -> uppers uupper -> digit_test uisdigit ->
  forall t tz dow x, asDatetime t tz = Ok x -> 0 <= dt_local x < MAXT -> - DAY < offset_of tz < DAY -> offset_of tz mod MINUTE = 0 ->
  100 <= d_year (f_date (fields_of (dt_local x))) -> 0 <= dt_local x - offset_of tz < MAXT ->
  exists s, asRFC2822 t tz dow = Ok s /\
    let i := dt_local x - offset_of tz in fromRFC2822 ulower uupper uisdigit s = Ok (T (i - i mod SECOND) SECOND).
Proof.
  intros H1 H2 H3 t tz dow x Hx Hr Ho Hm Hy Hi. destruct (as_rfc t tz dow x Hx Hr Ho Hm) as (s & Es & Hs). exists s. split; [exact Es|]. cbv zeta.
  pose proof (whole_sec _ Hr) as Hw. rewrite <- (in_century_id _ Hy) in Hw.
  destruct (rfc_reads ulower uupper uisdigit H1 H2 H3 _ _ s _ Hs Hw) as [E|[_ E]].
  - rewrite E. assert (M : offset_of tz / MINUTE * MINUTE = offset_of tz). { pose proof (Z.div_mod (offset_of tz) MINUTE ltac:(discriminate)). lia. }
    rewrite M. set (l := dt_local x) in *. set (o := offset_of tz) in *.
    assert (So : o mod SECOND = 0). { rewrite <- M. unfold MINUTE, SECOND. clear. lia. }
    assert (Sl : (l - o) mod SECOND = l mod SECOND). { clear - So. unfold SECOND in *. lia. }
    rewrite Sl. assert (Z : fromDatetime (Dt (l - l mod SECOND) (Some o)) = Ok (T (l - l mod SECOND - o) 1)).
    { apply fromDatetime_Ok. split; [exact Ho|]. split; [|reflexivity]. assert (0 <= l mod SECOND < SECOND) by (apply Z.mod_pos_bound; reflexivity).
      assert (l - o = (l - o) / SECOND * SECOND + l mod SECOND) by (rewrite <- Sl; clear; unfold SECOND; lia).
      assert (0 <= (l - o) / SECOND) by (apply Z.div_pos; [lia|reflexivity]). unfold SECOND in *. lia. }
    rewrite Z. cbn [rbind t_us]. f_equal. f_equal. lia.
  - exfalso. unfold td_ok in E. assert (M : offset_of tz / MINUTE * MINUTE = offset_of tz). { pose proof (Z.div_mod (offset_of tz) MINUTE ltac:(discriminate)). lia. }
    rewrite M in E. unfold DAY in *. lia.
Qed.

(** *** years before 100 *)
Lemma century_leap y : 1 <= y < 100 -> leap (century y) = leap y.
Proof.
  intros H. unfold century. assert (E : forall k, (k = 1900 \/ k = 2000) -> k = 2000 \/ y <> 0 -> leap (k + y) = leap y).
  { intros k [-> | ->] _; unfold leap.
    - replace ((1900 + y) mod 4) with (y mod 4) by lia. replace ((1900 + y) mod 100) with (y mod 100) by lia.
      replace (y mod 100 =? 0) with false by lia. reflexivity.
    - replace ((2000 + y) mod 4) with (y mod 4) by lia. replace ((2000 + y) mod 100) with (y mod 100) by lia.
      replace (y mod 100 =? 0) with false by lia. reflexivity. }
  destruct (y <? 69); [apply E; [now right|now left]|]. destruct (y <? 100); [|reflexivity]. apply E; [now left|right; lia].
Qed.

Lemma century_valid f : d_year (f_date f) < 100 -> valid_fields f -> valid_fields (in_century f).
Proof.
  destruct f as [[y m d] h mi sc us]. unfold valid_fields, in_century, valid_date. cbn [f_date f_hour f_min f_sec f_us d_year d_month d_day].
  intros Hy (Y & (M & Dd) & R). assert (L : month_length (century y) m = month_length y m) by (unfold month_length; rewrite century_leap by lia; reflexivity).
  rewrite L. repeat split; try tauto; try lia; unfold century; destruct (Z.ltb_spec y 69); try lia; destruct (Z.ltb_spec y 100); lia.
Qed.

Lemma whole_century f : whole (in_century f) = in_century (whole f).
Proof. reflexivity. Qed.

Theorem rfc_century ulower uupper uisdigit : lowers ulower -> uppers uupper -> digit_test uisdigit ->
  forall t tz dow x, asDatetime t tz = Ok x -> 0 <= dt_local x < MAXT -> - DAY < offset_of tz < DAY -> offset_of tz mod MINUTE = 0 ->
  d_year (f_date (fields_of (dt_local x))) < 100 ->
  exists s i, asRFC2822 t tz dow = Ok s /\ fromRFC2822 ulower uupper uisdigit s = Ok (T i SECOND) /\
    fields_of (i + offset_of tz) = in_century (whole (fields_of (dt_local x))).
Proof.
  intros H1 H2 H3 t tz dow x Hx Hr Ho Hm Hy. destruct (as_rfc t tz dow x Hx Hr Ho Hm) as (s & Es & Hs). exists s.
  destruct (datetime_fields _ Hr) as [V _]. set (f := fields_of (dt_local x)) in *.
  assert (Vw : valid_fields (whole f)).
  { clearbody f. destruct f as [[y m d] h mi sc us]. unfold valid_fields, whole in *. cbn [f_date f_hour f_min f_sec f_us] in *. destruct V as (A1 & A2 & A3 & A4 & A5 & A6). split; [exact A1|]. split; [exact A2|]. split; [exact A3|]. split; [exact A4|]. split; [exact A5|]. lia. }
  destruct (fields_datetime _ (century_valid (whole f) Hy Vw)) as (l & Hl & Fl).
  assert (Yl : 1969 <= d_year (f_date (fields_of l)) <= 2068).
  { rewrite Fl. clearbody f. destruct f as [[y m d] h mi sc us]. unfold in_century, whole, century. cbn [f_date d_year] in *. destruct V as (Y0 & _). cbn [f_date d_year] in *.
    destruct (Z.ltb_spec y 69); [lia|]. destruct (Z.ltb_spec y 100); lia. }
  assert (M : offset_of tz / MINUTE * MINUTE = offset_of tz). { pose proof (Z.div_mod (offset_of tz) MINUTE ltac:(discriminate)). lia. }
  assert (Hl2 : 0 <= l - offset_of tz < MAXT).
  { apply datetime_eq in Hl. destruct Hl as [Vl El]. pose proof (proj1 (datetime_Ok _ l) (proj2 (datetime_eq _ l) (conj Vl El))) as (_ & Rl & _).
    assert (B : DAY <= l < MAXT - DAY); [|lia].
    destruct (Z.le_gt_cases DAY l) as [A|A]; [destruct (Z.lt_ge_cases l (MAXT - DAY)) as [B|B]; [auto|]|]; exfalso.
    - pose proof (year_bounds (l / DAY + 1)) as W. change (d_year (ord2ymd (l / DAY + 1))) with (d_year (f_date (fields_of l))) in W.
      assert (days_before_year (d_year (f_date (fields_of l)) + 1) <= days_before_year 2069) by (unfold days_before_year; lia).
      assert (K : days_before_year 2069 = 755322) by reflexivity. rewrite K in *. unfold MAXT, DAY in *. lia.
    - pose proof (year_bounds (l / DAY + 1)) as W. change (d_year (ord2ymd (l / DAY + 1))) with (d_year (f_date (fields_of l))) in W.
      assert (days_before_year 1969 <= days_before_year (d_year (f_date (fields_of l)))) by (unfold days_before_year; lia).
      assert (K : days_before_year 1969 = 718797) by reflexivity. rewrite K in *. unfold DAY in *. lia. }
  destruct (rfc_reads ulower uupper uisdigit H1 H2 H3 _ _ s _ Hs Hl) as [E|[_ E]].
  - rewrite M in E. assert (Z : fromDatetime (Dt l (Some (offset_of tz))) = Ok (T (l - offset_of tz) 1)) by (apply fromDatetime_Ok; auto).
    rewrite Z in E. cbn [rbind t_us] in E. exists (l - offset_of tz). split; [exact Es|]. split; [exact E|]. replace (l - offset_of tz + offset_of tz) with l by lia. exact Fl.
  - exfalso. unfold td_ok in E. rewrite M in E. unfold DAY in *. lia.
Qed.

(** ** RFC 1123 *)

Lemma spaced_1123 a b c d e g : word a -> word b -> word c -> word d -> word e -> word g ->
  spaced [a; b; c; d; e; g] (a ++ lit " " ++ b ++ lit " " ++ c ++ lit " " ++ d ++ lit " " ++ e ++ lit " " ++ g).
Proof.
  intros. apply (SP_word []); [constructor|assumption| |reflexivity].
  apply (SP_word (lit " ")); [apply sp1|assumption| |reflexivity].
  apply (SP_word (lit " ")); [apply sp1|assumption| |reflexivity].
  apply (SP_word (lit " ")); [apply sp1|assumption| |reflexivity].
  apply (SP_word (lit " ")); [apply sp1|assumption| |reflexivity].
  rewrite <- (app_nil_r g) at 2. apply (SP_word (lit " ")); [apply sp1|assumption| |exact I]. constructor. constructor.
Qed.

Lemma formatdate_text q : let l := EPOCH + accum (NFloat q) in 0 <= l < MAXT ->
  exists s, formatdate q = Ok s /\ rfc_text (whole (fields_of l)) 0 s.
Proof.
  intros l Hl. unfold formatdate. fold l. rewrite (proj2 (in_range_spec l) Hl). eexists. split; [reflexivity|].
  destruct (datetime_fields _ Hl) as [V _]. set (f := fields_of l) in *. clearbody f. pose proof V as (Hy & Hv & _). unfold valid_date in Hv.
  destruct (clock_word_ok f V) as [Wc Hc]. cbv zeta in Wc, Hc.
  pose proof (num_zpad 2 (d_day (f_date f)) ltac:(lia)) as Nd. pose proof (num_zpad 4 (d_year (f_date f)) ltac:(lia)) as Ny.
  destruct (months_word (d_month (f_date f)) ltac:(lia)) as [Wm Hm]. cbv zeta in Wm, Hm.
  pose proof (weekday_word (weekday l) (weekday_range l)) as Ww.
  set (mm := at_index rfc2822Months (d_month (f_date f) - 1)) in *. set (hms := zpad 2 (f_hour f) ++ lit ":" ++ zpad 2 (f_min f) ++ lit ":" ++ zpad 2 (f_sec f)) in *.
  exists (zpad 2 (d_day (f_date f))), mm, (zpad 4 (d_year (f_date f))), hms, [lit "GMT"],
    [at_index rfc2822Weekdays (weekday l) ++ lit ","; zpad 2 (d_day (f_date f)); mm; zpad 4 (d_year (f_date f)); hms; lit "GMT"].
  cbn [whole f_date f_hour f_min f_sec f_us]. repeat (split; [assumption|]). split; [reflexivity|].
  split; [right; exists (lit "GMT"); split; [reflexivity|apply (ZW_name _ "GMT" 0); [cbn; tauto|reflexivity]]|].
  split; [apply DT_word|].
  assert (E : forall A B, (A ++ lit ", " ++ B = (A ++ lit ",") ++ lit " " ++ B)) by (intros; now rewrite <- app_assoc).
  rewrite E. change (lit " GMT") with (lit " " ++ lit "GMT").
  assert (G : word (lit "GMT")) by (apply word_lit; [reflexivity|discriminate]).
  pose proof (spaced_1123 _ _ _ _ _ _ Ww (num_word _ _ Nd) Wm (num_word _ _ Ny) Wc G) as S. unfold hms in S. rewrite <- !app_assoc in S. rewrite <- !app_assoc. exact S.
Qed.

Theorem as_1123 t : ok_time t -> accum (NFloat (asPOSIXTimestamp t)) = t_us t - EPOCH ->
  exists s, asRFC1123 t = Ok s /\ rfc_text (whole (fields_of (t_us t))) 0 s.
Proof.
  intros Ht E. unfold asRFC1123. pose proof (formatdate_text (asPOSIXTimestamp t)) as F. cbv zeta in F. rewrite E in F.
  replace (EPOCH + (t_us t - EPOCH)) with (t_us t) in F by lia. exact (F Ht).
Qed.

Theorem as_1123_near t : ok_time t -> - 2 ^ 33 < (t_us t - EPOCH) / SECOND < 2 ^ 33 -> exists s, asRFC1123 t = Ok s /\ rfc_text (whole (fields_of (t_us t))) 0 s.
Proof. intros Ht Hs. apply as_1123; [exact Ht|]. pose proof (round_near t 33 0 Hs ltac:(lia) ltac:(reflexivity)). lia. Qed.

Theorem as_1123_whole t : ok_time t -> t_us t mod SECOND = 0 -> exists s, asRFC1123 t = Ok s /\ rfc_text (whole (fields_of (t_us t))) 0 s.
Proof.
  intros Ht Hm. apply as_1123; [exact Ht|].
  assert (E : t_us t = EPOCH + (t_us t - EPOCH) / SECOND * SECOND). { rewrite EPOCH_eq. unfold DAY, SECOND in *. lia. }
  destruct (posix_whole t _ Ht E) as [W _]. rewrite (accum_whole _ _ W). lia.
Qed.

(** ** Errors *)

Lemma chop_total s : s <> [] -> exists t, chop s = Ok t.
Proof.
  intros H. unfold chop, last_is. destruct (rev s) eqn:E; [|cbn [rbind]; eauto].
  apply (f_equal (@rev N)) in E. rewrite rev_involutive in E. now destruct H.
Qed.

Lemma after_last_ne s t : after_last 44 s = Some t -> ends 44 s = false -> t <> [].
Proof.
  intros H E ->. assert (G : exists u, s = u ++ [44%N]).
  { clear E. induction s as [|x s IH]; cbn [after_last] in H; [discriminate|]. destruct (after_last 44 s) as [r|] eqn:A.
    - destruct (IH H) as [u ->]. now exists (x :: u).
    - destruct (N.eqb_spec x 44) as [->|]; [|discriminate]. injection H as ->. now exists []. }
  destruct G as [u ->]. unfold ends in E. rewrite rev_app_distr in E. discriminate.
Qed.

Section Errors.
  Variable ulower uupper : str -> str.
  Variable uisdigit : N -> bool.
  Hypothesis Hne : forall s, s <> [] -> ulower s <> [].

  Local Ltac none := exists None; split; [reflexivity|exact I].

  Lemma parse_total s : exists r, parsedate_tz_ ulower uupper uisdigit s = Ok r /\ match r with Some (l, _) => length l = 9%nat | None => True end.
  Proof.
    unfold parsedate_tz_.
    assert (W : Forall (fun w => w <> []) (drop_day ulower (split_ws s))).
    { pose proof (split_ws_words s) as W. apply (Forall_impl (fun w : str => w <> [])) in W; [|now intros w [H _]].
      destruct (split_ws s) as [|d l]; [constructor|]. inversion W; subst. cbn [drop_day].
      destruct (ends 44 d) eqn:E; cbn [orb]; [assumption|]. destruct (memb (ulower d) daynames); [assumption|].
      destruct (after_last 44 d) as [t|] eqn:A; [|assumption]. constructor; [now apply (after_last_ne d)|assumption]. }
    set (data := drop_day ulower (split_ws s)) in *. clearbody data. clear s.
    assert (W2 : forall dd mm yy tm tz r, split_zone (rfc850 data) = dd :: mm :: yy :: tm :: tz :: r -> tm <> []).
    { assert (Z : forall l, match l with [a; b; c; x] => x <> [] | _ :: _ :: _ :: x :: _ => x <> [] | _ => True end ->
        forall dd mm yy tm tz r, split_zone l = dd :: mm :: yy :: tm :: tz :: r -> tm <> []).
      { intros l Hl dd mm yy tm tz r E. destruct l as [|a [|b [|c [|x [|y l]]]]]; try discriminate; cbn [split_zone] in E.
        - destruct (match find (lit "+") x with Some i => Some i | None => find (lit "-") x end) as [[|i]|]; injection E as <- <- <- <- <- <-; try exact Hl.
          destruct x; [congruence|discriminate].
        - injection E as <- <- <- <- <- <-. exact Hl. }
      apply Z. unfold rfc850. destruct data as [|a [|b [|c [|x l]]]]; try exact I.
      - inversion W as [|? ? Ha W1]; subst. inversion W1 as [|? ? Hb W2]; subst. inversion W2 as [|? ? Hc W3]; subst.
        destruct (Nat.eqb_spec (length (split (lit "-") a)) 3) as [L|L]; [|exact I].
        destruct (split (lit "-") a) as [|p [|q [|o [|]]]]; try discriminate. exact Hb.
      - inversion W as [|? ? Ha W1]; subst. inversion W1 as [|? ? Hb W2]; subst. inversion W2 as [|? ? Hc W3]; subst. inversion W3; subst. destruct l; assumption. }
    destruct (split_zone (rfc850 data)) as [|dd [|mm [|yy [|tm [|tz r]]]]]; try none.
    specialize (W2 _ _ _ _ _ _ eq_refl). clear W.
    destruct dd as [|d0 dd]; [none|]. destruct mm as [|m0 mm]; [none|]. destruct yy as [|y0 yy]; [none|].
    destruct (day_month ulower (d0 :: dd) (m0 :: mm)) as [[d month]|] eqn:E; [|none].
    assert (Hd : d <> []).
    { unfold day_month in E. destruct (month_index (ulower (m0 :: mm))); [injection E as <- <-; discriminate|].
      destruct (month_index (ulower (d0 :: dd))); [|discriminate]. injection E as <- <-. apply Hne. discriminate. }
    destruct (chop_total d Hd) as [d' ->]. cbn [rbind].
    assert (Hy : y0 :: yy <> []) by discriminate. set (year := y0 :: yy) in *. clearbody year.
    destruct (find (lit ":") year) as [[|n]|];
      (match goal with |- context [rbind (chop ?x) _] => destruct (chop_total x ltac:(assumption)) as [y ->] end; cbn [rbind];
       destruct y as [|y1 y]; [none|]);
      (match goal with |- context [let '(_, _) := if uisdigit ?c then _ else _ in rbind (chop ?x) _] => destruct (chop_total x ltac:(assumption)) as [t' Et]; destruct (uisdigit c) end;
       rewrite Et; cbn [rbind]; (destruct (clock_parts t') as [[[a b] c]|]; [|none]);
       match goal with |- context [all_ints ?p ?q ?r ?u ?v] => destruct (all_ints p q r u v) as [[[[[? ?] ?] ?] ?]|]; (none || (eexists; split; reflexivity)) end).
  Qed.

  Theorem rfc_errors s e : fromRFC2822 ulower uupper uisdigit s = Err e -> e = ValueError \/ e = OverflowError.
  Proof.
    unfold fromRFC2822, parsedate_tz. destruct (parse_total s) as (r & -> & L). cbn [rbind]. destruct r as [[l z]|]; [|intros H; injection H as <-; now left].
    set (st := sanitizeStructTime _).
    assert (Six : exists f, six_fields st = Ok f).
    { unfold st. do 10 (destruct l as [|? l]; try discriminate). eexists. reflexivity. }
    clearbody st. unfold timedelta_minutes. destruct (td_ok _); cbn [rbind]; [|intros H; injection H as <-; now right].
    set (m := (0 * 60 + last st 0 / 60) * MINUTE). clearbody m. intros H. destruct Six as [f Ef]. unfold fromStructTime in H. rewrite Ef in H. cbn [rbind] in H.
    destruct (datetime f) as [d|e'] eqn:Ed; cbn [rbind] in H.
    - unfold fromDatetime, astimezone in H. cbn [dt_tz dt_local] in H. unfold utcoffset, add_td in H.
      repeat match type of H with context [if ?b then _ else _] => destruct b; cbn [rbind] in H end; try discriminate; injection H as <-; auto.
    - unfold datetime in Ed. destruct (fields_okb f); [discriminate|]. left. congruence.
  Qed.
End Errors.
