(** * epsilon/extime.py: ISO 8601 dates and times *)

From Coq Require Import ZArith NArith QArith String List Bool Lia ZifyBool ZifyN.
From Verif Require Import Py PyStr PyNum PyInt Regex PyFloat Cal PyTime Extime.
Import ListNotations.
Open Scope Z_scope.
Open Scope py_scope.

(** ** The pattern: extime.py:345-391 *)

(** [\d]: the decimal digits of all scripts *)
Definition dig (c : N) : bool := match decimal_in decimal_zeros c with Some _ => true | None => false end.

Definition chr (x : N) : re := Cls (N.eqb x).
Definition d1 : re := Cls dig.
Definition d2 : re := Seq d1 d1.
Definition d3 : re := Seq d1 (Seq d1 d1).
Definition d4 : re := Seq d1 (Seq d1 (Seq d1 d1)).
Definition dash : re := Opt (chr 45).
Definition colon : re := Opt (chr 58).

(** the named groups *)
Definition g_year := 0%nat. Definition g_month1 := 1%nat. Definition g_week1 := 2%nat. Definition g_month2 := 3%nat.
Definition g_day := 4%nat. Definition g_week2 := 5%nat. Definition g_weekday := 6%nat. Definition g_dayofyear := 7%nat.
Definition g_hour := 8%nat. Definition g_minute := 9%nat. Definition g_second := 10%nat. Definition g_frac := 11%nat.
Definition g_zulu := 12%nat. Definition g_tzhour := 13%nat. Definition g_tzmin := 14%nat.

(** extime.py:381-388 *)
Definition re_zone : re :=
  Opt (Alt (Cap g_zulu (chr 90))
           (Seq (Cap g_tzhour (Seq (Cls (fun c => N.eqb c 43 || N.eqb c 45)) d2))
                (Opt (Seq colon (Cap g_tzmin d2))))).

(** extime.py:370-389 *)
Definition re_frac : re := Opt (Seq (Cls (fun c => N.eqb c 46 || N.eqb c 44)) (Cap g_frac (Seq d1 (Star dig)))).
Definition re_second : re := Opt (Seq colon (Seq (Cap g_second d2) re_frac)).
Definition re_minute : re := Opt (Seq colon (Seq (Cap g_minute d2) re_second)).
Definition re_time : re := Opt (Seq (chr 84) (Seq (Cap g_hour d2) (Seq re_minute re_zone))).

(** extime.py:356-390 *)
Definition re_month : re := Seq dash (Cap g_month1 d2).
Definition re_week : re := Seq dash (Seq (chr 87) (Cap g_week1 d2)).
Definition re_day : re :=
  Alt (Seq dash (Seq (Cap g_month2 d2) (Seq dash (Cap g_day d2))))
 (Alt (Seq dash (Seq (chr 87) (Seq (Cap g_week2 d2) (Seq dash (Cap g_weekday d1)))))
      (Seq dash (Cap g_dayofyear d3))).

Definition re_iso : re :=
  Seq (Cap g_year d4) (Seq (Opt (Opt (Alt re_month (Alt re_week (Seq re_day re_time))))) Eos).

(** iso8601pattern.match.  The pattern has no [\b]. *)
Definition iso_match (s : str) : option caps := mt (fun _ => false) re_iso None s [] (fun _ _ _ c => Some c).

(** ** The parser: extime.py:394-571 *)

(** int(text) of a group, with its default *)
Definition gint (c : caps) (n : nat) (default : Z) : res Z :=
  match group n c with Some t => py_int t | None => Ok default end.

(** Python's [a or b] of two groups *)
Definition gor (c : caps) (n m : nat) : option str :=
  match group n c with Some t => Some t | None => group m c end.

Definition oint (o : option str) (default : Z) : res Z := match o with Some t => py_int t | None => Ok default end.

(** the value of decimal digits *)
Definition uval (t : str) : Z := Z.of_N (dec_val (map to_ascii t)).

(** extime.py:426-427, 434, 509: int(round(float('.' + digits) * 1000000)) *)
Definition frac_float (o : option str) : Q :=
  match o with Some t => fl (uval t # Z.to_pos (10 ^ Z.of_nat (length t))) | None => 0%Q end.
Definition frac_us (o : option str) : Z := rne (fl (frac_float o * inject_Z 1000000)).

(** the integer groups *)
Record vals := V { v_year : Z; v_month : Z; v_day : Z; v_week : Z; v_weekday : Z; v_doy : Z;
                   v_hour : Z; v_minute : Z; v_second : Z; v_us : Z }.

Definition between (lo hi x : Z) : bool := (lo <=? x) && (x <=? hi).

(** extime.py:420-463 *)
Definition coerceGroups (c : caps) : res vals :=
  hour <- gint c g_hour 0 ;; minute <- gint c g_minute 0 ;; second <- gint c g_second 0 ;;
  month <- oint (gor c g_month1 g_month2) 1 ;; day <- gint c g_day 1 ;;
  week <- oint (gor c g_week1 g_week2) 1 ;; weekday <- gint c g_weekday 1 ;;
  doy <- gint c g_dayofyear 1 ;; year <- gint c g_year 1 ;;
  if between 1 53 week && between 1 7 weekday && between 1 12 month && between 1 31 day &&
     between 0 24 hour && between 0 59 minute && between 0 61 second && between 1 366 doy
  then Ok (V year month day week weekday doy hour minute second (frac_us (group g_frac c)))
  else Err ValueError.

(** extime.py:410-418 *)
Definition calculateTimezone (c : caps) (tzinfo : option Z) : res Z :=
  match group g_zulu c with
  | Some _ => Ok (fixed_offset 0 0)
  | None =>
    match group g_tzhour c with
    | Some h => hours <- py_int h ;; minutes <- gint c g_tzmin 0 ;; Ok (fixed_offset hours minutes)
    | None => Ok (match tzinfo with Some o => o | None => fixed_offset 0 0 end)
    end
  end.

Definition matched (c : caps) (n : nat) : bool := match group n c with Some _ => true | None => false end.

Definition clock_of (v : vals) (x : date) : fields := F x (v_hour v) (v_minute v) (v_second v) (v_us v).

(** extime.py:494-552.  The result is the local time. *)
Definition calculateDtime (c : caps) (v : vals) : res Z :=
  if matched c g_week1 || matched c g_week2 then
    if negb ((0 <? v_week v) && (v_week v <=? 53)) then Err ValueError
    else
      t0 <- datetime (clock_of v (D (v_year v) 1 4)) ;;
      t1 <- add_td t0 (- (weekday t0 * DAY)) ;;
      t2 <- add_td t1 (((v_week v - 1) * 7 + v_weekday v - 1) * DAY) ;;
      let '(y, w, d) := isocalendar (t2 / DAY + 1) in
      if (y =? v_year v) && (w =? v_week v) && (d =? v_weekday v) then Ok t2 else Err ValueError
  else if matched c g_dayofyear then
    t0 <- datetime (clock_of v (D (v_year v) 1 1)) ;;
    t1 <- add_td t0 ((v_doy v - 1) * DAY) ;;
    if negb (d_year (f_date (fields_of t1)) =? v_year v) then Err ValueError else Ok t1
  else datetime (clock_of v (D (v_year v) (v_month v) (v_day v))).

(** datetime.replace(month=..., year=...) *)
Definition replace_date (t : Z) (x : date) : res Z :=
  let f := fields_of t in datetime (F x (f_hour f) (f_min f) (f_sec f) (f_us f)).

(** extime.py:465-492.  With a fraction of [k] digits the resolution is
    10 ** -k * 1000000 microseconds as a float, rounded to an integer, at least
    one: simplified to the power of ten that is. *)
Definition determineResolution (c : caps) (time : Z) : res Z :=
  match group g_frac c with
  | Some t => Ok (Z.max 1 (if (length t <=? 6)%nat then 10 ^ (6 - Z.of_nat (length t)) else 0))
  | None =>
    if matched c g_second then Ok SECOND
    else if matched c g_minute then Ok MINUTE
    else if matched c g_hour then Ok HOUR
    else if matched c g_weekday then Ok DAY
    else if matched c g_dayofyear then Ok DAY
    else if matched c g_day then Ok DAY
    else if matched c g_week1 then Ok WEEK
    else if matched c g_week2 then Ok WEEK
    else
      let x := f_date (fields_of time) in
      if matched c g_month1 || matched c g_month2 then
        if d_month x =? 12 then Ok (31 * DAY)
        else n <- replace_date time (D (d_year x) (d_month x + 1) (d_day x)) ;; Ok (n - time)
      else n <- replace_date time (D (d_year x + 1) (d_month x) (d_day x)) ;; Ok (n - time)
  end.

(** extime.py:555-569 *)
Definition fromISO (s : str) (tzinfo : option Z) : res time :=
  match iso_match s with
  | None => Err ValueError
  | Some c =>
    v <- coerceGroups c ;;
    timezone <- (if matched c g_hour then tz <- calculateTimezone c tzinfo ;; Ok (Some tz) else Ok None) ;;
    local <- calculateDtime c v ;;
    self <- fromDatetime (Dt local timezone) ;;
    resolution <- determineResolution c (t_us self) ;;
    Ok (T (t_us self) resolution)
  end.

(** ** The formatter: extime.py:743-798 *)

(** extime.py:36-51.  Simplification: the quotient is rounded as a rational
    number; as a float it is the same for offsets below a day. *)
Definition signHrMin (off : Z) : str * Z * Z :=
  let minutes := rne (off # 60000000) in
  if minutes <? 0 then (lit "-", (- minutes) / 60, (- minutes) mod 60) else (lit "+", minutes / 60, minutes mod 60).

(** '%0wi' % z for z >= 0 *)
Definition zpad (w : nat) (z : Z) : str := pad0 w (Z.to_N z).

(** s.rstrip('0') *)
Fixpoint drop0 (s : str) : str := match s with c :: t => if N.eqb c 48 then drop0 t else s | [] => [] end.
Definition rstrip0 (s : str) : str := rev (drop0 (rev s)).

Definition asISO (self : time) (includeDelimiters : bool) (tzinfo : option Z) (includeTimezone : bool) : res str :=
  let tzinfo := if isTimezoneDependent self then tzinfo else None in
  dtime <- asDatetime self tzinfo ;;
  let '(dateSep, timeSep) := if includeDelimiters then (lit "-", lit ":") else ([], []) in
  timezone <- (if includeTimezone then
                 match tzinfo with
                 | None => Ok (lit "+00" ++ timeSep ++ lit "00")%list
                 | Some off =>
                   o <- utcoffset off ;;
                   let '(sign, hour, min) := signHrMin o in
                   Ok (sign ++ zpad 2 hour ++ timeSep ++ zpad 2 min)%list
                 end
               else Ok []) ;;
  let f := fields_of (dt_local dtime) in
  let us := rstrip0 (zpad 6 (f_us f)) in
  let microsecond := match us with [] => [] | _ => lit "." ++ us end%list in
  let parts := [ (zpad 4 (d_year (f_date f)), 366 * DAY);
                 (dateSep ++ zpad 2 (d_month (f_date f)), 31 * DAY);
                 (dateSep ++ zpad 2 (d_day (f_date f)), DAY);
                 (lit "T", HOUR);
                 (zpad 2 (f_hour f), HOUR);
                 (timeSep ++ zpad 2 (f_min f), MINUTE);
                 (timeSep ++ zpad 2 (f_sec f), SECOND);
                 (microsecond, 1);
                 (timezone, HOUR) ]%list in
  Ok (flat_map (fun '(part, minResolution) => if t_res self <=? minResolution then part else []) parts).

(** ** Specification: the texts *)

Inductive idate :=
| IYear
| IMonth (m : str)
| IWeek (w : str)
| IDay (m d : str)
| IWeekDay (w d : str)
| IOrdinal (n : str).

Inductive iclock :=
| CHour (h : str)
| CMinute (h m : str)
| CSecond (h m s : str)
| CFrac (h m s f : str).

Inductive izone :=
| ZNone
| Zulu
| ZOff (sign : N) (h : str) (m : option str).

Record iso := Iso { i_year : str; i_date : idate; i_time : option (iclock * izone) }.

Definition digits (n : nat) (t : str) : Prop := length t = n /\ Forall (fun c => dig c = true) t.
Definition maybe (c : N) (t : str) : Prop := t = [] \/ t = [c].

Open Scope list_scope.

Inductive date_text : idate -> str -> Prop :=
| T_year : date_text IYear []
| T_month a m : maybe 45 a -> digits 2 m -> date_text (IMonth m) (a ++ m)
| T_week a w : maybe 45 a -> digits 2 w -> date_text (IWeek w) (a ++ [87%N] ++ w)
| T_day a m b d : maybe 45 a -> digits 2 m -> maybe 45 b -> digits 2 d -> date_text (IDay m d) (a ++ m ++ b ++ d)
| T_weekday a w b d : maybe 45 a -> digits 2 w -> maybe 45 b -> digits 1 d -> date_text (IWeekDay w d) (a ++ [87%N] ++ w ++ b ++ d)
| T_ordinal a n : maybe 45 a -> digits 3 n -> date_text (IOrdinal n) (a ++ n).

Inductive clock_text : iclock -> str -> Prop :=
| T_h h : digits 2 h -> clock_text (CHour h) h
| T_hm h a m : digits 2 h -> maybe 58 a -> digits 2 m -> clock_text (CMinute h m) (h ++ a ++ m)
| T_hms h a m b s : digits 2 h -> maybe 58 a -> digits 2 m -> maybe 58 b -> digits 2 s ->
    clock_text (CSecond h m s) (h ++ a ++ m ++ b ++ s)
| T_hmsf h a m b s c f : digits 2 h -> maybe 58 a -> digits 2 m -> maybe 58 b -> digits 2 s ->
    c = 46%N \/ c = 44%N -> f <> [] -> Forall (fun c => dig c = true) f ->
    clock_text (CFrac h m s f) (h ++ a ++ m ++ b ++ s ++ [c] ++ f).

Inductive zone_text : izone -> str -> Prop :=
| T_none : zone_text ZNone []
| T_zulu : zone_text Zulu [90%N]
| T_off g h : g = 43%N \/ g = 45%N -> digits 2 h -> zone_text (ZOff g h None) (g :: h)
| T_offm g h a m : g = 43%N \/ g = 45%N -> digits 2 h -> maybe 58 a -> digits 2 m -> zone_text (ZOff g h (Some m)) (g :: h ++ a ++ m).

Definition whole_day (d : idate) : Prop := match d with IDay _ _ | IWeekDay _ _ | IOrdinal _ => True | _ => False end.

Inductive time_text : option (iclock * izone) -> str -> Prop :=
| T_notime : time_text None []
| T_time k z a b : clock_text k a -> zone_text z b -> time_text (Some (k, z)) (84%N :: a ++ b).

Definition iso_text (i : iso) (s : str) : Prop :=
  exists d t nl, digits 4 (i_year i) /\ date_text (i_date i) d /\ time_text (i_time i) t /\
  (i_time i <> None -> whole_day (i_date i)) /\ maybe 10 nl /\ s = i_year i ++ d ++ t ++ nl.

(** the groups, the last first *)
Definition caps_zone (z : izone) : caps :=
  match z with
  | ZNone => []
  | Zulu => [(g_zulu, [90%N])]
  | ZOff g h None => [(g_tzhour, g :: h)]
  | ZOff g h (Some m) => [(g_tzmin, m); (g_tzhour, g :: h)]
  end.
Definition caps_clock (k : iclock) : caps :=
  match k with
  | CHour h => [(g_hour, h)]
  | CMinute h m => [(g_minute, m); (g_hour, h)]
  | CSecond h m s => [(g_second, s); (g_minute, m); (g_hour, h)]
  | CFrac h m s f => [(g_frac, f); (g_second, s); (g_minute, m); (g_hour, h)]
  end.
Definition caps_time (t : option (iclock * izone)) : caps :=
  match t with None => [] | Some (k, z) => caps_zone z ++ caps_clock k end.
Definition caps_date (d : idate) : caps :=
  match d with
  | IYear => []
  | IMonth m => [(g_month1, m)]
  | IWeek w => [(g_week1, w)]
  | IDay m d => [(g_day, d); (g_month2, m)]
  | IWeekDay w d => [(g_weekday, d); (g_week2, w)]
  | IOrdinal n => [(g_dayofyear, n)]
  end.
Definition caps_of (i : iso) : caps := caps_time (i_time i) ++ caps_date (i_date i) ++ [(g_year, i_year i)].

(** ** The pattern matches just these texts *)

Notation derv := (derives (fun _ => false)).

Lemma d_cls f p s c t p1 s1 c1 : derv (Cls f) p s c t p1 s1 c1 ->
  exists x, s = x :: s1 /\ t = [x] /\ p1 = Some x /\ c1 = c /\ f x = true.
Proof. intros H. inversion H; subst. eauto 10. Qed.

Lemma d_seq a b p s c t p2 s2 c2 : derv (Seq a b) p s c t p2 s2 c2 ->
  exists t1 p1 s1 c1 t2, t = t1 ++ t2 /\ derv a p s c t1 p1 s1 c1 /\ derv b p1 s1 c1 t2 p2 s2 c2.
Proof. intros H. inversion H; subst. eauto 10. Qed.

Lemma d_alt a b p s c t p1 s1 c1 : derv (Alt a b) p s c t p1 s1 c1 -> derv a p s c t p1 s1 c1 \/ derv b p s c t p1 s1 c1.
Proof. intros H. inversion H; subst; auto. Qed.

Lemma d_opt a p s c t p1 s1 c1 : derv (Opt a) p s c t p1 s1 c1 -> derv a p s c t p1 s1 c1 \/ (t = [] /\ p1 = p /\ s1 = s /\ c1 = c).
Proof. intros H. inversion H; subst; auto. Qed.

Lemma d_star f p s c t p1 s1 c1 : derv (Star f) p s c t p1 s1 c1 -> s = t ++ s1 /\ c1 = c /\ Forall (fun x => f x = true) t.
Proof. intros H. inversion H; subst; auto. Qed.

Lemma d_cap n a p s c t p1 s1 c2 : derv (Cap n a) p s c t p1 s1 c2 -> exists c1, c2 = (n, t) :: c1 /\ derv a p s c t p1 s1 c1.
Proof. intros H. inversion H; subst; eauto. Qed.

Lemma d_eos p s c t p1 s1 c1 : derv Eos p s c t p1 s1 c1 -> t = [] /\ s1 = s /\ c1 = c /\ maybe 10 s.
Proof.
  intros H. inversion H; subst. repeat split. unfold maybe.
  match goal with E : at_end ?u = true |- _ => destruct u as [|x [|y u']]; cbn in E; auto; [|discriminate]; apply N.eqb_eq in E end.
  right. congruence.
Qed.

Lemma d_chr x p s c t p1 s1 c1 : derv (chr x) p s c t p1 s1 c1 -> s = x :: s1 /\ t = [x] /\ c1 = c.
Proof. intros H. apply d_cls in H. destruct H as (y & -> & -> & _ & -> & E). apply N.eqb_eq in E. subst. auto. Qed.

Lemma d_opt_chr x p s c t p1 s1 c1 : derv (Opt (chr x)) p s c t p1 s1 c1 -> s = t ++ s1 /\ maybe x t /\ c1 = c.
Proof.
  intros H. apply d_opt in H. destruct H as [H|(-> & _ & -> & ->)].
  - apply d_chr in H. destruct H as (-> & -> & ->). unfold maybe. auto.
  - unfold maybe. auto.
Qed.

Lemma d_d1 p s c t p1 s1 c1 : derv d1 p s c t p1 s1 c1 -> s = t ++ s1 /\ digits 1 t /\ c1 = c.
Proof. intros H. apply d_cls in H. destruct H as (y & -> & -> & _ & -> & E). unfold digits. repeat split; auto. Qed.

Lemma digits_app n m a b : digits n a -> digits m b -> digits (n + m) (a ++ b).
Proof. intros [<- H1] [<- H2]. split; [apply app_length|]. now apply Forall_app. Qed.

Lemma d_more n r p s c t p1 s1 c1 :
  (forall p s c t p1 s1 c1, derv r p s c t p1 s1 c1 -> s = t ++ s1 /\ digits n t /\ c1 = c) ->
  derv (Seq d1 r) p s c t p1 s1 c1 -> s = t ++ s1 /\ digits (S n) t /\ c1 = c.
Proof.
  intros IH H. apply d_seq in H. destruct H as (t1 & q & s0 & c0 & t2 & -> & H1 & H2).
  apply d_d1 in H1. destruct H1 as (-> & D1 & ->). apply IH in H2. destruct H2 as (-> & D2 & ->).
  rewrite app_assoc. split; [reflexivity|]. split; [|reflexivity]. exact (digits_app 1 n _ _ D1 D2).
Qed.

Lemma d_d2 p s c t p1 s1 c1 : derv d2 p s c t p1 s1 c1 -> s = t ++ s1 /\ digits 2 t /\ c1 = c.
Proof. apply d_more. exact d_d1. Qed.
Lemma d_d3 p s c t p1 s1 c1 : derv d3 p s c t p1 s1 c1 -> s = t ++ s1 /\ digits 3 t /\ c1 = c.
Proof. apply d_more. exact d_d2. Qed.
Lemma d_d4 p s c t p1 s1 c1 : derv d4 p s c t p1 s1 c1 -> s = t ++ s1 /\ digits 4 t /\ c1 = c.
Proof. apply d_more. exact d_d3. Qed.

Lemma d_zone p s c t p1 s1 c1 : derv re_zone p s c t p1 s1 c1 -> exists z b, zone_text z b /\ s = b ++ s1 /\ c1 = caps_zone z ++ c.
Proof.
  intros H. apply d_opt in H. destruct H as [H|(-> & _ & -> & ->)]; [|exists ZNone, []; repeat split; constructor].
  apply d_alt in H. destruct H as [H|H].
  - apply d_cap in H. destruct H as (c0 & -> & H). apply d_chr in H. destruct H as (-> & -> & ->). exists Zulu, [90%N]. repeat split. constructor.
  - apply d_seq in H. destruct H as (t1 & q & s0 & c0 & t2 & -> & H1 & H2).
    apply d_cap in H1. destruct H1 as (c' & -> & H1). apply d_seq in H1. destruct H1 as (t3 & q' & s3 & c3 & t4 & -> & H1 & H3).
    apply d_cls in H1. destruct H1 as (g & -> & -> & _ & -> & Eg). apply d_d2 in H3. destruct H3 as (-> & H3 & ->).
    assert (Hg : g = 43%N \/ g = 45%N) by (apply orb_true_iff in Eg; rewrite !N.eqb_eq in Eg; exact Eg).
    apply d_opt in H2. destruct H2 as [H2|(-> & _ & -> & ->)].
    + apply d_seq in H2. destruct H2 as (t5 & q5 & s5 & c5 & t6 & -> & H2 & H4). apply d_opt_chr in H2. destruct H2 as (-> & H2 & ->).
      apply d_cap in H4. destruct H4 as (c6 & -> & H4). apply d_d2 in H4. destruct H4 as (-> & H4 & ->).
      exists (ZOff g t4 (Some t6)), (g :: t4 ++ t5 ++ t6). split; [now constructor|]. split; [|reflexivity].
      cbn [app]. now rewrite <- !app_assoc.
    + exists (ZOff g t4 None), (g :: t4). split; [now constructor|]. split; reflexivity.
Qed.

Lemma d_frac p s c t p1 s1 c1 : derv re_frac p s c t p1 s1 c1 ->
  (s = s1 /\ c1 = c) \/ exists x f, (x = 46%N \/ x = 44%N) /\ f <> [] /\ Forall (fun c => dig c = true) f /\ s = x :: f ++ s1 /\ c1 = (g_frac, f) :: c.
Proof.
  intros H. apply d_opt in H. destruct H as [H|(-> & _ & -> & ->)]; [right|left; auto].
  apply d_seq in H. destruct H as (t1 & q & s0 & c0 & t2 & -> & H1 & H2). apply d_cls in H1. destruct H1 as (g & -> & -> & _ & -> & Eg).
  apply d_cap in H2. destruct H2 as (c' & -> & H2). apply d_seq in H2. destruct H2 as (t3 & q' & s3 & c3 & t4 & -> & H1 & H3).
  apply d_cls in H1. destruct H1 as (y & -> & -> & _ & -> & Ey). apply d_star in H3. destruct H3 as (-> & -> & H3).
  exists g, (y :: t4). repeat split; auto; [|discriminate].
  apply orb_true_iff in Eg; rewrite !N.eqb_eq in Eg; exact Eg.
Qed.

Lemma d_second p s c t p1 s1 c1 : derv re_second p s c t p1 s1 c1 ->
  (s = s1 /\ c1 = c) \/ exists b ss, maybe 58 b /\ digits 2 ss /\
    ((s = b ++ ss ++ s1 /\ c1 = (g_second, ss) :: c) \/
     exists x f, (x = 46%N \/ x = 44%N) /\ f <> [] /\ Forall (fun c => dig c = true) f /\ s = b ++ ss ++ x :: f ++ s1 /\ c1 = (g_frac, f) :: (g_second, ss) :: c).
Proof.
  intros H. apply d_opt in H. destruct H as [H|(-> & _ & -> & ->)]; [right|left; auto].
  apply d_seq in H. destruct H as (t1 & q & s0 & c0 & t2 & -> & H1 & H2). apply d_opt_chr in H1. destruct H1 as (-> & H1 & ->).
  apply d_seq in H2. destruct H2 as (t3 & q' & s3 & c3 & t4 & -> & H2 & H3). apply d_cap in H2. destruct H2 as (c' & -> & H2).
  apply d_d2 in H2. destruct H2 as (-> & H2 & ->). exists t1, t3. split; [exact H1|]. split; [exact H2|].
  apply d_frac in H3. destruct H3 as [(-> & ->)|(x & f & Hx & Hf & Hd & -> & ->)]; [left; auto|right; eauto 10].
Qed.

Lemma d_clock p s c t p1 s1 c1 : derv (Seq (Cap g_hour d2) (Seq re_minute re_zone)) p s c t p1 s1 c1 ->
  exists k z a b, clock_text k a /\ zone_text z b /\ s = a ++ b ++ s1 /\ c1 = caps_zone z ++ caps_clock k ++ c.
Proof.
  intros H. apply d_seq in H. destruct H as (h & q & s0 & c0 & t2 & -> & H1 & H2). apply d_cap in H1. destruct H1 as (c' & -> & H1).
  apply d_d2 in H1. destruct H1 as (-> & H1 & ->). apply d_seq in H2. destruct H2 as (t3 & q' & s3 & c3 & t4 & -> & H2 & H3).
  apply d_zone in H3. destruct H3 as (z & b & Hz & -> & ->).
  apply d_opt in H2. destruct H2 as [H2|(-> & _ & E & ->)].
  - apply d_seq in H2. destruct H2 as (a & q5 & s5 & c5 & t6 & -> & H2 & H4). apply d_opt_chr in H2. destruct H2 as (-> & H2 & ->).
    apply d_seq in H4. destruct H4 as (m & q7 & s7 & c7 & t8 & -> & H4 & H5). apply d_cap in H4. destruct H4 as (c8 & -> & H4).
    apply d_d2 in H4. destruct H4 as (-> & H4 & ->). apply d_second in H5.
    destruct H5 as [(-> & ->)|(bb & ss & Hb & Hs & [(-> & ->)|(x & f & Hx & Hf & Hd & -> & ->)])].
    + exists (CMinute h m), z, (h ++ a ++ m), b. split; [now constructor|]. split; [exact Hz|]. split; [now rewrite <- !app_assoc|reflexivity].
    + exists (CSecond h m ss), z, (h ++ a ++ m ++ bb ++ ss), b. split; [now constructor|]. split; [exact Hz|]. split; [now rewrite <- !app_assoc|reflexivity].
    + exists (CFrac h m ss f), z, (h ++ a ++ m ++ bb ++ ss ++ [x] ++ f), b. split; [now constructor|]. split; [exact Hz|]. split; [|reflexivity].
      rewrite <- !app_assoc. reflexivity.
  - exists (CHour h), z, h, b. split; [now constructor|]. split; [exact Hz|]. split; [now rewrite E|reflexivity].
Qed.

Lemma d_time p s c t p1 s1 c1 : derv re_time p s c t p1 s1 c1 ->
  exists o a, time_text o a /\ s = a ++ s1 /\ c1 = caps_time o ++ c.
Proof.
  intros H. apply d_opt in H. destruct H as [H|(-> & _ & -> & ->)]; [|exists None, []; repeat split; constructor].
  apply d_seq in H. destruct H as (t1 & q & s0 & c0 & t2 & -> & H1 & H2). apply d_chr in H1. destruct H1 as (-> & -> & ->).
  apply d_clock in H2. destruct H2 as (k & z & a & b & Hk & Hz & -> & ->).
  exists (Some (k, z)), (84%N :: a ++ b). split; [now constructor|]. cbn [app caps_time]. rewrite <- !app_assoc. auto.
Qed.

Lemma d_daypart p s c t p1 s1 c1 : derv re_day p s c t p1 s1 c1 ->
  exists d a, date_text d a /\ whole_day d /\ s = a ++ s1 /\ c1 = caps_date d ++ c.
Proof.
  intros H. apply d_alt in H. destruct H as [H|H]; [|apply d_alt in H; destruct H as [H|H]].
  - apply d_seq in H. destruct H as (a & q & s0 & c0 & t2 & -> & H1 & H2). apply d_opt_chr in H1. destruct H1 as (-> & H1 & ->).
    apply d_seq in H2. destruct H2 as (m & q' & s3 & c3 & t4 & -> & H2 & H3). apply d_cap in H2. destruct H2 as (c' & -> & H2).
    apply d_d2 in H2. destruct H2 as (-> & H2 & ->). apply d_seq in H3. destruct H3 as (b & q'' & s5 & c5 & d & -> & H3 & H4).
    apply d_opt_chr in H3. destruct H3 as (-> & H3 & ->). apply d_cap in H4. destruct H4 as (c6 & -> & H4). apply d_d2 in H4. destruct H4 as (-> & H4 & ->).
    exists (IDay m d), (a ++ m ++ b ++ d). split; [now constructor|]. split; [exact I|]. split; [now rewrite <- !app_assoc|reflexivity].
  - apply d_seq in H. destruct H as (a & q & s0 & c0 & t2 & -> & H1 & H2). apply d_opt_chr in H1. destruct H1 as (-> & H1 & ->).
    apply d_seq in H2. destruct H2 as (tw & qw & sw & cw & t2' & -> & Hw & H2). apply d_chr in Hw. destruct Hw as (-> & -> & ->).
    apply d_seq in H2. destruct H2 as (m & q' & s3 & c3 & t4 & -> & H2 & H3). apply d_cap in H2. destruct H2 as (c' & -> & H2).
    apply d_d2 in H2. destruct H2 as (-> & H2 & ->). apply d_seq in H3. destruct H3 as (b & q'' & s5 & c5 & d & -> & H3 & H4).
    apply d_opt_chr in H3. destruct H3 as (-> & H3 & ->). apply d_cap in H4. destruct H4 as (c6 & -> & H4). apply d_d1 in H4. destruct H4 as (-> & H4 & ->).
    exists (IWeekDay m d), (a ++ [87%N] ++ m ++ b ++ d). split; [now constructor|]. split; [exact I|]. split; [|reflexivity].
    rewrite <- !app_assoc. reflexivity.
  - apply d_seq in H. destruct H as (a & q & s0 & c0 & t2 & -> & H1 & H2). apply d_opt_chr in H1. destruct H1 as (-> & H1 & ->).
    apply d_cap in H2. destruct H2 as (c6 & -> & H2). apply d_d3 in H2. destruct H2 as (-> & H2 & ->).
    exists (IOrdinal t2), (a ++ t2). split; [now constructor|]. split; [exact I|]. split; [now rewrite <- !app_assoc|reflexivity].
Qed.

Theorem match_sound s c : iso_match s = Some c -> exists i, iso_text i s /\ c = caps_of i.
Proof.
  intros H. apply mt_sound in H. destruct H as (t & p1 & s1 & c1 & H & E). injection E as ->.
  apply d_seq in H. destruct H as (y & q & s0 & c0 & t2 & -> & H1 & H2). apply d_cap in H1. destruct H1 as (c' & -> & H1).
  apply d_d4 in H1. destruct H1 as (-> & H1 & ->). apply d_seq in H2. destruct H2 as (t3 & q' & s3 & c3 & t4 & -> & H2 & H3).
  apply d_eos in H3. destruct H3 as (-> & -> & -> & Hn).
  assert (Hd : exists d t dt tt, date_text d dt /\ time_text t tt /\ (t <> None -> whole_day d) /\ s0 = dt ++ tt ++ s3 /\ c3 = caps_time t ++ caps_date d ++ [(g_year, y)]).
  { apply d_opt in H2. destruct H2 as [H2|(-> & _ & -> & ->)]; [|exists IYear, None, [], []; repeat split; try constructor; congruence].
    apply d_opt in H2. destruct H2 as [H2|(-> & _ & -> & ->)]; [|exists IYear, None, [], []; repeat split; try constructor; congruence].
    apply d_alt in H2. destruct H2 as [H2|H2]; [|apply d_alt in H2; destruct H2 as [H2|H2]].
    - apply d_seq in H2. destruct H2 as (a & q1 & s4 & c4 & t5 & -> & H2 & H4). apply d_opt_chr in H2. destruct H2 as (-> & H2 & ->).
      apply d_cap in H4. destruct H4 as (c6 & -> & H4). apply d_d2 in H4. destruct H4 as (-> & H4 & ->).
      exists (IMonth t5), None, (a ++ t5), []. split; [now constructor|]. split; [constructor|]. split; [congruence|].
      split; [now rewrite <- !app_assoc|reflexivity].
    - apply d_seq in H2. destruct H2 as (a & q1 & s4 & c4 & t5 & -> & H2 & H4). apply d_opt_chr in H2. destruct H2 as (-> & H2 & ->).
      apply d_seq in H4. destruct H4 as (tw & qw & sw & cw & t2' & -> & Hw & H4). apply d_chr in Hw. destruct Hw as (-> & -> & ->).
      apply d_cap in H4. destruct H4 as (c6 & -> & H4). apply d_d2 in H4. destruct H4 as (-> & H4 & ->).
      exists (IWeek t2'), None, (a ++ [87%N] ++ t2'), []. split; [now constructor|]. split; [constructor|]. split; [congruence|].
      split; [now rewrite <- !app_assoc|reflexivity].
    - apply d_seq in H2. destruct H2 as (td & q1 & s4 & c4 & t5 & -> & H2 & H4). apply d_daypart in H2. destruct H2 as (d & a & Hd & Hw & -> & ->).
      apply d_time in H4. destruct H4 as (o & b & Ho & -> & ->).
      exists d, o, a, b. split; [exact Hd|]. split; [exact Ho|]. split; [auto|]. split; [reflexivity|]. reflexivity. }
  destruct Hd as (d & o & dt & tt & Hd & Ho & Hw & -> & ->).
  exists (Iso y d o). split; [|reflexivity]. exists dt, tt, s3. cbn [i_year i_date i_time]. auto 10.
Qed.

(** the other direction: a text of this form is matched, with these groups *)

Definition fwd (R : re) (u s : str) (c c' : caps) : Prop :=
  forall A (k : str -> option N -> str -> caps -> option A) r p,
  (forall p', k u p' s c' = Some r) -> mt (fun _ => false) R p (u ++ s) c k = Some r.

Definition fails (R : re) (s : str) (c : caps) : Prop :=
  forall A (k : str -> option N -> str -> caps -> option A) p, mt (fun _ => false) R p s c k = None.

Lemma fwd_seq a b u v s c c1 c2 : fwd a u (v ++ s) c c1 -> fwd b v s c1 c2 -> fwd (Seq a b) (u ++ v) s c c2.
Proof. intros Ha Hb A k r p Hk. cbn [mt]. rewrite <- app_assoc. apply Ha. intros p'. apply Hb. exact Hk. Qed.

Lemma fwd_seq_nil a b u s c c1 c2 : fwd a u s c c1 -> fwd b [] s c1 c2 -> fwd (Seq a b) u s c c2.
Proof. intros Ha Hb. pose proof (fwd_seq a b u [] s c c1 c2 Ha Hb) as H. now rewrite app_nil_r in H. Qed.

Lemma fwd_cap n a u s c c1 : fwd a u s c c1 -> fwd (Cap n a) u s c ((n, u) :: c1).
Proof. intros Ha A k r p Hk. cbn [mt]. apply Ha. exact Hk. Qed.

Lemma fwd_opt a u s c c1 : fwd a u s c c1 -> fwd (Opt a) u s c c1.
Proof. intros Ha A k r p Hk. cbn [mt]. now rewrite (Ha _ k r p Hk). Qed.

Lemma fwd_none a s c : fails a s c -> fwd (Opt a) [] s c c.
Proof. intros Ha A k r p Hk. cbn [mt app]. rewrite (Ha _ k p). apply Hk. Qed.

Lemma fwd_left a b u s c c1 : fwd a u s c c1 -> fwd (Alt a b) u s c c1.
Proof. intros Ha A k r p Hk. cbn [mt]. now rewrite (Ha _ k r p Hk). Qed.

Lemma fwd_right a b u s c c1 : fails a (u ++ s) c -> fwd b u s c c1 -> fwd (Alt a b) u s c c1.
Proof. intros Hf Ha A k r p Hk. cbn [mt]. rewrite (Hf _ k p). exact (Ha _ k r p Hk). Qed.

Lemma fwd_cls f x s c : f x = true -> fwd (Cls f) [x] s c c.
Proof. intros H A k r p Hk. cbn [mt app]. rewrite H. apply Hk. Qed.

Lemma fwd_chr x s c : fwd (chr x) [x] s c c.
Proof. apply fwd_cls, N.eqb_refl. Qed.

Lemma fwd_digits n : forall u s c, digits (S n) u ->
  fwd (nat_rect (fun _ => re) d1 (fun _ r => Seq d1 r) n) u s c c.
Proof.
  induction n as [|n IH]; intros u s c [Hl Hd].
  - destruct u as [|x [|]]; try discriminate. apply fwd_cls. exact (Forall_inv Hd).
  - destruct u as [|x u]; [discriminate|]. cbn [nat_rect]. change (x :: u) with ([x] ++ u). eapply fwd_seq; [apply fwd_cls; exact (Forall_inv Hd)|].
    apply IH. split; [now injection Hl|exact (Forall_inv_tail Hd)].
Qed.

Lemma fwd_d1 u s c : digits 1 u -> fwd d1 u s c c. Proof. exact (fwd_digits 0 u s c). Qed.
Lemma fwd_d2 u s c : digits 2 u -> fwd d2 u s c c. Proof. exact (fwd_digits 1 u s c). Qed.
Lemma fwd_d3 u s c : digits 3 u -> fwd d3 u s c c. Proof. exact (fwd_digits 2 u s c). Qed.
Lemma fwd_d4 u s c : digits 4 u -> fwd d4 u s c c. Proof. exact (fwd_digits 3 u s c). Qed.

(** the first character is not [x] *)
Definition not_hd (x : N) (s : str) : Prop := match s with y :: _ => x <> y | [] => True end.
Definition no_digit (s : str) : Prop := match s with y :: _ => dig y = false | [] => True end.

Lemma fwd_maybe x a s c : maybe x a -> not_hd x s -> fwd (Opt (chr x)) a s c c.
Proof.
  intros [->| ->] Hn; [|apply fwd_opt, fwd_chr]. apply fwd_none. intros A k p. destruct s as [|y s]; [reflexivity|].
  cbn. rewrite (proj2 (N.eqb_neq x y) Hn). reflexivity.
Qed.

Lemma fails_chr x s c : not_hd x s -> fails (chr x) s c.
Proof. intros Hn A k p. destruct s as [|y s]; [reflexivity|]. cbn. now rewrite (proj2 (N.eqb_neq x y) Hn). Qed.

Lemma fails_d1 s c : no_digit s -> fails d1 s c.
Proof. intros Hn A k p. destruct s as [|y s]; [reflexivity|]. cbn. unfold no_digit in Hn. now rewrite Hn. Qed.

Lemma fails_seq a b s c : fails a s c -> fails (Seq a b) s c.
Proof. intros H A k p. cbn [mt]. apply H. Qed.

Lemma fails_cap n a s c : fails a s c -> fails (Cap n a) s c.
Proof. intros H A k p. cbn [mt]. apply H. Qed.

Lemma fails_alt a b s c : fails a s c -> fails b s c -> fails (Alt a b) s c.
Proof. intros H1 H2 A k p. cbn [mt]. rewrite (H1 _ k p). apply H2. Qed.

Lemma fails_maybe x b s c : not_hd x s -> fails b s c -> fails (Seq (Opt (chr x)) b) s c.
Proof.
  intros Hn Hb A k p. cbn [mt]. pose proof (fails_chr x s c Hn A (fun t1 p1 s1 c1 => mt (fun _ => false) b p1 s1 c1 (fun t2 p2 s2 c2 => k (t1 ++ t2) p2 s2 c2)) p) as H.
  cbn [mt chr] in H. unfold chr. cbn [mt]. rewrite H. apply Hb.
Qed.

Lemma fwd_star f u : forall s c, Forall (fun x => f x = true) u -> (match s with y :: _ => f y = false | [] => True end) -> fwd (Star f) u s c c.
Proof.
  intros s c Hu Hs A k r p Hk. cbn [mt].
  assert (H : forall u t p, Forall (fun x => f x = true) u -> (forall p', k (t ++ u) p' s c = Some r) -> star f t p (u ++ s) c k = Some r).
  { clear u p Hu Hk. induction u as [|y u IH]; intros t p Hu Hk.
    - rewrite app_nil_r in Hk. destruct s as [|y s]; cbn [app star]; [apply Hk|]. rewrite Hs. apply Hk.
    - cbn [app star]. rewrite (Forall_inv Hu). rewrite (IH (t ++ [y]) (Some y)); [reflexivity|exact (Forall_inv_tail Hu)|].
      intros p'. rewrite <- app_assoc. apply Hk. }
  apply H; [exact Hu|exact Hk].
Qed.

(** digits are none of the punctuation *)
Lemma dig_not x y : dig x = true -> dig y = false -> y <> x.
Proof. intros H1 H2 ->. congruence. Qed.

Lemma dig_45 : dig 45 = false. Proof. reflexivity. Qed.
Lemma dig_87 : dig 87 = false. Proof. reflexivity. Qed.
Lemma dig_84 : dig 84 = false. Proof. reflexivity. Qed.
Lemma dig_58 : dig 58 = false. Proof. reflexivity. Qed.
Lemma dig_10 : dig 10 = false. Proof. reflexivity. Qed.

Lemma not_hd_digits x n u s : digits (S n) u -> dig x = false -> not_hd x (u ++ s).
Proof. intros [Hl Hd] Hx. destruct u as [|y u]; [discriminate|]. cbn. apply dig_not; [exact (Forall_inv Hd)|exact Hx]. Qed.

Lemma nl_hd x nl : maybe 10 nl -> x <> 10%N -> not_hd x nl.
Proof. intros [->| ->] H; cbn; auto. Qed.

Lemma nl_digit nl : maybe 10 nl -> no_digit nl.
Proof. intros [->| ->]; cbn; reflexivity || exact I. Qed.

Lemma zone_fwd z b nl c : zone_text z b -> maybe 10 nl -> fwd re_zone b nl c (caps_zone z ++ c).
Proof.
  intros Hz Hn. destruct Hz as [| |g h Hg Hh|g h a m Hg Hh Ha Hm].
  - apply fwd_none, fails_alt; [apply fails_cap, fails_chr, nl_hd; [exact Hn|discriminate]|].
    apply fails_seq, fails_cap, fails_seq. intros A k p. destruct Hn as [->| ->]; reflexivity.
  - apply fwd_opt, fwd_left. apply fwd_cap. apply fwd_chr.
  - apply fwd_opt, fwd_right.
    { apply fails_cap, fails_chr. destruct Hg as [-> | ->]; cbn; discriminate. }
    eapply fwd_seq_nil.
    + apply fwd_cap. change (g :: h) with ([g] ++ h). eapply fwd_seq; [apply fwd_cls; destruct Hg as [-> | ->]; reflexivity|].
      apply fwd_d2, Hh.
    + apply fwd_none. apply fails_maybe; [apply nl_hd; [exact Hn|discriminate]|].
      apply fails_cap, fails_seq, fails_d1, nl_digit, Hn.
  - apply fwd_opt, fwd_right.
    { apply fails_cap, fails_chr. destruct Hg as [-> | ->]; cbn; discriminate. }
    change (g :: h ++ a ++ m) with ((g :: h) ++ (a ++ m)). eapply fwd_seq.
    + apply fwd_cap. change (g :: h) with ([g] ++ h). eapply fwd_seq; [apply fwd_cls; destruct Hg as [-> | ->]; reflexivity|].
      apply fwd_d2, Hh.
    + apply fwd_opt. eapply fwd_seq; [apply fwd_maybe; [exact Ha|eapply not_hd_digits; [exact Hm|reflexivity]]|].
      apply fwd_cap, fwd_d2, Hm.
Qed.

(** what may follow the clock time *)
Definition clock_end (s : str) : Prop := no_digit s /\ not_hd 58 s /\ not_hd 46 s /\ not_hd 44 s.

Lemma zone_head z b nl : zone_text z b -> maybe 10 nl -> clock_end (b ++ nl).
Proof.
  intros Hz Hn. destruct Hz as [| |g h Hg Hh|g h a m Hg Hh Ha Hm].
  - destruct Hn as [->| ->]; unfold clock_end; cbn; repeat split; discriminate.
  - unfold clock_end; cbn; repeat split; discriminate.
  - destruct Hg as [-> | ->]; unfold clock_end; cbn; repeat split; discriminate.
  - destruct Hg as [-> | ->]; unfold clock_end; cbn; repeat split; discriminate.
Qed.

Lemma frac_fails s c : clock_end s -> fwd re_frac [] s c c.
Proof.
  intros (H1 & H2 & H3 & H4). apply fwd_none, fails_seq. intros A k p. destruct s as [|y s]; [reflexivity|]. cbn in *.
  rewrite (proj2 (N.eqb_neq y 46)) by congruence. rewrite (proj2 (N.eqb_neq y 44)) by congruence. reflexivity.
Qed.

Lemma two_fails x n R s c : clock_end s -> x = 58%N -> fwd (Opt (Seq (Opt (chr x)) (Seq (Cap n d2) R))) [] s c c.
Proof.
  intros (H1 & H2 & H3 & H4) ->. apply fwd_none, fails_maybe; [exact H2|]. apply fails_seq, fails_cap, fails_seq, fails_d1, H1.
Qed.

Lemma clock_fwd k a z b nl c : clock_text k a -> zone_text z b -> maybe 10 nl ->
  fwd (Seq (Cap g_hour d2) (Seq re_minute re_zone)) (a ++ b) nl c (caps_zone z ++ caps_clock k ++ c).
Proof.
  intros Hk Hz Hn. pose proof (zone_head z b nl Hz Hn) as He. pose proof (fun c => zone_fwd z b nl c Hz Hn) as Fz.
  assert (Hd2 : forall n u, digits n u -> (0 < n)%nat -> forall s, not_hd 58 (u ++ s)).
  { intros n u Hu H0 s. destruct n; [lia|]. eapply not_hd_digits; [exact Hu|reflexivity]. }
  destruct Hk as [h Hh|h a m Hh Ha Hm|h a m b' s Hh Ha Hm Hb Hs|h a m b' s x f Hh Ha Hm Hb Hs Hx Hf Hfd].
  - eapply fwd_seq; [apply fwd_cap, fwd_d2, Hh|]. change b with ([] ++ b). eapply fwd_seq; [|apply Fz]. now apply two_fails.
  - rewrite <- app_assoc. eapply fwd_seq; [apply fwd_cap, fwd_d2, Hh|]. eapply fwd_seq; [|apply Fz].
    apply fwd_opt. eapply fwd_seq; [apply fwd_maybe; [exact Ha|rewrite <- ?app_assoc; eapply Hd2; [exact Hm|lia]]|].
    eapply fwd_seq_nil; [apply fwd_cap, fwd_d2, Hm|]. now apply two_fails.
  - rewrite <- app_assoc. eapply fwd_seq; [apply fwd_cap, fwd_d2, Hh|]. eapply fwd_seq; [|apply Fz].
    apply fwd_opt. eapply fwd_seq; [apply fwd_maybe; [exact Ha|rewrite <- ?app_assoc; eapply Hd2; [exact Hm|lia]]|].
    eapply fwd_seq; [apply fwd_cap, fwd_d2, Hm|]. apply fwd_opt.
    eapply fwd_seq; [apply fwd_maybe; [exact Hb|rewrite <- ?app_assoc; eapply Hd2; [exact Hs|lia]]|].
    eapply fwd_seq_nil; [apply fwd_cap, fwd_d2, Hs|]. now apply frac_fails.
  - rewrite <- app_assoc. eapply fwd_seq; [apply fwd_cap, fwd_d2, Hh|]. eapply fwd_seq; [|apply Fz].
    apply fwd_opt. eapply fwd_seq; [apply fwd_maybe; [exact Ha|rewrite <- ?app_assoc; eapply Hd2; [exact Hm|lia]]|].
    eapply fwd_seq; [apply fwd_cap, fwd_d2, Hm|]. apply fwd_opt.
    eapply fwd_seq; [apply fwd_maybe; [exact Hb|rewrite <- ?app_assoc; eapply Hd2; [exact Hs|lia]]|].
    eapply fwd_seq; [apply fwd_cap, fwd_d2, Hs|]. apply fwd_opt. eapply fwd_seq; [apply fwd_cls; destruct Hx as [-> | ->]; reflexivity|].
    apply fwd_cap. destruct f as [|y f]; [congruence|]. change (y :: f) with ([y] ++ f). eapply fwd_seq; [apply fwd_cls; exact (Forall_inv Hfd)|].
    apply fwd_star; [exact (Forall_inv_tail Hfd)|]. destruct He as [He _]. exact He.
Qed.

Lemma time_fwd o t nl c : time_text o t -> maybe 10 nl -> fwd re_time t nl c (caps_time o ++ c).
Proof.
  intros Ho Hn. destruct Ho as [|k z a b Hk Hz].
  - apply fwd_none, fails_seq, fails_chr, nl_hd; [exact Hn|discriminate].
  - apply fwd_opt. change (84%N :: a ++ b) with ([84%N] ++ (a ++ b)). eapply fwd_seq; [apply fwd_chr|].
    cbn [caps_time]. rewrite <- app_assoc. now apply clock_fwd.
Qed.

(** the tail after a date is neither a digit nor a dash *)
Lemma tail_head o t nl : time_text o t -> maybe 10 nl -> no_digit (t ++ nl) /\ not_hd 45 (t ++ nl).
Proof.
  intros Ho Hn. destruct Ho as [|k z a b Hk Hz]; [|cbn; split; [reflexivity|discriminate]].
  cbn [app]. split; [apply nl_digit, Hn|apply nl_hd; [exact Hn|discriminate]].
Qed.

Ltac chars :=
  repeat match goal with
  | H : digits _ ?t |- _ => destruct H as [?Hl ?Hd]; repeat (destruct t as [|? t]; try discriminate);
                            repeat match goal with F : Forall _ (_ :: _) |- _ => pose proof (Forall_inv F); apply Forall_inv_tail in F end
  | H : maybe _ ?t |- _ => destruct H as [H|H]; subst t
  end.

Ltac clash :=
  cbn [app] in *;
  repeat match goal with
  | H : _ :: _ = _ :: _ |- _ => injection H; clear H; intros; subst
  | H : [] = _ :: _ |- _ => discriminate H
  | H : _ :: _ = [] |- _ => discriminate H
  | H : dig 45 = true |- _ => discriminate H
  | H : dig 87 = true |- _ => discriminate H
  | H : dig 10 = true |- _ => discriminate H
  | H : _ = _ |- _ => discriminate H
  | H : ?a = ?b |- _ => subst a || subst b
  end.

Lemma day_fwd d a o t nl c : date_text d a -> whole_day d -> time_text o t -> maybe 10 nl ->
  fwd re_day a (t ++ nl) c (caps_date d ++ c).
Proof.
  intros Hd Hw Ho Hn. destruct (tail_head o t nl Ho Hn) as [Ht1 Ht2]. set (u := t ++ nl) in *. clearbody u.
  destruct Hd as [| | |a m b d Ha Hm Hb Hdd|a w b d Ha Hm Hb Hdd|a n Ha Hm]; try contradiction.
  - apply fwd_left. eapply fwd_seq; [apply fwd_maybe; [exact Ha|rewrite <- ?app_assoc; eapply not_hd_digits; [exact Hm|reflexivity]]|].
    eapply fwd_seq; [apply fwd_cap, fwd_d2, Hm|]. eapply fwd_seq; [apply fwd_maybe; [exact Hb|eapply not_hd_digits; [exact Hdd|reflexivity]]|].
    apply fwd_cap, fwd_d2, Hdd.
  - apply fwd_right.
    { intros A k p. destruct (mt (fun _ => false) (Seq dash (Seq (Cap g_month2 d2) (Seq dash (Cap g_day d2)))) p ((a ++ [87%N] ++ w ++ b ++ d) ++ u) c k) as [x|] eqn:E; [|reflexivity].
      exfalso. apply mt_sound in E. destruct E as (t1 & p1 & s1 & c1 & E & _).
      apply d_seq in E. destruct E as (a' & q & s0 & c0 & t2 & -> & H1 & H2). apply d_opt_chr in H1. destruct H1 as (E & H1 & ->).
      apply d_seq in H2. destruct H2 as (m' & q' & s3 & c3 & t4 & -> & H2 & H3). apply d_cap in H2. destruct H2 as (c' & -> & H2).
      apply d_d2 in H2. destruct H2 as (-> & H2 & ->). clear H3. chars; clash. }
    apply fwd_left. eapply fwd_seq; [apply fwd_maybe; [exact Ha|cbn; discriminate]|].
    eapply fwd_seq; [apply fwd_chr|].
    eapply fwd_seq; [apply fwd_cap, fwd_d2, Hm|]. eapply fwd_seq; [apply fwd_maybe; [exact Hb|eapply not_hd_digits; [exact Hdd|reflexivity]]|].
    apply fwd_cap, fwd_d1, Hdd.
  - apply fwd_right.
    { intros A k p. destruct (mt (fun _ => false) (Seq dash (Seq (Cap g_month2 d2) (Seq dash (Cap g_day d2)))) p ((a ++ n) ++ u) c k) as [x|] eqn:E; [|reflexivity].
      exfalso. apply mt_sound in E. destruct E as (t1 & p1 & s1 & c1 & E & _).
      apply d_seq in E. destruct E as (a' & q & s0 & c0 & t2 & -> & H1 & H2). apply d_opt_chr in H1. destruct H1 as (E & H1 & ->).
      apply d_seq in H2. destruct H2 as (m' & q' & s3 & c3 & t4 & -> & H2 & H3). apply d_cap in H2. destruct H2 as (c' & -> & H2).
      apply d_d2 in H2. destruct H2 as (-> & H2 & ->). apply d_seq in H3. destruct H3 as (b' & q'' & s5 & c5 & d' & -> & H3 & H4).
      apply d_opt_chr in H3. destruct H3 as (-> & H3 & ->). apply d_cap in H4. destruct H4 as (c6 & -> & H4). apply d_d2 in H4. destruct H4 as (-> & H4 & ->).
      chars; clash; cbn in *; congruence. }
    apply fwd_right.
    { intros A k p. destruct (mt (fun _ => false) (Seq dash (Seq (chr 87) (Seq (Cap g_week2 d2) (Seq dash (Cap g_weekday d1))))) p ((a ++ n) ++ u) c k) as [x|] eqn:E; [|reflexivity].
      exfalso. apply mt_sound in E. destruct E as (t1 & p1 & s1 & c1 & E & _).
      apply d_seq in E. destruct E as (a' & q & s0 & c0 & t2 & -> & H1 & H2). apply d_opt_chr in H1. destruct H1 as (E & H1 & ->).
      apply d_seq in H2. destruct H2 as (tw & qw & sw & cw & t2' & -> & Hw' & H2). apply d_chr in Hw'. destruct Hw' as (-> & -> & ->).
      clear H2. chars; clash. }
    eapply fwd_seq; [apply fwd_maybe; [exact Ha|eapply not_hd_digits; [exact Hm|reflexivity]]|]. apply fwd_cap, fwd_d3, Hm.
Qed.

Definition re_body : re := Alt re_month (Alt re_week (Seq re_day re_time)).

Definition at_eos (_ : str) (_ : option N) (s : str) (c : caps) : option caps := if at_end s then Some c else None.

Lemma at_eos_nl nl c t p : maybe 10 nl -> at_eos t p nl c = Some c.
Proof. intros [-> | ->]; reflexivity. Qed.

Lemma at_eos_some t p s c x : at_eos t p s c = Some x -> maybe 10 s.
Proof.
  unfold at_eos, maybe. destruct s as [|y [|z s]]; cbn; auto; [|discriminate]. destruct (N.eqb_spec y 10) as [->|]; [auto|discriminate].
Qed.

Lemma body_day d a o t nl c p : date_text d a -> whole_day d -> time_text o t -> maybe 10 nl ->
  mt (fun _ => false) re_body p (a ++ t ++ nl) c at_eos = Some (caps_time o ++ caps_date d ++ c).
Proof.
  intros Hd Hw Ho Hn. destruct (tail_head o t nl Ho Hn) as [Ht1 Ht2]. unfold re_body.
  cbn [mt].
  assert (Hm : mt (fun _ => false) re_month p (a ++ t ++ nl) c at_eos = None).
  { destruct (mt (fun _ => false) re_month p (a ++ t ++ nl) c at_eos) as [x|] eqn:E; [|reflexivity].
    exfalso. apply mt_sound in E. destruct E as (t1 & p1 & s1 & c1 & E & Ek). apply at_eos_some in Ek.
    apply d_seq in E. destruct E as (a' & q & s0 & c0 & t2 & -> & H1 & H2). apply d_opt_chr in H1. destruct H1 as (E & H1 & ->).
    apply d_cap in H2. destruct H2 as (c' & -> & H2). apply d_d2 in H2. destruct H2 as (-> & H2 & ->).
    set (u := t ++ nl) in *. clearbody u. clear Hn Ho.
    destruct Hd as [| | |a m b d Ha Hm Hb Hdd|a w b d Ha Hm Hb Hdd|a n Ha Hm]; try contradiction; chars; clash. }
  assert (Hk : mt (fun _ => false) re_week p (a ++ t ++ nl) c at_eos = None).
  { destruct (mt (fun _ => false) re_week p (a ++ t ++ nl) c at_eos) as [x|] eqn:E; [|reflexivity].
    exfalso. apply mt_sound in E. destruct E as (t1 & p1 & s1 & c1 & E & Ek). apply at_eos_some in Ek.
    apply d_seq in E. destruct E as (a' & q & s0 & c0 & t2 & -> & H1 & H2). apply d_opt_chr in H1. destruct H1 as (E & H1 & ->).
    apply d_seq in H2. destruct H2 as (tw & qw & sw & cw & t2' & -> & Hw' & H2). apply d_chr in Hw'. destruct Hw' as (-> & -> & ->).
    apply d_cap in H2. destruct H2 as (c' & -> & H2). apply d_d2 in H2. destruct H2 as (-> & H2 & ->).
    set (u := t ++ nl) in *. clearbody u. clear Hn Ho.
    destruct Hd as [| | |a m b d Ha Hm' Hb Hdd|a w b d Ha Hm' Hb Hdd|a n Ha Hm']; try contradiction; chars; clash. }
  rewrite Hm, Hk. refine (day_fwd d a o t nl c Hd Hw Ho Hn _ _ _ _ _). intros p'. cbn beta.
  refine (time_fwd o t nl _ Ho Hn _ _ _ _ _). intros p2. cbn beta. now apply at_eos_nl.
Qed.

Theorem match_complete i s : iso_text i s -> iso_match s = Some (caps_of i).
Proof.
  intros (d & t & nl & Hy & Hd & Ht & Hw & Hn & ->). unfold iso_match.
  change (mt (fun _ => false) (Cap g_year d4) None (i_year i ++ d ++ t ++ nl) []
            (fun t1 p1 s1 c1 => match match mt (fun _ => false) re_body p1 s1 c1 at_eos with Some x => Some x | None => at_eos [] p1 s1 c1 end
                                with Some x => Some x | None => at_eos [] p1 s1 c1 end) = Some (caps_of i)).
  refine (fwd_cap g_year d4 (i_year i) (d ++ t ++ nl) [] [] (fwd_d4 _ _ _ Hy) _ _ _ _ _). intros p0. cbn beta.
  set (c := [(g_year, i_year i)]).
  assert (Hbody : i_date i <> IYear -> mt (fun _ => false) re_body p0 (d ++ t ++ nl) c at_eos = Some (caps_of i)).
  { intros Hi. unfold caps_of. fold c. destruct (i_date i) as [|m|w|m dd|w dd|n] eqn:Edi; [congruence| | | | |].
    - inversion Hd as [|a m' Ha Hm E1 E2| | | |]; subst. destruct (i_time i) as [tt|]; [exfalso; apply Hw; discriminate|]. inversion Ht; subst.
      rewrite app_nil_l. refine (fwd_left _ _ (a ++ m) nl c ((g_month1, m) :: c) _ _ _ _ _ _); [|intros p'; now apply at_eos_nl].
      eapply fwd_seq; [apply fwd_maybe; [exact Ha|eapply not_hd_digits; [exact Hm|reflexivity]]|]. apply fwd_cap, fwd_d2, Hm.
    - inversion Hd as [| |a m' Ha Hm E1 E2| | |]; subst. destruct (i_time i) as [tt|]; [exfalso; apply Hw; discriminate|]. inversion Ht; subst.
      rewrite app_nil_l. refine (fwd_right _ _ (a ++ [87%N] ++ w) nl c ((g_week1, w) :: c) _ _ _ _ _ _ _); [| |intros p'; now apply at_eos_nl].
      + intros A k p. destruct (mt (fun _ => false) re_month p ((a ++ [87%N] ++ w) ++ nl) c k) as [x|] eqn:E; [|reflexivity].
        exfalso. apply mt_sound in E. destruct E as (t1 & p1 & s1 & c1 & E & _).
        apply d_seq in E. destruct E as (a' & q & s0 & c0 & t2 & -> & H1 & H2). apply d_opt_chr in H1. destruct H1 as (E & H1 & ->).
        apply d_cap in H2. destruct H2 as (c' & -> & H2). apply d_d2 in H2. destruct H2 as (-> & H2 & ->). clear Hn Hi c. chars; clash.
      + apply fwd_left. eapply fwd_seq; [apply fwd_maybe; [exact Ha|cbn; discriminate]|]. eapply fwd_seq; [apply fwd_chr|]. apply fwd_cap, fwd_d2, Hm.
    - apply body_day; auto. exact I.
    - apply body_day; auto. exact I.
    - apply body_day; auto. exact I. }
  destruct (i_date i) as [|m|w|m dd|w dd|n] eqn:Edi; try (rewrite Hbody by discriminate; reflexivity).
  inversion Hd; subst. destruct (i_time i) as [tt|] eqn:Et; [exfalso; apply Hw; discriminate|]. inversion Ht; subst. rewrite !app_nil_l.
  assert (E : mt (fun _ => false) re_body p0 nl c at_eos = None) by (destruct Hn as [-> | ->]; reflexivity).
  rewrite E, at_eos_nl by exact Hn. unfold caps_of. now rewrite Et, Edi.
Qed.

(** so the text determines its parts *)
Corollary iso_text_inj i j s : iso_text i s -> iso_text j s -> caps_of i = caps_of j.
Proof. intros H1 H2. apply match_complete in H1, H2. congruence. Qed.
