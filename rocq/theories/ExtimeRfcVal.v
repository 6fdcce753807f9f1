(** * What an RFC 2822 date means: specification and proofs *)

From Coq Require Import ZArith NArith String List Bool Lia ZifyBool ZifyN.
From Verif Require Import Py PyStr PySplit PyNum PyInt Utf8 Cal PyTime Extime ExtimeIso ExtimeIsoVal ExtimeIsoFmt ExtimePosix ExtimeRfc.
Import ListNotations.
Open Scope Z_scope.
Open Scope py_scope.
Open Scope list_scope.

(** ** Specification *)

Definition is_ascii (s : str) : bool := forallb (fun c => (c <? 128)%N) s.

Definition white (b : str) : Prop := Forall (fun c => is_space c = true) b.
Definition word (w : str) : Prop := w <> [] /\ Forall (fun c => is_space c = false) w.

(** a text made of these words with white space between them *)
Inductive spaced : list str -> str -> Prop :=
| SP_end b : white b -> spaced [] b
| SP_word b w ws rest : white b -> word w -> spaced ws rest ->
    match rest with [] => True | c :: _ => is_space c = true end -> spaced (w :: ws) (b ++ w ++ rest).

(** a number in decimal digits *)
Definition num (t : str) (z : Z) : Prop := t <> [] /\ all_digits t = true /\ Z.of_N (dec_val t) = z.

(** the month's English name or its first three letters, in any case *)
Definition full_months : list str := map lit
  ["January"; "February"; "March"; "April"; "May"; "June"; "July"; "August"; "September"; "October"; "November"; "December"]%string.
Definition same_letters (v w : str) : Prop := map ascii_lower v = map ascii_lower w.
Definition month_word (w : str) (m : Z) : Prop :=
  1 <= m <= 12 /\ (same_letters w (at_index full_months (m - 1)) \/ same_letters w (firstn 3 (at_index full_months (m - 1)))).

(** hh:mm or hh:mm:ss *)
Inductive clock_word : str -> Z -> Z -> Z -> Prop :=
| CW_minute a b h m : num a h -> num b m -> clock_word (a ++ lit ":" ++ b) h m 0
| CW_second a b c h m s : num a h -> num b m -> num c s -> clock_word (a ++ lit ":" ++ b ++ lit ":" ++ c) h m s.

(** the zone in minutes: four digits with a sign, or a name of RFC 2822
    section 4.3 (or UTC, Z and the Atlantic zones) *)
Definition zone_names : list (string * Z) :=
  [("UT", 0); ("UTC", 0); ("GMT", 0); ("Z", 0); ("AST", -240); ("ADT", -180); ("EST", -300); ("EDT", -240);
   ("CST", -360); ("CDT", -300); ("MST", -420); ("MDT", -360); ("PST", -480); ("PDT", -420)]%string.
Inductive zone_word : str -> Z -> Prop :=
| ZW_num g a b h m : g = 43%N \/ g = 45%N -> length a = 2%nat -> length b = 2%nat -> num a h -> num b m ->
    zone_word (g :: a ++ b) (if N.eqb g 45 then - (h * 60 + m) else h * 60 + m)
| ZW_name w k m : In (k, m) zone_names -> same_letters w (lit k) -> zone_word w m.

(** the day of the week in front: left out, a word that ends with a comma, or
    before the day of the month with a comma and no space *)
Inductive dated (dd : str) (ws : list str) : list str -> Prop :=
| DT_none : dated dd ws (dd :: ws)
| DT_word d : dated dd ws ((d ++ lit ",") :: dd :: ws)
| DT_glued d : is_ascii d = true -> dated dd ws ((d ++ lit "," ++ dd) :: ws).

(** years of two digits are years of the last or this century *)
Definition century (y : Z) : Z := if y <? 69 then 2000 + y else if y <? 100 then 1900 + y else y.
Definition in_century (f : fields) : fields := F (D (century (d_year (f_date f))) (d_month (f_date f)) (d_day (f_date f))) (f_hour f) (f_min f) (f_sec f) (f_us f).
Lemma in_century_id f : 100 <= d_year (f_date f) -> in_century f = f.
Proof. destruct f as [[y m d] h mi sc us]. unfold in_century, century. cbn. intros H. replace (y <? 69) with false by lia. replace (y <? 100) with false by lia. reflexivity. Qed.


(** a text that writes the date and time [f] with a zone of [off] minutes; no
    zone means UTC *)
Definition rfc_text (f : fields) (off : Z) (s : str) : Prop :=
  exists dd mm yy hms zs ws,
    num dd (d_day (f_date f)) /\ month_word mm (d_month (f_date f)) /\ num yy (d_year (f_date f)) /\
    clock_word hms (f_hour f) (f_min f) (f_sec f) /\ f_us f = 0 /\
    (zs = [] /\ off = 0 \/ exists z, zs = [z] /\ zone_word z off) /\
    dated dd ([mm; yy; hms] ++ zs) ws /\ spaced ws s.

(** what is assumed of [str.lower], [str.upper] and [str.isdigit] *)
Definition lowers (ulower : str -> str) : Prop := forall s, is_ascii s = true -> ulower s = map ascii_lower s.
Definition uppers (uupper : str -> str) : Prop := forall s, is_ascii s = true -> uupper s = map ascii_upper s.
Definition digit_test (uisdigit : N -> bool) : Prop := forall c, is_digit c = true -> uisdigit c = true.

(** ** Words *)

Lemma spaced_split ws s : spaced ws s -> split_ws s = ws.
Proof.
  unfold split_ws. induction 1 as [b Hb|b w ws rest Hb [Hn Hw] _ IH Hr].
  - rewrite <- (app_nil_r b), split_ws_aux_sep by exact Hb. reflexivity.
  - rewrite split_ws_aux_sep by exact Hb. rewrite split_ws_aux_word by exact Hw. rewrite app_nil_r.
    assert (Hne : rev w <> []). { intros E. apply (f_equal (@rev N)) in E. rewrite rev_involutive in E. now apply Hn. }
    destruct rest as [|c rest]; cbn [split_ws_aux] in *.
    + destruct (rev w) eqn:E; [congruence|]. rewrite <- E, rev_involutive. now subst ws.
    + rewrite Hr in *. destruct (rev w) eqn:E; [congruence|]. rewrite <- E, rev_involutive. now rewrite IH.
Qed.

Lemma find_no c s : ~ In c s -> find [c] s = None.
Proof.
  intros H. pose proof (find_spec [c] s) as F. destruct (find [c] s) as [i|]; [|reflexivity].
  destruct F as [(a & b & -> & _) _]. exfalso. apply H. apply in_or_app. right. left. reflexivity.
Qed.

Lemma contains_no c s : ~ In c s -> containsb [c] s = false.
Proof. intros H. unfold containsb. now rewrite find_no. Qed.

Lemma digits_no t c : all_digits t = true -> is_digit c = false -> ~ In c t.
Proof. intros H E I. rewrite (all_digits_In t c H I) in E. discriminate. Qed.

Lemma num_int t z : num t z -> py_int t = Ok z.
Proof.
  intros (Hn & Hd & Hz). destruct (ascii_dig t Hd) as [D1 D2]. rewrite (py_int_digits t Hn D1). unfold uval. now rewrite D2, Hz.
Qed.

Lemma num_nonneg t z : num t z -> 0 <= z. Proof. intros (_ & _ & <-). lia. Qed.

Lemma last_digit t : t <> [] -> all_digits t = true -> last_is 44 t = Ok false /\ ends 44 t = false.
Proof.
  intros Hn Hd. unfold last_is, ends. destruct (rev t) as [|x r] eqn:E.
  - apply (f_equal (@rev N)) in E. rewrite rev_involutive in E. now destruct Hn.
  - assert (I : In x t). { apply in_rev. rewrite E. now left. } apply (all_digits_In t x Hd) in I.
    unfold is_digit in I. replace (x =? 44)%N with false by lia. now split.
Qed.

Lemma num_chop t z : num t z -> chop t = Ok t.
Proof. intros (Hn & Hd & _). unfold chop. now rewrite (proj1 (last_digit t Hn Hd)). Qed.

Lemma num_ascii t : all_digits t = true -> is_ascii t = true.
Proof.
  unfold all_digits, is_ascii. intros H. rewrite forallb_forall in *. intros c Hc. specialize (H c Hc). unfold is_digit in H. lia.
Qed.

Lemma letters_ascii v w : same_letters v w -> is_ascii w = true -> is_ascii v = true.
Proof.
  unfold same_letters, is_ascii. intros E H. rewrite forallb_forall in *. intros c Hc.
  apply (in_map ascii_lower) in Hc. rewrite E in Hc. apply in_map_iff in Hc as (x & Ex & Hx). specialize (H x Hx).
  unfold ascii_lower, is_upper in Ex. destruct ((65 <=? x)%N && (x <=? 90)%N) eqn:E1, ((65 <=? c)%N && (c <=? 90)%N) eqn:E2; lia.
Qed.

Lemma upper_lower c : ascii_upper (ascii_lower c) = ascii_upper c.
Proof.
  unfold ascii_upper, ascii_lower, is_upper, is_lower.
  destruct ((65 <=? c)%N && (c <=? 90)%N) eqn:E1.
  - destruct ((97 <=? c + 32)%N && (c + 32 <=? 122)%N) eqn:E2, ((97 <=? c)%N && (c <=? 122)%N) eqn:E3; lia.
  - reflexivity.
Qed.

Lemma letters_upper v w : same_letters v w -> map ascii_upper v = map ascii_upper w.
Proof.
  intros E. apply (f_equal (map ascii_upper)) in E. rewrite !map_map in E.
  rewrite (map_ext _ _ upper_lower v), (map_ext _ _ upper_lower w) in E. exact E.
Qed.

Section Parse.
  Variable ulower uupper : str -> str.
  Variable uisdigit : N -> bool.
  Hypothesis Hlow : lowers ulower.
  Hypothesis Hup : uppers uupper.
  Hypothesis Hdig : digit_test uisdigit.

  Lemma month_word_index w m : month_word w m -> is_ascii w = true /\ w <> [] /\ month_index (ulower w) = Some m.
  Proof.
    intros [Hm Hw].
    assert (C : m = 1 \/ m = 2 \/ m = 3 \/ m = 4 \/ m = 5 \/ m = 6 \/ m = 7 \/ m = 8 \/ m = 9 \/ m = 10 \/ m = 11 \/ m = 12) by lia.
    assert (G : forall v, is_ascii v = true -> v <> [] -> month_index (map ascii_lower v) = Some m -> same_letters w v ->
      is_ascii w = true /\ w <> [] /\ month_index (ulower w) = Some m).
    { intros v Ha Hn Hi E. pose proof (letters_ascii w v E Ha) as Aw. split; [exact Aw|]. split.
      - intros ->. unfold same_letters in E. cbn [map] in E. destruct v; [congruence|discriminate].
      - rewrite (Hlow w Aw), E. exact Hi. }
    clear Hm. destruct Hw as [Hw|Hw]; (eapply G; [| | |exact Hw]); clear Hw G;
      repeat (destruct C as [->|C]; [first [reflexivity|discriminate]|]); subst m; first [reflexivity|discriminate].
  Qed.

  Lemma clock_word_parts t h m s : clock_word t h m s ->
    chop t = Ok t /\ (exists a b c, clock_parts t = Some (a, b, c) /\ py_int a = Ok h /\ py_int b = Ok m /\ py_int c = Ok s) /\
    find (lit "+") t = None /\ find (lit "-") t = None.
  Proof.
    assert (Hov : no_overlap (lit ":")) by (apply no_overlapb_spec; reflexivity).
    assert (Hnd : forall c, is_digit c = false -> c <> 58%N -> forall t h m s, clock_word t h m s -> ~ In c t).
    { intros c Hc H58 t0 h0 m0 s0 H I. destruct H as [a b ? ? (_ & Da & _) (_ & Db & _)|a b d ? ? ? (_ & Da & _) (_ & Db & _) (_ & Dd & _)];
        repeat (apply in_app_or in I as [I|I]); try (cbn in I; destruct I as [I|I]; [congruence|contradiction]);
        match goal with I : In c ?t, Dt : all_digits ?t = true |- _ => exact (digits_no t c Dt Hc I) end. }
    intros H. assert (Hf : find (lit "+") t = None /\ find (lit "-") t = None).
    { split; apply find_no; eapply Hnd; eauto; discriminate. }
    assert (Hc : ~ In 44%N t) by (eapply Hnd; eauto; discriminate).
    split; [|split; [|exact Hf]].
    - unfold chop, last_is. destruct (rev t) as [|x r] eqn:E.
      + exfalso. apply (f_equal (@rev N)) in E. rewrite rev_involutive in E. subst t. clear - H. inversion H; destruct a; discriminate.
      + assert (I : In x t) by (apply in_rev; rewrite E; now left). cbn [rbind]. destruct (N.eqb_spec x 44) as [->|]; [contradiction|reflexivity].
    - destruct H as [a b h m Ha Hb|a b c h m s Ha Hb Hs]; unfold clock_parts.
      + change (a ++ lit ":" ++ b) with (join (lit ":") [a; b]).
        rewrite split_join; [|exact Hov|discriminate|].
        * exists a, b, (lit "0"). split; [reflexivity|]. rewrite (num_int _ _ Ha), (num_int _ _ Hb). now repeat split.
        * repeat constructor; apply contains_no, digits_no; try reflexivity; [apply Ha|apply Hb].
      + change (a ++ lit ":" ++ b ++ lit ":" ++ c) with (join (lit ":") [a; b; c]).
        rewrite split_join; [|exact Hov|discriminate|].
        * exists a, b, c. split; [reflexivity|]. rewrite (num_int _ _ Ha), (num_int _ _ Hb), (num_int _ _ Hs). now repeat split.
        * repeat constructor; apply contains_no, digits_no; try reflexivity; [apply Ha|apply Hb|apply Hs].
  Qed.

  Lemma zone_word_seconds z off : zone_word z off -> match zone_seconds uupper z with Some v => v | None => 0 end = off * 60.
  Proof.
    intros [g a b h m Hg La Lb Ha Hb|w k m Hk Hw].
    - assert (Hv : Z.of_N (dec_val (a ++ b)) = h * 100 + m /\ 0 <= h /\ 0 <= m < 100 /\ all_digits (a ++ b) = true).
      { destruct Ha as (_ & Da & <-). destruct Hb as (_ & Db & <-). pose proof (dec_val_bound b Db) as Bb. rewrite Lb in Bb. change (10 ^ N.of_nat 2)%N with 100%N in Bb.
        split; [|split; [lia|split; [lia|unfold all_digits in *; now rewrite forallb_app, Da, Db]]].
        destruct b as [|x [|y [|]]]; try discriminate. unfold dec_val. rewrite dec_val_acc_app.
        cbn [dec_val_acc]. generalize (dec_val_acc 0 a). intros n. lia. }
      destruct Hv as (Hv & H0 & Hm & Hd). unfold zone_seconds.
      assert (Hn : a ++ b <> []) by (destruct a; [discriminate|discriminate]).
      assert (Hu : uupper (g :: a ++ b) = g :: a ++ b).
      { rewrite Hup. 2:{ unfold is_ascii. cbn [forallb]. pose proof (num_ascii _ Hd) as A. unfold is_ascii in A. rewrite A. destruct Hg as [-> | ->]; reflexivity. }
        cbn [map]. f_equal; [destruct Hg as [-> | ->]; reflexivity|]. rewrite <- (map_id (a ++ b)) at 2. apply map_ext_in. intros c Hc.
        apply (all_digits_In _ c Hd) in Hc. unfold is_digit in Hc. unfold ascii_upper, is_lower. replace ((97 <=? c)%N && (c <=? 122)%N) with false by lia. reflexivity. }
      cbv zeta. rewrite Hu. replace (lookup_zone (g :: a ++ b) timezones) with (@None Z) by (destruct Hg as [-> | ->]; reflexivity).
      destruct (ascii_dig _ Hd) as [D1 D2]. rewrite (py_int_sign g (a ++ b) Hg Hn D1). unfold uval. rewrite D2, Hv.
      destruct Hg as [-> | ->]; cbn [N.eqb Pos.eqb]; clear - H0 Hm.
      + change (prefixb (lit "-") (43%N :: a ++ b)) with false. rewrite andb_false_r.
        destruct (Z.eqb_spec (h * 100 + m) 0); [lia|]. replace (h * 100 + m <? 0) with false by lia. 
        replace ((h * 100 + m) / 100) with h by lia. replace ((h * 100 + m) mod 100) with m by lia. lia.
      + replace (prefixb (lit "-") (45%N :: a ++ b)) with true by (cbn; now destruct (a ++ b)). rewrite andb_true_r.
        destruct (Z.eqb_spec (- (h * 100 + m)) 0); [lia|]. rewrite Z.opp_involutive. destruct (Z.eqb_spec (- (h * 100 + m)) 0); [lia|].
        replace (- (h * 100 + m) <? 0) with true by lia.
        replace ((h * 100 + m) / 100) with h by lia. replace ((h * 100 + m) mod 100) with m by lia. lia.
    - unfold zone_seconds. assert (A : is_ascii (lit k) = true /\ lookup_zone (map ascii_upper (lit k)) timezones =
        Some (if m <? 0 then - ((- m) / 60 * 100 + (- m) mod 60) else m) /\ -1440 < m <= 0).
      { cbn [In zone_names] in Hk. repeat (destruct Hk as [Hk|Hk]; [injection Hk as <- <-; split; [reflexivity|split; [reflexivity|lia]]|]). contradiction. }
      destruct A as (A & L & B). rewrite (Hup _ (letters_ascii _ _ Hw A)), (letters_upper _ _ Hw). cbv zeta. rewrite L.
      destruct (Z.ltb_spec m 0) as [N|N].
      + set (q := (- m) / 60 * 100 + (- m) mod 60). assert (Q : 0 < q /\ q / 100 * 3600 + q mod 100 * 60 = - m * 60) by (unfold q; clear - B N; lia).
        clearbody q. clear - Q. destruct Q as [Q1 Q2]. destruct (Z.eqb_spec (- q) 0); [lia|]. replace (- q <? 0) with true by lia. rewrite Z.opp_involutive. lia.
      + assert (m = 0) by lia. subst m. reflexivity.
  Qed.

  Lemma after_last_app d t : ~ In 44%N t -> after_last 44 (d ++ lit "," ++ t) = Some t.
  Proof.
    intros H. assert (N : forall u, ~ In 44%N u -> after_last 44 u = None).
    { induction u as [|x u IH]; intros Hu; [reflexivity|]. cbn [after_last]. rewrite IH by (intros I; apply Hu; now right).
      destruct (N.eqb_spec x 44) as [->|]; [exfalso; apply Hu; now left|reflexivity]. }
    induction d as [|x d IH]; cbn [app].
    - change (lit "," ++ t) with (44%N :: t). cbn [after_last]. now rewrite (N t H).
    - cbn [after_last]. now rewrite IH.
  Qed.

  Lemma dated_drop dd z ws ws' : num dd z -> dated dd ws ws' -> drop_day ulower ws' = dd :: ws.
  Proof.
    intros (Hn & Hd & _) H. destruct (last_digit dd Hn Hd) as [_ He]. pose proof (digits_no dd 44%N Hd eq_refl) as H44.
    assert (Hday : forall x t, is_ascii x = true -> In t x -> (t < 65)%N -> memb (ulower x) daynames = false).
    { intros x t Ha Hin Ht. rewrite (Hlow x Ha). match goal with |- ?b = false => destruct b eqn:E end; [|reflexivity]. exfalso.
      apply memb_In in E. assert (It : In t (map ascii_lower x)).
      { apply in_map_iff. exists t. split; [|exact Hin]. unfold ascii_lower, is_upper. replace ((65 <=? t)%N && (t <=? 90)%N) with false by lia. reflexivity. }
      assert (F : forallb (forallb (fun c => (65 <=? c)%N)) daynames = true) by reflexivity.
      rewrite forallb_forall in F. specialize (F _ E). rewrite forallb_forall in F. specialize (F _ It). lia. }
    destruct H as [|d|d Ha]; unfold drop_day.
    - rewrite He. destruct dd as [|c dd0] eqn:Ed; [congruence|]. rewrite <- Ed in *.
      assert (Hc : In c dd) by (rewrite Ed; now left). pose proof (all_digits_In dd c Hd Hc) as Hcd. unfold is_digit in Hcd.
      rewrite (Hday dd c (num_ascii dd Hd) Hc ltac:(lia)). cbn [orb].
      replace (after_last 44 dd) with (@None str); [reflexivity|]. symmetry. clear - H44. induction dd as [|x u IH]; [reflexivity|].
      cbn [after_last]. rewrite IH by (intros I; apply H44; now right). destruct (N.eqb_spec x 44) as [->|]; [exfalso; apply H44; now left|reflexivity].
    - replace (ends 44 (d ++ lit ",")) with true; [reflexivity|]. unfold ends. rewrite rev_app_distr. reflexivity.
    - assert (He' : ends 44 (d ++ lit "," ++ dd) = false).
      { unfold ends in *. rewrite !rev_app_distr, <- app_assoc. destruct (rev dd) as [|x r] eqn:E; [|exact He].
        apply (f_equal (@rev N)) in E. rewrite rev_involutive in E. now destruct Hn. }
      rewrite He'. rewrite (Hday (d ++ lit "," ++ dd) 44%N); [|unfold is_ascii in *; rewrite !forallb_app, Ha; cbn; apply num_ascii, Hd|apply in_or_app; right; now left|lia].
      cbn [orb]. now rewrite after_last_app.
  Qed.

  Lemma rfc_parsed f off s : rfc_text f off s ->
    let x := f_date f in
    parsedate_tz ulower uupper uisdigit s = Ok (Some [century (d_year x); d_month x; d_day x; f_hour f; f_min f; f_sec f; 0; 1; -1; off * 60]).
  Proof.
    intros (dd & mm & yy & hms & zs & ws & Hdd & Hmm & Hyy & Hc & _ & Hz & Hdt & Hs) x. unfold x; clear x. unfold parsedate_tz, parsedate_tz_.
    rewrite (spaced_split _ _ Hs), (dated_drop _ _ _ _ Hdd Hdt).
    destruct (month_word_index _ _ Hmm) as (_ & Hmn & Hmi). destruct (clock_word_parts _ _ _ _ Hc) as (Hch & (a & b & c & Hcp & Ia & Ib & Ic) & Fp & Fm).
    assert (E : exists z, split_zone (rfc850 (dd :: [mm; yy; hms] ++ zs)) = [dd; mm; yy; hms; z] /\ match zone_seconds uupper z with Some v => v | None => 0 end = off * 60).
    { destruct Hz as [[-> ->]|(z & -> & Hz)].
      - exists []. cbn [app rfc850 split_zone]. rewrite Fp, Fm. split; [reflexivity|]. unfold zone_seconds. rewrite Hup by reflexivity. reflexivity.
      - exists z. split; [reflexivity|now apply zone_word_seconds]. }
    destruct E as (z & -> & Hzs).
    pose proof (num_int _ _ Hdd) as Id. pose proof (num_int _ _ Hyy) as Iy. pose proof (num_chop _ _ Hdd) as Cd. pose proof (num_chop _ _ Hyy) as Cy.
    destruct Hdd as (Nd & _ & _). destruct Hyy as (Ny & Dy & _).
    assert (Fy : find (lit ":") yy = None) by (apply find_no, digits_no; [exact Dy|reflexivity]).
    destruct dd as [|d0 dd]; [congruence|]. destruct mm as [|m0 mm]; [congruence|]. destruct yy as [|y0 yy]; [congruence|].
    unfold day_month. rewrite Hmi, Cd. cbn [rbind]. rewrite Fy, Cy. cbn [rbind].
    assert (Hy0 : uisdigit y0 = true) by (apply Hdig; apply (all_digits_In _ y0 Dy); now left). rewrite Hy0, Hch. cbn [rbind].
    rewrite Hcp. unfold all_ints. rewrite Iy, Id, Ia, Ib, Ic. cbn [rbind app]. rewrite Hzs.
    replace (full_year (d_year (f_date f))) with (century (d_year (f_date f))); [reflexivity|]. unfold full_year, century. destruct (Z.ltb_spec (d_year (f_date f)) 69), (Z.ltb_spec (d_year (f_date f)) 100), (Z.ltb_spec 68 (d_year (f_date f))); lia.
  Qed.

  (** a text that writes a date, read as a time *)
  Theorem rfc_reads f off s l : rfc_text f off s -> datetime (in_century f) = Ok l ->
    fromRFC2822 ulower uupper uisdigit s = (t <- fromDatetime (Dt l (Some (off * MINUTE))) ;; Ok (T (t_us t) SECOND)) \/
    fromRFC2822 ulower uupper uisdigit s = Err OverflowError /\ td_ok (off * MINUTE) = false.
  Proof.
    intros H Hl. pose proof (rfc_parsed f off s H) as P. cbv zeta in P. unfold fromRFC2822. rewrite P. cbn [rbind].
    pose proof (proj1 (datetime_Ok (in_century f) l) Hl) as (V & _ & _).
    pose proof (sanitize_valid (in_century f) [0; 1; -1; off * 60] V) as S. cbv zeta in S. unfold in_century in S. cbn [f_date f_hour f_min f_sec d_year d_month d_day] in S. cbv zeta. rewrite S. cbn [last]. rewrite Z.div_mul by discriminate.
    rewrite Z.add_0_l. unfold timedelta_minutes. destruct (td_ok (off * MINUTE)) eqn:T; [left|right; now split]. cbn [rbind].
    rewrite fromStruct_eq. cbn [six_fields firstn rbind].
    assert (E : F (D (century (d_year (f_date f))) (d_month (f_date f)) (d_day (f_date f))) (f_hour f) (f_min f) (f_sec f) 0 = in_century f).
    { unfold in_century. destruct H as (? & ? & ? & ? & ? & ? & _ & _ & _ & _ & H0 & _). destruct f as [[y mo d] h m sc us]. cbn in *. now rewrite H0. }
    rewrite E, Hl. cbn [rbind]. destruct (fromDatetime (Dt l (Some (off * MINUTE)))); reflexivity.
  Qed.
End Parse.
