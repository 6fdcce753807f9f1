(** * The proleptic Gregorian calendar of Python's datetime module

    The standard library's [datetime] is not part of /repo; epsilon/extime.py
    rests on it.  The functions below follow its text (CPython's
    Lib/_pydatetime.py), named as there. *)

From Coq Require Import ZArith List Bool Lia.
Import ListNotations.
Open Scope Z_scope.

Ltac Zify.zify_post_hook ::= Z.to_euclidean_division_equations.

(** ** Specification *)

(** leap years and the lengths of the months *)
Definition leap (y : Z) : bool := (y mod 4 =? 0) && (negb (y mod 100 =? 0) || (y mod 400 =? 0)).

Definition month_length (y m : Z) : Z :=
  if m =? 2 then (if leap y then 29 else 28)
  else if (m =? 4) || (m =? 6) || (m =? 9) || (m =? 11) then 30 else 31.

Record date := D { d_year : Z; d_month : Z; d_day : Z }.

Definition valid_date (x : date) : Prop :=
  1 <= d_month x <= 12 /\ 1 <= d_day x <= month_length (d_year x) (d_month x).

(** the day after *)
Definition next_day (x : date) : date :=
  if d_day x <? month_length (d_year x) (d_month x) then D (d_year x) (d_month x) (d_day x + 1)
  else if d_month x <? 12 then D (d_year x) (d_month x + 1) 1
  else D (d_year x + 1) 1 1.

(** the order of dates *)
Definition date_lt (x y : date) : Prop :=
  d_year x < d_year y \/ d_year x = d_year y /\ (d_month x < d_month y \/ d_month x = d_month y /\ d_day x < d_day y).

(** ** Model *)

(** _DAYS_IN_MONTH, _DAYS_BEFORE_MONTH *)
Definition days_in_month_tab (m : Z) : Z :=
  nth (Z.to_nat m) [-1; 31; 28; 31; 30; 31; 30; 31; 31; 30; 31; 30; 31] (-1).
Definition days_before_month_tab (m : Z) : Z :=
  nth (Z.to_nat m) [-1; 0; 31; 59; 90; 120; 151; 181; 212; 243; 273; 304; 334] (-1).

Definition b2z (b : bool) : Z := if b then 1 else 0.

(** _is_leap *)
Definition is_leap (y : Z) : bool := (y mod 4 =? 0) && (negb (y mod 100 =? 0) || (y mod 400 =? 0)).
(** _days_before_year *)
Definition days_before_year (year : Z) : Z :=
  let y := year - 1 in y * 365 + y / 4 - y / 100 + y / 400.
(** _days_in_month *)
Definition days_in_month (y m : Z) : Z := if (m =? 2) && is_leap y then 29 else days_in_month_tab m.
(** _days_before_month *)
Definition days_before_month (y m : Z) : Z := days_before_month_tab m + b2z ((2 <? m) && is_leap y).
(** _ymd2ord *)
Definition ymd2ord (x : date) : Z := days_before_year (d_year x) + days_before_month (d_year x) (d_month x) + d_day x.

Definition DI400Y := 146097.
Definition DI100Y := 36524.
Definition DI4Y := 1461.

(** _ord2ymd, the month and day part: [n] days after January 1 *)
Definition month_day (leapyear : bool) (n : Z) : Z * Z :=
  let month := Z.shiftr (n + 50) 5 in
  let preceding := days_before_month_tab month + b2z ((2 <? month) && leapyear) in
  if n <? preceding then
    let month := month - 1 in
    let preceding := preceding - (days_in_month_tab month + b2z ((month =? 2) && leapyear)) in
    (month, n - preceding + 1)
  else (month, n - preceding + 1).

(** _ord2ymd *)
Definition ord2ymd (n : Z) : date :=
  let n := n - 1 in
  let n400 := n / DI400Y in let n := n mod DI400Y in
  let year := n400 * 400 + 1 in
  let n100 := n / DI100Y in let n := n mod DI100Y in
  let n4 := n / DI4Y in let n := n mod DI4Y in
  let n1 := n / 365 in let n := n mod 365 in
  let year := year + (n100 * 100 + n4 * 4 + n1) in
  if (n1 =? 4) || (n100 =? 4) then D (year - 1) 12 31
  else
    let leapyear := (n1 =? 3) && (negb (n4 =? 24) || (n100 =? 3)) in
    let '(m, d) := month_day leapyear n in D year m d.

(** ** Proofs *)

Lemma months (P : Z -> Prop) : P 1 -> P 2 -> P 3 -> P 4 -> P 5 -> P 6 -> P 7 -> P 8 -> P 9 -> P 10 -> P 11 -> P 12 ->
  forall m, 1 <= m <= 12 -> P m.
Proof.
  intros. assert (E : m = 1 \/ m = 2 \/ m = 3 \/ m = 4 \/ m = 5 \/ m = 6 \/ m = 7 \/ m = 8 \/ m = 9 \/ m = 10 \/ m = 11 \/ m = 12) by lia.
  repeat (destruct E as [->|E]; [assumption|]). now subst.
Qed.

Lemma month_length_eq y m : 1 <= m <= 12 -> month_length y m = days_in_month y m.
Proof. revert m. apply months; unfold month_length, days_in_month, leap, is_leap; cbn; try reflexivity. Qed.

Lemma before_next y m : 1 <= m < 12 -> days_before_month y (m + 1) = days_before_month y m + month_length y m.
Proof.
  intros H. assert (E : 1 <= m <= 12) by lia. revert m E H. refine (months _ _ _ _ _ _ _ _ _ _ _ _ _); intros H;
    unfold days_before_month, month_length; change (leap y) with (is_leap y); destruct (is_leap y); try lia; reflexivity.
Qed.

Lemma before_jan y : days_before_month y 1 = 0.
Proof. reflexivity. Qed.

Lemma dec_end y : days_before_month y 12 + 31 = 365 + b2z (leap y).
Proof. unfold days_before_month. change (leap y) with (is_leap y). destruct (is_leap y); reflexivity. Qed.

Lemma before_year_next y : days_before_year (y + 1) = days_before_year y + 365 + b2z (leap y).
Proof.
  unfold days_before_year, leap, b2z. cbv zeta.
  destruct (Z.eqb_spec (y mod 4) 0), (Z.eqb_spec (y mod 100) 0), (Z.eqb_spec (y mod 400) 0); cbn [andb orb negb]; lia.
Qed.

(** the ordinal counts days *)
Theorem ord_first : ymd2ord (D 1 1 1) = 1.
Proof. reflexivity. Qed.

Theorem ord_next x : valid_date x -> ymd2ord (next_day x) = ymd2ord x + 1.
Proof.
  destruct x as [y m d]. unfold valid_date, next_day, ymd2ord. cbn [d_year d_month d_day]. intros [Hm Hd].
  destruct (Z.ltb_spec d (month_length y m)); cbn [d_year d_month d_day]; [lia|].
  destruct (Z.ltb_spec m 12); cbn [d_year d_month d_day].
  - rewrite before_next by lia. lia.
  - assert (m = 12) by lia. subst. rewrite before_year_next, before_jan. pose proof (dec_end y).
    assert (month_length y 12 = 31) by reflexivity. lia.
Qed.

Lemma month_length_pos y m : 28 <= month_length y m <= 31.
Proof. unfold month_length. destruct (m =? 2), (leap y), (m =? 4), (m =? 6), (m =? 9), (m =? 11); cbn; lia. Qed.

Theorem next_valid x : valid_date x -> valid_date (next_day x).
Proof.
  destruct x as [y m d]. unfold valid_date, next_day. cbn [d_year d_month d_day]. intros [Hm Hd].
  destruct (Z.ltb_spec d (month_length y m)); cbn [d_year d_month d_day]; [lia|].
  destruct (Z.ltb_spec m 12); cbn [d_year d_month d_day].
  - pose proof (month_length_pos y (m + 1)). lia.
  - pose proof (month_length_pos (y + 1) 1). lia.
Qed.

(** days before a month, and the length of the year *)
Lemma before_month_mono y m m' : 1 <= m -> m < m' -> m' <= 12 -> days_before_month y m + month_length y m <= days_before_month y m'.
Proof.
  intros H1 H2 H3. revert H2 H3. remember (Z.to_nat (m' - m)) as k eqn:Ek. revert m' Ek. induction k as [|k IH]; intros m' Ek H2 H3; [lia|].
  destruct (Z.eq_dec m' (m + 1)) as [->|Hn]; [rewrite before_next by lia; lia|].
  specialize (IH (m' - 1) ltac:(lia) ltac:(lia) ltac:(lia)). replace m' with ((m' - 1) + 1) by lia. rewrite before_next by lia.
  pose proof (month_length_pos y (m' - 1)). lia.
Qed.

Lemma in_year y m d : valid_date (D y m d) -> 1 <= days_before_month y m + d <= 365 + b2z (leap y).
Proof.
  unfold valid_date. cbn [d_year d_month d_day]. intros [Hm Hd]. split.
  - assert (0 <= days_before_month y m); [|lia]. destruct (Z.eq_dec m 1) as [->|]; [now rewrite before_jan|].
    pose proof (before_month_mono y 1 m ltac:(lia) ltac:(lia) ltac:(lia)) as H. pose proof (month_length_pos y 1). rewrite before_jan in H. lia.
  - pose proof (dec_end y). assert (E : month_length y 12 = 31) by reflexivity. destruct (Z.eq_dec m 12) as [->|]; [lia|].
    pose proof (before_month_mono y m 12 ltac:(lia) ltac:(lia) ltac:(lia)). lia.
Qed.

Lemma before_year_mono y y' : y < y' -> days_before_year y + 365 + b2z (leap y) <= days_before_year y'.
Proof.
  intros H. rewrite <- before_year_next. assert (E : y + 1 <= y') by lia. generalize (y + 1) E. intros a Ha.
  unfold days_before_year. cbv zeta. lia.
Qed.

Theorem ord_lt x y : valid_date x -> valid_date y -> (date_lt x y <-> ymd2ord x < ymd2ord y).
Proof.
  assert (F : forall x y, valid_date x -> valid_date y -> date_lt x y -> ymd2ord x < ymd2ord y).
  { clear x y. intros [y m d] [y' m' d'] Hx Hy. pose proof (in_year y m d Hx). pose proof (in_year y' m' d' Hy).
    unfold date_lt, ymd2ord, valid_date in *. cbn [d_year d_month d_day] in *.
    intros [Hlt|[<- [Hlt|[<- Hlt]]]].
    - pose proof (before_year_mono y y' Hlt). lia.
    - pose proof (before_month_mono y m m' ltac:(lia) Hlt ltac:(lia)). lia.
    - lia. }
  intros Hx Hy. split; [now apply F|]. intros Hlt.
  destruct x as [y0 m d], y as [y' m' d']. unfold date_lt. cbn [d_year d_month d_day].
  destruct (Z.lt_trichotomy y0 y') as [H|[H|H]]; [auto| |].
  - destruct (Z.lt_trichotomy m m') as [H1|[H1|H1]]; [auto| |].
    + destruct (Z.lt_trichotomy d d') as [H2|[H2|H2]]; [auto| |].
      * subst. lia.
      * subst. specialize (F (D y' m' d') (D y' m' d) Hy Hx). unfold date_lt in F. cbn [d_year d_month d_day] in F. intuition lia.
    + subst. specialize (F (D y' m' d') (D y' m d) Hy Hx). unfold date_lt in F. cbn [d_year d_month d_day] in F. intuition lia.
  - specialize (F (D y' m' d') (D y0 m d) Hy Hx). unfold date_lt in F. cbn [d_year d_month d_day] in F. intuition lia.
Qed.

Corollary ord_inj x y : valid_date x -> valid_date y -> ymd2ord x = ymd2ord y -> x = y.
Proof.
  intros Hx Hy E. pose proof (ord_lt x y Hx Hy) as H1. pose proof (ord_lt y x Hy Hx) as H2.
  destruct x as [y0 m d], y as [y' m' d']. unfold date_lt in *. cbn [d_year d_month d_day] in *.
  assert (~ (y0 < y')) by (intros Hl; assert (ymd2ord (D y0 m d) < ymd2ord (D y' m' d')) by (apply H1; auto); lia).
  assert (~ (y' < y0)) by (intros Hl; assert (ymd2ord (D y' m' d') < ymd2ord (D y0 m d)) by (apply H2; auto); lia).
  assert (y0 = y') by lia. subst.
  assert (~ (m < m')) by (intros Hl; assert (ymd2ord (D y' m d) < ymd2ord (D y' m' d')) by (apply H1; auto); lia).
  assert (~ (m' < m)) by (intros Hl; assert (ymd2ord (D y' m' d') < ymd2ord (D y' m d)) by (apply H2; auto); lia).
  assert (m = m') by lia. subst. unfold ymd2ord in E. cbn [d_year d_month d_day] in E. f_equal. lia.
Qed.

(** *** [month_day], all 366 days of both kinds of years *)
Definition md_ok (lp : bool) (n : Z) : bool :=
  let '(m, d) := month_day lp n in
  let ml := if m =? 2 then (if lp then 29 else 28) else if (m =? 4) || (m =? 6) || (m =? 9) || (m =? 11) then 30 else 31 in
  (1 <=? m) && (m <=? 12) && (1 <=? d) && (d <=? ml) && (days_before_month_tab m + b2z ((2 <? m) && lp) + d =? n + 1).

Lemma md_all : forallb (fun n => md_ok true (Z.of_nat n)) (seq 0 366) && forallb (fun n => md_ok false (Z.of_nat n)) (seq 0 365) = true.
Proof. vm_compute. reflexivity. Qed.

Lemma md_spec lp n : 0 <= n < 365 + b2z lp -> md_ok lp n = true.
Proof.
  intros H. pose proof md_all as A. apply andb_true_iff in A. destruct A as [A1 A2]. rewrite forallb_forall in A1, A2.
  replace n with (Z.of_nat (Z.to_nat n)) by lia.
  destruct lp; cbn [b2z] in H; [apply A1|apply A2]; apply in_seq; lia.
Qed.

Lemma month_day_spec y n : 0 <= n < 365 + b2z (leap y) ->
  valid_date (D y (fst (month_day (leap y) n)) (snd (month_day (leap y) n))) /\
  days_before_month y (fst (month_day (leap y) n)) + snd (month_day (leap y) n) = n + 1.
Proof.
  intros H. pose proof (md_spec (leap y) n H) as A. unfold md_ok in A. destruct (month_day (leap y) n) as [m d]. cbn [fst snd].
  rewrite !andb_true_iff in A. destruct A as [[[[A1 A2] A3] A4] A5].
  unfold valid_date, month_length, days_before_month. cbn [d_year d_month d_day]. change (is_leap y) with (leap y).
  apply Z.leb_le in A1, A2, A3, A4. apply Z.eqb_eq in A5. lia.
Qed.

Theorem ord2ymd_spec n : valid_date (ord2ymd n) /\ ymd2ord (ord2ymd n) = n.
Proof.
  unfold ord2ymd, DI400Y, DI100Y, DI4Y.
  set (a := (n - 1) / 146097). set (r1 := (n - 1) mod 146097).
  set (b := r1 / 36524). set (r2 := r1 mod 36524).
  set (c := r2 / 1461). set (r3 := r2 mod 1461).
  set (e := r3 / 365). set (r4 := r3 mod 365). cbv zeta.
  assert (E1 : n - 1 = 146097 * a + r1 /\ 0 <= r1 < 146097) by (unfold a, r1; lia).
  assert (E2 : r1 = 36524 * b + r2 /\ 0 <= r2 < 36524) by (unfold b, r2; lia).
  assert (E3 : r2 = 1461 * c + r3 /\ 0 <= r3 < 1461) by (unfold c, r3; lia).
  assert (E4 : r3 = 365 * e + r4 /\ 0 <= r4 < 365) by (unfold e, r4; lia).
  clearbody a r1 b r2 c r3 e r4.
  assert (Hb : 0 <= b <= 4) by lia. assert (Hc : 0 <= c <= 24) by lia. assert (He : 0 <= e <= 4) by lia.
  set (Y := a * 400 + 1 + (b * 100 + c * 4 + e)).
  destruct (Z.eqb_spec e 4) as [He4|He4]; [|destruct (Z.eqb_spec b 4) as [Hb4|Hb4]]; cbn [orb].
  - assert (r4 = 0 /\ (c < 24 \/ b = 3) /\ b <= 3) by lia.
    assert (L : leap (Y - 1) = true).
    { unfold leap, Y. subst e. destruct (Z.eqb_spec ((a * 400 + 1 + (b * 100 + c * 4 + 4) - 1) mod 4) 0); [|lia].
      destruct (Z.eqb_spec ((a * 400 + 1 + (b * 100 + c * 4 + 4) - 1) mod 100) 0); [|reflexivity].
      destruct (Z.eqb_spec ((a * 400 + 1 + (b * 100 + c * 4 + 4) - 1) mod 400) 0); [reflexivity|lia]. }
    split; [split; cbn; lia|]. unfold ymd2ord. cbn [d_year d_month d_day].
    pose proof (dec_end (Y - 1)) as HD. rewrite L in HD. cbn [b2z] in HD. rewrite <- Z.add_assoc, HD.
    unfold days_before_year, Y. lia.
  - assert (r2 = 0 /\ c = 0 /\ e = 0 /\ r4 = 0) by lia.
    assert (L : leap (Y - 1) = true).
    { unfold leap, Y. destruct H as (_ & -> & -> & _). subst b.
      destruct (Z.eqb_spec ((a * 400 + 1 + (4 * 100 + 0 * 4 + 0) - 1) mod 4) 0); [|lia].
      destruct (Z.eqb_spec ((a * 400 + 1 + (4 * 100 + 0 * 4 + 0) - 1) mod 400) 0); [now rewrite orb_true_r|lia]. }
    split; [split; cbn; lia|]. unfold ymd2ord. cbn [d_year d_month d_day].
    pose proof (dec_end (Y - 1)) as HD. rewrite L in HD. cbn [b2z] in HD. rewrite <- Z.add_assoc, HD.
    unfold days_before_year, Y. lia.
  - assert (L : (e =? 3) && (negb (c =? 24) || (b =? 3)) = leap Y).
    { unfold leap, Y. destruct (Z.eqb_spec e 3) as [->|].
      - destruct (Z.eqb_spec ((a * 400 + 1 + (b * 100 + c * 4 + 3)) mod 4) 0); [|lia]. cbn [andb].
        destruct (Z.eqb_spec c 24) as [->|]; cbn [negb orb].
        + destruct (Z.eqb_spec ((a * 400 + 1 + (b * 100 + 24 * 4 + 3)) mod 100) 0); [|lia]. cbn [negb orb].
          destruct (Z.eqb_spec b 3), (Z.eqb_spec ((a * 400 + 1 + (b * 100 + 24 * 4 + 3)) mod 400) 0); try reflexivity; lia.
        + destruct (Z.eqb_spec ((a * 400 + 1 + (b * 100 + c * 4 + 3)) mod 100) 0); [lia|reflexivity].
      - destruct (Z.eqb_spec ((a * 400 + 1 + (b * 100 + c * 4 + e)) mod 4) 0); [lia|reflexivity]. }
    rewrite L. clear L. assert (Hr : 0 <= r4 < 365 + b2z (leap Y)) by (destruct (leap Y); cbn; lia).
    destruct (month_day_spec Y r4 Hr) as [Hv Ho]. destruct (month_day (leap Y) r4) as [m d]. cbn [fst snd] in *.
    split; [exact Hv|]. unfold ymd2ord. cbn [d_year d_month d_day]. rewrite <- Z.add_assoc, Ho.
    unfold days_before_year, Y. lia.
Qed.

Theorem ymd2ord_inv x : valid_date x -> ord2ymd (ymd2ord x) = x.
Proof. intros H. apply ord_inj; [apply ord2ymd_spec|exact H|apply ord2ymd_spec]. Qed.

(** the year of an ordinal *)
Lemma year_bounds n : days_before_year (d_year (ord2ymd n)) < n <= days_before_year (d_year (ord2ymd n) + 1).
Proof.
  destruct (ord2ymd_spec n) as [Hv Ho]. destruct (ord2ymd n) as [y m d]. pose proof (in_year y m d Hv).
  unfold ymd2ord in Ho. cbn [d_year d_month d_day] in *. rewrite before_year_next. lia.
Qed.

Lemma year_range n y1 y2 : y1 <= d_year (ord2ymd n) <= y2 <-> days_before_year y1 < n <= days_before_year (y2 + 1).
Proof.
  pose proof (year_bounds n) as H. split.
  - intros [H1 H2]. split.
    + destruct (Z.eq_dec y1 (d_year (ord2ymd n))) as [->|]; [lia|]. pose proof (before_year_mono y1 (d_year (ord2ymd n)) ltac:(lia)).
      destruct (leap y1); cbn [b2z] in *; lia.
    + destruct (Z.eq_dec y2 (d_year (ord2ymd n))) as [->|]; [lia|].
      pose proof (before_year_mono (d_year (ord2ymd n) + 1) (y2 + 1) ltac:(lia)). destruct (leap (d_year (ord2ymd n) + 1)); cbn [b2z] in *; lia.
  - intros [H1 H2]. split.
    + destruct (Z_lt_ge_dec (d_year (ord2ymd n)) y1) as [Hl|]; [|lia]. exfalso.
      destruct (Z.eq_dec (d_year (ord2ymd n) + 1) y1) as [E|]; [rewrite E in H; lia|].
      pose proof (before_year_mono (d_year (ord2ymd n) + 1) y1 ltac:(lia)). destruct (leap (d_year (ord2ymd n) + 1)); cbn [b2z] in *; lia.
    + destruct (Z_lt_ge_dec y2 (d_year (ord2ymd n))) as [Hl|]; [|lia]. exfalso.
      destruct (Z.eq_dec (y2 + 1) (d_year (ord2ymd n))) as [E|]; [rewrite E in H2; lia|].
      pose proof (before_year_mono (y2 + 1) (d_year (ord2ymd n)) ltac:(lia)). destruct (leap (y2 + 1)); cbn [b2z] in *; lia.
Qed.
