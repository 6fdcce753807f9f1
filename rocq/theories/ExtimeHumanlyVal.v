(** * What the texts people type mean: specification and proofs *)

From Coq Require Import ZArith NArith String List Bool Lia ZifyBool ZifyN.
From Verif Require Import Py PyStr PyNum PyInt Regex Cal PyTime Extime ExtimeIso ExtimeIsoVal ExtimeIsoFmt ExtimeRfc ExtimeRfcVal ExtimeRfcFmt ExtimeHumanly.
Import ListNotations.
Open Scope Z_scope.
Open Scope py_scope.
Open Scope list_scope.

(** ** Specification *)

(** white space around *)
Definition padded (v s : str) : Prop := exists a b, white a /\ white b /\ s = a ++ v ++ b.

(** one of these words, in any case, with its index *)
Definition weekday_names : list str := map lit ["Monday"; "Tuesday"; "Wednesday"; "Thursday"; "Friday"; "Saturday"; "Sunday"]%string.
Definition weekday_text (wd : Z) (s : str) : Prop :=
  0 <= wd < 7 /\ exists pre w, same_letters w (at_index weekday_names wd) /\ padded (pre ++ w) s /\
  (pre = [] \/ exists v b, pre = v ++ b /\ (same_letters v (lit "next") \/ same_letters v (lit "this")) /\ white b /\ b <> []).

Definition word_text (w : string) (s : str) : Prop := exists v, same_letters v (lit w) /\ padded v s.

(** hh:mm, on the 24-hour clock or with am or pm: the hour and the minute of
    the day *)
Definition hour_digits (t : str) (h : Z) : Prop := num t h /\ (length t = 1%nat \/ length t = 2%nat).
Inductive clock_text (s : str) : Z -> Z -> Prop :=
| CT_24 hh mm h m : hour_digits hh h -> num mm m -> length mm = 2%nat -> padded (hh ++ lit ":" ++ mm) s -> clock_text s h m
| CT_am hh mm b w h m : hour_digits hh h -> 1 <= h <= 12 -> num mm m -> length mm = 2%nat -> white b -> same_letters w (lit "am") ->
    padded (hh ++ lit ":" ++ mm ++ b ++ w) s -> clock_text s (h mod 12) m
| CT_pm hh mm b w h m : hour_digits hh h -> 1 <= h <= 12 -> num mm m -> length mm = 2%nat -> white b -> same_letters w (lit "pm") ->
    padded (hh ++ lit ":" ++ mm ++ b ++ w) s -> clock_text s (h mod 12 + 12) m.

(** twelve something in the afternoon *)
Definition noon_hour (s : str) : Prop := exists mm b w m, num mm m /\ length mm = 2%nat /\ white b /\ same_letters w (lit "pm") /\
  padded (lit "12:" ++ mm ++ b ++ w) s.

(** at the instant [i], a clock [off] ahead of UTC shows [h]:[m] *)
Definition shows (off i h m : Z) : Prop := (i + off) mod DAY / MINUTE = h * 60 + m.
(** the start of the minute (of that clock) that holds [i] *)
Definition minute_start (off i : Z) : Z := i - (i + off) mod MINUTE.
(** [u] is the first instant from [start] on at which the clock shows [h]:[m] *)
Definition first_showing (start off h m u : Z) : Prop :=
  start <= u /\ shows off u h m /\ forall i, start <= i -> shows off i h m -> u <= i.

(** ** Matching does not depend on the case of ASCII letters *)

Definition low : str -> str := map ascii_lower.
Definition lowc (c : caps) : caps := map (fun '(n, t) => (n, low t)) c.

Fixpoint folds (r : re) : Prop :=
  match r with
  | Cls f | Star f => forall c, f (ascii_lower c) = f c
  | Seq a b | Alt a b => folds a /\ folds b
  | Opt a | Cap _ a => folds a
  | Eos | Wb => True
  end.

Section Fold.
  Variable word : N -> bool.
  Hypothesis word_fold : forall c, word (ascii_lower c) = word c.

  Lemma star_low R S (g : R -> S) f : (forall c, f (ascii_lower c) = f c) -> forall s t p c k k',
    (forall t p s c, k' (low t) (option_map ascii_lower p) (low s) (lowc c) = option_map g (k t p s c)) ->
    star f (low t) (option_map ascii_lower p) (low s) (lowc c) k' = option_map g (star f t p s c k).
  Proof.
    intros Hf. induction s as [|x s IH]; intros t p c k k' Hk; cbn [star low map].
    - exact (Hk t p [] c).
    - rewrite Hf. destruct (f x).
      + pose proof (IH (t ++ [x]) (Some x) c k k' Hk) as H. unfold low in H. rewrite map_app in H. cbn [map option_map] in H.
        fold low in *. rewrite H. destruct (star f (t ++ [x]) (Some x) s c k); [reflexivity|]. exact (Hk t p (x :: s) c).
      + exact (Hk t p (x :: s) c).
  Qed.

  Lemma mt_low R S (g : R -> S) r : folds r -> forall p s c k k',
    (forall t p s c, k' (low t) (option_map ascii_lower p) (low s) (lowc c) = option_map g (k t p s c)) ->
    mt word r (option_map ascii_lower p) (low s) (lowc c) k' = option_map g (mt word r p s c k).
  Proof.
    induction r as [f|a IHa b IHb|a IHa b IHb|a IHa|f|n a IHa| |]; intros Hr p s c k k' Hk; cbn [mt].
    - destruct s as [|x s]; cbn [low map]; [reflexivity|]. rewrite Hr. destruct (f x); [|reflexivity]. exact (Hk [x] (Some x) s c).
    - apply IHa; [apply Hr|]. intros t1 p1 s1 c1. apply IHb; [apply Hr|]. intros t2 p2 s2 c2. unfold low. rewrite <- map_app. apply Hk.
    - rewrite (IHa (proj1 Hr) p s c k k' Hk), (IHb (proj2 Hr) p s c k k' Hk). destruct (mt word a p s c k); reflexivity.
    - rewrite (IHa Hr p s c k k' Hk). destruct (mt word a p s c k); [reflexivity|]. exact (Hk [] p s c).
    - apply (star_low R S g f Hr s [] p c k k' Hk).
    - apply IHa; [exact Hr|]. intros t p1 s1 c1. exact (Hk t p1 s1 ((n, t) :: c1)).
    - replace (at_end (low s)) with (at_end s). { destruct (at_end s); [exact (Hk [] p s c)|reflexivity]. }
      destruct s as [|x [|y s]]; try reflexivity. cbn. unfold ascii_lower, is_upper. destruct ((65 <=? x)%N && (x <=? 90)%N) eqn:E; lia.
    - replace (at_boundary word (option_map ascii_lower p) (low s)) with (at_boundary word p s).
      + destruct (at_boundary word p s); [exact (Hk [] p s c)|reflexivity].
      + unfold at_boundary. f_equal; [destruct p|destruct s]; cbn; now rewrite ?word_fold.
  Qed.

  Lemma pmatch_low r s : folds r -> pmatch word r (low s) = option_map (fun '(t, c) => (low t, lowc c)) (pmatch word r s).
  Proof. intros Hr. unfold pmatch. apply (mt_low _ _ _ r Hr None s []). reflexivity. Qed.

  (** what is matched is made of the characters of the text *)
  Lemma derives_all (P : N -> Prop) r p s c t p1 s1 c1 : derives word r p s c t p1 s1 c1 ->
    Forall P s -> Forall (fun x => Forall P (snd x)) c -> Forall P t /\ Forall P s1 /\ Forall (fun x => Forall P (snd x)) c1.
  Proof.
    induction 1 as [f p x s c E|a b p s c t1 p1 s1 c1 t2 p2 s2 c2 _ IH1 _ IH2|a b p s c t p1 s1 c1 _ IH|a b p s c t p1 s1 c1 _ IH
      |a p s c t p1 s1 c1 _ IH|a p s c|f p t s c Hf|n a p s c t p1 s1 c1 _ IH|p s c E|p s c E]; intros Hs Hc.
    - inversion Hs; subst. repeat split; auto.
    - destruct (IH1 Hs Hc) as (A1 & A2 & A3). destruct (IH2 A2 A3) as (B1 & B2 & B3). repeat split; auto. now apply Forall_app.
    - auto.
    - auto.
    - auto.
    - auto.
    - apply Forall_app in Hs. destruct Hs. auto.
    - destruct (IH Hs Hc) as (A1 & A2 & A3). repeat split; auto.
    - auto.
    - auto.
  Qed.
End Fold.

Lemma low_fix c : is_upper c = false -> ascii_lower c = c.
Proof. unfold ascii_lower. now intros ->. Qed.

Lemma dig_upper c : is_upper c = true -> dig c = false /\ dig (c + 32) = false /\ is_space c = false /\ is_space (c + 32) = false.
Proof.
  unfold is_upper. intros H.
  assert (E : In c (map N.of_nat (seq 65 26))). { apply in_map_iff. exists (N.to_nat c). split; [lia|]. apply in_seq. lia. }
  cbn in E. repeat (destruct E as [<-|E]; [vm_compute; repeat split; reflexivity|]). destruct E.
Qed.

Lemma dig_low c : dig (ascii_lower c) = dig c.
Proof. unfold ascii_lower. destruct (is_upper c) eqn:E; [|reflexivity]. destruct (dig_upper c E) as (-> & -> & _). reflexivity. Qed.
Lemma space_low c : is_space (ascii_lower c) = is_space c.
Proof. unfold ascii_lower. destruct (is_upper c) eqn:E; [|reflexivity]. destruct (dig_upper c E) as (_ & _ & -> & ->). reflexivity. Qed.
Lemma low_low c : ascii_lower (ascii_lower c) = ascii_lower c.
Proof. unfold ascii_lower. destruct (is_upper c) eqn:E; [|now rewrite E]. replace (is_upper (c + 32)) with false; [reflexivity|]. unfold is_upper in *. lia. Qed.

Lemma ci_low x c : ci x (ascii_lower c) = ci x c.
Proof.
  unfold ci. rewrite low_low. destruct (is_upper c) eqn:E; [|now rewrite low_fix]. unfold is_upper in E.
  unfold ascii_lower. unfold is_upper. rewrite E. lia.
Qed.

Lemma word_low ualnum c : wordc ualnum (ascii_lower c) = wordc ualnum c.
Proof.
  unfold wordc. rewrite dig_low. unfold ascii_lower. destruct (is_upper c) eqn:E; [|now rewrite E].
  replace (is_lower (c + 32)) with true; [now rewrite !orb_true_r|]. unfold is_upper, is_lower in *. lia.
Qed.

Lemma folds_word w : folds (re_word w).
Proof.
  induction w as [|x t IH]; cbn [re_word]; [intros c; reflexivity|].
  destruct t; [intros c; apply ci_low|]. split; [intros c; apply ci_low|exact IH].
Qed.
Lemma folds_words l : folds (re_words l).
Proof.
  induction l as [|w l IH]; cbn [re_words]; [intros c; reflexivity|]. destruct l; [apply folds_word|]. split; [apply folds_word|exact IH].
Qed.
Lemma folds_d1 : folds d1. Proof. exact dig_low. Qed.

Lemma folds_weekday : folds re_weekday.
Proof. split; [exact I|]. split; [split; [apply folds_words|split; exact space_low]|]. split; [apply folds_words|exact I]. Qed.
Lemma folds_days : folds re_days. Proof. split; [exact I|]. split; [apply folds_words|exact I]. Qed.
Lemma folds_noon : folds re_noon. Proof. split; [exact I|]. split; [apply folds_words|exact I]. Qed.
Lemma folds_now : folds re_now. Proof. split; [exact I|]. split; [apply folds_words|exact I]. Qed.
Lemma chr_low x c : is_upper x = false -> is_lower x = false -> (x =? ascii_lower c)%N = (x =? c)%N.
Proof. unfold ascii_lower. destruct (is_upper c) eqn:E; [|reflexivity]. unfold is_upper, is_lower in *. lia. Qed.

Lemma folds_clock : folds re_clock.
Proof.
  split; [exact I|]. split; [split; apply folds_d1|]. split; [intros c; now apply chr_low|]. split; [split; apply folds_d1|].
  split; [|exact I]. split; [exact space_low|apply folds_words].
Qed.

(** numbers have no letters *)
Lemma to_ascii_low c : to_ascii (ascii_lower c) = ascii_lower (to_ascii c).
Proof.
  unfold ascii_lower. destruct (is_upper c) eqn:E.
  - unfold to_ascii. unfold is_upper in E. destruct (N.ltb_spec (c + 32) 127); [|lia]. destruct (N.ltb_spec c 127); [|lia].
    unfold is_upper. rewrite E. reflexivity.
  - unfold to_ascii. destruct (c <? 127)%N eqn:L; [now rewrite E|]. destruct (is_space c); [reflexivity|].
    destruct (decimal_in decimal_zeros c) as [d|] eqn:D; [|reflexivity]. assert (Hd : (d < 10)%N).
    { clear - D. induction decimal_zeros as [|z zs IH]; cbn [decimal_in] in D; [discriminate|].
      destruct ((z <=? c)%N && (c <? z + 10)%N) eqn:E; [injection D as <-; lia|apply IH, D]. }
    unfold is_upper. replace ((65 <=? 48 + d)%N && (48 + d <=? 90)%N) with false by lia. reflexivity.
Qed.

Lemma lstrip_low sp : (forall c, sp (ascii_lower c) = sp c) -> forall s, lstrip sp (low s) = low (lstrip sp s).
Proof. intros H. induction s as [|c s IH]; cbn [low map lstrip]; [reflexivity|]. rewrite H. destruct (sp c); [exact IH|reflexivity]. Qed.
Lemma strip_low sp : (forall c, sp (ascii_lower c) = sp c) -> forall s, strip sp (low s) = low (strip sp s).
Proof. intros H s. unfold strip. rewrite (lstrip_low sp H). unfold low. rewrite <- map_rev. fold low. rewrite (lstrip_low sp H). unfold low. now rewrite map_rev. Qed.

Lemma digits_us_low s : forall acc us, digits_us acc us (low s) = digits_us acc us s.
Proof.
  induction s as [|c s IH]; intros acc us; cbn [low map digits_us]; [reflexivity|].
  unfold ascii_lower. destruct (is_upper c) eqn:E; [|now rewrite !IH].
  unfold is_upper in E. replace (is_digit (c + 32)) with false by (unfold is_digit; lia). replace (is_digit c) with false by (unfold is_digit; lia).
  replace (c + 32 =? 95)%N with false by lia. replace (c =? 95)%N with false by lia. reflexivity.
Qed.

Lemma py_int_low s : py_int (low s) = py_int s.
Proof.
  unfold py_int. assert (E : map to_ascii (low s) = low (map to_ascii s)).
  { unfold low. rewrite !map_map. apply map_ext. apply to_ascii_low. }
  rewrite E, strip_low.
  2:{ intros c. unfold ascii_lower. destruct (is_upper c) eqn:U; [|reflexivity]. unfold is_space_b, is_upper in *. lia. }
  destruct (strip is_space_b (map to_ascii s)) as [|c t]; [reflexivity|]. cbn [low map].
  replace (ascii_lower c =? 45)%N with (c =? 45)%N.
  2:{ unfold ascii_lower. destruct (is_upper c) eqn:U; [|reflexivity]. unfold is_upper in U. lia. }
  replace (ascii_lower c =? 43)%N with (c =? 43)%N.
  2:{ unfold ascii_lower. destruct (is_upper c) eqn:U; [|reflexivity]. unfold is_upper in U. lia. }
  change (map ascii_lower t) with (low t). destruct (c =? 45)%N; [now rewrite digits_us_low|]. destruct (c =? 43)%N; [now rewrite digits_us_low|].
  change (ascii_lower c :: low t) with (low (c :: t)). now rewrite digits_us_low.
Qed.

Lemma group_low n c : group n (lowc c) = option_map low (group n c).
Proof. induction c as [|[m t] c IH]; cbn [lowc map group]; [reflexivity|]. destruct (Nat.eqb n m); [reflexivity|exact IH]. Qed.

Lemma group_all (P : N -> Prop) n c t : Forall (fun x => Forall P (snd x)) c -> group n c = Some t -> Forall P t.
Proof.
  induction 1 as [|[m u] c H _ IH]; cbn [group]; [discriminate|]. destruct (Nat.eqb n m); [|exact IH]. intros E. injection E as <-. exact H.
Qed.

(** ** Arithmetic *)

Lemma replace_Ok l h mi : 0 <= l < MAXT -> 0 <= h < 24 -> 0 <= mi < 60 ->
  replace_clock l h mi 0 0 = Ok (l - l mod DAY + h * HOUR + mi * MINUTE).
Proof.
  intros Hl Hh Hm. unfold replace_clock. set (k := l - l mod DAY + h * HOUR + mi * MINUTE).
  assert (E : fields_of k = F (f_date (fields_of l)) h mi 0 0).
  { assert (Ek : k = (l / DAY) * DAY + (h * HOUR + mi * MINUTE)) by (unfold k, DAY; lia).
    assert (Hr : 0 <= h * HOUR + mi * MINUTE < DAY) by (unfold HOUR, MINUTE, DAY; lia).
    destruct (split_day (l / DAY) _ Hr) as [E1 E2]. rewrite <- Ek in E1, E2.
    destruct (mod_day k) as (M1 & M2 & M3). unfold fields_of. rewrite M1, M2, M3, E2, E1. cbn [f_date].
    destruct (clock h mi 0 0 Hh Hm ltac:(lia) ltac:(lia)) as (C1 & C2 & C3 & C4).
    replace (h * HOUR + mi * MINUTE + 0 * SECOND + 0) with (h * HOUR + mi * MINUTE) in * by lia. rewrite C1, C2, C3, C4. reflexivity. }
  rewrite <- E. apply datetime_fields. unfold k, DAY, HOUR, MINUTE, MAXT in *. unfold DAY in *. lia.
Qed.

Lemma replace_Err l h mi : ~ (0 <= h < 24 /\ 0 <= mi < 60) -> replace_clock l h mi 0 0 = Err ValueError.
Proof. intros H. apply datetime_invalid. intros (_ & _ & H1 & H2 & _). cbn in *. tauto. Qed.

Lemma fields_clock l : 0 <= f_hour (fields_of l) < 24 /\ 0 <= f_min (fields_of l) < 60.
Proof. unfold fields_of, HOUR, MINUTE, DAY. cbn [f_hour f_min]. lia. Qed.

Lemma minute_Ok l : 0 <= l < MAXT -> replace_clock l (f_hour (fields_of l)) (f_min (fields_of l)) 0 0 = Ok (l - l mod MINUTE).
Proof.
  intros H. destruct (fields_clock l) as [A B]. rewrite replace_Ok by assumption. f_equal.
  unfold fields_of, HOUR, MINUTE, DAY. cbn [f_hour f_min]. clear. lia.
Qed.
Lemma hour_Ok l : 0 <= l < MAXT -> replace_clock l (f_hour (fields_of l)) 0 0 0 = Ok (l - l mod HOUR).
Proof.
  intros H. destruct (fields_clock l) as [A B]. rewrite replace_Ok by (assumption || lia). f_equal.
  unfold fields_of, HOUR, MINUTE, DAY. cbn [f_hour f_min]. clear. lia.
Qed.

(** the time of the day [h]:[m] at or after the local time [n], where [n] and
    [l] are in the same day *)
Definition on_or_after (l n h m : Z) : Z :=
  let then_ := l - l mod DAY + h * HOUR + m * MINUTE in if then_ <? n then then_ + DAY else then_.

Lemma after_first l n off h m : 0 <= h < 24 -> 0 <= m < 60 -> l - l mod DAY <= n < l - l mod DAY + DAY -> n mod MINUTE = 0 ->
  first_showing (n - off) off h m (on_or_after l n h m - off).
Proof.
  intros Hh Hm Hn Hn0. unfold on_or_after. cbv zeta. set (D := l - l mod DAY) in *. set (x := h * HOUR + m * MINUTE).
  assert (Hx : 0 <= x < DAY /\ x mod MINUTE = 0 /\ x / MINUTE = h * 60 + m) by (unfold x, HOUR, MINUTE, DAY; lia).
  replace (D + h * HOUR + m * MINUTE) with (D + x) by (unfold x; lia).
  assert (HD : D mod DAY = 0) by (unfold D, DAY; lia).
  clearbody D x. destruct Hx as (Hx & Hx0 & Hx1).
  assert (Hs : forall i, shows off i h m <-> x <= (i + off) mod DAY < x + MINUTE).
  { intros i. unfold shows. rewrite <- Hx1. set (y := (i + off) mod DAY). clearbody y. clear - Hx0. unfold MINUTE in *. lia. }
  unfold first_showing. rewrite Hs.
  assert (Hf : forall i, n - off <= i -> shows off i h m -> D + x <= i + off).
  { intros i Hi Hi2. apply Hs in Hi2. clear - Hi Hi2 Hn HD Hx. unfold DAY, MINUTE in *. lia. }
  destruct (D + x <? n) eqn:E; [apply Z.ltb_lt in E|apply Z.ltb_ge in E].
  - split; [unfold DAY in *; lia|]. split.
    + replace (D + x + DAY - off + off) with (D + x + DAY) by lia. clear - HD Hx. unfold DAY, MINUTE in *. lia.
    + intros i Hi Hi2. pose proof (Hf i Hi Hi2) as F. apply Hs in Hi2. clear - Hi Hi2 Hn HD Hx E F Hx0 Hn0.
      destruct (Z_lt_le_dec (i + off) (D + DAY)) as [L|L].
      * exfalso. assert (Hd : (i + off) mod DAY = i + off - D) by (clear - L HD F Hx; unfold DAY in *; lia). rewrite Hd in Hi2.
        assert (HD0 : D mod MINUTE = 0) by (clear - HD; unfold DAY, MINUTE in *; lia). clear - Hi Hi2 E Hx0 Hn0 HD0. unfold MINUTE in *. lia.
      * unfold DAY, MINUTE in *. lia.
  - split; [lia|]. split.
    + replace (D + x - off + off) with (D + x) by lia. clear - HD Hx. unfold DAY, MINUTE in *. lia.
    + intros i Hi Hi2. pose proof (Hf i Hi Hi2). lia.
Qed.

(** ** Texts that match *)

Section Fwd.
  Variable word : N -> bool.

  (** the pattern takes [u] and leaves [s] *)
  Definition fwdw (R : re) (p : option N) (u s : str) (c c' : caps) : Prop :=
    forall A (k : str -> option N -> str -> caps -> option A) r,
    k u (last_of u p) s c' = Some r -> mt word R p (u ++ s) c k = Some r.
  Definition failsw (R : re) (p : option N) (s : str) (c : caps) : Prop :=
    forall A (k : str -> option N -> str -> caps -> option A), mt word R p s c k = None.

  Lemma last_app u v p : last_of (u ++ v) p = last_of v (last_of u p).
  Proof. unfold last_of. rewrite rev_app_distr. destruct (rev v); reflexivity. Qed.

  Lemma fw_seq a b p u v s c c1 c2 : fwdw a p u (v ++ s) c c1 -> fwdw b (last_of u p) v s c1 c2 -> fwdw (Seq a b) p (u ++ v) s c c2.
  Proof. intros Ha Hb A k r Hk. cbn [mt]. rewrite <- app_assoc. apply Ha. apply Hb. rewrite <- last_app. exact Hk. Qed.
  Lemma fw_cap n a p u s c c1 : fwdw a p u s c c1 -> fwdw (Cap n a) p u s c ((n, u) :: c1).
  Proof. intros Ha A k r Hk. cbn [mt]. apply Ha. exact Hk. Qed.
  Lemma fw_opt a p u s c c1 : fwdw a p u s c c1 -> fwdw (Opt a) p u s c c1.
  Proof. intros Ha A k r Hk. cbn [mt]. now rewrite (Ha _ k r Hk). Qed.
  Lemma fw_none a p s c : failsw a p s c -> fwdw (Opt a) p [] s c c.
  Proof. intros Ha A k r Hk. cbn [mt app]. rewrite (Ha _ k). exact Hk. Qed.
  Lemma fw_cls f p x s c : f x = true -> fwdw (Cls f) p [x] s c c.
  Proof. intros H A k r Hk. cbn [mt app]. rewrite H. exact Hk. Qed.
  Lemma fw_wb p s c : at_boundary word p s = true -> fwdw Wb p [] s c c.
  Proof. intros H A k r Hk. cbn [mt app]. rewrite H. exact Hk. Qed.
  Lemma fw_star f u : forall p s c, Forall (fun x => f x = true) u -> (match s with y :: _ => f y = false | [] => True end) -> fwdw (Star f) p u s c c.
  Proof.
    intros p s c Hu Hs A k r Hk. cbn [mt].
    assert (H : forall u t p, Forall (fun x => f x = true) u -> k (t ++ u) (last_of u p) s c = Some r -> star f t p (u ++ s) c k = Some r).
    { clear u p Hu Hk. induction u as [|y u IH]; intros t p Hu Hk.
      - rewrite app_nil_r in Hk. destruct s as [|y s]; cbn [app star]; [apply Hk|]. rewrite Hs. apply Hk.
      - cbn [app star]. rewrite (Forall_inv Hu). rewrite (IH (t ++ [y]) (Some y)); [reflexivity|exact (Forall_inv_tail Hu)|].
        rewrite <- app_assoc. change (y :: u) with ([y] ++ u) in Hk. rewrite last_app in Hk. exact Hk. }
    apply H; [exact Hu|exact Hk].
  Qed.

  Lemma fail_words l p x s c : Forall (fun w => match w with a :: _ => ci a x = false | [] => False end) l -> l <> [] ->
    failsw (re_words l) p (x :: s) c.
  Proof.
    intros H Hn A k. induction H as [|w l Hw Hl IH]; [congruence|]. destruct w as [|a w]; [destruct Hw|].
    assert (E : mt word (re_word (a :: w)) p (x :: s) c k = None). { destruct w; cbn [re_word mt]; now rewrite Hw. }
    destruct l as [|v l]; [exact E|]. change (re_words ((a :: w) :: v :: l)) with (Alt (re_word (a :: w)) (re_words (v :: l))). cbn [mt]. rewrite E. apply IH. discriminate.
  Qed.
End Fwd.

(** no letter *)
Lemma ci_digit a x : is_digit x = true -> is_lower a = true -> ci a x = false.
Proof. unfold ci, is_digit, is_lower, ascii_lower, is_upper. intros H1 H2. destruct ((65 <=? x)%N && (x <=? 90)%N) eqn:E; lia. Qed.

Lemma digit_dig x : is_digit x = true -> dig x = true.
Proof.
  unfold is_digit. intros H. assert (E : In x (map N.of_nat (seq 48 10))). { apply in_map_iff. exists (N.to_nat x). split; [lia|]. apply in_seq. lia. }
  cbn in E. repeat (destruct E as [<-|E]; [vm_compute; reflexivity|]). destruct E.
Qed.

Lemma white_low b : white b -> low b = b.
Proof.
  induction 1 as [|c b H _ IH]; cbn [low map]; [reflexivity|]. fold low. f_equal; [|exact IH]. apply low_fix.
  destruct (is_upper c) eqn:E; [|reflexivity]. destruct (dig_upper c E) as (_ & _ & E1 & _). congruence.
Qed.
Lemma digits_low t : all_digits t = true -> low t = t.
Proof.
  unfold all_digits, low. intros H. rewrite forallb_forall in H. rewrite <- (map_id t) at 2. apply map_ext_in. intros c Hc.
  apply low_fix. specialize (H c Hc). unfold is_digit, is_upper in *. lia.
Qed.

(** ** White space around *)

Definition starts_solid (v : str) : Prop := match v with c :: _ => is_space c = false | [] => False end.
Definition solid (v : str) : Prop := starts_solid v /\ starts_solid (rev v).

Lemma lstrip_white a s : white a -> lstrip is_space (a ++ s) = lstrip is_space s.
Proof. induction 1 as [|c a H _ IH]; cbn [app lstrip]; [reflexivity|]. now rewrite H. Qed.

Lemma strip_padded v s : solid v -> padded v s -> strip is_space s = v.
Proof.
  intros Hv (a & b & Ha & Hb & ->). unfold strip. rewrite lstrip_white by exact Ha. destruct Hv as [H1 H2].
  destruct v as [|c v]; [destruct H1|]. destruct (rev (c :: v)) as [|d r] eqn:E; [destruct H2|]. cbn [starts_solid] in *.
  cbn [app lstrip]. rewrite H1. change (c :: v ++ b) with ((c :: v) ++ b). rewrite rev_app_distr, lstrip_white by (apply Forall_rev; exact Hb).
  rewrite E. cbn [lstrip]. rewrite H2, <- E. apply rev_involutive.
Qed.

Lemma solid_low v : solid (low v) -> solid v.
Proof.
  unfold solid. assert (E : rev (low v) = low (rev v)) by (unfold low; now rewrite map_rev). rewrite E.
  assert (L : forall u, starts_solid (low u) -> starts_solid u) by (intros [|c u]; cbn; [auto|now rewrite space_low]).
  intros [H1 H2]. split; apply L; assumption.
Qed.

Section Human.
  Variable ulower : str -> str.
  Variable ualnum : N -> bool.
  Hypothesis low_ok : lowers ulower.

  Notation tries := (try_patterns ualnum).
  Notation human := (fromHumanly ulower ualnum).

  Definition asc (c : N) : Prop := (c <? 128)%N = true.
  Lemma asc_all s : is_ascii s = true <-> Forall asc s.
  Proof. unfold is_ascii, asc. rewrite forallb_forall, Forall_forall. reflexivity. Qed.

  Lemma ulow s : Forall asc s -> ulower (low s) = ulower s.
  Proof.
    intros H. rewrite !low_ok.
    - unfold low. rewrite map_map. apply map_ext, low_low.
    - now apply asc_all.
    - apply asc_all. unfold low. apply Forall_map. eapply Forall_impl; [|exact H]. intros c. unfold asc, ascii_lower, is_upper.
      destruct ((65 <=? c)%N && (c <=? 90)%N) eqn:E; lia.
  Qed.

  (** a creator does not look at the case *)
  Definition case_free (f : str -> caps -> Z -> time -> res time) : Prop := forall t c tz now,
    Forall asc t -> Forall (fun x => Forall asc (snd x)) c -> f (low t) (lowc c) tz now = f t c tz now.

  Lemma patterns_free : Forall (fun '(r, f) => folds r /\ case_free f) (humanlyPatterns ulower).
  Proof.
    repeat constructor; try apply folds_weekday; try apply folds_days; try apply folds_clock; try apply folds_noon; try apply folds_now.
    - intros t c tz now Ht Hc. unfold fromWeekday. rewrite group_low. destruct (group g_wday c) as [w|] eqn:E; cbn [option_map]; [|reflexivity].
      rewrite ulow; [reflexivity|]. eapply group_all; eassumption.
    - intros t c tz now Ht Hc. unfold fromTodayOrTomorrow. now rewrite ulow.
    - intros t c tz now Ht Hc. unfold fromTime. rewrite !group_low. destruct (group g_hh c) as [hh|]; cbn [option_map]; [|reflexivity].
      destruct (group g_mm c) as [mm|]; cbn [option_map]; [|reflexivity]. rewrite !py_int_low.
      destruct (group g_ampm c) as [a|] eqn:E; cbn [option_map]; [|reflexivity]. rewrite ulow; [reflexivity|]. eapply group_all; eassumption.
    - intros t c tz now Ht Hc. unfold fromNoonOrMidnight. now rewrite ulow.
  Qed.

  Lemma tries_low l s tz now : Forall (fun '(r, f) => folds r /\ case_free f) l -> Forall asc s -> tries l (low s) tz now = tries l s tz now.
  Proof.
    intros Hl Hs. induction Hl as [|[r f] l [Hr Hf] Hl IH]; cbn [try_patterns]; [reflexivity|].
    rewrite pmatch_low by (exact Hr || apply word_low). destruct (pmatch (wordc ualnum) r s) as [[t c]|] eqn:E; cbn [option_map]; [|exact IH].
    unfold low at 1 2. rewrite !map_length. fold low. destruct (negb (length t =? length s)%nat); [exact IH|].
    apply pmatch_derives in E. destruct E as (p1 & s1 & D). destruct (derives_all _ asc _ _ _ _ _ _ _ _ D Hs (Forall_nil _)) as (A & _ & B).
    rewrite Hf by assumption. rewrite IH. reflexivity.
  Qed.

  (** the case of ASCII letters does not matter *)
  Theorem human_case s tz now : is_ascii s = true -> human (low s) tz now = human s tz now.
  Proof.
    intros H. unfold fromHumanly. rewrite (strip_low is_space space_low). apply tries_low; [exact patterns_free|].
    apply asc_all in H. clear - H. unfold strip. apply Forall_rev.
    assert (L : forall u, Forall asc u -> Forall asc (lstrip is_space u)).
    { induction u as [|c u IH]; intros Hu; cbn [lstrip]; [constructor|]. destruct (is_space c); [apply IH; exact (Forall_inv_tail Hu)|exact Hu]. }
    apply L, Forall_rev, L, H.
  Qed.

  (** ** Reading *)

  Lemma human_padded v s tz now : solid v -> padded v s ->
    human s tz now = tries (humanlyPatterns ulower) v (match tz with None => 0 | Some o => o end) now.
  Proof. intros Hv Hp. unfold fromHumanly. now rewrite (strip_padded v s Hv Hp). Qed.

  Lemma letters_low v w : same_letters v w -> low w = w -> low v = w.
  Proof. unfold same_letters. fold low. congruence. Qed.

  Lemma human_word w s tz now : word_text w s -> low (lit w) = lit w -> solid (lit w) -> is_ascii (lit w) = true ->
    human s tz now = tries (humanlyPatterns ulower) (lit w) (match tz with None => 0 | Some o => o end) now.
  Proof.
    intros (v & Hv & Hp) Hl Hs Ha. pose proof (letters_low v _ Hv Hl) as E. rewrite (human_padded v s tz now).
    - rewrite <- E. symmetry. apply tries_low; [exact patterns_free|]. apply asc_all. eapply letters_ascii; eassumption.
    - apply solid_low. now rewrite E.
    - exact Hp.
  Qed.

  Ltac pick := cbn [try_patterns humanlyPatterns];
    repeat match goal with |- context [pmatch (wordc ualnum) ?r ?s] =>
      let v := eval vm_compute in (pmatch (wordc ualnum) r s) in
      change (pmatch (wordc ualnum) r s) with v; cbn [length Nat.eqb negb] end.

  Lemma days_result now when d : ok_time now ->
    fromTodayOrTomorrow ulower when [] d now =
      l <- (if eqb (ulower when) (lit "tomorrow") then add_td (t_us now - t_us now mod DAY) DAY
          else if eqb (ulower when) (lit "yesterday") then add_td (t_us now - t_us now mod DAY) (- DAY)
          else if eqb (ulower when) (lit "today") then Ok (t_us now - t_us now mod DAY) else Err AssertionError) ;;
      Ok (T l DAY).
  Proof.
    intros Hn. unfold fromTodayOrTomorrow. rewrite (asDatetime_utc _ Hn). cbn [rbind dt_local dt_tz].
    rewrite replace_Ok by (exact Hn || lia). cbn [rbind]. replace (t_us now - t_us now mod DAY + 0 * HOUR + 0 * MINUTE) with (t_us now - t_us now mod DAY) by lia.
    assert (Hm : 0 <= t_us now - t_us now mod DAY < MAXT) by (unfold ok_time, DAY in *; lia).
    assert (F : forall l, 0 <= l < MAXT -> fromDatetime (Dt l (Some 0)) = Ok (T l 1)).
    { intros l Hl. apply fromDatetime_Ok. rewrite Z.sub_0_r. unfold DAY. repeat split; lia. }
    destruct (eqb (ulower when) (lit "tomorrow")).
    { destruct (add_td _ DAY) as [l|e] eqn:E; cbn [rbind]; [|reflexivity]. apply add_td_Ok in E. now rewrite F. }
    destruct (eqb (ulower when) (lit "yesterday")).
    { destruct (add_td _ (- DAY)) as [l|e] eqn:E; cbn [rbind]; [|reflexivity]. apply add_td_Ok in E. now rewrite F. }
    destruct (eqb (ulower when) (lit "today")); cbn [rbind]; [|reflexivity]. now rewrite F.
  Qed.

  Theorem human_today s tz now : ok_time now -> word_text "today" s -> human s tz now = Ok (T (t_us now - t_us now mod DAY) DAY).
  Proof.
    intros Hn H. rewrite (human_word _ _ _ _ H) by (vm_compute; auto). pick. rewrite days_result by exact Hn.
    rewrite low_ok by reflexivity. reflexivity.
  Qed.

  Theorem human_tomorrow s tz now : ok_time now -> t_us now + DAY < MAXT -> word_text "tomorrow" s ->
    human s tz now = Ok (T (t_us now - t_us now mod DAY + DAY) DAY).
  Proof.
    intros Hn Hr H. rewrite (human_word _ _ _ _ H) by (vm_compute; auto). pick. rewrite days_result by exact Hn.
    rewrite low_ok by reflexivity. cbn -[add_td DAY]. rewrite (proj2 (add_td_Ok _ DAY (t_us now - t_us now mod DAY + DAY))); [reflexivity|].
    unfold ok_time, DAY in *. lia.
  Qed.

  Theorem human_yesterday s tz now : ok_time now -> DAY <= t_us now -> word_text "yesterday" s ->
    human s tz now = Ok (T (t_us now - t_us now mod DAY - DAY) DAY).
  Proof.
    intros Hn Hr H. rewrite (human_word _ _ _ _ H) by (vm_compute; auto). pick. rewrite days_result by exact Hn.
    rewrite low_ok by reflexivity. cbn -[add_td DAY]. rewrite (proj2 (add_td_Ok _ (- DAY) (t_us now - t_us now mod DAY - DAY))); [reflexivity|].
    unfold ok_time, DAY in *. lia.
  Qed.

  Theorem human_now s tz now : ok_time now -> word_text "now" s -> human s tz now = Ok (T (t_us now) 1).
  Proof.
    intros Hn H. rewrite (human_word _ _ _ _ H) by (vm_compute; auto). pick.
    unfold fromNow. rewrite (proj2 (add_spec now 0 (T (t_us now) 1))); [reflexivity|]. split; [f_equal; lia|exact Hn].
  Qed.

  (** the local time of [now] *)
  Definition roomy (now : time) (off : Z) : Prop :=
    isTimezoneDependent now = true /\ DAY <= t_us now /\ t_us now + 2 * DAY < MAXT /\ - DAY < off < DAY.

  Lemma roomy_local now off : roomy now off -> asDatetime now (Some off) = Ok (Dt (t_us now + off) (Some off)) /\ 0 <= t_us now + off < MAXT.
  Proof.
    intros (H1 & H2 & H3 & H4). assert (0 <= t_us now + off < MAXT) by (unfold MAXT, DAY in *; lia). split; [|assumption].
    apply asDatetime_Ok; [exact H1|]. unfold ok_time. repeat split; unfold MAXT, DAY in *; lia.
  Qed.

  Lemma then_result now off n h m : roomy now off -> t_us now + off - HOUR < n <= t_us now + off -> 0 <= n ->
    0 <= h < 24 -> 0 <= m < 60 -> let L := t_us now + off in
    (l <- (if L - L mod DAY + h * HOUR + m * MINUTE <? n then add_td (L - L mod DAY + h * HOUR + m * MINUTE) DAY
           else Ok (L - L mod DAY + h * HOUR + m * MINUTE)) ;;
     self <- fromDatetime (Dt l (Some off)) ;; Ok (T (t_us self) MINUTE)) = Ok (T (on_or_after L n h m - off) MINUTE).
  Proof.
    intros (H1 & H2 & H3 & H4) Hn Hn0 Hh Hm L. unfold on_or_after.
    assert (Hx : 0 <= h * HOUR + m * MINUTE < DAY) by (unfold HOUR, MINUTE, DAY; lia).
    assert (HL : 0 <= L mod DAY < DAY) by (unfold DAY; lia).
    assert (F : forall l, 0 <= l - off < MAXT -> fromDatetime (Dt l (Some off)) = Ok (T (l - off) 1)).
    { intros l Hl. apply fromDatetime_Ok. auto. }
    destruct (L - L mod DAY + h * HOUR + m * MINUTE <? n) eqn:E; [apply Z.ltb_lt in E|apply Z.ltb_ge in E].
    - rewrite (proj2 (add_td_Ok _ DAY (L - L mod DAY + h * HOUR + m * MINUTE + DAY))).
      + cbn [rbind]. rewrite F; [reflexivity|]. unfold L, MAXT, DAY, HOUR in *. lia.
      + split; [reflexivity|]. unfold L, MAXT, DAY, HOUR in *. lia.
    - cbn [rbind]. rewrite F; [reflexivity|]. unfold L, MAXT, DAY, HOUR in *. lia.
  Qed.

  Lemma time_result txt c off now hh mm hr h m : roomy now off -> group g_hh c = Some hh -> group g_mm c = Some mm ->
    num hh hr -> num mm m -> m < 60 -> hour_of hr (match group g_ampm c with Some a => ulower a | None => [] end) = Ok h ->
    let L := t_us now + off in
    fromTime ulower txt c off now = Ok (T (on_or_after L (L - L mod MINUTE) h m - off) MINUTE).
  Proof.
    intros Hr Eh Em Hh Hm Hm60 Ho L. unfold fromTime. rewrite Eh, Em, (num_int _ _ Hh), (num_int _ _ Hm). cbn [rbind]. rewrite Ho. cbn [rbind].
    destruct (roomy_local _ _ Hr) as [E HL]. rewrite E. cbn [rbind dt_local dt_tz]. fold L in HL |- *. rewrite (minute_Ok _ HL). cbn [rbind].
    assert (Hh24 : 0 <= h < 24).
    { clear - Ho. unfold hour_of in Ho. match type of Ho with rbind ?e _ = _ => destruct e as [x|] end; cbn [rbind] in Ho; [|discriminate].
      destruct (negb ((0 <=? x) && (x <=? 23))) eqn:E; [discriminate|]. injection Ho as <-. lia. }
    pose proof (num_nonneg _ _ Hm) as Hm0.
    assert (HM : 0 <= L mod MINUTE < MINUTE) by (unfold MINUTE; lia).
    assert (HLm : 0 <= L - L mod MINUTE < MAXT) by (clear - HL; unfold MINUTE in *; lia).
    rewrite replace_Ok by (assumption || lia). cbn [rbind].
    replace (L - L mod MINUTE - (L - L mod MINUTE) mod DAY) with (L - L mod DAY) by (clear; unfold DAY, MINUTE; lia).
    apply then_result; try assumption; try lia. unfold HOUR, MINUTE in *. lia.
  Qed.

  Lemma noon_result txt c off now h : roomy now off ->
    (eqb (ulower txt) (lit "noon") = true /\ h = 12 \/ eqb (ulower txt) (lit "noon") = false /\ eqb (ulower txt) (lit "midnight") = true /\ h = 0) ->
    let L := t_us now + off in
    fromNoonOrMidnight ulower txt c off now = Ok (T (on_or_after L (L - L mod HOUR) h 0 - off) MINUTE).
  Proof.
    intros Hr Hw L. unfold fromNoonOrMidnight.
    assert (Hh : (if eqb (ulower txt) (lit "noon") then Ok 12 else if eqb (ulower txt) (lit "midnight") then Ok 0 else Err AssertionError) = Ok h /\ 0 <= h < 24).
    { destruct Hw as [[-> ->]|(-> & -> & ->)]; split; reflexivity || lia. }
    destruct Hh as [-> Hh]. cbn [rbind].
    destruct (roomy_local _ _ Hr) as [E HL]. rewrite E. cbn [rbind dt_local dt_tz]. fold L in HL |- *. rewrite (hour_Ok _ HL). cbn [rbind].
    assert (HM : 0 <= L mod HOUR < HOUR) by (unfold HOUR; lia).
    assert (HLm : 0 <= L - L mod HOUR < MAXT) by (clear - HL; unfold HOUR in *; lia).
    rewrite replace_Ok by (assumption || lia). cbn [rbind].
    replace (L - L mod HOUR - (L - L mod HOUR) mod DAY) with (L - L mod DAY) by (clear; unfold DAY, HOUR; lia).
    apply then_result; try assumption; try lia.
  Qed.

  (** the start of the local hour, or minute *)
  Lemma start_first now off n h m : 0 <= h < 24 -> 0 <= m < 60 -> let L := t_us now + off in
    (n = L - L mod MINUTE \/ n = L - L mod HOUR) -> first_showing (n - off) off h m (on_or_after L n h m - off).
  Proof.
    intros Hh Hm L Hn. apply after_first; [exact Hh|exact Hm| |]; clear - Hn; destruct Hn as [->| ->]; unfold DAY, HOUR, MINUTE; lia.
  Qed.

  Definition offset (tz : option Z) : Z := match tz with None => 0 | Some o => o end.

  Theorem human_noon s tz now (noon : bool) : roomy now (offset tz) -> word_text (if noon then "noon" else "midnight") s ->
    exists u, human s tz now = Ok (T u MINUTE) /\
      first_showing (t_us now - (t_us now + offset tz) mod HOUR) (offset tz) (if noon then 12 else 0) 0 u.
  Proof.
    intros Hr H. set (L := t_us now + offset tz). exists (on_or_after L (L - L mod HOUR) (if noon then 12 else 0) 0 - offset tz). split.
    - rewrite (human_word _ _ _ _ H) by (destruct noon; vm_compute; auto). fold (offset tz). destruct noon; pick.
      + erewrite noon_result; [reflexivity|exact Hr|]. left. rewrite low_ok by reflexivity. split; reflexivity.
      + erewrite noon_result; [reflexivity|exact Hr|]. right. rewrite low_ok by reflexivity. repeat split; reflexivity.
    - replace (t_us now - L mod HOUR) with (L - L mod HOUR - offset tz) by (unfold L; lia).
      apply start_first; [destruct noon; lia|lia|right; reflexivity].
  Qed.

  (** *** hh:mm *)

  Notation fw := (fwdw (wordc ualnum)).

  Lemma digit_word x : is_digit x = true -> wordc ualnum x = true.
  Proof. intros H. unfold wordc. rewrite (digit_dig x H). now rewrite orb_true_r. Qed.

  Lemma hour_fw hh h p c s : hour_digits hh h -> fw (Cap g_hh (Seq d1 (Opt d1))) p hh (58%N :: s) c ((g_hh, hh) :: c).
  Proof.
    intros [(_ & Hd & _) Hl]. apply fw_cap. unfold all_digits in Hd.
    destruct hh as [|x [|y [|z hh]]]; try (destruct Hl as [Hl|Hl]; discriminate Hl); cbn [forallb] in Hd; rewrite ?andb_true_iff in Hd.
    - change [x] with ([x] ++ [] : str). eapply fw_seq; [apply fw_cls, digit_dig, Hd|]. apply fw_none. intros A k. reflexivity.
    - change [x; y] with ([x] ++ [y] : str). eapply fw_seq; [apply fw_cls, digit_dig, Hd|]. apply fw_opt, fw_cls, digit_dig, Hd.
  Qed.

  Lemma minute_fw mm m p c s : num mm m -> length mm = 2%nat -> fw (Cap g_mm d2) p mm s c ((g_mm, mm) :: c).
  Proof.
    intros (_ & Hd & _) Hl. apply fw_cap. unfold all_digits in Hd.
    destruct mm as [|x [|y [|z mm]]]; try discriminate Hl; cbn [forallb] in Hd; rewrite ?andb_true_iff in Hd.
    change [x; y] with ([x] ++ [y] : str). eapply fw_seq; apply fw_cls, digit_dig, Hd.
  Qed.

  Lemma last_digit_of t p : t <> [] -> all_digits t = true -> exists x, last_of t p = Some x /\ is_digit x = true.
  Proof.
    intros Hn Hd. unfold last_of. destruct (rev t) as [|x r] eqn:E.
    - apply (f_equal (@rev N)) in E. rewrite rev_involutive in E. now destruct Hn.
    - exists x. split; [reflexivity|]. apply (all_digits_In t x Hd). apply in_rev. rewrite E. now left.
  Qed.

  Definition half (o : option (str * str)) : str := match o with Some (b, w) => b ++ w | None => [] end.

  Lemma half_fw x c o : is_digit x = true ->
    match o with Some (b, w) => white b /\ (low w = lit "am" \/ low w = lit "pm") | None => True end ->
    fw (Seq (Opt (Seq (Star is_space) (Cap g_ampm (re_words (map lit ["am"; "pm"]%string))))) Wb) (Some x) (half o) [] c
      (match o with Some (_, w) => [(g_ampm, w)] | None => [] end ++ c).
  Proof.
    intros Hx Ho. destruct o as [[b w]|].
    - destruct Ho as [Hb Hw]. cbn [half].
      assert (Hw2 : exists a d, w = [a; d] /\ ascii_lower d = 109%N /\ (ascii_lower a = 97%N \/ ascii_lower a = 112%N)).
      { clear - Hw. destruct w as [|a [|d [|e w]]]; try (destruct Hw as [Hw|Hw]; discriminate Hw). exists a, d. split; [reflexivity|].
        destruct Hw as [Hw|Hw]; cbn in Hw; injection Hw as E1 E2; auto. }
      destruct Hw2 as (a & d & -> & Ed & Ea).
      rewrite <- (app_nil_r (b ++ [a; d])). eapply fw_seq.
      + apply fw_opt. rewrite app_nil_l. eapply fw_seq.
        { apply fw_star; [exact Hb|]. cbn [app]. rewrite <- space_low. destruct Ea as [->| ->]; reflexivity. }
        apply fw_cap. intros A k r Hk.
        change (re_words (map lit ["am"; "pm"]%string)) with (Alt (Seq (Cls (ci 97)) (Cls (ci 109))) (Seq (Cls (ci 112)) (Cls (ci 109)))).
        cbn [app mt]. unfold ci. rewrite Ed. destruct Ea as [->| ->]; cbn in Hk |- *; rewrite Hk; reflexivity.
      + apply fw_wb. rewrite last_app. unfold at_boundary, owordc, last_of. cbn [rev app hd_error]. rewrite <- word_low, Ed. reflexivity.
    - cbn [half]. change (@nil N) with ([] ++ [] : str) at 1. eapply fw_seq.
      + apply fw_none. intros A k. reflexivity.
      + apply fw_wb. unfold at_boundary, owordc, last_of. cbn [rev app hd_error]. now rewrite digit_word.
  Qed.

  Lemma clock_match hh mm o h m : hour_digits hh h -> num mm m -> length mm = 2%nat ->
    match o with Some (b, w) => white b /\ (low w = lit "am" \/ low w = lit "pm") | None => True end ->
    let s := hh ++ lit ":" ++ mm ++ half o in
    pmatch (wordc ualnum) re_weekday s = None /\ pmatch (wordc ualnum) re_days s = None /\
    pmatch (wordc ualnum) re_clock s = Some (s, match o with Some (_, w) => [(g_ampm, w)] | None => [] end ++ [(g_mm, mm); (g_hh, hh)]) /\
    pmatch (wordc ualnum) re_noon s = None /\ pmatch (wordc ualnum) re_now s = None.
  Proof.
    intros Hh Hm Hl Ho s.
    assert (Hx : exists x t, hh = x :: t /\ is_digit x = true).
    { destruct Hh as [(Hn & Hd & _) _]. destruct hh as [|x t]; [congruence|]. exists x, t. split; [reflexivity|]. apply (all_digits_In (x :: t)); [exact Hd|now left]. }
    destruct Hx as (x & t & Ex & Hx).
    assert (B : at_boundary (wordc ualnum) None s = true). { unfold s, at_boundary, owordc. rewrite Ex. cbn [app hd_error]. now rewrite digit_word. }
    assert (NW : forall ws p c, Forall (fun w => match w with a :: _ => is_lower a = true | [] => False end) ws -> ws <> [] -> failsw (wordc ualnum) (re_words ws) p s c).
    { intros ws p c Hw Hne. unfold s. rewrite Ex. apply fail_words; [|exact Hne]. eapply Forall_impl; [|exact Hw].
      intros [|a w]; [auto|]. intros Ha. now apply ci_digit. }
    unfold pmatch. split; [|split; [|split; [|split]]].
    - unfold re_weekday. cbn [mt]. rewrite B. rewrite NW by (repeat constructor || discriminate). rewrite NW by (repeat constructor || discriminate). reflexivity.
    - unfold re_days. cbn [mt]. rewrite B. apply NW; [repeat constructor|discriminate].
    - set (k0 := fun (t0 : str) (_ : option N) (_ : str) (c0 : caps) => Some (t0, c0)).
      assert (F : fw re_clock None s [] [] (match o with Some (_, w) => [(g_ampm, w)] | None => [] end ++ [(g_mm, mm); (g_hh, hh)])).
      { change s with ([] ++ s). eapply fw_seq; [apply fw_wb; rewrite app_nil_r; exact B|]. unfold s.
        eapply fw_seq; [rewrite !app_nil_r; eapply hour_fw; exact Hh|].
        eapply fw_seq; [apply fw_cls; reflexivity|].
        eapply fw_seq; [eapply minute_fw; [exact Hm|exact Hl]|].
        destruct Hm as (Hmn & Hmd & _). destruct (last_digit_of mm (last_of (lit ":") (last_of hh (last_of [] None))) Hmn Hmd) as (y & -> & Hy).
        apply half_fw; assumption. }
      specialize (F _ k0 _ eq_refl). rewrite app_nil_r in F. exact F.
    - unfold re_noon. cbn [mt]. rewrite B. apply NW; [repeat constructor|discriminate].
    - unfold re_now. cbn [mt]. rewrite B. apply NW; [repeat constructor|discriminate].
  Qed.

  Lemma twelve hh : hour_digits hh 12 -> hh = lit "12".
  Proof.
    intros [(_ & Hd & Hv) Hl]. unfold all_digits, is_digit in Hd.
    destruct hh as [|x [|y [|z hh]]]; try (destruct Hl as [Hl|Hl]; discriminate Hl); cbn [forallb] in Hd;
      unfold dec_val in Hv; cbn [dec_val_acc] in Hv; unfold digit_val in Hv; [exfalso; lia|].
    assert (x = 49 /\ y = 50)%N as [-> ->] by lia. reflexivity.
  Qed.

  (** the hour, from the text *)
  Definition half_hour (o : option (str * str)) (hr h : Z) : Prop :=
    match o with
    | None => h = hr
    | Some (_, w) => 1 <= hr <= 12 /\ (low w = lit "am" /\ h = hr mod 12 \/ low w = lit "pm" /\ h = hr mod 12 + 12 /\ hr <> 12)
    end.

  Lemma letters_lower w v : low w = lit v -> is_ascii (lit v) = true -> ulower w = lit v.
  Proof.
    intros E Ha. rewrite low_ok; [exact E|]. unfold is_ascii in *. rewrite forallb_forall in *. intros c Hc.
    specialize (Ha (ascii_lower c)). rewrite <- E in Ha. specialize (Ha (in_map ascii_lower _ _ Hc)).
    unfold ascii_lower, is_upper in Ha. destruct ((65 <=? c)%N && (c <=? 90)%N) eqn:E1; lia.
  Qed.

  Lemma half_hour_of o hr h : 0 <= hr -> h < 24 -> half_hour o hr h ->
    hour_of hr (match group g_ampm (match o with Some (_, w) => [(g_ampm, w)] | None => [] end) with Some a => ulower a | None => [] end) = Ok h.
  Proof.
    intros H0 H24 H. destruct o as [[b w]|]; cbn [half_hour] in H; cbn [group Nat.eqb g_ampm].
    - destruct H as [Hr [[Hw ->]|(Hw & -> & Hn)]]; rewrite (letters_lower _ _ Hw) by reflexivity; unfold hour_of; cbn [lit list_ascii_of_string map eqb].
      + replace (negb ((1 <=? hr) && (hr <=? 12))) with false by lia. change (eqb (lit "am") (lit "am")) with true.
        destruct (hr =? 12) eqn:E; cbn.
        * apply Z.eqb_eq in E. subst. reflexivity.
        * replace (hr mod 12) with hr by lia. replace (negb ((0 <=? hr) && (hr <=? 23))) with false by lia. reflexivity.
      + replace (negb ((1 <=? hr) && (hr <=? 12))) with false by lia. replace (hr =? 12) with false by lia. cbn.
        replace (negb ((0 <=? hr + 12) && (hr + 12 <=? 23))) with false by lia. f_equal. lia.
    - subst hr. unfold hour_of. cbn [rbind]. replace (negb ((0 <=? h) && (h <=? 23))) with false by lia. reflexivity.
  Qed.

  Lemma clock_solid hh mm o h m : hour_digits hh h -> num mm m ->
    match o with Some (b, w) => low w = lit "am" \/ low w = lit "pm" | None => True end ->
    solid (hh ++ lit ":" ++ mm ++ half o).
  Proof.
    intros [(Hn & Hd & _) _] (Hn2 & Hd2 & _) Ho. split.
    - destruct hh as [|x hh]; [congruence|]. cbn. apply digit_nospace. apply (all_digits_In (x :: hh)); [exact Hd|now left].
    - rewrite !rev_app_distr. destruct o as [[b w]|]; cbn [half].
      + assert (E : starts_solid (rev w)).
        { assert (E : low (rev w) = rev (lit "am") \/ low (rev w) = rev (lit "pm")) by (unfold low; rewrite map_rev; fold low; destruct Ho as [->| ->]; auto).
          destruct (rev w) as [|y r]; [destruct E as [E|E]; discriminate E|]. cbn. rewrite <- space_low. destruct E as [E|E]; injection E as -> _; reflexivity. }
        rewrite rev_app_distr. destruct (rev w); [destruct E|exact E].
      + cbn [rev app]. rewrite app_nil_l || idtac. destruct (rev mm) as [|y r] eqn:E.
        * apply (f_equal (@rev N)) in E. rewrite rev_involutive in E. now destruct Hn2.
        * cbn. apply digit_nospace. apply (all_digits_In mm y Hd2). apply in_rev. rewrite E. now left.
  Qed.

  Lemma clock_read hh mm o hr h m s tz now : hour_digits hh hr -> num mm m -> length mm = 2%nat ->
    match o with Some (b, w) => white b | None => True end -> half_hour o hr h -> h < 24 -> m < 60 -> roomy now (offset tz) ->
    padded (hh ++ lit ":" ++ mm ++ half o) s ->
    exists u, human s tz now = Ok (T u MINUTE) /\ first_showing (minute_start (offset tz) (t_us now)) (offset tz) h m u.
  Proof.
    intros Hh Hm Hl Hb Ho H24 H60 Hr Hp.
    assert (Hw : match o with Some (b, w) => white b /\ (low w = lit "am" \/ low w = lit "pm") | None => True end).
    { destruct o as [[b w]|]; [|exact I]. split; [exact Hb|]. cbn in Ho. tauto. }
    assert (Hw' : match o with Some (b, w) => low w = lit "am" \/ low w = lit "pm" | None => True end).
    { destruct o as [[b w]|]; [|exact I]. tauto. }
    destruct (clock_match hh mm o hr m Hh Hm Hl Hw) as (P1 & P2 & P3 & _ & _).
    set (L := t_us now + offset tz). exists (on_or_after L (L - L mod MINUTE) h m - offset tz). split.
    - rewrite (human_padded _ _ tz now (clock_solid hh mm o hr m Hh Hm Hw') Hp). fold (offset tz). cbn [try_patterns humanlyPatterns].
      rewrite P1, P2, P3. rewrite Nat.eqb_refl. cbn [negb].
      rewrite (time_result _ _ (offset tz) now hh mm hr h m); try assumption; try reflexivity.
      + destruct o as [[b w]|]; reflexivity.
      + destruct o as [[b w]|]; reflexivity.
      + exact (proj1 Hh).
      + pose proof (half_hour_of o hr h (num_nonneg _ _ (proj1 Hh)) H24 Ho) as E. destruct o as [[b w]|]; exact E.
    - unfold minute_start. fold L. replace (t_us now - L mod MINUTE) with (L - L mod MINUTE - offset tz) by (unfold L; lia).
      apply start_first; [|split; [exact (num_nonneg _ _ Hm)|exact H60]|left; reflexivity].
      split; [|exact H24]. pose proof (num_nonneg _ _ (proj1 Hh)). destruct o as [[b w]|]; cbn in Ho; lia.
  Qed.

  Theorem human_clock s h m tz now : clock_text s h m -> h < 24 -> m < 60 -> ~ noon_hour s -> roomy now (offset tz) ->
    exists u, human s tz now = Ok (T u MINUTE) /\ first_showing (minute_start (offset tz) (t_us now)) (offset tz) h m u.
  Proof.
    intros H H24 H60 Hnoon Hr. destruct H as [hh mm h m Hh Hm Hl Hp|hh mm b w h m Hh H12 Hm Hl Hb Hw Hp|hh mm b w h m Hh H12 Hm Hl Hb Hw Hp].
    - apply (clock_read hh mm None h h m); cbn [half half_hour]; auto. now rewrite app_nil_r.
    - apply (clock_read hh mm (Some (b, w)) h (h mod 12) m); cbn [half half_hour]; auto.
    - destruct (Z.eq_dec h 12) as [->|Hn].
      + exfalso. apply Hnoon. exists mm, b, w, m. rewrite (twelve hh Hh) in Hp. auto.
      + apply (clock_read hh mm (Some (b, w)) h (h mod 12 + 12) m); cbn [half half_hour]; auto 6.
  Qed.

  Theorem human_noon_hour s tz now : noon_hour s -> human s tz now = Err ValueError.
  Proof.
    intros (mm & b & w & m & Hm & Hl & Hb & Hw & Hp).
    assert (Hh : hour_digits (lit "12") 12) by (split; [split; [discriminate|split; reflexivity]|right; reflexivity]).
    assert (Ew : low w = lit "pm") by exact Hw.
    destruct (clock_match (lit "12") mm (Some (b, w)) 12 m Hh Hm Hl (conj Hb (or_intror Ew))) as (P1 & P2 & P3 & P4 & P5).
    pose proof (human_padded _ _ tz now (clock_solid (lit "12") mm (Some (b, w)) 12 m Hh Hm (or_intror Ew)) Hp) as E.
    rewrite E. cbn [try_patterns humanlyPatterns]. rewrite P1, P2, P3, P4, P5, Nat.eqb_refl. cbn [negb].
    assert (F : forall txt off, fromTime ulower txt [(g_ampm, w); (g_mm, mm); (g_hh, lit "12")] off now = Err ValueError).
    { intros txt off. unfold fromTime. cbn [group Nat.eqb g_hh g_mm g_ampm]. rewrite (num_int _ _ Hm), (num_int _ _ (proj1 Hh)). cbn [rbind].
      rewrite (letters_lower _ _ Ew) by reflexivity. assert (E12 : hour_of 12 (lit "pm") = Err ValueError) by (vm_compute; reflexivity). rewrite E12. reflexivity. }
    cbn [app]. rewrite F. reflexivity.
  Qed.

  (** *** Weekdays *)

  Lemma weekday_cases (P : Z -> str -> Prop) : P 0 (lit "monday") -> P 1 (lit "tuesday") -> P 2 (lit "wednesday") -> P 3 (lit "thursday") ->
    P 4 (lit "friday") -> P 5 (lit "saturday") -> P 6 (lit "sunday") -> forall wd, 0 <= wd < 7 -> P wd (low (at_index weekday_names wd)).
  Proof.
    intros P0 P1 P2 P3 P4 P5 P6 wd H.
    assert (E : wd = 0 \/ wd = 1 \/ wd = 2 \/ wd = 3 \/ wd = 4 \/ wd = 5 \/ wd = 6) by lia.
    destruct E as [->|[->|[->|[->|[->|[->| ->]]]]]]; assumption.
  Qed.

  Lemma day_fw wd p c : 0 <= wd < 7 -> p = None \/ (exists x, p = Some x /\ is_space x = true) -> let w := low (at_index weekday_names wd) in
    fw (Seq (Cap g_wday (re_words weekdays)) Wb) p w [] c ((g_wday, w) :: c).
  Proof.
    intros Hw Hp. revert wd Hw. apply (weekday_cases (fun _ w => fw (Seq (Cap g_wday (re_words weekdays)) Wb) p w [] c ((g_wday, w) :: c)));
    (match goal with |- fwdw _ _ _ ?w _ _ _ => rewrite <- (app_nil_r w); eapply fw_seq;
       [apply fw_cap; intros A k r Hk; cbn in Hk |- *; rewrite Hk; reflexivity|apply fw_wb; reflexivity] end).
  Qed.

  Lemma pre_fw v b c w : v = lit "next" \/ v = lit "this" -> white b -> b <> [] -> starts_solid w ->
    fw (Opt (Seq (re_words (map lit ["next"; "this"]%string)) (Seq (Cls is_space) (Star is_space)))) None (v ++ b) w c c.
  Proof.
    intros Hv Hb Hn Hw. apply fw_opt. eapply fw_seq.
    - intros A k r Hk. destruct Hv as [->| ->]; cbn in Hk |- *; rewrite Hk; reflexivity.
    - destruct b as [|x b]; [congruence|]. change (x :: b) with ([x] ++ b). eapply fw_seq; [apply fw_cls; exact (Forall_inv Hb)|].
      apply fw_star; [exact (Forall_inv_tail Hb)|]. destruct w; [exact I|exact Hw].
  Qed.

  Lemma weekday_solid wd : 0 <= wd < 7 -> solid (low (at_index weekday_names wd)).
  Proof. revert wd. apply (weekday_cases (fun _ w => solid w)); split; reflexivity. Qed.

  Lemma weekday_match wd pre : 0 <= wd < 7 -> pre = [] \/ (exists v b, pre = v ++ b /\ (v = lit "next" \/ v = lit "this") /\ white b /\ b <> []) ->
    let w := low (at_index weekday_names wd) in
    pmatch (wordc ualnum) re_weekday (pre ++ w) = Some (pre ++ w, [(g_wday, w)]) /\ starts_solid (pre ++ w).
  Proof.
    intros Hw Hp w. pose proof (weekday_solid wd Hw) as Hs. fold w in Hs.
    assert (Bw : at_boundary (wordc ualnum) None (w ++ []) = true).
    { rewrite app_nil_r. revert wd Hw w Hs. refine (weekday_cases (fun _ w => solid w -> at_boundary (wordc ualnum) None w = true) _ _ _ _ _ _ _); reflexivity. }
    destruct Hp as [->|(v & b & -> & Hv & Hb & Hn)].
    - split; [|exact (proj1 Hs)].
      assert (F : fw re_weekday None ([] ++ [] ++ w) [] [] [(g_wday, w)]).
      { eapply fw_seq; [apply fw_wb; exact Bw|]. eapply fw_seq.
        - apply fw_none. intros A k. clear Bw Hs. subst w. revert wd Hw. refine (weekday_cases (fun _ w => mt _ _ _ (w ++ []) _ _ = None) _ _ _ _ _ _ _); reflexivity.
        - apply day_fw; [exact Hw|]. left. reflexivity. }
      specialize (F _ (fun (t0 : str) (_ : option N) (_ : str) (c0 : caps) => Some (t0, c0)) _ eq_refl). rewrite app_nil_r in F. exact F.
    - split.
      + assert (F : fw re_weekday None ([] ++ (v ++ b) ++ w) [] [] [(g_wday, w)]).
        { eapply fw_seq; [apply fw_wb; destruct Hv as [->| ->]; reflexivity|]. eapply fw_seq.
          - apply pre_fw; try assumption. rewrite app_nil_r. exact (proj1 Hs).
          - apply day_fw; [exact Hw|]. right. rewrite last_app. unfold last_of at 1. destruct (rev b) as [|x r] eqn:E.
            + apply (f_equal (@rev N)) in E. rewrite rev_involutive in E. now destruct Hn.
            + exists x. split; [reflexivity|]. eapply (proj1 (Forall_forall _ _) Hb). apply in_rev. rewrite E. now left. }
        specialize (F _ (fun (t0 : str) (_ : option N) (_ : str) (c0 : caps) => Some (t0, c0)) _ eq_refl). rewrite app_nil_r in F. exact F.
      + destruct Hv as [->| ->]; reflexivity.
  Qed.

  Lemma weekday_index wd : 0 <= wd < 7 -> index_of (low (at_index weekday_names wd)) weekdays = Some wd.
  Proof. revert wd. apply (weekday_cases (fun wd w => index_of w weekdays = Some wd)); reflexivity. Qed.

  Lemma weekday_result txt c d now w wd : ok_time now -> t_us now + 8 * DAY < MAXT -> group g_wday c = Some w ->
    index_of (ulower w) weekdays = Some wd -> 0 <= wd < 7 ->
    exists n, 1 <= n <= 7 /\ fromWeekday ulower txt c d now = Ok (T (t_us now - t_us now mod DAY + n * DAY) DAY) /\
      ((t_us now - t_us now mod DAY + n * DAY) / DAY) mod 7 = wd.
  Proof.
    intros Hn Hr Hg Hi Hw. unfold fromWeekday. rewrite Hg, Hi, (asDatetime_utc _ Hn). cbn [rbind dt_local dt_tz].
    rewrite replace_Ok by (exact Hn || lia). cbn [rbind]. set (m := t_us now - t_us now mod DAY).
    replace (m + 0 * HOUR + 0 * MINUTE) with m by lia.
    assert (Hm : 0 <= m /\ m <= t_us now) by (unfold m, ok_time, DAY in *; lia).
    assert (Hm0 : m = (m / DAY) * DAY) by (unfold m, DAY; lia).
    set (n := if (wd - weekday m) mod 7 =? 0 then 7 else (wd - weekday m) mod 7).
    assert (Hn7 : 1 <= n <= 7 /\ (m / DAY + n) mod 7 = wd).
    { unfold n, weekday. destruct (Z.eqb_spec ((wd - (m / DAY + 1 + 6) mod 7) mod 7) 0); lia. }
    clearbody n. destruct Hn7 as [Hn7 Hn8]. exists n. split; [exact Hn7|].
    assert (E : (m + n * DAY) / DAY = m / DAY + n) by (unfold DAY; lia).
    assert (Hx : 0 <= m + n * DAY < MAXT) by (clear - Hm Hn7 Hr; unfold MAXT, DAY in *; lia).
    rewrite (proj2 (add_td_Ok m (n * DAY) (m + n * DAY)) (conj eq_refl Hx)). cbn [rbind].
    rewrite (proj2 (fromDatetime_Ok (m + n * DAY) 0 (T (m + n * DAY - 0) 1))).
    2:{ rewrite Z.sub_0_r. split; [unfold DAY; lia|]. split; [exact Hx|reflexivity]. }
    cbn [rbind t_us]. rewrite Z.sub_0_r. rewrite asDatetime_utc by exact Hx. cbn [rbind dt_local t_us]. unfold weekday. rewrite E.
    replace ((m / DAY + n + 1 + 6) mod 7) with wd by lia. rewrite Z.eqb_refl. split; [reflexivity|exact Hn8].
  Qed.

  Theorem human_weekday s wd tz now : weekday_text wd s -> ok_time now -> t_us now + 8 * DAY < MAXT ->
    exists n, 1 <= n <= 7 /\ human s tz now = Ok (T (t_us now - t_us now mod DAY + n * DAY) DAY) /\
      ((t_us now - t_us now mod DAY + n * DAY) / DAY) mod 7 = wd.
  Proof.
    intros (Hw & pre & w & Hl & Hp & Hpre) Hn Hr.
    assert (El : low (pre ++ w) = low pre ++ low (at_index weekday_names wd)).
    { unfold low. rewrite map_app. fold low. f_equal. exact Hl. }
    assert (Hpl : low pre = [] \/ (exists v b, low pre = v ++ b /\ (v = lit "next" \/ v = lit "this") /\ white b /\ b <> [])).
    { destruct Hpre as [->|(v & b & -> & Hv & Hb & Hne)]; [left; reflexivity|]. right. exists (low v), b. split.
      - unfold low. rewrite map_app. fold low. f_equal. apply white_low, Hb.
      - split; [exact Hv|]. auto. }
    destruct (weekday_match wd (low pre) Hw Hpl) as [M S]. rewrite <- El in M, S.
    rewrite pmatch_low in M by (exact folds_weekday || apply word_low).
    destruct (pmatch (wordc ualnum) re_weekday (pre ++ w)) as [[t c]|] eqn:E; [|discriminate M]. cbn [option_map] in M. injection M as M1 M2.
    assert (Hg : exists w', group g_wday c = Some w' /\ low w' = low (at_index weekday_names wd)).
    { pose proof (group_low g_wday c) as G. rewrite M2 in G. cbn [group Nat.eqb g_wday] in G. fold g_wday in G.
      destruct (group g_wday c) as [w'|]; [|discriminate G]. injection G as G. eauto. }
    destruct Hg as (w' & Hg & Hw').
    assert (Hi : index_of (ulower w') weekdays = Some wd).
    { rewrite <- (weekday_index wd Hw). f_equal. rewrite <- Hw'. apply low_ok. eapply letters_ascii; [exact Hw'|].
      clear - Hw. revert wd Hw.
      assert (G : forall wd, 0 <= wd < 7 -> is_ascii (at_index weekday_names wd) = true); [|exact G].
      intros wd H. assert (E : wd = 0 \/ wd = 1 \/ wd = 2 \/ wd = 3 \/ wd = 4 \/ wd = 5 \/ wd = 6) by lia.
      destruct E as [->|[->|[->|[->|[->|[->| ->]]]]]]; reflexivity. }
    destruct (weekday_result t c (match tz with None => 0 | Some o => o end) now w' wd Hn Hr Hg Hi Hw) as (n & Hn7 & Ef & Hd).
    exists n. split; [exact Hn7|]. split; [|exact Hd].
    rewrite (human_padded (pre ++ w) s tz now).
    - cbn [try_patterns humanlyPatterns]. rewrite E.
      apply (f_equal (@length N)) in M1. unfold low in M1. rewrite !map_length in M1. rewrite M1, Nat.eqb_refl. cbn [negb]. rewrite Ef. reflexivity.
    - apply solid_low. rewrite El. split; [now rewrite <- El|]. rewrite rev_app_distr.
      pose proof (proj2 (weekday_solid wd Hw)) as Q. destruct (rev (low (at_index weekday_names wd))); [destruct Q|exact Q].
    - exact Hp.
  Qed.
End Human.
