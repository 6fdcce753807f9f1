(** * Which texts people may type, and what else happens *)

From Coq Require Import ZArith NArith String List Bool Lia ZifyBool ZifyN.
From Verif Require Import Py PyStr PyNum PyInt Regex Cal PyTime Extime ExtimeIso ExtimeIsoVal ExtimeIsoFmt ExtimeRfc ExtimeRfcVal ExtimeRfcFmt ExtimeHumanly ExtimeHumanlyVal.
Import ListNotations.
Open Scope Z_scope.
Open Scope py_scope.
Open Scope list_scope.

(** ** Specification *)

(** the texts understood: weekdays, days near today, times of the day *)
Inductive human_text (s : str) : Prop :=
| HT_weekday wd : weekday_text wd s -> human_text s
| HT_day w : In w ["today"; "tomorrow"; "yesterday"]%string -> word_text w s -> human_text s
| HT_clock h m : clock_text s h m -> h < 24 -> m < 60 -> ~ noon_hour s -> human_text s
| HT_word w : In w ["noon"; "midnight"; "now"]%string -> word_text w s -> human_text s.

(** ** What a match is made of *)

Section Inv.
  Variable word : N -> bool.
  Notation dv := (derives word).

  Lemma inv_seq a b p s c t p2 s2 c2 : dv (Seq a b) p s c t p2 s2 c2 ->
    exists t1 p1 s1 c1 t2, t = t1 ++ t2 /\ dv a p s c t1 p1 s1 c1 /\ dv b p1 s1 c1 t2 p2 s2 c2.
  Proof. inversion 1; subst. eauto 10. Qed.
  Lemma inv_cap n a p s c t p1 s1 c1 : dv (Cap n a) p s c t p1 s1 c1 -> exists c0, dv a p s c t p1 s1 c0 /\ c1 = (n, t) :: c0.
  Proof. inversion 1; subst. eauto. Qed.
  Lemma inv_opt a p s c t p1 s1 c1 : dv (Opt a) p s c t p1 s1 c1 -> t = [] /\ p1 = p /\ s1 = s /\ c1 = c \/ dv a p s c t p1 s1 c1.
  Proof. inversion 1; subst; auto. Qed.
  Lemma inv_cls f p s c t p1 s1 c1 : dv (Cls f) p s c t p1 s1 c1 -> exists x, t = [x] /\ f x = true /\ c1 = c.
  Proof. inversion 1; subst. eauto. Qed.
  Lemma inv_star f p s c t p1 s1 c1 : dv (Star f) p s c t p1 s1 c1 -> Forall (fun x => f x = true) t /\ c1 = c.
  Proof. inversion 1; subst. auto. Qed.
  Lemma inv_wb p s c t p1 s1 c1 : dv Wb p s c t p1 s1 c1 -> t = [] /\ c1 = c.
  Proof. inversion 1; subst. auto. Qed.

  Definition like (w t : str) : Prop := Forall2 (fun a x => ci a x = true) w t.

  Lemma inv_word w : w <> [] -> forall p s c t p1 s1 c1, dv (re_word w) p s c t p1 s1 c1 -> like w t /\ c1 = c.
  Proof.
    induction w as [|a w IH]; [congruence|]. intros _ p s c t p1 s1 c1 H. destruct w as [|b w].
    - cbn [re_word] in H. apply inv_cls in H. destruct H as (x & -> & Hx & ->). split; [repeat constructor; exact Hx|reflexivity].
    - change (re_word (a :: b :: w)) with (Seq (Cls (ci a)) (re_word (b :: w))) in H. apply inv_seq in H.
      destruct H as (t1 & q1 & r1 & d1 & t2 & -> & H1 & H2). apply inv_cls in H1. destruct H1 as (x & -> & Hx & ->).
      apply IH in H2; [|discriminate]. destruct H2 as [H2 ->]. split; [constructor; assumption|reflexivity].
  Qed.

  Lemma inv_words l : Forall (fun w => w <> []) l -> forall p s c t p1 s1 c1, dv (re_words l) p s c t p1 s1 c1 ->
    exists w, In w l /\ like w t /\ c1 = c.
  Proof.
    induction 1 as [|w l Hw Hl IH]; intros p s c t p1 s1 c1 H.
    - cbn [re_words] in H. apply inv_cls in H. destruct H as (x & _ & Hx & _). discriminate Hx.
    - destruct l as [|v l].
      + apply inv_word in H; [|exact Hw]. exists w. split; [now left|exact H].
      + change (re_words (w :: v :: l)) with (Alt (re_word w) (re_words (v :: l))) in H. inversion H; subst.
        * eapply inv_word in Hw; [|eassumption]. exists w. split; [now left|exact Hw].
        * edestruct IH as (u & Hu & Hx); [eassumption|]. exists u. split; [now right|exact Hx].
  Qed.

  Lemma inv_d1 p s c t p1 s1 c1 : dv d1 p s c t p1 s1 c1 -> digits 1 t /\ c1 = c.
  Proof. intros H. apply inv_cls in H. destruct H as (x & -> & Hx & ->). split; [|reflexivity]. split; [reflexivity|]. repeat constructor. exact Hx. Qed.

  Lemma digits_app n m t u : digits n t -> digits m u -> digits (n + m) (t ++ u).
  Proof. intros [H1 H2] [H3 H4]. split; [rewrite app_length; lia|now apply Forall_app]. Qed.

  Lemma inv_d2 p s c t p1 s1 c1 : dv d2 p s c t p1 s1 c1 -> digits 2 t /\ c1 = c.
  Proof.
    intros H. apply inv_seq in H. destruct H as (t1 & q1 & r1 & e1 & t2 & -> & H1 & H2). apply inv_d1 in H1. apply inv_d1 in H2.
    destruct H1 as [H1 ->], H2 as [H2 ->]. split; [exact (digits_app 1 1 _ _ H1 H2)|reflexivity].
  Qed.

  (** the five patterns *)
  Lemma weekday_inv p s t p1 s1 c1 : dv re_weekday p s [] t p1 s1 c1 -> exists pre w d, t = pre ++ w /\ c1 = [(g_wday, w)] /\ In d weekdays /\ like d w /\
    (pre = [] \/ exists v b, pre = v ++ b /\ (like (lit "next") v \/ like (lit "this") v) /\ white b /\ b <> []).
  Proof.
    intros H. apply inv_seq in H. destruct H as (t0 & p0 & s0 & c0 & t0' & -> & H0 & H). apply inv_wb in H0. destruct H0 as [-> ->].
    apply inv_seq in H. destruct H as (pre & p2 & s2 & c2 & t2 & -> & H1 & H). apply inv_seq in H. destruct H as (w & p3 & s3 & c3 & t3 & -> & H2 & H3).
    apply inv_wb in H3. destruct H3 as [-> ->]. apply inv_cap in H2. destruct H2 as (c4 & H2 & ->).
    apply inv_words in H2; [|repeat constructor; discriminate]. destruct H2 as (d & Hd & Hl & ->).
    exists pre, w, d. rewrite app_nil_r. split; [reflexivity|].
    apply inv_opt in H1. destruct H1 as [(-> & _ & _ & ->)|H1]; [auto 6|].
    apply inv_seq in H1. destruct H1 as (v & p4 & s4 & c4 & b & -> & H1 & H4). apply inv_words in H1; [|repeat constructor; discriminate].
    destruct H1 as (n & Hn & Hv & ->). apply inv_seq in H4. destruct H4 as (b1 & p5 & s5 & c5 & b2 & -> & H4 & H5).
    apply inv_cls in H4. destruct H4 as (x & -> & Hx & ->). apply inv_star in H5. destruct H5 as [H5 ->].
    split; [reflexivity|]. split; [exact Hd|]. split; [exact Hl|]. right. exists v, ([x] ++ b2). split; [reflexivity|]. split.
    - destruct Hn as [<-|[<-|[]]]; auto.
    - split; [constructor; assumption|discriminate].
  Qed.

  Lemma simple_inv l p s t p1 s1 c1 : Forall (fun w => w <> []) l -> dv (Seq Wb (Seq (re_words l) Wb)) p s [] t p1 s1 c1 ->
    exists w, In w l /\ like w t /\ c1 = [].
  Proof.
    intros Hl H. apply inv_seq in H. destruct H as (t0 & p0 & s0 & c0 & t0' & -> & H0 & H). apply inv_wb in H0. destruct H0 as [-> ->].
    apply inv_seq in H. destruct H as (w & p2 & s2 & c2 & t2 & -> & H1 & H). apply inv_wb in H. destruct H as [-> ->].
    apply inv_words in H1; [|exact Hl]. rewrite app_nil_r. exact H1.
  Qed.

  Lemma clock_inv p s t p1 s1 c1 : dv re_clock p s [] t p1 s1 c1 -> exists hh mm o,
    t = hh ++ lit ":" ++ mm ++ half o /\ (digits 1 hh \/ digits 2 hh) /\ digits 2 mm /\
    c1 = match o with Some (_, w) => [(g_ampm, w)] | None => [] end ++ [(g_mm, mm); (g_hh, hh)] /\
    match o with Some (b, w) => white b /\ (like (lit "am") w \/ like (lit "pm") w) | None => True end.
  Proof.
    intros H. apply inv_seq in H. destruct H as (t0 & p0 & s0 & c0 & t0' & -> & H0 & H). apply inv_wb in H0. destruct H0 as [-> ->].
    apply inv_seq in H. destruct H as (hh & p2 & s2 & c2 & t2 & -> & H1 & H). apply inv_seq in H. destruct H as (col & p3 & s3 & c3 & t3 & -> & H2 & H).
    apply inv_seq in H. destruct H as (mm & p4 & s4 & c4 & t4 & -> & H3 & H). apply inv_seq in H. destruct H as (am & p5 & s5 & c5 & t5 & -> & H4 & H5).
    apply inv_wb in H5. destruct H5 as [-> ->]. rewrite app_nil_r.
    apply inv_cap in H1. destruct H1 as (c6 & H1 & ->). apply inv_seq in H1. destruct H1 as (u & p6 & s6 & c7 & v & -> & H1 & H6).
    apply inv_d1 in H1. destruct H1 as [H1 ->].
    assert (Hhh : (digits 1 (u ++ v) \/ digits 2 (u ++ v)) /\ c6 = []).
    { apply inv_opt in H6. destruct H6 as [(-> & _ & _ & ->)|H6]; [rewrite app_nil_r; auto|]. apply inv_d1 in H6. destruct H6 as [H6 ->].
      split; [right; exact (digits_app 1 1 _ _ H1 H6)|reflexivity]. }
    destruct Hhh as [Hhh ->]. apply inv_cls in H2. destruct H2 as (x & -> & Hx & ->). apply N.eqb_eq in Hx. subst x.
    apply inv_cap in H3. destruct H3 as (c8 & H3 & ->). apply inv_d2 in H3. destruct H3 as [H3 ->].
    apply inv_opt in H4. destruct H4 as [(-> & _ & _ & ->)|H4].
    - exists (u ++ v), mm, None. cbn [half]. auto 6.
    - apply inv_seq in H4. destruct H4 as (b & p9 & s9 & c9 & w & -> & H4 & H7). apply inv_star in H4. destruct H4 as [H4 ->].
      apply inv_cap in H7. destruct H7 as (c10 & H7 & ->). apply inv_words in H7; [|repeat constructor; discriminate]. destruct H7 as (y & Hy & Hw & ->).
      exists (u ++ v), mm, (Some (b, w)). cbn [half]. split; [reflexivity|]. split; [exact Hhh|]. split; [exact H3|]. split; [reflexivity|]. split; [exact H4|].
      destruct Hy as [<-|[<-|[]]]; auto.
  Qed.
End Inv.

(** letters of ASCII texts *)
Lemma like_low w t : Forall asc t -> forallb is_lower w = true -> like w t -> low t = w.
Proof.
  intros Ht Hw H. induction H as [|a x w t Ha H IH]; [reflexivity|]. cbn [forallb] in Hw. apply andb_prop in Hw. destruct Hw as [Hw1 Hw2].
  cbn [low map]. fold low. rewrite (IH (Forall_inv_tail Ht) Hw2). f_equal. pose proof (Forall_inv Ht) as Hx. unfold asc in Hx. unfold ci in Ha.
  clear - Ha Hx. lia.
Qed.

Lemma dig_ascii c : dig c = true -> asc c -> is_digit c = true.
Proof.
  unfold dig, asc. intros H Hc. apply N.ltb_lt in Hc.
  assert (G : forall zs, Forall (fun z => (128 <= z)%N) zs -> decimal_in zs c = None).
  { induction 1 as [|z zs Hz _ IH]; cbn [decimal_in]; [reflexivity|]. destruct ((z <=? c)%N && (c <? z + 10)%N) eqn:E; [lia|exact IH]. }
  unfold decimal_zeros in H. cbn [decimal_in] in H. destruct ((48 <=? c)%N && (c <? 48 + 10)%N) eqn:E.
  - unfold is_digit. lia.
  - exfalso. match type of H with (match ?e with _ => _ end = true) => replace e with (@None N) in H; [discriminate H|] end.
    symmetry. apply (G (tl decimal_zeros)). cbn [tl decimal_zeros]. repeat constructor; lia.
Qed.

Lemma digits_num n t : digits (S n) t -> Forall asc t -> num t (uval t).
Proof.
  intros [Hl Hd] Ha. assert (Hx : all_digits t = true).
  { unfold all_digits. apply forallb_forall. intros c Hc. rewrite Forall_forall in Hd, Ha. apply dig_ascii; auto. }
  split; [destruct t; discriminate|]. split; [exact Hx|]. unfold uval. destruct (ascii_dig t Hx) as [_ ->]. reflexivity.
Qed.

Lemma lstrip_split s : exists a, white a /\ s = a ++ lstrip is_space s /\ (lstrip is_space s = [] \/ starts_solid (lstrip is_space s)).
Proof.
  induction s as [|c s IH]; cbn [lstrip]; [exists []; repeat split; auto; constructor|].
  destruct (is_space c) eqn:E.
  - destruct IH as (a & Ha & Hs & H). exists (c :: a). split; [constructor; assumption|]. split; [cbn; now f_equal|exact H].
  - exists []. split; [constructor|]. split; [reflexivity|]. right. exact E.
Qed.

Lemma strip_split s : padded (strip is_space s) s.
Proof.
  unfold strip. destruct (lstrip_split s) as (a & Ha & Es & _). set (u := lstrip is_space s) in *.
  destruct (lstrip_split (rev u)) as (b & Hb & Eb & _). exists a, (rev b). split; [exact Ha|]. split; [now apply Forall_rev|].
  rewrite Es at 1. f_equal. apply (f_equal (@rev N)) in Eb. now rewrite rev_involutive, rev_app_distr in Eb.
Qed.

Lemma strip_asc s : Forall asc s -> Forall asc (strip is_space s).
Proof. intros H. destruct (strip_split s) as (a & b & _ & _ & E). rewrite E in H. apply Forall_app in H. destruct H as [_ H]. apply Forall_app in H. apply H. Qed.

Section Human.
  Variable ulower : str -> str.
  Variable ualnum : N -> bool.

  Notation tries := (try_patterns ualnum).
  Notation human := (fromHumanly ulower ualnum).

  Lemma tries_from l s tz now : tries l s tz now = Err ValueError \/
    exists r f p1 s1 c, In (r, f) l /\ derives (wordc ualnum) r None s [] s p1 s1 c /\ f s c tz now = tries l s tz now.
  Proof.
    induction l as [|[r f] l IH]; cbn [try_patterns]; [left; reflexivity|].
    assert (Hrec : tries l s tz now = Err ValueError \/
      exists r0 f0 p1 s1 c, In (r0, f0) ((r, f) :: l) /\ derives (wordc ualnum) r0 None s [] s p1 s1 c /\ f0 s c tz now = tries l s tz now).
    { destruct IH as [IH|(r0 & f0 & p1 & s1 & c & Hi & D & E)]; [left; exact IH|]. right. exists r0, f0, p1, s1, c. split; [now right|auto]. }
    destruct (pmatch (wordc ualnum) r s) as [[t c]|] eqn:E; [|exact Hrec].
    destruct (Nat.eqb_spec (length t) (length s)) as [El|El]; cbn [negb]; [|exact Hrec].
    apply pmatch_derives in E. destruct E as (p1 & s1 & D).
    assert (Et : t = s).
    { pose proof (derives_text _ _ _ _ _ _ _ _ _ D) as Ex. pose proof (f_equal (@length N) Ex) as Ey. rewrite app_length in Ey.
      destruct s1; [now rewrite app_nil_r in Ex|cbn in Ey; lia]. }
    subst t. destruct (f s c tz now) as [u|e] eqn:Ef.
    - right. exists r, f, p1, s1, c. split; [now left|auto].
    - assert (Hx : e = ValueError \/ e <> ValueError) by (destruct e; (left; reflexivity) || (right; discriminate)). destruct Hx as [->|Hx]; [exact Hrec|].
      right. exists r, f, p1, s1, c. split; [now left|]. split; [exact D|]. rewrite Ef. destruct e; reflexivity || congruence.
  Qed.

  (** *** Accepted texts *)
  Section Ascii.
  Hypothesis low_ok : lowers ulower.

  Lemma hour_of_inv o hr h : match o with Some (b, w) => low w = lit "am" \/ low w = lit "pm" | None => True end ->
    hour_of hr (match group g_ampm (match o with Some (_, w) => [(g_ampm, w)] | None => [] end) with Some a => ulower a | None => [] end) = Ok h ->
    half_hour o hr h /\ 0 <= h < 24.
  Proof.
    intros Ho H. destruct o as [[b w]|]; cbn [group Nat.eqb g_ampm] in H.
    - destruct Ho as [Hw|Hw]; rewrite (letters_lower ulower ualnum low_ok _ _ Hw) in H by reflexivity; unfold hour_of in H; cbn [lit list_ascii_of_string map] in H; cbn [half_hour];
      destruct (negb ((1 <=? hr) && (hr <=? 12))) eqn:E; try discriminate H; cbn in H.
      + destruct (hr =? 12) eqn:E12; cbn in H.
        * injection H as <-. split; [|lia]. split; [lia|]. left. split; [exact Hw|]. lia.
        * destruct (negb ((0 <=? hr) && (hr <=? 23))) eqn:E23; [discriminate H|]. injection H as <-. split; [|lia]. split; [lia|]. left. split; [exact Hw|]. lia.
      + rewrite andb_false_r in H. cbn in H. destruct (negb ((0 <=? hr + 12) && (hr + 12 <=? 23))) eqn:E23; [discriminate H|]. injection H as <-. split; [|lia].
        split; [lia|]. right. split; [exact Hw|]. lia.
    - unfold hour_of in H. cbn [rbind] in H. destruct (negb ((0 <=? hr) && (hr <=? 23))) eqn:E; [discriminate H|]. injection H as <-. split; [reflexivity|lia].
  Qed.

  Lemma weekday_of d : In d weekdays -> exists wd, 0 <= wd < 7 /\ low (at_index weekday_names wd) = d.
  Proof.
    intros H. cbn in H. destruct H as [<-|[<-|[<-|[<-|[<-|[<-|[<-|[]]]]]]]].
    - exists 0. split; [lia|reflexivity].
    - exists 1. split; [lia|reflexivity].
    - exists 2. split; [lia|reflexivity].
    - exists 3. split; [lia|reflexivity].
    - exists 4. split; [lia|reflexivity].
    - exists 5. split; [lia|reflexivity].
    - exists 6. split; [lia|reflexivity].
  Qed.

  Lemma like_letters (w : string) t : Forall asc t -> forallb is_lower (lit w) = true -> like (lit w) t -> same_letters t (lit w).
  Proof.
    intros Ha Hw Hl. change (low t = low (lit w)). rewrite (like_low _ _ Ha Hw Hl). symmetry.
    unfold low. rewrite <- (map_id (lit w)) at 2. apply map_ext_in. intros c Hc. rewrite forallb_forall in Hw. specialize (Hw c Hc). unfold ascii_lower, is_upper, is_lower in *.
    destruct ((65 <=? c)%N && (c <=? 90)%N) eqn:E; lia.
  Qed.

  Lemma fromTime_inv txt c off now u : fromTime ulower txt c off now = Ok u -> exists hh mm hr h m, group g_hh c = Some hh /\ group g_mm c = Some mm /\
    py_int hh = Ok hr /\ py_int mm = Ok m /\ hour_of hr (match group g_ampm c with Some a => ulower a | None => [] end) = Ok h /\ 0 <= m < 60.
  Proof.
    unfold fromTime. destruct (group g_hh c) as [hh|]; [|discriminate]. destruct (group g_mm c) as [mm|]; [|discriminate].
    destruct (py_int mm) as [m|] eqn:Em; cbn [rbind]; [|discriminate]. destruct (py_int hh) as [hr|] eqn:Eh; cbn [rbind]; [|discriminate].
    destruct (hour_of hr _) as [h|] eqn:Eo; cbn [rbind]; [|discriminate]. destruct (asDatetime now (Some off)) as [x|]; cbn [rbind]; [|discriminate].
    destruct (replace_clock _ _ _ 0 0) as [n|]; cbn [rbind]; [|discriminate]. destruct (replace_clock n h m 0 0) as [l|] eqn:Er; cbn [rbind]; [|discriminate].
    intros _. exists hh, mm, hr, h, m. repeat (split; [assumption || reflexivity|]). unfold replace_clock in Er. apply datetime_Ok in Er. destruct Er as [(_ & _ & _ & Hm & _) _]. exact Hm.
  Qed.

  Lemma simple_text l s p1 s1 c : Forall asc (strip is_space s) -> forallb (fun w => forallb is_lower (lit w) && negb (eqb (lit w) [])) l = true ->
    derives (wordc ualnum) (Seq Wb (Seq (re_words (map lit l)) Wb)) None (strip is_space s) [] (strip is_space s) p1 s1 c ->
    exists w, In w l /\ word_text w s.
  Proof.
    intros Ha Hl D. rewrite forallb_forall in Hl. apply simple_inv in D.
    - destruct D as (w & Hw & Hlike & _). apply in_map_iff in Hw. destruct Hw as (v & <- & Hv). exists v. split; [exact Hv|].
      exists (strip is_space s). split; [|apply strip_split]. apply like_letters; [exact Ha| |exact Hlike]. specialize (Hl v Hv). now apply andb_prop in Hl.
    - apply Forall_forall. intros w Hw. apply in_map_iff in Hw. destruct Hw as (v & <- & Hv). specialize (Hl v Hv). apply andb_prop in Hl. destruct Hl as [_ Hl].
      intros E. rewrite E in Hl. discriminate Hl.
  Qed.

  Lemma clock_form s hh mm o p1 s1 c : Forall asc (strip is_space s) -> strip is_space s = hh ++ lit ":" ++ mm ++ half o ->
    digits 1 hh \/ digits 2 hh -> digits 2 mm -> (match o with Some (b, w) => white b /\ (like (lit "am") w \/ like (lit "pm") w) | None => True end) ->
    derives (wordc ualnum) re_clock None (strip is_space s) [] (strip is_space s) p1 s1 c ->
    hour_digits hh (uval hh) /\ num mm (uval mm) /\ length mm = 2%nat /\
    match o with Some (b, w) => white b /\ (low w = lit "am" \/ low w = lit "pm") | None => True end.
  Proof.
    intros Ha E Hhh Hmm Ho D. rewrite E in Ha. apply Forall_app in Ha. destruct Ha as [A1 A2]. apply Forall_app in A2. destruct A2 as [_ A2].
    apply Forall_app in A2. destruct A2 as [A2 A3]. split.
    - destruct Hhh as [H|H]; (split; [eapply digits_num; [exact H|exact A1]|]); destruct H as [H _]; auto.
    - split; [eapply digits_num; [exact Hmm|exact A2]|]. split; [apply Hmm|]. destruct o as [[b w]|]; [|exact I]. destruct Ho as [Hb Ho]. split; [exact Hb|].
      cbn [half] in A3. apply Forall_app in A3. destruct A3 as [_ A3]. destruct Ho as [Ho|Ho]; [left|right]; (apply like_low; [exact A3|reflexivity|exact Ho]).
  Qed.

  Theorem human_only s tz now u : is_ascii s = true -> human s tz now = Ok u -> human_text s.
  Proof.
    intros Ha H. apply asc_all in Ha. pose proof (strip_asc s Ha) as Hs. unfold fromHumanly in H. set (v := strip is_space s) in *.
    destruct (tries_from (humanlyPatterns ulower) v (match tz with Some o => o | None => fixed_offset 0 0 end) now) as [E|(r & f & p1 & s1 & c & Hi & D & E)].
    { rewrite E in H. discriminate H. }
    rewrite H in E. destruct Hi as [Hi|[Hi|[Hi|[Hi|[Hi|[]]]]]]; injection Hi as <- <-.
    - apply weekday_inv in D. destruct D as (pre & w & d & Ev & -> & Hd & Hl & Hp). destruct (weekday_of d Hd) as (wd & Hwd & Ed).
      assert (Hw : Forall asc w /\ Forall asc pre) by (rewrite Ev in Hs; apply Forall_app in Hs; tauto). destruct Hw as [Hw Hpre].
      apply (HT_weekday s wd). split; [exact Hwd|]. exists pre, w. split.
      + unfold same_letters. fold low. rewrite Ed. apply like_low; [exact Hw| |exact Hl]. clear - Hd. cbn in Hd. destruct Hd as [<-|[<-|[<-|[<-|[<-|[<-|[<-|[]]]]]]]]; reflexivity.
      + split; [rewrite <- Ev; apply strip_split|]. destruct Hp as [->|(v' & b & -> & Hv & Hb & Hn)]; [left; reflexivity|]. right. exists v', b.
        apply Forall_app in Hpre. destruct Hpre as [Hv' _]. split; [reflexivity|]. split; [|auto].
        destruct Hv as [Hv|Hv]; [left|right]; (apply like_letters; [exact Hv'|reflexivity|exact Hv]).
    - apply simple_text in D; [|exact Hs|reflexivity]. destruct D as (w & Hw & Ht). exact (HT_day s w Hw Ht).
    - pose proof D as D0. apply clock_inv in D. destruct D as (hh & mm & o & Ev & Hhh & Hmm & -> & Ho).
      destruct (clock_form s hh mm o p1 s1 _ Hs Ev Hhh Hmm Ho D0) as (F1 & F2 & F3 & F4).
      assert (Hp : padded (hh ++ lit ":" ++ mm ++ half o) s) by (rewrite <- Ev; apply strip_split).
      pose proof E as E0. apply fromTime_inv in E0. destruct E0 as (hh' & mm' & hr & h & m & G1 & G2 & G3 & G4 & G5 & G6).
      assert (Eh : hh' = hh /\ mm' = mm).
      { destruct o as [[b w]|]; cbn in G1, G2; injection G1 as <-; injection G2 as <-; auto. }
      destruct Eh as [-> ->]. rewrite (num_int _ _ (proj1 F1)) in G3. injection G3 as <-. rewrite (num_int _ _ F2) in G4. injection G4 as <-.
      assert (G5' : hour_of (uval hh) (match group g_ampm (match o with Some (_, w) => [(g_ampm, w)] | None => [] end) with Some a => ulower a | None => [] end) = Ok h).
      { destruct o as [[b w]|]; exact G5. }
      apply hour_of_inv in G5'; [|destruct o as [[b w]|]; [apply F4|exact I]]. destruct G5' as [Hh Hh24].
      assert (Hnoon : ~ noon_hour s). { intros Hn. pose proof (human_noon_hour ulower ualnum low_ok s tz now Hn) as Q. unfold fromHumanly in Q. fold v in Q. rewrite H in Q. discriminate Q. }
      destruct o as [[b w]|]; cbn [half half_hour] in Hp, Hh.
      + destruct F4 as [Fb _]. destruct Hh as [Hr [[Hw ->]|(Hw & -> & Hne)]].
        * apply (HT_clock s (uval hh mod 12) (uval mm)); [|lia|lia|exact Hnoon]. exact (CT_am s hh mm b w _ _ F1 Hr F2 F3 Fb Hw Hp).
        * apply (HT_clock s (uval hh mod 12 + 12) (uval mm)); [|lia|lia|exact Hnoon]. exact (CT_pm s hh mm b w _ _ F1 Hr F2 F3 Fb Hw Hp).
      + rewrite app_nil_r in Hp. subst h. apply (HT_clock s (uval hh) (uval mm)); [|lia|lia|exact Hnoon]. exact (CT_24 s hh mm _ _ F1 F2 F3 Hp).
    - apply simple_text in D; [|exact Hs|reflexivity]. destruct D as (w & Hw & Ht). apply (HT_word s w); [|exact Ht]. cbn in Hw |- *. tauto.
    - apply simple_text in D; [|exact Hs|reflexivity]. destruct D as (w & Hw & Ht). apply (HT_word s w); [|exact Ht]. cbn in Hw |- *. tauto.
  Qed.
  End Ascii.

  (** *** Errors *)

  Definition voa (e : exn) : Prop := e = ValueError \/ e = OverflowError \/ e = AssertionError.
  Definition vo {A} (r : res A) : Prop := match r with Ok _ => True | Err e => voa e end.

  Lemma vo_bind {A B} (r : res A) (k : A -> res B) : vo r -> (forall a, r = Ok a -> vo (k a)) -> vo (rbind r k).
  Proof. destruct r; cbn; auto. Qed.

  Lemma vo_datetime f : vo (datetime f).
  Proof. unfold datetime. destruct (fields_okb f); cbn; [exact I|left; reflexivity]. Qed.
  Lemma vo_replace l a b c d : vo (replace_clock l a b c d). Proof. apply vo_datetime. Qed.
  Lemma vo_add t d : vo (add_td t d).
  Proof. unfold add_td. destruct (in_range (t + d)); cbn; [exact I|right; left; reflexivity]. Qed.
  Lemma vo_utcoffset o : vo (utcoffset o).
  Proof. unfold utcoffset. destruct ((- DAY <? o) && (o <? DAY)); cbn; [exact I|left; reflexivity]. Qed.
  Lemma vo_astimezone l a b : vo (astimezone l a b).
  Proof.
    unfold astimezone. apply vo_bind; [apply vo_utcoffset|]. intros o _. apply vo_bind; [apply vo_add|]. intros u _.
    apply vo_bind; [apply vo_utcoffset|]. intros o' _. apply vo_bind; [apply vo_add|]. intros l' _. exact I.
  Qed.
  Lemma vo_asDatetime t tz : vo (asDatetime t tz).
  Proof. unfold asDatetime. destruct (negb (isTimezoneDependent t)); [exact I|apply vo_astimezone]. Qed.
  Lemma vo_fromDatetime x : vo (fromDatetime x).
  Proof. unfold fromDatetime. destruct (dt_tz x); [|exact I]. apply vo_bind; [apply vo_astimezone|]. intros y _. exact I. Qed.
  Lemma vo_int s : vo (py_int s).
  Proof.
    unfold py_int. destruct (strip is_space_b (map to_ascii s)) as [|c t]; cbn [digits_us]; [left; reflexivity|].
    destruct (c =? 45)%N; [|destruct (c =? 43)%N]; (match goal with |- context [digits_us ?a ?b ?c] => destruct (digits_us a b c) end); cbn; exact I || (left; reflexivity).
  Qed.
  Lemma vo_hour h a : vo (hour_of h a).
  Proof.
    unfold hour_of. apply vo_bind.
    - destruct a; [exact I|]. destruct (negb ((1 <=? h) && (h <=? 12))); [left; reflexivity|]. destruct ((h =? 12) && _); [exact I|]. destruct (eqb _ _); exact I.
    - intros x _. destruct (negb ((0 <=? x) && (x <=? 23))); [left; reflexivity|exact I].
  Qed.

  Theorem human_errors s tz now e : human s tz now = Err e -> e = ValueError \/ e = OverflowError \/ e = AssertionError.
  Proof.
    intros H. unfold fromHumanly in H. set (v := strip is_space s) in *.
    destruct (tries_from (humanlyPatterns ulower) v (match tz with Some o => o | None => fixed_offset 0 0 end) now) as [E|(r & f & p1 & s1 & c & Hi & D & E)].
    { rewrite H in E. injection E as ->. left. reflexivity. }
    rewrite H in E. clear H. assert (Hv : vo (f v c (match tz with Some o => o | None => fixed_offset 0 0 end) now)); [|rewrite E in Hv; exact Hv].
    clear E. generalize (match tz with Some o => o | None => fixed_offset 0 0 end). intros off.
    destruct Hi as [Hi|[Hi|[Hi|[Hi|[Hi|[]]]]]]; injection Hi as <- <-.
    - apply weekday_inv in D. destruct D as (pre & w & d & _ & -> & _). unfold fromWeekday. cbn [group Nat.eqb g_wday].
      destruct (index_of (ulower w) weekdays) as [wd|]; [|left; reflexivity].
      apply vo_bind; [apply vo_asDatetime|]. intros x _. apply vo_bind; [apply vo_replace|]. intros n _. apply vo_bind; [apply vo_add|]. intros l _.
      apply vo_bind; [apply vo_fromDatetime|]. intros self _. apply vo_bind; [apply vo_asDatetime|]. intros y _. destruct (weekday (dt_local y) =? wd); [exact I|]. right. right. reflexivity.
    - unfold fromTodayOrTomorrow. apply vo_bind; [apply vo_asDatetime|]. intros x _. apply vo_bind; [apply vo_replace|]. intros n _. cbv zeta. apply vo_bind.
      + destruct (eqb (ulower v) (lit "tomorrow")); [apply vo_add|]. destruct (eqb (ulower v) (lit "yesterday")); [apply vo_add|]. destruct (eqb (ulower v) (lit "today")); [exact I|]. right. right. reflexivity.
      + intros l _. apply vo_bind; [apply vo_fromDatetime|]. intros self _. exact I.
    - apply clock_inv in D. destruct D as (hh & mm & o & _ & _ & _ & -> & _). unfold fromTime.
      assert (G : group g_hh (match o with Some (_, w) => [(g_ampm, w)] | None => [] end ++ [(g_mm, mm); (g_hh, hh)]) = Some hh /\ group g_mm (match o with Some (_, w) => [(g_ampm, w)] | None => [] end ++ [(g_mm, mm); (g_hh, hh)]) = Some mm) by (destruct o as [[b w]|]; split; reflexivity).
      destruct G as [-> ->]. apply vo_bind; [apply vo_int|]. intros m _. apply vo_bind; [apply vo_int|]. intros hr _. apply vo_bind; [apply vo_hour|]. intros h _.
      apply vo_bind; [apply vo_asDatetime|]. intros x _. cbv zeta. apply vo_bind; [apply vo_replace|]. intros n _. apply vo_bind; [apply vo_replace|]. intros t _.
      apply vo_bind; [destruct (t <? n); [apply vo_add|exact I]|]. intros l _. apply vo_bind; [apply vo_fromDatetime|]. intros self _. exact I.
    - unfold fromNoonOrMidnight. cbv zeta. apply vo_bind.
      { destruct (eqb (ulower v) (lit "noon")); [exact I|]. destruct (eqb (ulower v) (lit "midnight")); [exact I|]. right. right. reflexivity. }
      intros h _. apply vo_bind; [apply vo_asDatetime|]. intros x _. apply vo_bind; [apply vo_replace|]. intros n _. apply vo_bind; [apply vo_replace|]. intros t _.
      apply vo_bind; [destruct (t <? n); [apply vo_add|exact I]|]. intros l _. apply vo_bind; [apply vo_fromDatetime|]. intros self _. exact I.
    - unfold fromNow, time_add. apply vo_bind; [apply vo_add|]. intros u _. apply vo_fromDatetime.
  Qed.

  Section Exact.
  Hypothesis low_ok : lowers ulower.

  Theorem human_accepts s tz now : human_text s -> roomy now (offset tz) -> t_us now + 8 * DAY < MAXT -> exists u, human s tz now = Ok u.
  Proof.
    intros H Hr H8. assert (Hn : ok_time now) by (destruct Hr as (_ & H1 & H2 & _); unfold ok_time, DAY in *; lia).
    assert (Hd : DAY <= t_us now) by apply Hr.
    destruct H as [wd Hw|w Hi Hw|h m Hc Hh Hm Hno|w Hi Hw].
    - destruct (human_weekday ulower ualnum low_ok s wd tz now Hw Hn H8) as (n & _ & E & _). eauto.
    - destruct Hi as [<-|[<-|[<-|[]]]].
      + rewrite (human_today ulower ualnum low_ok s tz now Hn Hw). eauto.
      + rewrite (human_tomorrow ulower ualnum low_ok s tz now Hn ltac:(unfold DAY in *; lia) Hw). eauto.
      + rewrite (human_yesterday ulower ualnum low_ok s tz now Hn Hd Hw). eauto.
    - destruct (human_clock ulower ualnum low_ok s h m tz now Hc Hh Hm Hno Hr) as (u & E & _). eauto.
    - destruct Hi as [<-|[<-|[<-|[]]]].
      + destruct (human_noon ulower ualnum low_ok s tz now true Hr Hw) as (u & E & _). eauto.
      + destruct (human_noon ulower ualnum low_ok s tz now false Hr Hw) as (u & E & _). eauto.
      + rewrite (human_now ulower ualnum low_ok s tz now Hn Hw). eauto.
  Qed.

  Lemma time_value txt c off now hh mm e : roomy now off -> group g_hh c = Some hh -> group g_mm c = Some mm ->
    fromTime ulower txt c off now = Err e -> (exists hr, num hh hr) -> (exists m, num mm m) -> e = ValueError.
  Proof.
    intros Hr Eh Em E (hr & Hh) (m & Hm). destruct (Z_lt_le_dec m 60) as [H60|H60].
    - destruct (hour_of hr (match group g_ampm c with Some a => ulower a | None => [] end)) as [h|e'] eqn:Eo.
      + rewrite (time_result ulower txt c off now hh mm hr h m Hr Eh Em Hh Hm H60 Eo) in E. discriminate E.
      + unfold fromTime in E. rewrite Eh, Em, (num_int _ _ Hh), (num_int _ _ Hm) in E. cbn [rbind] in E. rewrite Eo in E. cbn [rbind] in E. injection E as <-.
        unfold hour_of in Eo. match type of Eo with rbind ?x _ = _ => destruct x as [h|e1] eqn:E1 end; cbn [rbind] in Eo.
        * destruct (negb ((0 <=? h) && (h <=? 23))); [injection Eo as <-; reflexivity|discriminate Eo].
        * injection Eo as <-. destruct (match group g_ampm c with Some a => ulower a | None => [] end); [discriminate E1|].
          destruct (negb ((1 <=? hr) && (hr <=? 12))); [injection E1 as <-; reflexivity|]. destruct ((hr =? 12) && _); [discriminate E1|]. destruct (eqb _ _); discriminate E1.
    - unfold fromTime in E. rewrite Eh, Em, (num_int _ _ Hh), (num_int _ _ Hm) in E. cbn [rbind] in E.
      destruct (hour_of hr (match group g_ampm c with Some a => ulower a | None => [] end)) as [h|e'] eqn:Eo; cbn [rbind] in E.
      + destruct (roomy_local _ _ Hr) as [Ed HL]. rewrite Ed in E. cbn [rbind dt_local] in E. rewrite (minute_Ok _ HL) in E. cbn [rbind] in E.
        rewrite replace_Err in E by lia. injection E as <-. reflexivity.
      + injection E as <-. unfold hour_of in Eo. match type of Eo with rbind ?x _ = _ => destruct x as [h|e1] eqn:E1 end; cbn [rbind] in Eo.
        * destruct (negb ((0 <=? h) && (h <=? 23))); [injection Eo as <-; reflexivity|discriminate Eo].
        * injection Eo as <-. destruct (match group g_ampm c with Some a => ulower a | None => [] end); [discriminate E1|].
          destruct (negb ((1 <=? hr) && (hr <=? 12))); [injection E1 as <-; reflexivity|]. destruct ((hr =? 12) && _); [discriminate E1|]. destruct (eqb _ _); discriminate E1.
  Qed.

  Theorem human_value s tz now e : is_ascii s = true -> roomy now (offset tz) -> t_us now + 8 * DAY < MAXT -> human s tz now = Err e -> e = ValueError.
  Proof.
    intros Ha Hr H8 H. apply asc_all in Ha. pose proof (strip_asc s Ha) as Hs.
    assert (Hacc : human_text s -> e = ValueError). { intros Ht. destruct (human_accepts s tz now Ht Hr H8) as (u & Eu). congruence. }
    unfold fromHumanly in H. set (v := strip is_space s) in *.
    destruct (tries_from (humanlyPatterns ulower) v (match tz with Some o => o | None => fixed_offset 0 0 end) now) as [E|(r & f & p1 & s1 & c & Hi & D & E)].
    { rewrite H in E. injection E as ->. reflexivity. }
    rewrite H in E. destruct Hi as [Hi|[Hi|[Hi|[Hi|[Hi|[]]]]]]; injection Hi as <- <-.
    - apply weekday_inv in D. destruct D as (pre & w & d & Ev & -> & Hd & Hl & Hp). destruct (weekday_of d Hd) as (wd & Hwd & Ed).
      assert (Hw : Forall asc w) by (rewrite Ev in Hs; apply Forall_app in Hs; tauto).
      assert (Ew : ulower w = d). { rewrite low_ok by (now apply asc_all). apply like_low; [exact Hw| |exact Hl]. clear - Hd. cbn in Hd. destruct Hd as [<-|[<-|[<-|[<-|[<-|[<-|[<-|[]]]]]]]]; reflexivity. }
      assert (Hi : index_of (ulower w) weekdays = Some wd) by (rewrite Ew, <- Ed; now apply weekday_index).
      assert (Hn : ok_time now) by (destruct Hr as (_ & H1 & H2 & _); unfold ok_time, DAY in *; lia).
      destruct (weekday_result ulower v [(g_wday, w)] (match tz with Some o => o | None => fixed_offset 0 0 end) now w wd Hn H8 eq_refl Hi Hwd) as (n & _ & Q & _). congruence.
    - apply simple_text in D; [|exact Hs|reflexivity]. destruct D as (w & Hw & Ht). apply Hacc. exact (HT_day s w Hw Ht).
    - pose proof D as D0. apply clock_inv in D. destruct D as (hh & mm & o & Ev & Hhh & Hmm & -> & Ho).
      destruct (clock_form s hh mm o p1 s1 _ Hs Ev Hhh Hmm Ho D0) as (F1 & F2 & F3 & F4).
      apply (time_value v (match o with Some (_, w) => [(g_ampm, w)] | None => [] end ++ [(g_mm, mm); (g_hh, hh)]) (offset tz) now hh mm); try assumption.
      + destruct o as [[b w]|]; reflexivity.
      + destruct o as [[b w]|]; reflexivity.
      + exists (uval hh). apply F1.
      + exists (uval mm). exact F2.
    - apply simple_text in D; [|exact Hs|reflexivity]. destruct D as (w & Hw & Ht). apply Hacc. apply (HT_word s w); [|exact Ht]. cbn in Hw |- *. tauto.
    - apply simple_text in D; [|exact Hs|reflexivity]. destruct D as (w & Hw & Ht). apply Hacc. apply (HT_word s w); [|exact Ht]. cbn in Hw |- *. tauto.
  Qed.

  Theorem human_exact s tz now : is_ascii s = true -> roomy now (offset tz) -> t_us now + 8 * DAY < MAXT ->
    (human_text s /\ exists u, human s tz now = Ok u) \/ (~ human_text s /\ human s tz now = Err ValueError).
  Proof.
    intros Ha Hr H8. destruct (human s tz now) as [u|e] eqn:E.
    - left. split; [exact (human_only low_ok s tz now u Ha E)|eauto].
    - right. split.
      + intros Ht. destruct (human_accepts s tz now Ht Hr H8) as (u & Eu). congruence.
      + now rewrite (human_value s tz now e Ha Hr H8 E).
  Qed.
  End Exact.
End Human.
