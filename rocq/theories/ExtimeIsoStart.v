(** * What an ISO text written by a Time is read as: the start of its period *)

From Coq Require Import ZArith NArith String List Bool Lia.
From Verif Require Import Py PyStr PyNum PyInt Regex PyFloat Cal PyTime Extime ExtimeIso ExtimeIsoVal ExtimeIsoFmt.
Import ListNotations.
Open Scope Z_scope.

(** ** Specification *)

(** the first moment of the period of length [r] in which a moment falls *)
Definition clip (r : Z) (f : fields) : fields :=
  let x := f_date f in
  if r <=? 1 then f
  else if r <=? SECOND then F x (f_hour f) (f_min f) (f_sec f) 0
  else if r <=? MINUTE then F x (f_hour f) (f_min f) 0 0
  else if r <=? HOUR then F x (f_hour f) 0 0 0
  else if r <=? DAY then F x 0 0 0 0
  else if r <=? 31 * DAY then F (D (d_year x) (d_month x) 1) 0 0 0 0
  else F (D (d_year x) 1 1) 0 0 0 0.

(** ** Proofs *)

Ltac by_res r :=
  assert (B : 1 < SECOND /\ SECOND < MINUTE /\ MINUTE < HOUR /\ HOUR < DAY /\ DAY < 31 * DAY /\ 31 * DAY < 366 * DAY) by (repeat split);
  destruct (Z.leb_spec r 1) as [R1|R1]; [|destruct (Z.leb_spec r SECOND) as [R2|R2]; [|destruct (Z.leb_spec r MINUTE) as [R3|R3];
    [|destruct (Z.leb_spec r HOUR) as [R4|R4]; [|destruct (Z.leb_spec r DAY) as [R5|R5]; [|destruct (Z.leb_spec r (31 * DAY)) as [R6|R6]]]]]].

Lemma leb_t a b : a <= b -> (a <=? b) = true. Proof. apply Z.leb_le. Qed.
Lemma leb_f a b : b < a -> (a <=? b) = false. Proof. apply Z.leb_gt. Qed.

Lemma clip_text r f a b tz : text_of r (clip r f) a b tz = text_of r f a b tz.
Proof.
  unfold text_of. cbn [flat_map]. unfold clip. by_res r; try reflexivity;
    rewrite ?(leb_t r (366 * DAY)), ?(leb_t r (31 * DAY)), ?(leb_t r DAY), ?(leb_t r HOUR), ?(leb_t r MINUTE), ?(leb_t r SECOND) by lia;
    rewrite ?(leb_f r 1), ?(leb_f r SECOND), ?(leb_f r MINUTE), ?(leb_f r HOUR), ?(leb_f r DAY), ?(leb_f r (31 * DAY)) by lia; reflexivity.
Qed.

Lemma clip_valid r f : valid_fields f -> valid_fields (clip r f).
Proof.
  intros (Hy & Hd & Hh & Hm & Hs & Hu). unfold valid_date in Hd. unfold clip. pose proof (month_length_pos (d_year (f_date f)) (d_month (f_date f))) as L.
  pose proof (month_length_pos (d_year (f_date f)) 1) as L1.
  by_res r; unfold valid_fields, valid_date; cbn [f_date f_hour f_min f_sec f_us d_year d_month d_day]; repeat split; lia.
Qed.

Lemma zero_mods k :
  (f_us (fields_of k) = 0 -> k mod SECOND = 0) /\
  (f_us (fields_of k) = 0 -> f_sec (fields_of k) = 0 -> k mod MINUTE = 0) /\
  (f_us (fields_of k) = 0 -> f_sec (fields_of k) = 0 -> f_min (fields_of k) = 0 -> k mod HOUR = 0) /\
  (f_us (fields_of k) = 0 -> f_sec (fields_of k) = 0 -> f_min (fields_of k) = 0 -> f_hour (fields_of k) = 0 -> k mod DAY = 0).
Proof. unfold fields_of. cbn [f_us f_sec f_min f_hour]. unfold SECOND, MINUTE, HOUR, DAY. repeat split; intros; lia. Qed.

Lemma clip_starts r f k : r <= 366 * DAY -> fields_of k = clip r f -> starts r k.
Proof.
  intros Hr E. pose proof (zero_mods k) as (Z1 & Z2 & Z3 & Z4). rewrite E in Z1, Z2, Z3, Z4. unfold starts. rewrite E. unfold clip in *. cbv zeta.
  by_res r; cbn [f_date f_hour f_min f_sec f_us d_year d_month d_day] in *; auto.
  rewrite (leb_t r (366 * DAY)) by lia. auto.
Qed.

(** a start is its own start *)
Lemma starts_clip r k : 0 <= k < MAXT -> starts r k -> datetime (clip r (fields_of k)) = Ok k.
Proof.
  intros Hk Hs. destruct (datetime_fields k Hk) as [Hv Hd].
  enough (E : clip r (fields_of k) = fields_of k) by now rewrite E.
  unfold starts in Hs. cbv zeta in Hs. unfold clip. cbv zeta.
  assert (U : k mod SECOND = 0 -> f_us (fields_of k) = 0) by (intros H; exact H).
  assert (V : k mod MINUTE = 0 -> f_sec (fields_of k) = 0) by (intros H; unfold fields_of; cbn [f_sec]; now rewrite H).
  assert (W : k mod HOUR = 0 -> f_min (fields_of k) = 0) by (intros H; unfold fields_of; cbn [f_min]; now rewrite H).
  assert (A : k mod DAY = 0 -> f_hour (fields_of k) = 0) by (intros H; unfold fields_of; cbn [f_hour]; now rewrite H).
  pose proof (mods k) as (Md & Mh & Mm).
  clear Hv Hd. revert Hs U V W A. generalize (fields_of k). intros [[y mo dd] h m s u]. cbn [f_date f_hour f_min f_sec f_us d_year d_month d_day]. intros Hs U V W A.
  by_res r; [reflexivity|..].
  - now rewrite U by auto.
  - now rewrite U, V by auto.
  - now rewrite U, V, W by auto.
  - now rewrite U, V, W, A by auto.
  - destruct Hs as [Hs ->]. now rewrite U, V, W, A by auto.
  - destruct (r <=? 366 * DAY); [|contradiction]. destruct Hs as (Hs & -> & ->). now rewrite U, V, W, A by auto.
Qed.

Theorem iso_start (t : time) (d : bool) (tz : option Z) (incl : bool) (tz' : option Z) k :
  ok_time t -> - DAY < offset_of tz < DAY -> 0 <= written t tz < MAXT -> t_res t <= 366 * DAY ->
  datetime (clip (t_res t) (fields_of (written t tz))) = Ok k -> 0 <= t_us t - (written t tz - k) < MAXT ->
  t_res t <= HOUR \/ DAY <= t_res t \/ offset_of tz = 0 ->
  (31 * DAY < t_res t -> d_year (f_date (fields_of (written t tz))) < 9999) ->
  (if incl then offset_of tz mod MINUTE = 0 /\ (0 <= offset_of tz \/ offset_of tz mod HOUR = 0) else tz' = tz) ->
  exists s u, asISO t d tz incl = Ok s /\ fromISO s tz' = Ok u /\ t_us u = t_us t - (written t tz - k).
Proof.
  intros Ht Ho Hw Hr Hk Hk0 Hz Hy Hi. set (L := written t tz) in *. set (t' := T (t_us t - (L - k)) (t_res t)).
  pose proof Hk as Hk'. apply datetime_Ok in Hk' as (Hv & Hkr & Hf).
  assert (W : written t' tz = k).
  { unfold t', L, written. cbn [t_us t_res]. destruct (t_res t <? DAY); lia. }
  assert (Y' : d_year (f_date (clip (t_res t) (fields_of L))) = d_year (f_date (fields_of L))).
  { clear. unfold clip. by_res (t_res t); reflexivity. }
  assert (Ht' : ok_time t') by exact Hk0.
  destruct (iso_round t' d tz incl tz') as (s & u & H1 & H2 & H3); rewrite ?W; auto.
  - apply (clip_starts _ (fields_of L)); auto.
  - rewrite Hf. unfold t'. cbn [t_res]. rewrite Y'. exact Hy.
  - exists s, u. split; [|split; [exact H2|apply Z.eqb_eq in H3; exact H3]]. rewrite <- H1.
    rewrite (asISO_eq t d tz incl Ht Ho Hw), (asISO_eq t' d tz incl Ht' Ho) by (rewrite W; exact Hkr).
    rewrite W. unfold t'. cbn [t_res]. rewrite Hf. fold L. destruct d; rewrite clip_text; reflexivity.
Qed.

(** no more than 366 days *)
Lemma iso_none t d incl : ok_time t -> 366 * DAY < t_res t -> asISO t d None incl = Ok [].
Proof.
  intros Ht Hr. assert (W : written t None = t_us t) by (unfold written, offset_of; destruct (t_res t <? DAY); lia).
  assert (B : 1 < SECOND /\ SECOND < MINUTE /\ MINUTE < HOUR /\ HOUR < DAY /\ DAY < 31 * DAY /\ 31 * DAY < 366 * DAY) by (repeat split).
  rewrite (asISO_eq t d None incl Ht); [|cbn; unfold DAY; lia|rewrite W; exact Ht].
  destruct d; unfold text_of; cbn [flat_map]; rewrite ?(leb_f (t_res t)) by lia; reflexivity.
Qed.

(** the bare 9999 *)
Lemma iso_9999 t d incl s : ok_time t -> 31 * DAY < t_res t <= 366 * DAY -> d_year (f_date (fields_of (t_us t))) = 9999 ->
  asISO t d None incl = Ok s -> s = lit "9999".
Proof.
  intros Ht Hr Hy. assert (W : written t None = t_us t) by (unfold written, offset_of; destruct (t_res t <? DAY); lia).
  assert (B : 1 < SECOND /\ SECOND < MINUTE /\ MINUTE < HOUR /\ HOUR < DAY /\ DAY < 31 * DAY /\ 31 * DAY < 366 * DAY) by (repeat split).
  rewrite (asISO_eq t d None incl Ht); [|cbn; unfold DAY; lia|rewrite W; exact Ht].
  destruct d; unfold text_of; cbn [flat_map]; rewrite (leb_t (t_res t) (366 * DAY)) by lia; rewrite ?(leb_f (t_res t)) by lia; rewrite W, Hy; intros [= <-]; reflexivity.
Qed.

(** In Greenwich: what is read is the start of the period, and so equal to the time
    exactly if the time is such a start. *)
Theorem iso_utc t d tz' : ok_time t ->
  exists s, asISO t d None true = Ok s /\
    if t_res t <=? 366 * DAY then
      if (31 * DAY <? t_res t) && (d_year (f_date (fields_of (t_us t))) =? 9999) then fromISO s tz' = Err ValueError
      else exists u, fromISO s tz' = Ok u /\ datetime (clip (t_res t) (fields_of (t_us t))) = Ok (t_us u)
    else fromISO s tz' = Err ValueError.
Proof.
  intros Ht. assert (W : written t None = t_us t) by (unfold written, offset_of; destruct (t_res t <? DAY); lia).
  destruct (Z.leb_spec (t_res t) (366 * DAY)) as [Hr|Hr].
  2:{ exists []. split; [now apply iso_none|]. vm_compute. reflexivity. }
  destruct (datetime_fields (t_us t) Ht) as [Hv _]. destruct ((31 * DAY <? t_res t) && _)%bool eqn:Ec.
  - apply andb_prop in Ec as [E1 E2]. apply Z.ltb_lt in E1. apply Z.eqb_eq in E2.
    pose proof (asISO_eq t d None true Ht) as E. cbn [offset_of] in E. rewrite W in E. specialize (E ltac:(unfold DAY; lia) Ht).
    destruct (asISO t d None true) as [s|e] eqn:Es; [|destruct d; discriminate].
    exists s. split; [reflexivity|]. rewrite (iso_9999 t d true s Ht (conj E1 Hr) E2 Es). vm_compute. reflexivity.
  - pose proof (clip_valid (t_res t) _ Hv) as Hc. destruct (datetime (clip (t_res t) (fields_of (t_us t)))) as [k|e] eqn:Ek.
    2:{ exfalso. pose proof (proj2 (datetime_eq (clip (t_res t) (fields_of (t_us t))) _) (conj Hc eq_refl)) as X. rewrite Ek in X. discriminate. }
    assert (Hk : 0 <= k < MAXT) by (apply datetime_Ok in Ek; tauto).
    assert (R : exists s u, asISO t d None true = Ok s /\ fromISO s tz' = Ok u /\ t_us u = t_us t - (written t None - k)).
    { apply iso_start; rewrite ?W; auto; cbn [offset_of]; try (unfold DAY; lia); try lia.
      intros H. apply andb_false_iff in Ec as [Ec|Ec]; [apply Z.ltb_ge in Ec; lia|]. apply Z.eqb_neq in Ec. destruct Hv as (Hy & _). lia. }
    destruct R as (s & u & H1 & H2 & H3). rewrite W in H3. exists s. split; [exact H1|]. exists u. split; [exact H2|]. f_equal. lia.
Qed.

Theorem iso_exact t d tz' : ok_time t ->
  (exists s u, asISO t d None true = Ok s /\ fromISO s tz' = Ok u /\ time_eq u t = true) <->
  starts (t_res t) (t_us t) /\ (31 * DAY < t_res t -> d_year (f_date (fields_of (t_us t))) < 9999).
Proof.
  intros Ht. destruct (iso_utc t d tz' Ht) as (s & Hs & H). destruct (datetime_fields (t_us t) Ht) as [Hv _]. split.
  - intros (s' & u & H1 & H2 & H3). rewrite Hs in H1. injection H1 as <-. rewrite H2 in H.
    destruct (Z.leb_spec (t_res t) (366 * DAY)) as [Hr|Hr]; [|discriminate].
    destruct ((31 * DAY <? t_res t) && _)%bool eqn:Ec; [discriminate|]. destruct H as (u' & [= <-] & H). apply Z.eqb_eq in H3. rewrite H3 in H.
    apply datetime_Ok in H as (_ & _ & H). split; [eapply clip_starts; eauto|].
    intros X. apply andb_false_iff in Ec as [Ec|Ec]; [apply Z.ltb_ge in Ec; lia|]. apply Z.eqb_neq in Ec. destruct Hv as (Hy & _). lia.
  - intros [H1 H2]. exists s. assert (Hr : t_res t <= 366 * DAY).
    { unfold starts in H1. cbv zeta in H1. destruct (Z.leb_spec (t_res t) (366 * DAY)) as [|Hr]; [assumption|exfalso].
      assert (B : 1 < SECOND /\ SECOND < MINUTE /\ MINUTE < HOUR /\ HOUR < DAY /\ DAY < 31 * DAY /\ 31 * DAY < 366 * DAY) by (repeat split).
      rewrite !leb_f in H1 by lia. exact H1. }
    rewrite (leb_t _ _ Hr) in H. replace ((31 * DAY <? t_res t) && _)%bool with false in H.
    2:{ symmetry. apply andb_false_iff. destruct (Z.ltb_spec (31 * DAY) (t_res t)) as [X|X]; [right|now left]. apply Z.eqb_neq. specialize (H2 X). lia. }
    destruct H as (u & Hu & H). rewrite (starts_clip (t_res t) (t_us t) Ht H1) in H. injection H as H. exists u. split; [exact Hs|]. split; [exact Hu|]. apply Z.eqb_eq. congruence.
Qed.
