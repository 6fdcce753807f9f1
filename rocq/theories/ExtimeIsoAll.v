(** * What an ISO text written in any zone is read as (epsilon/extime.py:620-731, 742-790; the model is in ExtimeIso.v) *)

From Coq Require Import ZArith NArith QArith Qabs Lqa String List Bool Lia.
From Verif Require Import Py PyStr PyNum PyInt Regex PyFloat Cal PyTime Extime ExtimeIso ExtimeIsoVal ExtimeIsoFmt ExtimeIsoStart ExtimePosix.
Import ListNotations.
Open Scope Z_scope.

(** ** Specification *)

(** the zone read back from the zone of [off] microseconds that was written: of the
    nearest number of minutes; hours west have the minutes added to them *)
Definition zone_back (off : Z) : Z :=
  let m := rne (off # 60000000) in
  if m <? 0 then - ((- m) / 60 * HOUR) + (- m) mod 60 * MINUTE else m * MINUTE.

(** the zone in which a text is read: none for a date without a time *)
Definition zone_read (t : time) (tz : option Z) (incl : bool) (tz' : option Z) : Z :=
  if t_res t <=? HOUR then if incl then zone_back (offset_of tz) else offset_of tz' else 0.

(** ** Proofs *)

Lemma minutes_bound off : - DAY < off < DAY -> - 1440 <= rne (off # 60000000) <= 1440.
Proof.
  intros [L H]. split.
  - replace (-1440) with (rne (- DAY # 60000000)) by (vm_compute; reflexivity). apply rne_mono. unfold Qle. cbn [Qnum Qden]. lia.
  - replace 1440 with (rne (DAY # 60000000)) by (vm_compute; reflexivity). apply rne_mono. unfold Qle. cbn [Qnum Qden]. lia.
Qed.

Lemma sign_text_all off b : maybe 58 b -> - DAY < off < DAY ->
  exists z, zone_text z (let '(sign, hour, min) := signHrMin off in sign ++ zpad 2 hour ++ b ++ zpad 2 min) /\ (forall tz, code_offset z tz = zone_back off).
Proof.
  intros Hb Ho. pose proof (minutes_bound off Ho) as Hk. unfold signHrMin, zone_back. set (k := rne (off # 60000000)) in *. clearbody k. cbv zeta. destruct (Z.ltb_spec k 0) as [Hn|Hp].
  - destruct (zpad_digits 1 ((- k) / 60)) as [D1 V1]; [change (10 ^ Z.of_nat 2) with 100; lia|].
    destruct (zpad_digits 1 ((- k) mod 60)) as [D2 V2]; [change (10 ^ Z.of_nat 2) with 100; lia|].
    exists (ZOff 45 (zpad 2 ((- k) / 60)) (Some (zpad 2 ((- k) mod 60)))). split.
    + exact (T_offm 45%N _ b _ (or_intror eq_refl) D1 Hb D2).
    + intros tz. cbn [code_offset N.eqb Pos.eqb]. rewrite V1, V2. unfold fixed_offset. change HOUR with (60 * MINUTE). lia.
  - destruct (zpad_digits 1 (k / 60)) as [D1 V1]; [change (10 ^ Z.of_nat 2) with 100; lia|].
    destruct (zpad_digits 1 (k mod 60)) as [D2 V2]; [change (10 ^ Z.of_nat 2) with 100; lia|].
    exists (ZOff 43 (zpad 2 (k / 60)) (Some (zpad 2 (k mod 60)))). split.
    + exact (T_offm 43%N _ b _ (or_introl eq_refl) D1 Hb D2).
    + intros tz. cbn [code_offset N.eqb Pos.eqb]. rewrite V1, V2. unfold fixed_offset. f_equal. lia.
Qed.

Lemma clip_year r f : d_year (f_date (clip r f)) = d_year (f_date f).
Proof. unfold clip. by_res r; reflexivity. Qed.

Lemma clip_exists r L : 0 <= L < MAXT -> exists k, datetime (clip r (fields_of L)) = Ok k /\ 0 <= k < MAXT /\ fields_of k = clip r (fields_of L).
Proof.
  intros HL. destruct (datetime_fields L HL) as [Hv _]. pose proof (clip_valid r _ Hv) as Hc. destruct (datetime (clip r (fields_of L))) as [k|e] eqn:Ek.
  - exists k. split; [reflexivity|]. apply datetime_Ok in Ek. tauto.
  - exfalso. pose proof (proj2 (datetime_eq (clip r (fields_of L)) _) (conj Hc eq_refl)) as X. rewrite Ek in X. discriminate.
Qed.

Theorem iso_zone (t : time) (d : bool) (tz : option Z) (incl : bool) (tz' : option Z) :
  ok_time t -> - DAY < offset_of tz < DAY -> 0 <= written t tz < MAXT -> t_res t <= 366 * DAY ->
  (31 * DAY < t_res t -> d_year (f_date (fields_of (written t tz))) < 9999) ->
  exists s k, asISO t d tz incl = Ok s /\ datetime (clip (t_res t) (fields_of (written t tz))) = Ok k /\
    let z := zone_read t tz incl tz' in
    (forall u, fromISO s tz' = Ok u -> t_us u = k - z /\ (- DAY < z < DAY /\ 0 <= k - z < MAXT)) /\
    (- DAY < z < DAY -> 0 <= k - z < MAXT -> exists u, fromISO s tz' = Ok u).
Proof.
  intros Ht Ho Hw Hr Hy. rewrite (asISO_eq t d tz incl Ht Ho Hw).
  assert (Hsep : exists a b, maybe 45 a /\ maybe 58 b /\ (if d then (lit "-", lit ":") else ([], [])) = (a, b)).
  { destruct d; eexists _, _; (split; [|split; [|reflexivity]]); [right|right|left|left]; reflexivity. }
  destruct Hsep as (a & b & Ha & Hb & ->).
  destruct (clip_exists (t_res t) _ Hw) as (k & Ek & Hk & Ef). set (L := written t tz) in *.
  set (o := if t_res t <? DAY then offset_of tz else 0).
  assert (Hz : exists z, zone_text z (if incl then let '(sign, hour, min) := signHrMin o in sign ++ zpad 2 hour ++ b ++ zpad 2 min else []) /\
                         (t_res t <= HOUR -> code_offset z tz' = zone_read t tz incl tz')).
  { unfold zone_read. destruct incl.
    - destruct (sign_text_all o b Hb) as (z & Hz & Ez).
      + unfold o. destruct (t_res t <? DAY); [exact Ho|unfold DAY; lia].
      + exists z. split; [exact Hz|]. intros Hh. rewrite Ez. unfold o. rewrite (leb_t _ _ Hh). destruct (Z.ltb_spec (t_res t) DAY); [reflexivity|unfold DAY, HOUR in *; lia].
    - exists ZNone. split; [constructor|]. intros Hh. rewrite (leb_t _ _ Hh). reflexivity. }
  destruct Hz as (z & Hz & Ez). set (Z := zone_read t tz incl tz') in *.
  eexists _, k. split; [reflexivity|]. split; [exact Ek|]. cbv zeta. rewrite <- clip_text. rewrite <- Ef.
  destruct (datetime_fields _ Hk) as [Hv Hd].
  pose proof (text_printed (t_res t) (fields_of k) a b z _ Hv Hr Ha Hb Hz) as Htext.
  pose proof (clip_starts (t_res t) (fields_of L) k Hr Ef) as Hs.
  destruct (printed_names (t_res t) k z Hk Hs) as [Hn Eyr]. set (i := printed (t_res t) (fields_of k) z) in *.
  set (s := text_of (t_res t) (fields_of k) a b (if incl then let '(sign, hour, min) := signHrMin o in sign ++ zpad 2 hour ++ b ++ zpad 2 min else [])) in *.
  assert (Hc : forall x, zone_instant k (code_zone i tz') x <-> x = k - Z /\ (- DAY < Z < DAY /\ 0 <= k - Z < MAXT)).
  { intros x. unfold code_zone, i, printed. cbn [i_time]. destruct (Z.leb_spec (t_res t) HOUR) as [Hh|Hh].
    - rewrite (Ez Hh). cbn [zone_instant]. tauto.
    - cbn [zone_instant]. assert (E : Z = 0) by (unfold Z, zone_read; now rewrite (leb_f _ _ Hh)). rewrite E, Z.sub_0_r. split; [|tauto]. intros ->. split; [reflexivity|]. split; [unfold DAY; lia|exact Hk]. }
  split.
  - intros u Hu. apply (parse_Ok i _ tz' _ Htext) in Hu. destruct Hu as (f & l & Hnf & Hfl & Hzi & _).
    destruct (names_local i s _ _ _ _ Htext Hn Hd Hnf Hfl) as [_ <-]. apply Hc. exact Hzi.
  - intros Hzb Hkb. assert (Hzi : zone_instant k (code_zone i tz') (k - Z)) by (apply Hc; auto).
    pose proof (res_period i _ _ _ _ _ _ Htext eq_refl Hn Hd Hzi) as Hres.
    exists (T (k - Z) (period i)). apply (parse_Ok i _ tz' _ Htext). exists (fields_of k), k. cbn [t_us t_res]. split; [exact Hn|]. split; [exact Hd|]. split; [exact Hzi|].
    rewrite Hres. replace (match i_time i with Some _ => false | None => _ end) with false; [reflexivity|]. symmetry.
    rewrite Eyr, Ef, clip_year. unfold i, printed. cbn [i_time i_date]. destruct (t_res t <=? HOUR); [reflexivity|].
    destruct (t_res t <=? DAY); [reflexivity|]. destruct (Z.leb_spec (t_res t) (31 * DAY)) as [X|X]; [reflexivity|]. specialize (Hy X). lia.
Qed.

Theorem iso_zone_exact (t : time) (d : bool) (tz : option Z) (incl : bool) (tz' : option Z) :
  ok_time t -> - DAY < offset_of tz < DAY -> 0 <= written t tz < MAXT -> t_res t <= 366 * DAY ->
  (31 * DAY < t_res t -> d_year (f_date (fields_of (written t tz))) < 9999) ->
  (exists s u, asISO t d tz incl = Ok s /\ fromISO s tz' = Ok u /\ time_eq u t = true) <->
  - DAY < zone_read t tz incl tz' < DAY /\ datetime (clip (t_res t) (fields_of (written t tz))) = Ok (t_us t + zone_read t tz incl tz').
Proof.
  intros Ht Ho Hw Hr Hy. destruct (iso_zone t d tz incl tz' Ht Ho Hw Hr Hy) as (s & k & Es & Ek & H). cbv zeta in H. set (z := zone_read t tz incl tz') in *. destruct H as [H1 H2]. split.
  - intros (s' & u & E1 & E2 & E3). rewrite Es in E1. injection E1 as <-. destruct (H1 u E2) as [E (A & B)]. split; [exact A|]. rewrite Ek. f_equal. apply Z.eqb_eq in E3. lia.
  - intros [A B]. rewrite Ek in B. injection B as B. assert (R : 0 <= k - z < MAXT) by (unfold ok_time in Ht; lia). destruct (H2 A R) as (u & Hu). exists s, u. split; [exact Es|]. split; [exact Hu|].
    destruct (H1 u Hu) as [E _]. apply Z.eqb_eq. lia.
Qed.

Lemma clip_before r L k : r <= HOUR -> 0 <= L < MAXT -> datetime (clip r (fields_of L)) = Ok k -> k <= L.
Proof.
  intros Hr HL Hk. destruct (datetime_fields L HL) as [Hv Hd]. apply datetime_eq in Hd as [_ Hd]. apply datetime_eq in Hk as [_ Hk].
  destruct Hv as (_ & _ & Hh & Hm & Hs & Hu). enough (E : f_date (clip r (fields_of L)) = f_date (fields_of L) /\ day_us (clip r (fields_of L)) <= day_us (fields_of L)) by (destruct E as [E1 E2]; rewrite E1 in Hk; lia).
  clear Hk Hd HL. generalize dependent (fields_of L). intros f Hh Hm Hs Hu. unfold day_us, clip. by_res r; cbn [f_date f_hour f_min f_sec f_us]; try lia; (split; [reflexivity|]); unfold HOUR, MINUTE, SECOND in *; lia.
Qed.

(** half-hour zones in the west never come back *)
Theorem iso_west_never t d tz tz' : ok_time t -> - DAY < offset_of tz < 0 -> offset_of tz mod MINUTE = 0 -> offset_of tz mod HOUR <> 0 ->
  0 <= written t tz < MAXT -> t_res t <= HOUR ->
  ~ exists s u, asISO t d tz true = Ok s /\ fromISO s tz' = Ok u /\ time_eq u t = true.
Proof.
  intros Ht Ho Hm Hh Hw Hr H. assert (B : HOUR < DAY /\ DAY < 31 * DAY /\ 31 * DAY < 366 * DAY) by (repeat split).
  apply iso_zone_exact in H; [|exact Ht|unfold DAY in *; lia|exact Hw|lia|lia]. destruct H as [_ H].
  unfold zone_read in H. rewrite (leb_t _ _ Hr) in H.
  apply Z.mod_divide in Hm; [|discriminate]. destruct Hm as [m Hm].
  assert (E : rne (offset_of tz # 60000000) = m).
  { rewrite (rne_compat (offset_of tz # 60000000) (inject_Z m)); [apply rne_Z|]. unfold Qeq. cbn [Qnum Qden inject_Z]. rewrite Hm. unfold MINUTE. lia. }
  assert (Zb : zone_back (offset_of tz) = offset_of tz + 2 * ((- m) mod 60 * MINUTE)).
  { unfold zone_back. rewrite E. cbv zeta. replace (m <? 0) with true by (symmetry; apply Z.ltb_lt; unfold MINUTE in *; lia). rewrite Hm. change HOUR with (60 * MINUTE). pose proof (Z.div_mod (- m) 60 ltac:(discriminate)). nia. }
  assert (P : 0 < (- m) mod 60).
  { pose proof (Z.mod_pos_bound (- m) 60 ltac:(reflexivity)). destruct (Z.eq_dec ((- m) mod 60) 0) as [X|X]; [exfalso; apply Hh|lia]. rewrite Hm. change HOUR with (60 * MINUTE). rewrite Z.mul_mod_distr_r by discriminate. replace (m mod 60) with 0 by lia. reflexivity. }
  assert (W : written t tz = t_us t + offset_of tz) by (unfold written; replace (t_res t <? DAY) with true by (symmetry; apply Z.ltb_lt; lia); reflexivity).
  apply clip_before in H; [|exact Hr|exact Hw]. rewrite Zb, W in H. unfold MINUTE in H. lia.
Qed.
