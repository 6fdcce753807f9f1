(** * Times as arguments of commands; the arguments which never arrive *)

From Coq Require Import ZArith NArith String List Bool Lia.
From Verif Require Import Py PyStr PyNum PyInt Utf8 Cal PyTime Extime ExtimeIso ExtimeIsoVal ExtimeIsoFmt JuiceCodec JuiceStream JuiceArgs.
Import ListNotations.
Open Scope Z_scope.

(** ** Specifications *)

(** A time which is written whole: the start of the period of its resolution, and
    not a bare 9999. *)
Definition written_whole (t : time) : Prop :=
  ok_time t /\ starts (t_res t) (t_us t) /\ (31 * DAY < t_res t -> d_year (f_date (fields_of (t_us t))) < 9999).

(** The classes which read their argument with [decode]. *)
Inductive decodes : codec -> Prop :=
| decodes_unicode : decodes CUnicode
| decodes_path : decodes CPath
| decodes_base64 : decodes CBase64
| decodes_encoded n : decodes (CEncoded n)
| decodes_list sub d : decodes sub -> decodes (CListOf sub d).

(** ** Proofs *)

(** the characters of ISO texts *)
Definition iso_char (c : N) : Prop := (43 <= c < 128)%N /\ c <> 44%N.

Lemma digit_iso c : is_digit c = true -> iso_char c.
Proof. unfold is_digit, iso_char. rewrite andb_true_iff, !N.leb_le. lia. Qed.

Lemma zpad_iso w z : Forall iso_char (zpad w z).
Proof.
  pose proof (pad0_digits w (Z.to_N z)) as H. unfold all_digits in H. rewrite forallb_forall in H.
  apply Forall_forall. intros c Hc. apply digit_iso. now apply H.
Qed.

Lemma drop0_in s c : In c (drop0 s) -> In c s.
Proof. induction s as [|x s IH]; [auto|]. cbn [drop0]. destruct (N.eqb x 48); [right; auto|auto]. Qed.

Lemma rstrip0_iso s : Forall iso_char s -> Forall iso_char (rstrip0 s).
Proof.
  rewrite !Forall_forall. intros H c Hc. unfold rstrip0 in Hc. apply in_rev, drop0_in in Hc. apply H. now apply in_rev.
Qed.

Local Opaque zpad rstrip0.
Lemma iso_iso t d s : asISO t d None true = Ok s -> Forall iso_char s.
Proof.
  unfold asISO.
  replace (if isTimezoneDependent t then None else None) with (@None Z) by now destruct (isTimezoneDependent t).
  destruct (asDatetime t None) as [x|e]; [cbn [rbind]|discriminate].
  assert (D : Forall iso_char (lit "-") /\ Forall iso_char (lit ":") /\ Forall iso_char (lit ".") /\ Forall iso_char (lit "T") /\ Forall iso_char (lit "+00") /\ Forall iso_char (lit "00")).
  { repeat split; repeat (apply Forall_cons; [unfold iso_char; cbn; lia|]); apply Forall_nil. }
  destruct D as (Dm & Dc & Dd & DT & Dz & D0).
  assert (S : exists a b, (if d then (lit "-", lit ":") else ([], [])) = (a, b) /\ Forall iso_char a /\ Forall iso_char b).
  { destruct d; eexists _, _; (split; [reflexivity|]); split; auto. }
  destruct S as (a & b & -> & Ha & Hb). cbn [rbind]. intros [= <-].
  assert (U : Forall iso_char (rstrip0 (zpad 6 (dt_local x mod SECOND)))) by apply rstrip0_iso, zpad_iso.
  assert (C : forall c l, (43 <= c < 128)%N -> c <> 44%N -> Forall iso_char l -> Forall iso_char (c :: l)) by (intros; constructor; [split; assumption|assumption]).
  repeat (apply Forall_app; split); try constructor; (match goal with |- Forall _ (if ?b then _ else _) => destruct b; [|constructor] end);
    repeat (apply Forall_app; split); auto using zpad_iso.
  - destruct (rstrip0 _) as [|u us]; [constructor|]. apply C; [lia|lia|exact U].
  - repeat (apply C; [lia|lia|]). apply Forall_app. auto.
Qed.

Lemma iso_char_encodable s : Forall iso_char s -> encodable s = true.
Proof.
  intros H. apply utf8_encode_ok. exists s. apply utf8_encode_ascii. eapply Forall_impl; [|exact H]. unfold iso_char. cbn. lia.
Qed.

Lemma time_fits ulower oenc odec t : written_whole t -> fits ulower oenc odec CTime (VTime t).
Proof.
  intros (Ht & Hs & Hy). cbn [fits]. assert (W : written t None = t_us t) by (unfold written, offset_of; destruct (t_res t <? DAY); lia).
  assert (R : exists s u, asISO t true None true = Ok s /\ fromISO s None = Ok u /\ time_eq u t = true).
  { apply iso_round; rewrite ?W; cbn [offset_of]; auto. unfold DAY; lia. }
  destruct R as (s & u & H1 & H2 & H3). exists t, s, u. repeat split; auto. eapply iso_char_encodable, iso_iso, H1.
Qed.

(** the delimiters of which a character is not in ISO texts *)
Lemma iso_contains d s c : In c d -> ~ iso_char c -> Forall iso_char s -> containsb d s = false.
Proof.
  intros Hc Hn Hs. destruct (containsb d s) eqn:E; [|reflexivity]. exfalso. apply containsb_spec in E as (a & b & ->).
  apply Forall_app in Hs as [_ Hs]. apply Forall_app in Hs as [Hs _]. rewrite Forall_forall in Hs. apply Hn, Hs, Hc.
Qed.

Lemma mapM_dead {A B} (f : A -> res B) e l : (forall a, f a = Err e) -> l <> [] -> mapM f l = Err e.
Proof. intros H. destruct l as [|a l]; [congruence|]. intros _. cbn [mapM]. now rewrite H. Qed.

Lemma decodes_fails ulower odec c : decodes c -> forall s, exists e, decode ulower odec c (VText s) = Err e.
Proof.
  induction 1 as [| | |n|sub d H IH]; intros s; try (eexists; reflexivity).
  cbn [decode]. destruct d as [|d0 d1]; [eexists; reflexivity|]. set (d := d0 :: d1).
  destruct (PySplit.split d s) as [|x l] eqn:E; [exfalso|].
  - apply (proj2 (PySplit.join_split d ltac:(discriminate) (length s) s (le_n _)) E).
  - cbn [mapM]. destruct (IH x) as [e ->]. eexists. reflexivity.
Qed.

(** a list of times *)
Lemma times_fit ulower oenc odec d c l : PySplit.no_overlap d -> encodable d = true -> In c d -> ~ iso_char c -> l <> [] ->
  Forall written_whole l -> fits ulower oenc odec (CListOf CTime d) (VList (map VTime l)).
Proof.
  intros Ho He Hc Hn Hl HF. cbn [fits]. split; [exact Ho|]. split; [exact He|]. eexists. split; [reflexivity|].
  split; [destruct l; [congruence|discriminate]|]. apply Forall_forall. intros x Hx. apply in_map_iff in Hx as (t & <- & Ht).
  rewrite Forall_forall in HF. pose proof (time_fits ulower oenc odec t (HF t Ht)) as Hf. split; [exact Hf|].
  destruct Hf as (t' & s & u & [= <-] & H1 & _). exists s. cbn [encode]. rewrite H1. split; [reflexivity|].
  eapply iso_contains; eauto using iso_iso.
Qed.

(** what a box must be, to be read with an argument of the dead classes *)
Lemma fromBoxes_dead ulower odec : forall subs n o c b objects objs,
  NoDup (map sub_name subs) -> In (n, o, c) subs -> decodes c ->
  fromBoxes (decs ulower odec subs) b objects = Ok objs -> (forall k v, In (k, v) b -> exists s, v = VText s) ->
  o = true /\ dget b n = None /\ dget objs n = Some VNone.
Proof.
  assert (D : forall (b : dict str val) n x, In x (ddel b n) -> In x b).
  { induction b as [|[k' v'] b IH]; intros n x; cbn [ddel]; [auto|]. destruct (eqb n k'); [right; auto|]. intros [H|H]; [now left|right; eauto]. }
  assert (K : forall subs b objects objs n, ~ In n (map sub_name subs) -> fromBoxes (decs ulower odec subs) b objects = Ok objs -> dget objs n = dget objects n).
  { induction subs as [|[[m p] k] subs IH]; intros b objects objs n Hn E; [now injection E as <-|].
    cbn [decs map fromBoxes fst snd] in E. cbn [map sub_name fst] in Hn.
    destruct (retrieve p b m) as [[st b']|]; [cbn [rbind] in E|discriminate].
    assert (Hm : m <> n) by (intros ->; apply Hn; now left). assert (Hn' : ~ In n (map sub_name subs)) by (intros H; apply Hn; now right).
    destruct (p && is_none st)%bool; [|destruct (decode ulower odec k st) as [v|]; [cbn [rbind] in E|discriminate]];
      rewrite (IH _ _ _ _ Hn' E); apply dget_dset_neq; auto. }
  induction subs as [|[[m p] k] subs IH]; intros n o c b objects objs Hnd Hin Hd E Hb; [contradiction|].
  cbn [map sub_name fst] in Hnd. inversion Hnd as [|? ? Hm Hnd']; subst.
  cbn [decs map fromBoxes fst snd] in E. rewrite retrieve_spec in E.
  destruct Hin as [[= -> -> ->]|Hin].
  - destruct (dget b n) as [v|] eqn:Ev.
    + destruct (Hb n v (dget_In _ _ Ev)) as [s ->]. cbn [is_none] in E. rewrite andb_false_r in E. cbn [rbind is_none] in E. rewrite andb_false_r in E.
      destruct (decodes_fails ulower odec c Hd s) as [e He]. rewrite He in E. discriminate.
    + destruct o; [|discriminate]. cbn [rbind is_none andb] in E. repeat split. rewrite (K _ _ _ _ _ Hm E). apply dget_dset_eq.
  - assert (Hne : n <> m).
    { intros ->. apply Hm. apply in_map_iff. exists (m, o, c). auto. }
    destruct (dget b m) as [v|] eqn:Ev.
    + destruct (Hb m v (dget_In _ _ Ev)) as [s ->]. cbn [is_none] in E. rewrite andb_false_r in E. cbn [rbind is_none] in E. rewrite andb_false_r in E.
      destruct (decode ulower odec k (VText s)) as [v|]; [cbn [rbind] in E|discriminate].
      apply IH with (2 := Hin) in E; auto.
      * rewrite dget_ddel_neq in E by auto. exact E.
      * intros k' v' H. apply D in H. eauto.
    + destruct p; [|discriminate]. cbn [rbind is_none andb] in E. eapply IH; eauto.
Qed.

Lemma texts_only b k v : In (k, v) (vtexts b) -> exists s, v = VText s.
Proof. unfold vtexts. intros H. apply in_map_iff in H as ([k' s] & [= _ <-] & _). eauto. Qed.
