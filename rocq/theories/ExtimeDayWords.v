(** * epsilon/extime.py: the words for days, for somebody in a timezone

    fromHumanly takes a tzinfo, but 196-221 take the date from
    [now.asDatetime()], which is the date in UTC. *)

From Coq Require Import ZArith NArith String List Bool Lia.
From Verif Require Import Py PyNum Cal PyTime PyInt Extime ExtimeRfc ExtimeRfcFmt ExtimeRfcVal ExtimeHumanly ExtimeHumanlyVal ExtimeHumanlyAll ExtimeHumanlyFmt.
Import ListNotations.
Open Scope Z_scope.

(** ** Specification *)

(** by how many days the date in UTC is ahead of the date in the zone; a [now] of a day or
    more has the same date everywhere *)
Definition ahead (now : time) (tz : option Z) : Z :=
  if t_res now <? DAY then - ((t_us now mod DAY + offset tz) / DAY) else 0.

(** ** Proofs *)

Lemma local_day now tz x : ok_time now -> asDatetime now tz = Ok x ->
  0 <= dt_local x < MAXT /\ t_us now / DAY = dt_local x / DAY + ahead now tz /\ -1 <= ahead now tz <= 1.
Proof.
  intros Hn E. unfold ahead. change (t_res now <? DAY) with (isTimezoneDependent now). destruct (isTimezoneDependent now) eqn:D.
  - assert (E' : asDatetime now (Some (offset tz)) = Ok x) by (destruct tz; exact E). apply asDatetime_Ok in E'; [|exact D].
    destruct E' as (A & _ & B & ->). cbn [dt_local]. split; [exact B|]. set (o := offset tz) in *. clearbody o. clear B E Hn D. unfold DAY in *. lia.
  - unfold asDatetime in E. rewrite D in E. cbn [negb] in E. injection E as <-. cbn [dt_local]. split; [exact Hn|]. lia.
Qed.

Lemma day_of m n : (m - m mod DAY + n * DAY) / DAY = m / DAY + n /\ (m - m mod DAY + n * DAY) mod DAY = 0.
Proof. unfold DAY. lia. Qed.

Section Words.
  Variable ulower : str -> str.
  Variable ualnum : N -> bool.
  Hypothesis low_ok : lowers ulower.
  Notation human := (fromHumanly ulower ualnum).

  Theorem word_days tz now x : ok_time now -> DAY <= t_us now -> t_us now + 8 * DAY < MAXT -> asDatetime now tz = Ok x ->
    let L := dt_local x / DAY in
    forall w k s, In (w, k) [("today"%string, 0); ("tomorrow"%string, 1); ("yesterday"%string, -1)] -> word_text w s ->
    exists u, human s tz now = Ok u /\ t_res u = DAY /\ t_us u mod DAY = 0 /\ t_us u / DAY = L + k + ahead now tz.
  Proof.
    intros Hn H1 H8 E L w k s Hw Hs. destruct (local_day now tz x Hn E) as (_ & EL & _). fold L in EL.
    pose proof (day_of (t_us now)) as P. destruct Hw as [W|[W|[W|[]]]]; injection W as <- <-.
    - rewrite (human_today ulower ualnum low_ok s tz now Hn Hs). eexists. split; [reflexivity|]. split; [reflexivity|].
      cbn [t_us]. destruct (P 0). rewrite Z.mul_0_l, Z.add_0_r in *. split; [assumption|]. lia.
    - rewrite (human_tomorrow ulower ualnum low_ok s tz now Hn ltac:(unfold DAY in *; lia) Hs). eexists. split; [reflexivity|]. split; [reflexivity|].
      cbn [t_us]. destruct (P 1). rewrite Z.mul_1_l in *. split; [assumption|]. lia.
    - rewrite (human_yesterday ulower ualnum low_ok s tz now Hn H1 Hs). eexists. split; [reflexivity|]. split; [reflexivity|].
      cbn [t_us]. destruct (P (-1)) as [P1 P2]. replace (t_us now - t_us now mod DAY - DAY) with (t_us now - t_us now mod DAY + -1 * DAY) by lia. split; [assumption|]. lia.
  Qed.

  Theorem weekday_days tz now x : ok_time now -> t_us now + 8 * DAY < MAXT -> asDatetime now tz = Ok x ->
    let L := dt_local x / DAY in
    forall wd s, weekday_text wd s ->
    exists u, human s tz now = Ok u /\ t_res u = DAY /\ t_us u mod DAY = 0 /\ (t_us u / DAY) mod 7 = wd /\
      L + ahead now tz < t_us u / DAY <= L + ahead now tz + 7 /\
      (L < t_us u / DAY <= L + 7 <->
        ~ (ahead now tz = -1 /\ wd = L mod 7) /\ ~ (ahead now tz = 1 /\ wd = (L + 1) mod 7)).
  Proof.
    intros Hn H8 E L wd s Hs. destruct (local_day now tz x Hn E) as (_ & EL & Ha). fold L in EL.
    destruct (human_weekday ulower ualnum low_ok s wd tz now Hs Hn H8) as (n & Rn & En & Ew). rewrite En. eexists. split; [reflexivity|]. split; [reflexivity|].
    cbn [t_us]. destruct (day_of (t_us now) n) as [P1 P2]. rewrite P1 in *. split; [exact P2|]. split; [exact Ew|].
    rewrite EL in *. set (a := ahead now tz) in *. clearbody a L. clear - Rn Ew Ha. split; [lia|].
    assert (Ca : a = -1 \/ a = 0 \/ a = 1) by lia. destruct Ca as [-> | [-> | ->]]; split; intros; lia.
  Qed.

  (** what somebody who types "today" is shown *)
  Theorem today_shown tz now x s : ok_time now -> asDatetime now tz = Ok x -> word_text "today" s ->
    exists u, human s tz now = Ok u /\ (asHumanly u tz now MINUTES = Ok (lit "all day") <-> ahead now tz = 0).
  Proof.
    intros Hn E Hs. destruct (local_day now tz x Hn E) as (Rx & EL & Ha). rewrite (human_today ulower ualnum low_ok s tz now Hn Hs).
    eexists. split; [reflexivity|]. set (u := T (t_us now - t_us now mod DAY) DAY).
    assert (Eu : asDatetime u tz = Ok (Dt (t_us u) (Some (offset tz)))) by (unfold asDatetime, isTimezoneDependent, u; cbn [t_res]; rewrite Z.ltb_irrefl; destruct tz; reflexivity).
    unfold asHumanly. rewrite E, Eu. cbn [rbind dt_local].
    assert (Hu : 0 <= t_us u < MAXT) by (unfold u, ok_time, DAY in *; cbn [t_us]; lia).
    assert (Du : t_us u / DAY = t_us now / DAY) by (unfold u; cbn [t_us]; unfold DAY; lia).
    change ((d_year (f_date (fields_of (t_us u))) =? d_year (f_date (fields_of (dt_local x)))) && (d_month (f_date (fields_of (t_us u))) =? d_month (f_date (fields_of (dt_local x)))) &&
      (d_day (f_date (fields_of (t_us u))) =? d_day (f_date (fields_of (dt_local x))))) with (same_day (f_date (fields_of (t_us u))) (f_date (fields_of (dt_local x)))).
    destruct (same_day _ _) eqn:S.
    - change (isAllDay u) with true. cbv iota. split; [intros _|reflexivity]. apply same_day_eq in S.
      assert (K : forall v, 0 <= v < MAXT -> ymd2ord (f_date (fields_of v)) = v / DAY + 1).
      { intros v Hv. destruct (datetime_fields v Hv) as [V D]. unfold datetime in D. destruct (fields_okb (fields_of v)); [|discriminate].
        assert (D' : (ymd2ord (f_date (fields_of v)) - 1) * DAY + day_us (fields_of v) = v) by congruence. clear D.
        assert (B : 0 <= day_us (fields_of v) < DAY) by (unfold day_us, fields_of; cbn [f_hour f_min f_sec f_us]; clear; unfold DAY, HOUR, MINUTE, SECOND; lia).
        revert D' B. generalize (ymd2ord (f_date (fields_of v))) (day_us (fields_of v)). clear. unfold DAY. intros; lia. }
      pose proof (K _ Hu) as K1. pose proof (K _ Rx) as K2. rewrite S in K1. lia.
    - split; [|intros A; exfalso].
      + intros X. exfalso. assert (N : 0 <= d_day (f_date (fields_of (t_us u)))).
        { destruct (datetime_fields _ Hu) as [V _]. destruct V as ((V1 & V2) & (V3 & V4) & _). lia. }
        apply (f_equal (fun r => match r with Ok (c :: _) => c | _ => 0%N end)) in X. cbv beta iota in X. destruct (num_zdec _ N) as (Hnn & Hdg & _). destruct (zdec (d_day (f_date (fields_of (t_us u))))) as [|c w]; [congruence|].
        cbn [List.app] in X. subst c. discriminate Hdg.
      + assert (Q : same_day (f_date (fields_of (t_us u))) (f_date (fields_of (dt_local x))) = true).
        { apply same_day_eq. unfold fields_of. cbn [f_date]. rewrite Du, EL, A. f_equal. lia. }
        congruence.
  Qed.
End Words.
