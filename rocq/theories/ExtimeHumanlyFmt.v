(** * Times written for people *)

From Coq Require Import ZArith NArith String List Bool Lia ZifyBool ZifyN.
From Verif Require Import Py PyStr PyNum PyInt Regex Cal PyTime Extime ExtimeIso ExtimeIsoVal ExtimeIsoFmt ExtimeRfc ExtimeRfcVal ExtimeRfcFmt ExtimeHumanly ExtimeHumanlyVal.
Import ListNotations.
Open Scope Z_scope.
Open Scope py_scope.
Open Scope list_scope.

(** ** The text determines the time *)

Definition not_digit (r : str) : Prop := match r with c :: _ => is_digit c = false | [] => True end.

Lemma digits_split a : forall b r q, all_digits a = true -> all_digits b = true -> not_digit r -> not_digit q -> a ++ r = b ++ q -> a = b /\ r = q.
Proof.
  induction a as [|x a IH]; intros b r q Ha Hb Hr Hq E.
  - destruct b as [|y b]; [auto|]. cbn in E. subst r. cbn in Hr. apply andb_prop in Hb. destruct Hb as [Hb _]. congruence.
  - destruct b as [|y b].
    + cbn in E. subst q. cbn in Hq. apply andb_prop in Ha. destruct Ha as [Ha _]. congruence.
    + cbn in E. injection E as -> E. apply andb_prop in Ha. destruct Ha as [_ Ha]. apply andb_prop in Hb. destruct Hb as [_ Hb].
      destruct (IH b r q Ha Hb Hr Hq E) as [-> ->]. auto.
Qed.

Lemma zdec_inj a b : 0 <= a -> 0 <= b -> zdec a = zdec b -> a = b.
Proof. intros Ha Hb E. destruct (num_zdec a Ha) as (_ & _ & Va). destruct (num_zdec b Hb) as (_ & _ & Vb). rewrite E in Va. congruence. Qed.

Lemma zpad_inj w a b : 0 <= a -> 0 <= b -> zpad w a = zpad w b -> a = b.
Proof. intros Ha Hb E. destruct (num_zpad w a Ha) as (_ & _ & Va). destruct (num_zpad w b Hb) as (_ & _ & Vb). rewrite E in Va. congruence. Qed.

Lemma app_len {A} (a b r q : list A) : length a = length b -> a ++ r = b ++ q -> a = b /\ r = q.
Proof. revert b. induction a as [|x a IH]; intros [|y b] Hl E; try discriminate Hl; [auto|]. injection E as -> E. injection Hl as Hl. destruct (IH b Hl E) as [-> ->]. auto. Qed.

Lemma clock12_inj sec f g : valid_fields f -> valid_fields g -> clock12 sec f = clock12 sec g ->
  f_hour f = f_hour g /\ f_min f = f_min g /\ (sec = true -> f_sec f = f_sec g).
Proof.
  intros (_ & _ & Hh & Hm & Hs & _) (_ & _ & Gh & Gm & Gs & _) E. unfold clock12 in E.
  assert (B : forall h, 0 <= h < 24 -> 0 <= hour12 h < 100) by (intros h H; unfold hour12; destruct (h mod 12 =? 0); lia).
  apply app_len in E; [|rewrite !zpad_len by (apply B; lia); reflexivity]. destruct E as [E1 E].
  apply app_inv_head in E. apply app_len in E; [|rewrite !zpad_len by lia; reflexivity]. destruct E as [E2 E].
  apply zpad_inj in E1; [|apply B; lia|apply B; lia]. apply zpad_inj in E2; [|lia|lia].
  apply app_len in E.
  2:{ destruct sec; [|reflexivity]. rewrite !app_length, !zpad_len by lia. reflexivity. }
  destruct E as [E3 E4]. split; [|split].
  - clear - E1 E4 Hh Gh. unfold hour12 in E1. destruct (f_hour f mod 12 =? 0) eqn:A, (f_hour g mod 12 =? 0) eqn:C, (f_hour f <? 12) eqn:X, (f_hour g <? 12) eqn:Y; try discriminate E4; lia.
  - exact E2.
  - intros ->. apply app_inv_head in E3. apply zpad_inj in E3; lia.
Qed.

Lemma months_len m : 1 <= m <= 12 -> length (at_index rfc2822Months (m - 1)) = 3%nat.
Proof.
  intros H. assert (E : m = 1 \/ m = 2 \/ m = 3 \/ m = 4 \/ m = 5 \/ m = 6 \/ m = 7 \/ m = 8 \/ m = 9 \/ m = 10 \/ m = 11 \/ m = 12) by lia.
  repeat (destruct E as [->|E]; [reflexivity|]). subst m. reflexivity.
Qed.
Lemma months_inj a b : 1 <= a <= 12 -> 1 <= b <= 12 -> at_index rfc2822Months (a - 1) = at_index rfc2822Months (b - 1) -> a = b.
Proof.
  intros Ha Hb. assert (Ea : a = 1 \/ a = 2 \/ a = 3 \/ a = 4 \/ a = 5 \/ a = 6 \/ a = 7 \/ a = 8 \/ a = 9 \/ a = 10 \/ a = 11 \/ a = 12) by lia.
  assert (Eb : b = 1 \/ b = 2 \/ b = 3 \/ b = 4 \/ b = 5 \/ b = 6 \/ b = 7 \/ b = 8 \/ b = 9 \/ b = 10 \/ b = 11 \/ b = 12) by lia. clear Ha Hb.
  repeat (destruct Ea as [->|Ea]; [repeat (destruct Eb as [->|Eb]; [intros E; reflexivity || discriminate E|]); subst b; intros E; reflexivity || discriminate E|]).
  subst a. repeat (destruct Eb as [->|Eb]; [intros E; reflexivity || discriminate E|]). subst b. reflexivity.
Qed.

(** the two parts after day and month *)
Definition year_part (same : bool) (y : Z) : str := if same then [] else lit " " ++ zdec y.
Definition clock_part (all_day sec : bool) (f : fields) : str := if all_day then [] else lit ", " ++ clock12 sec f.
Definition date_part (x : date) : str := zdec (d_day x) ++ lit " " ++ at_index rfc2822Months (d_month x - 1).

Lemma date_inj x y r q : 0 <= d_day x -> 0 <= d_day y -> 1 <= d_month x <= 12 -> 1 <= d_month y <= 12 -> date_part x ++ r = date_part y ++ q ->
  d_day x = d_day y /\ d_month x = d_month y /\ r = q.
Proof.
  intros Dx Dy Mx My E. unfold date_part in E. rewrite <- !app_assoc in E. apply digits_split in E; try reflexivity; try (apply num_zdec; assumption).
  destruct E as [E1 E]. apply zdec_inj in E1; [|assumption|assumption]. injection E as E. apply app_len in E; [|rewrite !months_len by assumption; reflexivity].
  destruct E as [E2 E3]. apply months_inj in E2; auto.
Qed.

Lemma rest_inj b y a f b' y' a' g sec : 0 <= y -> 0 <= y' -> valid_fields f -> valid_fields g ->
  year_part b y ++ clock_part a sec f = year_part b' y' ++ clock_part a' sec g ->
  b = b' /\ (b = false -> y = y') /\ a = a' /\ (a = false -> f_hour f = f_hour g /\ f_min f = f_min g /\ (sec = true -> f_sec f = f_sec g)).
Proof.
  intros Hy Hy' Hf Hg E. unfold year_part in E.
  assert (C : clock_part a sec f = clock_part a' sec g -> a = a' /\ (a = false -> f_hour f = f_hour g /\ f_min f = f_min g /\ (sec = true -> f_sec f = f_sec g))).
  { unfold clock_part. destruct a, a'; intros H; try discriminate H; [split; [reflexivity|discriminate]|]. apply app_inv_head in H. split; [reflexivity|]. intros _. now apply clock12_inj. }
  assert (ND : forall a f, not_digit (clock_part a sec f)) by (intros [] h; exact I || reflexivity).
  destruct b, b'; cbn [app] in E.
  - split; [reflexivity|]. split; [discriminate|]. exact (C E).
  - destruct a; discriminate E.
  - destruct a'; discriminate E.
  - injection E as E. apply digits_split in E; try apply ND; try (apply num_zdec; assumption). destruct E as [E1 E2]. apply zdec_inj in E1; [|assumption|assumption].
    split; [reflexivity|]. split; [auto|]. exact (C E2).
Qed.

(** what [asHumanly] returns *)
Definition same_day (x y : date) : bool := (d_year x =? d_year y) && (d_month x =? d_month y) && (d_day x =? d_day y).
Lemma same_day_eq x y : same_day x y = true <-> x = y.
Proof. unfold same_day. destruct x, y. cbn. rewrite !andb_true_iff, !Z.eqb_eq. split; [intros [[-> ->] ->]; reflexivity|intros H; injection H; auto]. Qed.

Definition human_out (sec : bool) (all_day : bool) (f g : fields) : str :=
  if same_day (f_date f) (f_date g) then if all_day then lit "all day" else clock12 sec f
  else date_part (f_date f) ++ year_part (d_year (f_date f) =? d_year (f_date g)) (d_year (f_date f)) ++ clock_part all_day sec f.

Lemma out_eq t tz now p s : asHumanly t tz now p = Ok s -> exists x n, asDatetime t tz = Ok x /\ asDatetime now tz = Ok n /\
  (p = MINUTES \/ p = SECONDS) /\
  s = human_out (match p with SECONDS => true | _ => false end) (isAllDay t) (fields_of (dt_local x)) (fields_of (dt_local n)).
Proof.
  intros H. unfold asHumanly in H.
  assert (Hp : exists sec, (match p with MINUTES => Ok false | SECONDS => Ok true | OtherPrecision => Err (OtherExn 0) end) = Ok sec /\ (p = MINUTES \/ p = SECONDS) /\ sec = match p with SECONDS => true | _ => false end).
  { destruct p; [exists false; auto|exists true; auto|discriminate H]. }
  destruct Hp as (sec & E & Hp & ->). rewrite E in H. cbn [rbind] in H.
  destruct (asDatetime now tz) as [n|]; cbn [rbind] in H; [|discriminate]. destruct (asDatetime t tz) as [x|]; cbn [rbind] in H; [|discriminate].
  exists x, n. split; [reflexivity|]. split; [reflexivity|]. split; [exact Hp|]. unfold human_out, same_day. cbv zeta in H.
  destruct ((d_year (f_date (fields_of (dt_local x))) =? _) && _ && _); [destruct (isAllDay t); now injection H as <-|].
  injection H as <-. unfold date_part, year_part, clock_part. rewrite <- !app_assoc. reflexivity.
Qed.

Lemma clock12_hd sec f : valid_fields f -> exists a b r, clock12 sec f = a :: b :: lit ":" ++ r /\ is_digit a = true /\ is_digit b = true.
Proof.
  intros (_ & _ & Hh & _). unfold clock12. assert (B : 0 <= hour12 (f_hour f) < 100) by (unfold hour12; destruct (f_hour f mod 12 =? 0); lia).
  pose proof (zpad_len _ B) as L. destruct (num_zpad 2 (hour12 (f_hour f)) ltac:(lia)) as (_ & D & _). destruct (zpad 2 (hour12 (f_hour f))) as [|a [|b [|c r]]]; try discriminate L.
  unfold all_digits in D. cbn [forallb] in D. apply andb_prop in D. destruct D as [Da D]. apply andb_prop in D. destruct D as [Db _].
  eexists a, b, _. split; [reflexivity|]. auto.
Qed.

Lemma date_hd x r : 0 <= d_day x -> exists t, date_part x ++ r = zdec (d_day x) ++ lit " " ++ t.
Proof. intros H. unfold date_part. rewrite <- !app_assoc. eauto. Qed.

Lemma clock_not_date sec f x r : valid_fields f -> 0 <= d_day x -> clock12 sec f = date_part x ++ r -> False.
Proof.
  intros Hf Hd E. destruct (clock12_hd sec f Hf) as (a & b & q & E1 & Ha & Hb). destruct (date_hd x r Hd) as (t & E2). rewrite E1, E2 in E.
  change (a :: b :: lit ":" ++ q) with ([a; b] ++ lit ":" ++ q) in E. apply digits_split in E; try reflexivity.
  - destruct E as [_ E]. discriminate E.
  - cbn. now rewrite Ha, Hb.
  - apply num_zdec, Hd.
Qed.

Lemma allday_not_digit a r q : is_digit a = true -> lit "all day" = a :: r ++ q -> False.
Proof. intros H E. injection E as <- _. discriminate H. Qed.

Lemma out_inj sec a f a' f' g : valid_fields f -> valid_fields f' -> human_out sec a f g = human_out sec a' f' g ->
  f_date f = f_date f' /\ a = a' /\ (a = false -> f_hour f = f_hour f' /\ f_min f = f_min f' /\ (sec = true -> f_sec f = f_sec f')).
Proof.
  intros Hf Hf' E. unfold human_out in E.
  assert (Vd : forall f, valid_fields f -> 0 <= d_day (f_date f) /\ 1 <= d_month (f_date f) <= 12 /\ 0 <= d_year (f_date f)).
  { intros h ((A & B) & (C & D) & _). lia. }
  destruct (Vd f Hf) as (D1 & D2 & D3). destruct (Vd f' Hf') as (D1' & D2' & D3').
  assert (ND : forall x r, 0 <= d_day x -> lit "all day" = date_part x ++ r -> False).
  { intros x r Hx H. unfold date_part in H. destruct (num_zdec _ Hx) as (Hn & Hdg & _). destruct (zdec (d_day x)) as [|c w]; [congruence|].
    cbn in H. injection H as <- _. discriminate Hdg. }
  assert (NC : forall f, valid_fields f -> lit "all day" = clock12 sec f -> False).
  { intros h Hh H. destruct (clock12_hd sec h Hh) as (c & b & q & E1 & Hc & _). rewrite E1 in H. injection H as <- _. discriminate Hc. }
  destruct (same_day (f_date f) (f_date g)) eqn:S; destruct (same_day (f_date f') (f_date g)) eqn:S'.
  - apply same_day_eq in S, S'. split; [congruence|]. destruct a, a'.
    + split; [reflexivity|discriminate].
    + exfalso. exact (NC _ Hf' E).
    + exfalso. symmetry in E. exact (NC _ Hf E).
    + split; [reflexivity|]. intros _. now apply clock12_inj.
  - exfalso. destruct a; [exact (ND _ _ D1' E)|]. exact (clock_not_date sec f _ _ Hf D1' E).
  - exfalso. symmetry in E. destruct a'; [exact (ND _ _ D1 E)|]. exact (clock_not_date sec f' _ _ Hf' D1 E).
  - apply date_inj in E; try assumption. destruct E as (E1 & E2 & E). apply rest_inj in E; try assumption. destruct E as (E3 & E4 & E5 & E6).
    split; [|auto]. destruct (f_date f) as [y m d] eqn:Ef, (f_date f') as [y' m' d'] eqn:Ef'. cbn in *. subst m' d'. f_equal.
    destruct (y =? d_year (f_date g)) eqn:Y; [symmetry in E3; lia|auto].
Qed.

Theorem human_distinct t u tz now p s x y : asHumanly t tz now p = Ok s -> asHumanly u tz now p = Ok s ->
  asDatetime t tz = Ok x -> asDatetime u tz = Ok y -> 0 <= dt_local x < MAXT -> 0 <= dt_local y < MAXT ->
  let f := fields_of (dt_local x) in let g := fields_of (dt_local y) in
  f_date f = f_date g /\ isAllDay t = isAllDay u /\
  (isAllDay t = false -> f_hour f = f_hour g /\ f_min f = f_min g /\ (p = SECONDS -> f_sec f = f_sec g)).
Proof.
  intros H1 H2 Ex Ey Rx Ry f g. apply out_eq in H1. destruct H1 as (x1 & n & E1 & En & Hp & Es). rewrite Ex in E1. injection E1 as <-.
  apply out_eq in H2. destruct H2 as (y1 & n' & E2 & En' & _ & Es'). rewrite Ey in E2. injection E2 as <-. rewrite En in En'. injection En' as <-.
  rewrite Es in Es'. apply out_inj in Es'; [|apply datetime_fields; assumption|apply datetime_fields; assumption]. destruct Es' as (A & B & C).
  split; [exact A|]. split; [exact B|]. intros Ha. destruct (C Ha) as (C1 & C2 & C3). split; [exact C1|]. split; [exact C2|]. intros ->. now apply C3.
Qed.

(** ** Reading it back *)

Lemma clock12_text f : valid_fields f -> clock_text (clock12 false f) (f_hour f) (f_min f).
Proof.
  intros (_ & _ & Hh & Hm & _). unfold clock12. rewrite app_nil_l.
  assert (B : 1 <= hour12 (f_hour f) <= 12) by (unfold hour12; destruct (f_hour f mod 12 =? 0) eqn:E; lia).
  assert (Hd : hour_digits (zpad 2 (hour12 (f_hour f))) (hour12 (f_hour f))) by (split; [apply num_zpad; lia|right; apply zpad_len; lia]).
  assert (Hn : num (zpad 2 (f_min f)) (f_min f)) by (apply num_zpad; lia).
  assert (Hl : length (zpad 2 (f_min f)) = 2%nat) by (apply zpad_len; lia).
  assert (P : forall v, padded v v) by (intros v; exists [], []; rewrite app_nil_r; repeat split; constructor).
  destruct (f_hour f <? 12) eqn:E.
  - replace (f_hour f) with (hour12 (f_hour f) mod 12) at 2 by (unfold hour12; destruct (f_hour f mod 12 =? 0) eqn:X; lia).
    apply (CT_am _ (zpad 2 (hour12 (f_hour f))) (zpad 2 (f_min f)) (lit " ") (lit "am")); [exact Hd|exact B|exact Hn|exact Hl|apply Forall_cons; [reflexivity|apply Forall_nil]|reflexivity|apply P].
  - replace (f_hour f) with (hour12 (f_hour f) mod 12 + 12) at 2 by (unfold hour12; destruct (f_hour f mod 12 =? 0) eqn:X; lia).
    apply (CT_pm _ (zpad 2 (hour12 (f_hour f))) (zpad 2 (f_min f)) (lit " ") (lit "pm")); [exact Hd|exact B|exact Hn|exact Hl|apply Forall_cons; [reflexivity|apply Forall_nil]|reflexivity|apply P].
Qed.

Lemma first_unique start off h m u v : first_showing start off h m u -> first_showing start off h m v -> u = v.
Proof. intros (A & B & C) (D & E & F). pose proof (C v D E). pose proof (F u A B). lia. Qed.

Lemma first_own now off i : (now + off) / DAY = (i + off) / DAY -> minute_start off now <= minute_start off i ->
  first_showing (minute_start off now) off (f_hour (fields_of (i + off))) (f_min (fields_of (i + off))) (minute_start off i).
Proof.
  intros Hd Hm. unfold minute_start in *. set (l := i + off) in *. set (n := now + off) in *.
  assert (Hs : forall j, shows off j (f_hour (fields_of l)) (f_min (fields_of l)) <-> (j + off) mod DAY / MINUTE = l mod DAY / MINUTE).
  { intros j. unfold shows, fields_of. cbn [f_hour f_min]. replace (l mod DAY / HOUR * 60 + l mod HOUR / MINUTE) with (l mod DAY / MINUTE); [reflexivity|].
    clear. unfold DAY, HOUR, MINUTE. lia. }
  split; [exact Hm|]. split.
  - apply Hs. replace (i - l mod MINUTE + off) with (l - l mod MINUTE) by (unfold l; lia). clear. unfold DAY, MINUTE. lia.
  - intros j Hj Hj2. apply Hs in Hj2. replace (i - l mod MINUTE) with (l - l mod MINUTE - off) by (unfold l; lia).
    assert (Hk : n - n mod MINUTE <= j + off) by (unfold n in *; lia). set (k := j + off) in *. assert (Ek : j = k - off) by (unfold k; lia). rename Hj2 into Hk'.
    assert (A : l - l mod MINUTE = l / DAY * DAY + l mod DAY / MINUTE * MINUTE) by (clear; unfold DAY, MINUTE; lia).
    assert (B : l / DAY <= k / DAY) by (clear - Hd Hk; rewrite <- Hd; unfold DAY, MINUTE in *; lia).
    assert (C : k / DAY * DAY + k mod DAY / MINUTE * MINUTE <= k) by (clear; unfold DAY, MINUTE; lia).
    rewrite Hk' in C. assert (D : l - l mod MINUTE <= k) by (rewrite A; clear - B C; unfold DAY, MINUTE in *; lia).
    rewrite Ek. apply Z.sub_le_mono_r. exact D.
Qed.

(** a text whose hour is not twelve in the afternoon *)
Lemma noon_head s : noon_hour s -> forall a b r, s = a :: b :: lit ":" ++ r -> is_digit a = true -> is_digit b = true -> a :: b :: nil = lit "12".
Proof.
  intros (mm & q & w & m & _ & _ & _ & _ & x & y & Hx & _ & E) a b r -> Ha Hb. destruct x as [|c x].
  - cbn in E. injection E as -> -> _. reflexivity.
  - cbn [app] in E. injection E as -> _. inversion Hx as [|? ? Hc]; subst. exfalso. clear - Ha Hc. unfold is_digit in Ha. unfold is_space in Hc. lia.
Qed.
Lemma noon_pm s : noon_hour s -> forall r, s = r ++ lit " am" -> False.
Proof.
  intros (mm & q & w & m & _ & _ & _ & Hw & x & y & _ & Hy & E) r ->.
  assert (L : exists p M, w = [p; M] /\ ascii_lower p = 112%N /\ ascii_lower M = 109%N).
  { unfold same_letters in Hw. destruct w as [|p [|M [|? ?]]]; try discriminate Hw. injection Hw as A B. eauto. }
  destruct L as (p & M & -> & Lp & _). apply (f_equal (@rev N)) in E. rewrite !rev_app_distr in E. cbn [rev app] in E.
  assert (Hy' : white (rev y)) by (unfold white in *; apply Forall_forall; intros c Hc; apply in_rev in Hc; rewrite Forall_forall in Hy; now apply Hy).
  destruct (rev y) as [|c z].
  - cbn in E. injection E as _ <- _. vm_compute in Lp. discriminate Lp.
  - cbn in E. injection E as <- _. inversion Hy' as [|? ? Hc]. vm_compute in Hc. discriminate Hc.
Qed.

Lemma clock12_not_noon f : valid_fields f -> f_hour f <> 12 -> ~ noon_hour (clock12 false f).
Proof.
  intros (_ & _ & Hh & Hm & _) Hn H.
  assert (B : 0 <= hour12 (f_hour f) < 100) by (unfold hour12; destruct (f_hour f mod 12 =? 0); lia).
  destruct (f_hour f <? 12) eqn:E.
  - apply (noon_pm _ H (zpad 2 (hour12 (f_hour f)) ++ lit ":" ++ zpad 2 (f_min f))). unfold clock12. rewrite E, <- !app_assoc. reflexivity.
  - unfold clock12 in H. pose proof (zpad_len _ B) as L. destruct (num_zpad 2 (hour12 (f_hour f)) ltac:(lia)) as (_ & D & V).
    destruct (zpad 2 (hour12 (f_hour f))) as [|a [|b [|c r]]] eqn:Z; try discriminate L.
    unfold all_digits in D. cbn [forallb] in D. apply andb_prop in D. destruct D as [Da D]. apply andb_prop in D. destruct D as [Db _].
    pose proof (noon_head _ H a b _ eq_refl Da Db) as N12. rewrite N12 in V. assert (hour12 (f_hour f) = 12) by (rewrite <- V; reflexivity).
    clear - H0 Hh Hn E. unfold hour12 in H0. destruct (f_hour f mod 12 =? 0) eqn:X; lia.
Qed.

(** later in the same local day, to the minute *)
Theorem human_round ulower ualnum (low_ok : lowers ulower) t tz now s : asHumanly t tz now MINUTES = Ok s ->
  isAllDay t = false -> isTimezoneDependent t = true -> roomy now (offset tz) -> 0 <= t_us t < MAXT ->
  (t_us now + offset tz) / DAY = (t_us t + offset tz) / DAY -> minute_start (offset tz) (t_us now) <= minute_start (offset tz) (t_us t) ->
  f_hour (fields_of (t_us t + offset tz)) <> 12 ->
  fromHumanly ulower ualnum s tz now = Ok (T (minute_start (offset tz) (t_us t)) MINUTE).
Proof.
  intros H Ha Hd Hr Ht Eday Hmin Hnoon. apply out_eq in H. destruct H as (x & n & Ex & En & _ & ->).
  assert (Htz : forall u, asDatetime u tz = asDatetime u (Some (offset tz))) by (intros u; destruct tz; reflexivity). rewrite Htz in Ex, En.
  destruct (roomy_local now (offset tz) Hr) as [En' Rn]. rewrite En' in En. injection En as <-.
  apply asDatetime_Ok in Ex; [|exact Hd]. destruct Ex as (_ & _ & Rt & ->). cbn [dt_local] in *.
  destruct (datetime_fields _ Rt) as [Vf _].
  unfold human_out. rewrite Ha. replace (same_day _ _) with true.
  2:{ symmetry. apply same_day_eq. unfold fields_of. cbn [f_date]. now rewrite Eday. }
  set (f := fields_of (t_us t + offset tz)) in *.
  destruct (human_clock ulower ualnum low_ok _ _ _ tz now (clock12_text f Vf) ltac:(apply Vf) ltac:(apply Vf) (clock12_not_noon f Vf Hnoon) Hr) as (u & E & F).
  rewrite E. do 2 f_equal. exact (first_unique _ _ _ _ _ _ F (first_own _ _ _ Eday Hmin)).
Qed.

(** earlier in the same local day: a day later *)
Lemma first_next now off i : (now + off) / DAY = (i + off) / DAY -> minute_start off i < minute_start off now ->
  first_showing (minute_start off now) off (f_hour (fields_of (i + off))) (f_min (fields_of (i + off))) (minute_start off i + DAY).
Proof.
  intros Hd Hm. unfold minute_start in *. set (l := i + off) in *. set (n := now + off) in *.
  assert (Hs : forall j, shows off j (f_hour (fields_of l)) (f_min (fields_of l)) <-> (j + off) mod DAY / MINUTE = l mod DAY / MINUTE).
  { intros j. unfold shows, fields_of. cbn [f_hour f_min]. replace (l mod DAY / HOUR * 60 + l mod HOUR / MINUTE) with (l mod DAY / MINUTE); [reflexivity|].
    clear. unfold DAY, HOUR, MINUTE. lia. }
  assert (Ei : i = l - off) by (unfold l; lia). assert (En : now = n - off) by (unfold n; lia). clearbody l n. subst i now. split; [|split].
  - clear - Hd. unfold DAY, MINUTE in *. lia.
  - apply Hs. replace (l - off - l mod MINUTE + DAY + off) with (l - l mod MINUTE + DAY) by lia. clear. unfold DAY, MINUTE. lia.
  - intros j Hj Sj. apply Hs in Sj. set (k := j + off) in *. assert (Ej : j = k - off) by (unfold k; lia). clearbody k. subst j.
    clear - Hd Hm Hj Sj. unfold DAY, MINUTE in *. lia.
Qed.

Theorem human_earlier ulower ualnum (low_ok : lowers ulower) t tz now s : asHumanly t tz now MINUTES = Ok s ->
  isAllDay t = false -> isTimezoneDependent t = true -> roomy now (offset tz) -> 0 <= t_us t < MAXT ->
  (t_us now + offset tz) / DAY = (t_us t + offset tz) / DAY -> minute_start (offset tz) (t_us t) < minute_start (offset tz) (t_us now) ->
  f_hour (fields_of (t_us t + offset tz)) <> 12 ->
  fromHumanly ulower ualnum s tz now = Ok (T (minute_start (offset tz) (t_us t) + DAY) MINUTE).
Proof.
  intros H Ha Hd Hr Ht Eday Hmin Hnoon. apply out_eq in H. destruct H as (x & n & Ex & En & _ & ->).
  assert (Htz : forall u, asDatetime u tz = asDatetime u (Some (offset tz))) by (intros u; destruct tz; reflexivity). rewrite Htz in Ex, En.
  destruct (roomy_local now (offset tz) Hr) as [En' Rn]. rewrite En' in En. injection En as <-.
  apply asDatetime_Ok in Ex; [|exact Hd]. destruct Ex as (_ & _ & Rt & ->). cbn [dt_local] in *.
  destruct (datetime_fields _ Rt) as [Vf _].
  unfold human_out. rewrite Ha. replace (same_day _ _) with true.
  2:{ symmetry. apply same_day_eq. unfold fields_of. cbn [f_date]. now rewrite Eday. }
  set (f := fields_of (t_us t + offset tz)) in *.
  destruct (human_clock ulower ualnum low_ok _ _ _ tz now (clock12_text f Vf) ltac:(apply Vf) ltac:(apply Vf) (clock12_not_noon f Vf Hnoon) Hr) as (u & E & F).
  rewrite E. do 2 f_equal. exact (first_unique _ _ _ _ _ _ F (first_next _ _ _ Eday Hmin)).
Qed.

Lemma clock12_noon f : valid_fields f -> f_hour f = 12 -> noon_hour (clock12 false f).
Proof.
  intros (_ & _ & Hh & Hm & _) H. unfold clock12. rewrite H. exists (zpad 2 (f_min f)), (lit " "), (lit "pm"), (f_min f).
  split; [apply num_zpad; lia|]. split; [apply zpad_len; lia|]. split; [repeat constructor|]. split; [reflexivity|].
  exists [], []. split; [constructor|]. split; [constructor|]. rewrite app_nil_r. reflexivity.
Qed.

Theorem human_at_noon ulower ualnum (low_ok : lowers ulower) t tz now s : asHumanly t tz now MINUTES = Ok s ->
  isAllDay t = false -> isTimezoneDependent t = true -> roomy now (offset tz) ->
  (t_us now + offset tz) / DAY = (t_us t + offset tz) / DAY ->
  f_hour (fields_of (t_us t + offset tz)) = 12 -> fromHumanly ulower ualnum s tz now = Err ValueError.
Proof.
  intros H Ha Hd Hr Eday Hnoon. apply out_eq in H. destruct H as (x & n & Ex & En & _ & ->).
  assert (Htz : forall u, asDatetime u tz = asDatetime u (Some (offset tz))) by (intros u; destruct tz; reflexivity). rewrite Htz in Ex, En.
  destruct (roomy_local now (offset tz) Hr) as [En' Rn]. rewrite En' in En. injection En as <-.
  apply asDatetime_Ok in Ex; [|exact Hd]. destruct Ex as (_ & _ & Rt & ->). cbn [dt_local] in *.
  destruct (datetime_fields _ Rt) as [Vf _].
  unfold human_out. rewrite Ha. replace (same_day _ _) with true.
  2:{ symmetry. apply same_day_eq. unfold fields_of. cbn [f_date]. now rewrite Eday. }
  apply (human_noon_hour ulower ualnum low_ok). now apply clock12_noon.
Qed.

(** ** White space around the text *)

Lemma lstrip_app a s : white a -> lstrip is_space (a ++ s) = lstrip is_space s.
Proof. unfold white. induction 1 as [|c a Hc _ IH]; [reflexivity|]. cbn [app lstrip]. now rewrite Hc. Qed.
Lemma lstrip_white a : white a -> lstrip is_space a = [].
Proof. intros H. rewrite <- (app_nil_r a). now rewrite lstrip_app. Qed.
Lemma lstrip_tail s b : white b -> lstrip is_space (s ++ b) = lstrip is_space s ++ b \/ (lstrip is_space (s ++ b) = [] /\ lstrip is_space s = []).
Proof.
  intros Hb. induction s as [|c s IH]; cbn [app lstrip]; [right; split; [now apply lstrip_white|reflexivity]|].
  destruct (is_space c); [exact IH|left; reflexivity].
Qed.

Lemma strip_around a s b : white a -> white b -> strip is_space (a ++ s ++ b) = strip is_space s.
Proof.
  intros Ha Hb. unfold strip. rewrite lstrip_app by exact Ha. destruct (lstrip_tail s b Hb) as [E|[E1 E2]].
  - rewrite E, rev_app_distr, lstrip_app by (apply Forall_rev; exact Hb). reflexivity.
  - now rewrite E1, E2.
Qed.

Theorem human_around ulower ualnum a s b tz now : white a -> white b ->
  fromHumanly ulower ualnum (a ++ s ++ b) tz now = fromHumanly ulower ualnum s tz now.
Proof. intros Ha Hb. unfold fromHumanly. now rewrite strip_around. Qed.

Lemma local_range t tz x : ok_time t -> asDatetime t tz = Ok x -> 0 <= dt_local x < MAXT.
Proof.
  intros Ht H. destruct (isTimezoneDependent t) eqn:E.
  - replace (asDatetime t tz) with (asDatetime t (Some (offset tz))) in H by (destruct tz; reflexivity).
    apply asDatetime_Ok in H; [|exact E]. destruct H as (_ & _ & H & ->). exact H.
  - unfold asDatetime in H. rewrite E in H. injection H as <-. exact Ht.
Qed.

Lemma short_flags t : t_res t < DAY -> isAllDay t = false /\ isTimezoneDependent t = true.
Proof. unfold isAllDay, isTimezoneDependent. lia. Qed.
