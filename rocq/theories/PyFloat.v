(** * Python's floats: IEEE 754 binary64 on rational numbers

    Not code of /repo.  A finite float is the rational number it stands for.
    Every operation gives the exact result rounded to the nearest float, ties
    to even.  Simplification: no overflow to infinity (the numbers here are
    below 10^18). *)

From Coq Require Import ZArith QArith Qround Qpower Qabs Lqa Lia.
Open Scope Q_scope.

(** ** Rounding to an integer, ties to even (Python's [round]) *)
Definition rne (q : Q) : Z :=
  let n := Qnum q in let d := Zpos (Qden q) in
  let f := (n / d)%Z in let r := (n mod d)%Z in
  if (2 * r <? d)%Z then f
  else if (d <? 2 * r)%Z then (f + 1)%Z
  else if Z.even f then f else (f + 1)%Z.

(** ** Rounding to a float *)

(** the exponent of the first binary digit of [q] *)
Definition flog2 (q : Q) : Z :=
  let l := (Z.log2 (Qnum q) - Z.log2 (Zpos (Qden q)))%Z in
  if Qle_bool (2 ^ l) q then l else (l - 1)%Z.

(** the exponent of the last of 53 binary digits; -1074 for subnormal numbers *)
Definition ulp_exp (q : Q) : Z := Z.max (flog2 q - 52) (-1074).

Definition fl_pos (q : Q) : Q :=
  let e := ulp_exp q in inject_Z (rne (q * 2 ^ (- e))) * 2 ^ e.

Definition fl (q : Q) : Q :=
  match (Qnum q ?= 0)%Z with
  | Eq => 0
  | Gt => fl_pos q
  | Lt => - fl_pos (- q)
  end.

(** ** Facts *)

Lemma half_diff (n d f r : Z) : (0 < d)%Z -> (n = d * f + r)%Z ->
  forall z, (inject_Z z - (n # Z.to_pos d) == ((z - f) * d - r # Z.to_pos d)).
Proof.
  intros Hd -> z. unfold Qeq, Qminus, Qplus, Qopp, inject_Z. cbn [Qnum Qden].
  rewrite !Pos2Z.inj_mul, !Z2Pos.id by exact Hd. ring.
Qed.

Lemma rne_bound q : Qabs (inject_Z (rne q) - q) <= 1 # 2.
Proof.
  destruct q as [n d]. unfold rne. cbn [Qnum Qden]. set (D := Zpos d).
  pose proof (Z.div_mod n D) as E. pose proof (Z.mod_pos_bound n D) as Hr.
  assert (HD : (0 < D)%Z) by reflexivity. specialize (E ltac:(lia)). specialize (Hr HD).
  set (f := (n / D)%Z) in *. set (r := (n mod D)%Z) in *.
  assert (H : forall z, (Z.abs ((z - f) * D - r) * 2 <= D)%Z -> Qabs (inject_Z z - (n # d)) <= 1 # 2).
  { intros z Hz. pose proof (half_diff n D f r HD E z) as Hd. change (Z.to_pos D) with d in Hd. rewrite Hd.
    unfold Qle. cbn [Qabs Qnum Qden]. change (Zpos d) with D. lia. }
  destruct (Z.ltb_spec (2 * r) D); [apply H; lia|]. destruct (Z.ltb_spec D (2 * r)); [apply H; lia|].
  destruct (Z.even f); apply H; lia.
Qed.

Lemma Qabs_bounds x b : Qabs x <= b <-> - b <= x /\ x <= b.
Proof. apply Qabs_Qle_condition. Qed.

Lemma Qabs_lt x b : - b < x -> x < b -> Qabs x < b.
Proof. intros H1 H2. apply Qabs_case; intros; lra. Qed.

Lemma rne_near q z : Qabs (q - inject_Z z) < 1 # 2 -> rne q = z.
Proof.
  intros H. pose proof (rne_bound q) as B. apply Qabs_bounds in B.
  apply Qabs_Qlt_condition in H. destruct H as [H1 H2]. destruct B as [B1 B2].
  assert (L1 : inject_Z (rne q) < inject_Z (z + 1)) by (rewrite inject_Z_plus; change (inject_Z 1) with 1; lra).
  assert (L2 : inject_Z (z - 1) < inject_Z (rne q)).
  { unfold Z.sub. rewrite inject_Z_plus. change (inject_Z (-(1))) with (-1 # 1). lra. }
  rewrite <- Zlt_Qlt in L1, L2. lia.
Qed.

Lemma rne_Z z : rne (inject_Z z) = z.
Proof.
  apply rne_near. setoid_replace (inject_Z z - inject_Z z) with 0 by ring. reflexivity.
Qed.

Lemma pow2_pos e : 0 < 2 ^ e.
Proof. apply Qpower_0_lt. reflexivity. Qed.

Lemma pow2_plus a b : 2 ^ (a + b) == 2 ^ a * 2 ^ b.
Proof. apply Qpower_plus. discriminate. Qed.

Lemma pow2_mono a b : (a <= b)%Z -> 2 ^ a <= 2 ^ b.
Proof.
  intros H. replace b with (a + (b - a))%Z by lia. rewrite pow2_plus.
  assert (1 <= 2 ^ (b - a)).
  { rewrite <- (Zpower_Qpower 2) by lia. change 1 with (inject_Z 1). rewrite <- Zle_Qle. pose proof (Z.pow_pos_nonneg 2 (b - a)). lia. }
  pose proof (pow2_pos a). nra.
Qed.

Lemma pow2_lt_inv a b : 2 ^ a < 2 ^ b -> (a < b)%Z.
Proof.
  intros H. destruct (Z.lt_ge_cases a b) as [L|L]; [exact L|]. pose proof (pow2_mono _ _ L). lra.
Qed.

Lemma pow2_neg a : 2 ^ (- a) * 2 ^ a == 1.
Proof. rewrite <- pow2_plus. replace (- a + a)%Z with 0%Z by lia. reflexivity. Qed.

Lemma log2_Q z : (0 < z)%Z -> 2 ^ Z.log2 z <= inject_Z z /\ inject_Z z < 2 ^ (Z.log2 z + 1).
Proof.
  intros H. pose proof (Z.log2_spec z H) as [H1 H2]. pose proof (Z.log2_nonneg z).
  rewrite <- !(Zpower_Qpower 2) by lia. rewrite <- Zle_Qle, <- Zlt_Qlt. lia.
Qed.

Lemma Qdiv_mk n d : n # d == inject_Z n / inject_Z (Zpos d).
Proof. apply Qmake_Qdiv. Qed.

Lemma flog2_upper q : 0 < q -> q < 2 ^ (flog2 q + 1).
Proof.
  destruct q as [n d]. intros Hq. assert (Hn : (0 < n)%Z) by (unfold Qlt in Hq; cbn in Hq; lia).
  unfold flog2. cbn [Qnum Qden]. set (l := (Z.log2 n - Z.log2 (Zpos d))%Z).
  pose proof (log2_Q n Hn) as [N1 N2]. pose proof (log2_Q (Zpos d) eq_refl) as [D1 D2].
  assert (Hd : 0 < inject_Z (Zpos d)) by reflexivity.
  destruct (Qle_bool (2 ^ l) (n # d)) eqn:E.
  - rewrite (Qdiv_mk n d). apply Qlt_shift_div_r; [exact Hd|].
    replace (l + 1)%Z with (Z.log2 n + 1 + - Z.log2 (Zpos d))%Z by (unfold l; lia). rewrite pow2_plus.
    pose proof (pow2_neg (Z.log2 (Zpos d))) as I. pose proof (pow2_pos (- Z.log2 (Zpos d))).
    set (a := 2 ^ (- Z.log2 (Zpos d))) in *. set (b := 2 ^ Z.log2 (Zpos d)) in *. set (c := 2 ^ (Z.log2 n + 1)) in *.
    assert (c * (a * b) <= c * a * inject_Z (Zpos d)).
    { rewrite Qmult_assoc. apply Qmult_le_l; [|exact D1]. apply Qmult_lt_0_compat; [apply pow2_pos|assumption]. }
    rewrite I in H0. lra.
  - replace (l - 1 + 1)%Z with l by lia. apply Qnot_le_lt. intros C. apply Qle_bool_iff in C. congruence.
Qed.

Lemma flog2_lower q : 0 < q -> 2 ^ flog2 q <= q.
Proof.
  destruct q as [n d]. intros Hq. assert (Hn : (0 < n)%Z) by (unfold Qlt in Hq; cbn in Hq; lia).
  unfold flog2. cbn [Qnum Qden]. set (l := (Z.log2 n - Z.log2 (Zpos d))%Z).
  pose proof (log2_Q n Hn) as [N1 N2]. pose proof (log2_Q (Zpos d) eq_refl) as [D1 D2].
  assert (Hd : 0 < inject_Z (Zpos d)) by reflexivity.
  destruct (Qle_bool (2 ^ l) (n # d)) eqn:E; [now apply Qle_bool_iff|].
  rewrite (Qdiv_mk n d). apply Qle_shift_div_l; [exact Hd|].
  replace (l - 1)%Z with (Z.log2 n + - (Z.log2 (Zpos d) + 1))%Z by (unfold l; lia). rewrite pow2_plus.
  pose proof (pow2_neg (Z.log2 (Zpos d) + 1)) as I. pose proof (pow2_pos (- (Z.log2 (Zpos d) + 1))).
  pose proof (pow2_pos (Z.log2 n)).
  set (a := 2 ^ (- (Z.log2 (Zpos d) + 1))) in *. set (b := 2 ^ (Z.log2 (Zpos d) + 1)) in *. set (c := 2 ^ Z.log2 n) in *.
  assert (c * a * inject_Z (Zpos d) <= c * (a * b)).
  { rewrite Qmult_assoc. apply Qmult_le_l; [apply Qmult_lt_0_compat; assumption|lra]. }
  rewrite I in H1. lra.
Qed.

Lemma ulp_bound q k : 0 < q -> q < 2 ^ k -> (-1021 <= k)%Z -> (ulp_exp q <= k - 53)%Z.
Proof.
  intros H0 H Hk. unfold ulp_exp. pose proof (flog2_lower q H0). assert (flog2 q < k)%Z by (apply pow2_lt_inv; lra). lia.
Qed.

Lemma fl_pos_err q : Qabs (fl_pos q - q) <= (1 # 2) * 2 ^ ulp_exp q.
Proof.
  unfold fl_pos. cbv zeta. set (e := ulp_exp q). pose proof (rne_bound (q * 2 ^ (- e))) as B.
  set (m := inject_Z (rne (q * 2 ^ (- e)))) in *. pose proof (pow2_neg e) as I. pose proof (pow2_pos e) as P.
  assert (Eq : m * 2 ^ e - q == (m - q * 2 ^ (- e)) * 2 ^ e).
  { transitivity (m * 2 ^ e - q * (2 ^ (- e) * 2 ^ e)); [rewrite I; ring|ring]. }
  rewrite Eq, Qabs_Qmult, (Qabs_pos (2 ^ e)) by lra. apply Qmult_le_compat_r; [exact B|lra].
Qed.

(** The error is at most half a unit in the last place of the next power of two. *)
Theorem fl_err q k : Qabs q < 2 ^ k -> (-1021 <= k)%Z -> Qabs (fl q - q) <= 2 ^ (k - 54).
Proof.
  intros H Hk.
  assert (Hpos : forall x, 0 < x -> x < 2 ^ k -> Qabs (fl_pos x - x) <= 2 ^ (k - 54)).
  { intros x H0 Hx. eapply Qle_trans; [apply fl_pos_err|].
    replace (k - 54)%Z with (- (1) + (k - 53))%Z by lia. rewrite pow2_plus. change (2 ^ (- (1))) with (1 # 2).
    apply Qmult_le_l; [reflexivity|]. apply pow2_mono, ulp_bound; assumption. }
  unfold fl. destruct (Z.compare_spec (Qnum q) 0) as [E|E|E].
  - assert (Eq : q == 0) by (destruct q as [n d]; cbn in E; subst; reflexivity).
    setoid_replace (0 - q) with 0 by (rewrite Eq; ring). pose proof (pow2_pos (k - 54)). change (Qabs 0) with 0. lra.
  - assert (Hq : q < 0) by (destruct q as [n d]; unfold Qlt; cbn in *; lia).
    setoid_replace (- fl_pos (- q) - q) with (- (fl_pos (- q) - - q)) by ring. rewrite Qabs_opp. apply Hpos; [lra|].
    rewrite Qabs_neg in H by lra. exact H.
  - assert (Hq : 0 < q) by (destruct q as [n d]; unfold Qlt; cbn in *; lia). apply Hpos; [exact Hq|].
    rewrite Qabs_pos in H by lra. exact H.
Qed.

Lemma pow2_le_inv a b : 2 ^ a <= 2 ^ b -> (a <= b)%Z.
Proof.
  intros H. destruct (Z.le_gt_cases a b) as [L|L]; [exact L|]. assert (E : (b + 1 <= a)%Z) by lia.
  pose proof (pow2_mono _ _ E) as M. rewrite pow2_plus in M. change (2 ^ 1) with 2 in M. pose proof (pow2_pos b). lra.
Qed.

(** numbers that need no rounding *)
Theorem fl_exact (m e : Z) q : q == inject_Z m * 2 ^ e -> (Z.abs m < 2 ^ 53)%Z -> (-1074 <= e)%Z -> fl q == q.
Proof.
  intros Eq Hm He.
  assert (Hpos : forall x (j : Z), 0 < x -> x == inject_Z j * 2 ^ e -> (Z.abs j < 2 ^ 53)%Z -> fl_pos x == x).
  { intros x j H0 Ex Hj. unfold fl_pos. cbv zeta. set (u := ulp_exp x).
    assert (Hu : (u <= e)%Z).
    { unfold u, ulp_exp. pose proof (flog2_lower x H0) as L. assert (x < 2 ^ (e + 53)).
      { rewrite Ex, Z.add_comm, pow2_plus. apply Qmult_lt_r; [apply pow2_pos|]. rewrite <- (Zpower_Qpower 2) by lia. rewrite <- Zlt_Qlt. lia. }
      assert (flog2 x < e + 53)%Z by (apply pow2_lt_inv; lra). lia. }
    assert (Hz : x * 2 ^ (- u) == inject_Z (j * 2 ^ (e - u))).
    { rewrite Ex, inject_Z_mult, Zpower_Qpower by lia. unfold Z.sub. change (inject_Z 2) with 2. rewrite (pow2_plus e). ring. }
    assert (Er : rne (x * 2 ^ (- u)) = (j * 2 ^ (e - u))%Z).
    { apply rne_near. setoid_replace (x * 2 ^ (- u) - inject_Z (j * 2 ^ (e - u))) with 0 by (rewrite Hz; ring). reflexivity. }
    rewrite Er, <- Hz, <- Qmult_assoc, pow2_neg. ring. }
  unfold fl. destruct (Z.compare_spec (Qnum q) 0) as [E|E|E].
  - destruct q as [n d]; cbn in E; subst; reflexivity.
  - assert (Hq : 0 < - q) by (destruct q as [n d]; unfold Qlt; cbn in *; lia).
    rewrite (Hpos (- q) (- m)%Z Hq); [ring| |lia]. rewrite Eq, inject_Z_opp. ring.
  - assert (Hq : 0 < q) by (destruct q as [n d]; unfold Qlt; cbn in *; lia). exact (Hpos q m Hq Eq Hm).
Qed.

Corollary fl_Z z : (Z.abs z < 2 ^ 53)%Z -> fl (inject_Z z) == inject_Z z.
Proof. intros H. apply (fl_exact z 0); [change (2 ^ 0) with 1; ring|exact H|lia]. Qed.

(** rounding does not depend on how the number is written *)
Lemma rne_compat p q : p == q -> rne p = rne q.
Proof.
  intros E. destruct p as [n d], q as [n' d']. unfold Qeq in E. cbn in E. unfold rne. cbn [Qnum Qden].
  assert (H : forall (a b : Z) (c : positive), (0 < b)%Z -> ((a * Zpos c) / (b * Zpos c) = a / b)%Z /\ ((a * Zpos c) mod (b * Zpos c) = a mod b * Zpos c)%Z).
  { intros a b c Hb. split; [apply Z.div_mul_cancel_r; lia|]. rewrite Z.mul_mod_distr_r by lia. reflexivity. }
  destruct (H n (Zpos d) d' eq_refl) as [A1 A2]. destruct (H n' (Zpos d') d eq_refl) as [B1 B2].
  rewrite E in A1, A2. rewrite (Z.mul_comm (Zpos d) (Zpos d')) in A1, A2. rewrite A1 in B1. rewrite A2 in B2. rewrite <- B1.
  set (r := (n mod Zpos d)%Z) in *. set (r' := (n' mod Zpos d')%Z) in *. clear A1 A2 B1 H E.
  assert (C : forall z, (z = r' -> 2 * z <? Zpos d' = (2 * r <? Zpos d))%Z).
  { intros z ->. destruct (Z.ltb_spec (2 * r') (Zpos d')), (Z.ltb_spec (2 * r) (Zpos d)); try reflexivity; exfalso; nia. }
  assert (C' : (Zpos d' <? 2 * r' = (Zpos d <? 2 * r))%Z).
  { destruct (Z.ltb_spec (Zpos d') (2 * r')), (Z.ltb_spec (Zpos d) (2 * r)); try reflexivity; exfalso; nia. }
  rewrite (C r' eq_refl), C'. reflexivity.
Qed.

(** truncation towards zero, [modf] *)
Definition trunc (q : Q) : Z := Z.quot (Qnum q) (Zpos (Qden q)).
