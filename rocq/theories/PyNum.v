(** * Decimal numerals: printing and parsing of non-negative integers *)

From Coq Require Import NArith List Bool Lia ZifyBool ZifyN.
From Verif Require Import Py PyStr.
Import ListNotations.
Open Scope N_scope.

(** ** Printing *)

Definition digit (d : N) : N := 48 + d.

Fixpoint dec_aux (fuel : nat) (n : N) : str :=
  match fuel with
  | O => []
  | S f => if n <? 10 then [digit n] else dec_aux f (n / 10) ++ [digit (n mod 10)]
  end.

(** [str(n)] for a non-negative int [n] *)
Definition dec (n : N) : str := dec_aux (S (N.to_nat (N.log2 n))) n.

(** ** Parsing *)

Definition digit_val (c : N) : N := c - 48.

Fixpoint dec_val_acc (acc : N) (s : str) : N :=
  match s with
  | [] => acc
  | c :: t => dec_val_acc (10 * acc + digit_val c) t
  end.

(** the value of a string of decimal digits *)
Definition dec_val (s : str) : N := dec_val_acc 0 s.

Definition all_digits (s : str) : bool := forallb is_digit s.

Lemma dec_val_acc_app s t : forall acc,
  dec_val_acc acc (s ++ t) = dec_val_acc (dec_val_acc acc s) t.
Proof. induction s as [|c s IH]; intros acc; cbn [app dec_val_acc]; auto. Qed.

Lemma dec_val_snoc s c : dec_val (s ++ [c]) = 10 * dec_val s + digit_val c.
Proof. unfold dec_val. rewrite dec_val_acc_app. reflexivity. Qed.

Lemma dec_aux_val fuel : forall n, n < 2 ^ N.of_nat fuel -> fuel <> O ->
  dec_val (dec_aux fuel n) = n.
Proof.
  induction fuel as [|f IH]; intros n Hn Hf; [congruence|]. cbn [dec_aux].
  destruct (N.ltb_spec n 10) as [Hlt|Hge].
  - unfold dec_val, dec_val_acc, digit_val, digit. lia.
  - rewrite dec_val_snoc. rewrite IH.
    + pose proof (N.div_mod n 10 ltac:(lia)).
      pose proof (N.mod_lt n 10 ltac:(lia)).
      unfold digit_val, digit. lia.
    + rewrite Nat2N.inj_succ, N.pow_succ_r' in Hn.
      apply N.div_lt_upper_bound; lia.
    + intros ->. cbn in Hn. lia.
Qed.

Lemma dec_fuel n : n < 2 ^ N.of_nat (S (N.to_nat (N.log2 n))).
Proof.
  rewrite Nat2N.inj_succ, N2Nat.id.
  destruct n as [|p]; [reflexivity|].
  apply N.log2_spec. lia.
Qed.

Lemma dec_val_dec n : dec_val (dec n) = n.
Proof. apply dec_aux_val; [apply dec_fuel|discriminate]. Qed.

Lemma dec_inj m n : dec m = dec n -> m = n.
Proof. intros E. rewrite <- (dec_val_dec m), E. apply dec_val_dec. Qed.

Lemma is_digit_digit d : d < 10 -> is_digit (digit d) = true.
Proof. unfold is_digit, digit. intros. lia. Qed.

Lemma dec_aux_digits fuel : forall n, all_digits (dec_aux fuel n) = true.
Proof.
  induction fuel as [|f IH]; intros n; cbn [dec_aux]; auto.
  destruct (N.ltb_spec n 10) as [Hlt|Hge].
  - unfold all_digits. cbn [forallb]. rewrite is_digit_digit; auto.
  - unfold all_digits in *. rewrite forallb_app, IH. cbn [forallb].
    rewrite is_digit_digit; auto. apply N.mod_lt. lia.
Qed.

Lemma dec_digits n : all_digits (dec n) = true.
Proof. apply dec_aux_digits. Qed.

Lemma dec_nonempty n : dec n <> [].
Proof.
  unfold dec. cbn [dec_aux]. destruct (n <? 10); [discriminate|].
  intros E. apply app_eq_nil in E as [_ E]. discriminate.
Qed.

(** no leading zero *)
Lemma dec_aux_head fuel : forall n, n < 2 ^ N.of_nat fuel -> n <> 0 ->
  exists c t, dec_aux fuel n = c :: t /\ c <> 48 /\ is_digit c = true.
Proof.
  induction fuel as [|f IH]; intros n Hn Hz.
  - cbn in Hn. lia.
  - cbn [dec_aux]. destruct (N.ltb_spec n 10) as [Hlt|Hge].
    + exists (digit n), []. unfold digit, is_digit. repeat split; lia.
    + destruct (IH (n / 10)) as (c & t & E & Hc & Hd).
      * rewrite Nat2N.inj_succ, N.pow_succ_r' in Hn. apply N.div_lt_upper_bound; lia.
      * pose proof (N.div_str_pos n 10). lia.
      * exists c, (t ++ [digit (n mod 10)]). rewrite E. auto.
Qed.

Lemma dec_head n : n <> 0 -> exists c t, dec n = c :: t /\ c <> 48 /\ is_digit c = true.
Proof. intros Hz. apply dec_aux_head; auto using dec_fuel. Qed.

(** ** Zero padding *)

(** ['%0*d' % (w, n)] for a non-negative [n] *)
Definition pad0 (w : nat) (n : N) : str :=
  repeat 48 (w - length (dec n))%nat ++ dec n.

Lemma dec_val_acc_zeros k : dec_val_acc 0 (repeat 48 k) = 0.
Proof. induction k; cbn [repeat dec_val_acc]; auto. Qed.

Lemma dec_val_pad0 w n : dec_val (pad0 w n) = n.
Proof.
  unfold dec_val, pad0. rewrite dec_val_acc_app, dec_val_acc_zeros. apply dec_val_dec.
Qed.

Lemma pad0_digits w n : all_digits (pad0 w n) = true.
Proof.
  unfold pad0, all_digits. rewrite forallb_app. apply andb_true_intro. split.
  - induction (w - length (dec n))%nat; cbn; auto.
  - apply dec_digits.
Qed.

Lemma dec_val_acc_bound s : forall acc, all_digits s = true ->
  dec_val_acc acc s < (acc + 1) * 10 ^ N.of_nat (length s).
Proof.
  induction s as [|c s IH]; intros acc Hd; cbn [length dec_val_acc].
  - cbn. lia.
  - unfold all_digits in Hd. cbn [forallb] in Hd. apply andb_prop in Hd as [Hc Hs].
    eapply N.lt_le_trans; [apply IH; auto|].
    rewrite Nat2N.inj_succ, N.pow_succ_r'.
    unfold is_digit in Hc. unfold digit_val.
    assert (Hc' : c - 48 <= 9) by lia.
    rewrite N.mul_assoc. apply N.mul_le_mono_r. lia.
Qed.

Lemma dec_val_bound s : all_digits s = true -> dec_val s < 10 ^ N.of_nat (length s).
Proof. intros Hd. pose proof (dec_val_acc_bound s 0 Hd). unfold dec_val. lia. Qed.

Lemma dec_aux_length fuel : forall n k, n < 10 ^ N.of_nat (S k) ->
  (length (dec_aux fuel n) <= S k)%nat.
Proof.
  induction fuel as [|f IH]; intros n k Hn; cbn [dec_aux]; [cbn; lia|].
  destruct (N.ltb_spec n 10) as [Hlt|Hge]; [cbn; lia|].
  rewrite app_length. cbn [length].
  destruct k as [|k]; [cbn in Hn; lia|].
  assert (length (dec_aux f (n / 10)) <= S k)%nat; [|lia].
  apply IH. rewrite Nat2N.inj_succ, N.pow_succ_r' in Hn.
  apply N.div_lt_upper_bound; lia.
Qed.

Lemma dec_length n k : n < 10 ^ N.of_nat (S k) -> (length (dec n) <= S k)%nat.
Proof. apply dec_aux_length. Qed.

Lemma pad0_length w n : n < 10 ^ N.of_nat (S w) -> length (pad0 (S w) n) = S w.
Proof.
  intros Hn. unfold pad0. rewrite app_length, repeat_length.
  pose proof (dec_length n w Hn). lia.
Qed.

(** equal-length digit strings with the same value are equal *)
Lemma dec_val_inj s : forall t, length s = length t -> all_digits s = true ->
  all_digits t = true -> dec_val s = dec_val t -> s = t.
Proof.
  induction s as [|c s IH] using rev_ind; intros t Hl Hs Ht E.
  - destruct t; [auto|discriminate].
  - destruct t as [|d t _] using rev_ind.
    + rewrite app_length in Hl. cbn in Hl. lia.
    + rewrite !app_length in Hl. cbn in Hl.
      unfold all_digits in *. rewrite forallb_app in Hs, Ht. cbn [forallb] in Hs, Ht.
      apply andb_prop in Hs as [Hs Hc]. apply andb_prop in Ht as [Ht Hd].
      rewrite andb_true_r in Hc, Hd.
      rewrite !dec_val_snoc in E. unfold digit_val in E.
      unfold is_digit in Hc, Hd.
      assert (dec_val s = dec_val t /\ c = d) as [E1 ->] by lia.
      rewrite (IH t); auto. lia.
Qed.

(** a digit string of length [w] is the zero-padded print of its value *)
Lemma pad0_dec_val s : s <> [] -> all_digits s = true -> pad0 (length s) (dec_val s) = s.
Proof.
  intros Hne Hd. destruct s as [|c s]; [congruence|].
  apply dec_val_inj; auto using pad0_digits, dec_val_pad0.
  apply pad0_length. now apply dec_val_bound.
Qed.

(** [dec] never pads *)
Lemma dec_dec_val s : s <> [] -> all_digits s = true ->
  (hd 48 s <> 48 \/ length s = 1%nat) -> dec (dec_val s) = s.
Proof.
  intros Hne Hd Hh.
  pose proof (pad0_dec_val s Hne Hd) as E. unfold pad0 in E.
  destruct (length s - length (dec (dec_val s)))%nat as [|k] eqn:Ek; [exact E|].
  exfalso. destruct Hh as [Hh|Hh].
  - rewrite <- E in Hh. cbn in Hh. congruence.
  - pose proof (dec_nonempty (dec_val s)) as Hn.
    destruct (dec (dec_val s)); [congruence|]. cbn in Ek. lia.
Qed.
