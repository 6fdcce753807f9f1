(** * ['%x' % n] for a non-negative integer *)

From Coq Require Import NArith List Bool Lia ZifyBool ZifyN.
From Verif Require Import Py PyStr.
Import ListNotations.
Open Scope N_scope.

Definition hexdigit (d : N) : N := if d <? 10 then 48 + d else 87 + d.

Fixpoint hex_aux (fuel : nat) (n : N) : str :=
  match fuel with
  | O => []
  | S f => if n <? 16 then [hexdigit n] else hex_aux f (n / 16) ++ [hexdigit (n mod 16)]
  end.

Definition hex (n : N) : str := hex_aux (S (N.to_nat (N.log2 n))) n.

Definition hex_val1 (c : N) : N := if c <? 58 then c - 48 else c - 87.

Definition hex_val (s : str) : N := fold_left (fun acc c => 16 * acc + hex_val1 c) s 0.

Lemma hex_val1_digit d : d < 16 -> hex_val1 (hexdigit d) = d.
Proof.
  unfold hex_val1, hexdigit. intros H. destruct (N.ltb_spec d 10).
  - replace (48 + d <? 58) with true by lia. lia.
  - replace (87 + d <? 58) with false by lia. lia.
Qed.

Lemma hex_val_snoc s c : hex_val (s ++ [c]) = 16 * hex_val s + hex_val1 c.
Proof. unfold hex_val. now rewrite fold_left_app. Qed.

Lemma hex_aux_val fuel : forall n, n < 2 ^ N.of_nat fuel -> fuel <> O -> hex_val (hex_aux fuel n) = n.
Proof.
  induction fuel as [|f IH]; intros n Hn Hf; [congruence|]. cbn [hex_aux].
  destruct (N.ltb_spec n 16) as [Hlt|Hge].
  - unfold hex_val. cbn [fold_left]. rewrite hex_val1_digit by exact Hlt. lia.
  - rewrite hex_val_snoc, IH.
    + pose proof (N.div_mod n 16 ltac:(lia)). pose proof (N.mod_lt n 16 ltac:(lia)).
      rewrite hex_val1_digit by lia. lia.
    + rewrite Nat2N.inj_succ, N.pow_succ_r' in Hn. apply N.div_lt_upper_bound; lia.
    + intros ->. cbn in Hn. lia.
Qed.

Lemma hex_val_hex n : hex_val (hex n) = n.
Proof.
  apply hex_aux_val; [|discriminate]. rewrite Nat2N.inj_succ, N2Nat.id.
  destruct n as [|p]; [reflexivity|]. apply N.log2_spec. lia.
Qed.

Lemma hex_inj m n : hex m = hex n -> m = n.
Proof. intros E. rewrite <- (hex_val_hex m), E. apply hex_val_hex. Qed.

Lemma hex_ascii n : Forall (fun c => c < 128) (hex n).
Proof.
  unfold hex. generalize (S (N.to_nat (N.log2 n))). intros f. revert n.
  assert (H : forall d, d < 16 -> hexdigit d < 128).
  { intros d Hd. unfold hexdigit. destruct (d <? 10); lia. }
  induction f as [|f IH]; intros n; cbn [hex_aux]; [constructor|].
  destruct (N.ltb_spec n 16); [constructor; auto|].
  apply Forall_app. split; [apply IH|]. constructor; [|constructor]. apply H, N.mod_lt. lia.
Qed.
