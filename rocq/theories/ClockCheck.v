(** * epsilon/hotfixes/internet_task_clock.py: does Clock need the fix? *)
From Coq Require Import ZArith List Bool Arith Lia ZifyBool Permutation Sorted.
From Verif Require Import Py Delayed DelayedClock.
Import ListNotations.
Open Scope Z_scope.

(** A Clock whose callLater schedules as it should ([DelayedClock.callLater]) and then
    returns the call [pick] chooses, given the clock and the call just made. *)
Definition later (pick : clock -> nat -> nat) (when_ : Z) (k : clock) : clock * nat :=
  let '(k', i) := callLater when_ k in (k', pick k' i).

(** internet_task_clock.py:21-32 [clockIsBroken] *)
Definition clockIsBroken (pick : clock -> nat -> nat) : bool :=
  let '(k, dc1) := later pick 10 new_clock in
  let '(_, dc2) := later pick 1 k in
  Nat.eqb dc1 dc2.

(** hotfix.py:55-61 with internet_task_clock.py:34-38 [install]: what callLater returns
    after the fix was required *)
Definition require_clock (pick : clock -> nat -> nat) : clock -> nat -> nat :=
  if clockIsBroken pick then fun _ i => i else pick.

(** the bug of Twisted before r20480: the last call of the sorted queue is returned *)
Definition pick_last : clock -> nat -> nat := fun k i => last (ck_calls k) i.

(** ** Specification *)
(** callLater returns another call than the one it makes, after some calls *)
Definition returns_wrong (pick : clock -> nat -> nat) : Prop :=
  exists l w, snd (later pick w (cruns l)) <> snd (callLater w (cruns l)).

(** ** Proofs *)
Lemma last_insert key x l d : l <> [] -> key x <= key (last l d) -> last (insert key x l) d = last l d.
Proof.
  induction l as [|y l IH]; [congruence|]. intros _ H. cbn [insert]. destruct (key x <=? key y) eqn:E; [reflexivity|].
  destruct l as [|z l]; [cbn in *; lia|]. assert (N : insert key x (z :: l) <> []) by (cbn [insert]; destruct (key x <=? key z); discriminate).
  change (last (y :: z :: l) d) with (last (z :: l) d) in *. assert (Z0 : z :: l <> []) by discriminate. rewrite <- (IH Z0 H). destruct (insert key x (z :: l)); [congruence|reflexivity].
Qed.
Lemma insert_nonempty key x l : insert key x l <> [].
Proof. destruct l as [|y l]; cbn [insert]; [discriminate|]. destruct (key x <=? key y); discriminate. Qed.
Lemma sort_nonempty key l i : sort key (l ++ [i]) <> [].
Proof. destruct l as [|x l]; cbn [app sort fold_right]; apply insert_nonempty. Qed.
Lemma last_sort key l i d : Forall (fun j => key j <= key i) l -> last (sort key (l ++ [i])) d = i.
Proof.
  induction 1 as [|x l H _ IH]; [reflexivity|]. cbn [app sort fold_right]. fold (sort key (l ++ [i])). rewrite last_insert; [exact IH|apply sort_nonempty|now rewrite IH].
Qed.
Lemma last_largest (key : nat -> Z) l : StronglySorted (fun i j => key i <= key j) l -> forall d j, In j l -> key j <= key (last l d).
Proof.
  induction 1 as [|x l S IH F]; intros d j Hj; [destruct Hj|]. destruct l as [|y l]; [destruct Hj as [->|[]]; cbn; lia|].
  change (last (x :: y :: l) d) with (last (y :: l) d). destruct Hj as [<-|Hj]; [|now apply IH].
  rewrite Forall_forall in F. apply F. clear. revert y. induction l as [|z l IH]; intros y; [now left|]. right. apply (IH z).
Qed.

(** the buggy version returns its own call exactly if no pending call is due later *)
Theorem last_own l w : let k := cruns l in let k' := fst (callLater w k) in let i := snd (callLater w k) in
  snd (later pick_last w k) = i <-> forall j, is_pending k' j -> due k' j <= due k' i.
Proof.
  cbv zeta. set (k := cruns l). pose proof (clock_sorted l w) as S. cbv zeta in S. fold k in S.
  assert (Q : queue_ok (fst (callLater w k))) by (pose proof (clock_queue (l ++ [CLater w])) as Q; unfold cruns in Q; rewrite fold_left_app in Q; exact Q).
  unfold later, pick_last. destruct (callLater w k) as [k' i] eqn:E. cbn [fst snd] in *. destruct Q as [_ Q]. split.
  - intros L j Hj. apply Q in Hj. pose proof (last_largest (due k') (ck_calls k') S i j Hj) as P. rewrite L in P. exact P.
  - intros H. unfold callLater in E. injection E as <- Ei. cbn [ck_calls]. rewrite Ei. apply last_sort. apply Forall_forall. intros j Hj.
    specialize (H j). unfold due in H. cbn [ck_table] in H. subst i. apply H. apply Q. cbn [ck_calls].
    eapply Permutation_in; [apply Permutation_sym, sort_perm|]. apply in_or_app. now left.
Qed.

Lemma broken_sound pick : clockIsBroken pick = true -> returns_wrong pick.
Proof.
  unfold clockIsBroken, later. intros B. destruct (callLater 10 new_clock) as [k1 i1] eqn:E1. destruct (callLater 1 k1) as [k2 i2] eqn:E2. apply Nat.eqb_eq in B.
  assert (N : i1 <> i2) by (unfold callLater in E1; injection E1 as <- <-; unfold callLater in E2; injection E2 as <- <-; discriminate).
  destruct (Nat.eq_dec (pick k1 i1) i1) as [A|A].
  - exists [CLater 10], 1. unfold cruns, later. cbn [fold_left crun]. rewrite E1. cbn [fst]. rewrite E2. cbn [snd]. congruence.
  - exists [], 10. unfold cruns, later. cbn [fold_left]. rewrite E1. exact A.
Qed.
