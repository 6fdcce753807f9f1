(** * C165: clockIsBroken, and when Clock is fixed *)
From Coq Require Import ZArith List Bool Arith Lia ZifyBool Permutation Sorted.
From Verif Require Import Py Delayed DelayedClock ClockCheck.
Import ListNotations.
Open Scope Z_scope.

(** C165.  clockIsBroken says whether callLater ever returns another call than the one it
    makes; so once the fix was required it never does.  This is false: *)
Definition C165_full : Prop := forall pick, clockIsBroken pick = true <-> returns_wrong pick.

(** of a Clock that returns the first call of the queue. *)
Definition pick_first : clock -> nat -> nat := fun k i => hd i (ck_calls k).
Theorem C165_missed_refuted : clockIsBroken pick_first = false /\ returns_wrong (require_clock pick_first) /\ ~ C165_full.
Proof.
  assert (W : returns_wrong pick_first) by (exists [CLater 1], 10; vm_compute; discriminate).
  split; [reflexivity|]. split; [exact W|]. intros F. apply F in W. discriminate W.
Qed.
Print Assumptions C165_missed_refuted.

(** It never finds a fault that is not there; *)
Theorem C165_sound_partial : forall pick, clockIsBroken pick = true -> returns_wrong pick.
Proof. exact broken_sound. Qed.
Print Assumptions C165_sound_partial.

(** it finds the fault it is meant for (the last call of the queue is returned), after which
    every call returns its own; *)
Theorem C165_fixed_partial : clockIsBroken pick_last = true /\ ~ returns_wrong (require_clock pick_last).
Proof. split; [reflexivity|]. intros (l & w & H). apply H. unfold later. change (require_clock pick_last) with (fun (_ : clock) (i : nat) => i). now destruct (callLater w (cruns l)). Qed.
Print Assumptions C165_fixed_partial.

(** a fault that shows exactly if, in any history, some pending call is due later than the
    new one. *)
Theorem C165_fault : forall l w, let k := cruns l in let k' := fst (callLater w k) in let i := snd (callLater w k) in
  snd (later pick_last w k) = i <-> forall j, is_pending k' j -> due k' j <= due k' i.
Proof. exact last_own. Qed.
Print Assumptions C165_fault.

Example C165_nonvacuous :
  snd (later pick_last 3 (cruns [CLater 5; CLater 2])) = 0%nat /\ snd (callLater 3 (cruns [CLater 5; CLater 2])) = 2%nat /\
  snd (later pick_last 7 (cruns [CLater 5; CLater 2])) = 2%nat /\ clockIsBroken (fun _ i => i) = false.
Proof. repeat split. Qed.
