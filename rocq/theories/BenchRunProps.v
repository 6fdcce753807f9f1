(** * Property C180: a benchmark run ends *)

From Coq Require Import NArith String List Bool.
From Verif Require Import Py BenchRun.
Import ListNotations.

(** The full claim, for whatever [later] does: once the benchmark has a result,
    or was not started, [bench] is over. *)
Definition C180_full : Prop := forall report f, f <> Never -> fst (bench report f) <> Hangs.

(** False: with a Deferred that has its result at once the reactor is told to
    stop before it runs, and then runs for ever. *)
Theorem C180_already_refuted : (forall report r, fst (bench report (Already r)) = Hangs) /\ ~ C180_full.
Proof.
  assert (H : forall report r, fst (bench report (Already r)) = Hangs).
  { intros report r. apply (bench_exact report (Already r)). right. now exists r. }
  split; [exact H|]. intros F. exact (F (fun r => r) (Already Good) ltac:(discriminate) (H _ _)).
Qed.
Print Assumptions C180_already_refuted.

(** What holds: with a result that comes later [bench] returns, whatever the
    result is and whether or not reporting it fails; that failure is logged. *)
Theorem C180_later_partial : forall report r, bench report (Later r) = (Returned, failure_of (report r)).
Proof. exact bench_later. Qed.
Print Assumptions C180_later_partial.

(** An exception of the function itself is raised; there is no other way. *)
Theorem C180_exact_partial : forall report f,
  (fst (bench report f) = Returned <-> exists r, f = Later r) /\
  (forall e, fst (bench report f) = RaisedOut e <-> f = Raises e) /\
  (fst (bench report f) = Hangs <-> f = Never \/ exists r, f = Already r).
Proof. exact bench_exact. Qed.
Print Assumptions C180_exact_partial.

(** a benchmark times out and the report cannot be written *)
Example C180_nonvacuous : bench (fun r => match r with Good => Good | Bad _ => Bad OSError end) (Later (Bad (OtherExn 1))) = (Returned, [OSError]).
Proof. reflexivity. Qed.
