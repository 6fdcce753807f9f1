(** * Properties of failUnlessWarns: C78 *)

From Coq Require Import NArith String List Bool Arith Lia.
From Verif Require Import Py PyStr AssertWarns.
Import ListNotations.

(** Whatever f does (emit, raise, replace the hook itself, check other functions):
    afterwards the hook is what it was. *)
Theorem C78_restored : forall cat msg file f s, current (fst (run (failUnlessWarns cat msg file f) s)) = current s.
Proof. exact restored. Qed.
Print Assumptions C78_restored.

(** If f does not replace the hook: the result of f is passed on exactly if its
    warnings are as expected, what it raises is passed on, and anything else is
    reported as a failure. *)
Theorem C78_verdict : forall cat msg file f s, tame f -> known s ->
  let (ws, r) := outcome f in
  match snd (run (failUnlessWarns cat msg file f) s), r with
  | x, Err e => x = Err e
  | Ok y, Ok v => y = v /\ expected cat msg file ws
  | Err e, Ok v => e = FAILED /\ ~ expected cat msg file ws
  end.
Proof.
  intros cat msg file f s T K. pose proof (check_tame cat msg file f s T K) as E. destruct (outcome f) as [ws r]. cbn [fst snd] in E. rewrite E. destruct r as [v|e].
  - destruct (verdict cat msg file ws v) as [y|e] eqn:Ev.
    + apply verdict_ok in Ev as (H & ->). auto.
    + split; [eapply verdict_err; eauto|]. intros H. assert (X : verdict cat msg file ws v = Ok v) by (apply verdict_ok; auto). congruence.
  - reflexivity.
Qed.
Print Assumptions C78_verdict.

(** Its warnings are not shown to anybody else, and what was collected by
    checks which are still running stays as it was. *)
Theorem C78_private : forall cat msg file f s, tame f -> known s ->
  others (fst (run (failUnlessWarns cat msg file f) s)) = others s /\
  exists m, shown (fst (run (failUnlessWarns cat msg file f) s)) = shown s ++ m.
Proof.
  intros cat msg file f s T K. destruct (run_tame (failUnlessWarns cat msg file f)) with (s := s) as (m & E & _); [constructor; [exact T|intros r; constructor]|exact K|]. rewrite E.
  cbn [outcome failUnlessWarns]. destruct (outcome f) as [ws r]. cbn. split; [reflexivity|]. now exists m.
Qed.
Print Assumptions C78_private.

(** After it, the function which showed warnings before shows them again. *)
Theorem C78_after : forall cat msg file f w n l o, tame f ->
  let s := St (Other n) l o in
  others (fst (run (Check cat msg file f (fun r => Emit w (Done r))) s)) = o ++ [(n, w)].
Proof.
  intros cat msg file f w n l o T s.
  assert (K : known s) by exact I.
  pose proof (C78_private cat msg file f s T K) as (P & _). unfold failUnlessWarns in P.
  rewrite run_check in P |- *. cbn in P |- *. now rewrite P.
Qed.
Print Assumptions C78_after.

(** a function which emits a warning, checks another function, swallows what it
    raises, and emits another warning *)
Definition w1 : warning := Warning 1 2 (lit "a.py").
Definition w2 : warning := Warning 5 2 (lit "b.py").
Definition subject : prog := Emit w1 (Check 2 5 (lit "b.py") (Emit w2 (Done (Err ValueError))) (fun r => Emit w1 (Done (Ok 42%N)))).
Definition start : state := St (Other 0) [] [].

Example C78_nonvacuous :
  tame subject /\ known start /\ expected 2 1 (lit "a.pyc") [w1; w1] /\
  run (failUnlessWarns 2 1 (lit "a.pyc") subject) start = (St (Other 0) [[w1; w1]; [w2]] [], Ok 42%N) /\
  snd (run (failUnlessWarns 2 1 (lit "a.pyc") (Emit w1 (Emit w2 (Done (Ok 0%N))))) start) = Err FAILED /\
  run (failUnlessWarns 2 1 (lit "a.pyc") (Emit w1 (Install (Other 3) (Emit w2 (Done (Err KeyError)))))) start = (St (Other 0) [[w1]] [(3, w2)], Err KeyError).
Proof.
  split; [repeat (constructor; intros)|]. split; [exact I|]. split.
  - split; [exists w1; now left|]. split; [intros w [<-|[<-|[]]]; split; reflexivity|]. intros w [= <-]. now exists (lit "c").
  - repeat split; vm_compute; reflexivity.
Qed.
