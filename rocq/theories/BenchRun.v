(** * [bench] of epsilon/scripts/benchmark.py: running a benchmark in the reactor

    The Deferred and the reactor are Twisted's and are modelled as far as
    [bench] uses them.  What is logged is recorded; logging does not fail. *)

From Coq Require Import NArith String List Bool.
From Verif Require Import Py.
Import ListNotations.

(** a Deferred's result *)
Inductive result := Good | Bad (e : exn).

(** what [function()] of benchmark.py:469 comes to: it raises, or returns a
    Deferred that has already a result, gets one while the reactor runs, or
    never *)
Inductive fate := Raises (e : exn) | Already (r : result) | Later (r : result) | Never.

(** what becomes of the call of [bench] *)
Inductive outcome := Returned | RaisedOut (e : exn) | Hangs.

Section Bench.
(** benchmark.py:470-499, [later]: what it makes of the result; it raises (a
    failure) if the reports do *)
Variable report : result -> result.

(** benchmark.py:510, [d.addErrback(log.err)]: a failure is logged and done with *)
Definition log_err (r : result) : result * list exn :=
  match r with Good => (Good, []) | Bad e => (Good, [e]) end.

(** benchmark.py:511 [reactor.stop()]: ReactorNotRunning if it is not *)
Definition stop (running : bool) (r : result) : result * bool :=
  match r with
  | Good => if running then (Good, true) else (Bad (OtherExn 7), false)
  | Bad e => (Bad e, false)
  end.

(** the callbacks, with the reactor running or not; whether it was stopped *)
Definition callbacks (running : bool) (r : result) : bool * list exn :=
  let '(r1, logged) := log_err (report r) in
  let '(_, stopped) := stop running r1 in (stopped, logged).

(** benchmark.py:505-513 [bench].  [reactor.run()] returns when the reactor has
    been stopped. *)
Definition bench (f : fate) : outcome * list exn :=
  match f with
  | Raises e => (RaisedOut e, [])
  | Already r => let '(stopped, logged) := callbacks false r in (if stopped then Returned else Hangs, logged)
  | Later r => let '(stopped, logged) := callbacks true r in (if stopped then Returned else Hangs, logged)
  | Never => (Hangs, [])
  end.

(** ** Specification *)

(** the failures to be logged *)
Definition failure_of (r : result) : list exn := match r with Good => [] | Bad e => [e] end.

(** ** Proofs *)

Lemma bench_later r : bench (Later r) = (Returned, failure_of (report r)).
Proof. unfold bench, callbacks. destruct (report r); reflexivity. Qed.

Lemma bench_exact f : 
  (fst (bench f) = Returned <-> exists r, f = Later r) /\
  (forall e, fst (bench f) = RaisedOut e <-> f = Raises e) /\
  (fst (bench f) = Hangs <-> f = Never \/ exists r, f = Already r).
Proof.
  destruct f as [e|r|r|].
  - cbn. split; [|split]; [split; [discriminate|intros (r & X); discriminate]| |split; [discriminate|intros [X|(r & X)]; discriminate]].
    intros e'. split; intros X; injection X as ->; reflexivity.
  - assert (E : fst (bench (Already r)) = Hangs) by (unfold bench, callbacks; destruct (report r); reflexivity). rewrite E.
    split; [split; [discriminate|intros (x & X); discriminate]|]. split; [intros e; split; discriminate|]. split; eauto.
  - rewrite bench_later. cbn [fst]. split; [split; eauto|]. split; [intros e; split; discriminate|]. split; [discriminate|intros [X|(x & X)]; discriminate].
  - cbn. split; [split; [discriminate|intros (r & X); discriminate]|]. split; [intros e; split; discriminate|]. split; auto.
Qed.
End Bench.
