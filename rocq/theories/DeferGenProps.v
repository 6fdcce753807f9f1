(** * Properties of deferredGenerator with the hotfix: C77 *)

From Coq Require Import NArith List Bool Arith Lia.
From Verif Require Import Py DeferGen.
Import ListNotations.

(** A generator that is neither running nor waiting, whose call has returned a
    Deferred: that Deferred was fired exactly once. *)
Definition C77_full : Prop := forall c i d, reachable c -> stack c = [] -> In (Returned i d) (log c) ->
  (forall w, life i (log c) <> Some (Waits w)) -> exists o, fired d (log c) = [o].

(** A generator waits for a Deferred which fires later, and then yields a
    Deferred: the error is not reported to anybody, and the Deferred the caller
    has never fires. *)
Definition lost : list label :=
  [LUser UCall; LUser (UWait (Src 0)); LGen (GYieldWait 0); LRun; LRun; LUser (UFire 0 (Val (Some 7%N))); LRun; LGen GYieldDeferred; LRun; LRun].

Theorem C77_lost_refuted :
  (exists c, exec lost init = Some c /\ stack c = [] /\
    log c = [Acted 0 (GYieldWait 0); Returned 0 (Own 0); Fired (Src 0) (Val (Some 7%N)); Got (Src 0) 0 0 (Val (Some 7%N)); Acted 0 GYieldDeferred; Fired (Bad 0) (Failed TypeError)]) /\
  ~ C77_full.
Proof.
  assert (E : match exec lost init with Some c => stack c = [] /\ log c = [Acted 0 (GYieldWait 0); Returned 0 (Own 0); Fired (Src 0) (Val (Some 7%N)); Got (Src 0) 0 0 (Val (Some 7%N)); Acted 0 GYieldDeferred; Fired (Bad 0) (Failed TypeError)] | None => False end) by (vm_compute; split; reflexivity).
  destruct (exec lost init) as [c|] eqn:Ec; [|destruct E]. destruct E as (Es & El). split; [exists c; auto|]. intros F.
  specialize (F c 0 (Own 0) (ex_intro _ lost Ec) Es). rewrite El in F. destruct F as (o & Ho); [cbn; auto|discriminate|discriminate Ho].
Qed.
Print Assumptions C77_lost_refuted.

(** The events of a generator come in order: it runs, waits, and is resumed
    exactly once per wait ([life] is defined); its Deferred has been fired
    exactly when it has ended, once, with what [life] says. *)
Theorem C77_once_partial : forall c i, reachable c ->
  exists p, life i (log c) = Some p /\ fired (Own i) (log c) = match p with Ended o => [o] | _ => [] end.
Proof. intros c i. apply call_life. Qed.
Print Assumptions C77_once_partial.

(** The caller gets that Deferred, or, when the generator yields a Deferred
    before it ever waited for an unfired one, one which has failed with TypeError.
    Missing: a generator which yields a Deferred later. *)
Theorem C77_returned_partial : forall c i d, reachable c -> In (Returned i d) (log c) ->
  d = Own i \/ d = Bad i /\ life i (log c) = Some Dropped /\ fired d (log c) = [Failed TypeError].
Proof.
  intros c i d H Hi. destruct (R_said _ (rets_reach c H) i d Hi) as [->|(-> & Hl)]; [now left|right]. split; [reflexivity|]. split; [exact Hl|]. rewrite (bad_reach c H i), Hl. reflexivity.
Qed.
Print Assumptions C77_returned_partial.

(** Every generator which yields a Deferred is lost so, unless its call had not
    returned: when nothing runs and it waits for nothing, the Deferred which its
    caller has was fired, exactly once, in all other cases and never in this one. *)
Theorem C77_exact_partial : forall c i d, reachable c -> stack c = [] -> i < ncalls c -> In (Returned i d) (log c) -> (forall w, life i (log c) <> Some (Waits w)) ->
  ((exists o, fired d (log c) = [o]) <-> d = Bad i \/ ~ In (Acted i GYieldDeferred) (log c)) /\ (fired d (log c) = [] <-> ~ exists o, fired d (log c) = [o]).
Proof. intros c i d H Hs Hi Hr. exact (fired_exact c i d H Hs Hr Hi). Qed.
Print Assumptions C77_exact_partial.

(** and whatever happens afterwards *)
Theorem C77_never : forall c i, reachable c -> In (Acted i GYieldDeferred) (log c) -> fired (Own i) (log c) = [].
Proof.
  intros c i H Hi. destruct (call_life c i H) as (p & El & Ef). assert (Hn : life i (log c) <> None) by congruence.
  apply (dropped_iff i (log c) Hn) in Hi. rewrite El in Hi. injection Hi as ->. exact Ef.
Qed.
Print Assumptions C77_never.

(** No result is missed: when nothing runs, a generator has ended, or was
    dropped, or waits for a Deferred which has not fired. *)
Theorem C77_resumed : forall c i, reachable c -> stack c = [] -> i < ncalls c ->
  exists p, life i (log c) = Some p /\
    match p with Runs _ => False | Waits w => fired (waits c w) (log c) = [] | Ended o => fired (Own i) (log c) = [o] | Dropped => True end.
Proof.
  intros c i H Hs Hi. destruct (call_life c i H) as (p & El & Ef). exists p. split; [exact El|]. destruct p as [r|w|o|].
  - exact (call_idle c i r H Hs Hi El).
  - exact (call_quiet c i w H Hs El).
  - exact Ef.
  - exact I.
Qed.
Print Assumptions C77_resumed.

(** The generator is resumed with the result which the Deferred it waits for has
    at that moment, and getResult returns or raises the last such result. *)
Theorem C77_results : forall c a e b, reachable c -> log c = a ++ e :: b ->
  match e with
  | Got d i w o => current d a = Some o /\ waits c w = d
  | Read i w r => r = match last_got w a with None => None | Some (Val v) => Some (Ok v) | Some (Failed x) => Some (Err x) end
  | _ => True
  end.
Proof. intros c a e b H E. pose proof (H_log _ (heard_reach c H) a e b E) as X. destruct e; auto. destruct X as (X & _ & Y). auto. Qed.
Print Assumptions C77_results.

(** The specification functions on a small history. *)
Example C77_spec_example :
  let l := [Acted 0 (GYield (Val (Some 3%N))); Acted 0 (GYieldWait 5); Fired (Src 1) (Val (Some 4%N)); Got (Src 1) 0 5 (Val (Some 4%N)); Acted 0 GReturn] in
  life 0 l = Some (Ended None_) /\ life 0 (firstn 2 l) = Some (Waits 5) /\ life 0 (l ++ [Acted 0 GReturn]) = None /\
  life 0 (firstn 4 l ++ [Got (Src 1) 0 5 None_]) = None /\ current (Src 1) (firstn 3 l) = Some (Val (Some 4%N)) /\ current (Src 1) l = Some None_ /\ last_got 5 l = Some (Val (Some 4%N)).
Proof. repeat split. Qed.

(** waits for a fired Deferred and for one fired later with a failure, which it
    catches; yields a value and ends *)
Definition both : list label :=
  [LUser (UFire 0 (Val (Some 7%N))); LRun; LUser UCall; LUser (UWait (Src 0)); LGen (GYieldWait 0); LRun; LRun; LRun; LGen (GGet 0);
   LUser (UWait (Src 1)); LGen (GYieldWait 1); LRun; LRun; LUser (UAdd (Own 0)); LUser (UFire 1 (Failed ValueError)); LRun; LGen (GGet 1); LGen (GYield (Val (Some 9%N))); LGen GReturn;
   LRun; LAnswer None_; LRun; LRun; LRun; LRun].

Example C77_nonvacuous : exists c, exec both init = Some c /\ stack c = [] /\ ncalls c = 1 /\
  log c = [Fired (Src 0) (Val (Some 7%N)); Acted 0 (GYieldWait 0); Got (Src 0) 0 0 (Val (Some 7%N)); Read 0 0 (Some (Ok (Some 7%N)));
           Acted 0 (GYieldWait 1); Returned 0 (Own 0); Fired (Src 1) (Failed ValueError); Got (Src 1) 0 1 (Failed ValueError); Read 0 1 (Some (Err ValueError));
           Acted 0 (GYield (Val (Some 9%N))); Acted 0 GReturn; Fired (Own 0) (Val (Some 9%N)); Told (Own 0) (Val (Some 9%N)); Answered (Own 0) None_].
Proof.
  match goal with |- exists c, _ /\ @?P c => assert (E : match exec both init with Some c => P c | None => False end) by (vm_compute; repeat split; reflexivity) end.
  destruct (exec both init) as [c|] eqn:Ec; [|destruct E]. exists c. auto.
Qed.
