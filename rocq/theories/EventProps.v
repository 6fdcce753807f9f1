(** * Properties of PendingEvent (C31) and react (C33) *)

From Coq Require Import List Bool Arith.
From Verif Require Import Py Pending React.
Import ListNotations.

(** ** C31 *)

(** Each Deferred fires at most once, over all histories and re-entrant
    behaviours. *)
Theorem C31_at_most_once : forall l s, Pending.Reach l s -> NoDup (Pending.fired l).
Proof. exact @Pending.fired_once. Qed.
Print Assumptions C31_at_most_once.

(** The call which fires it, and the result, are those of the first firing
    call after its creation. *)
Theorem C31_first_result : forall l s d c r, Pending.Reach l s ->
  In (Pending.EFire d c r) l -> first_call d l = Some (c, r).
Proof. exact @Pending.fired_by_first_call. Qed.
Print Assumptions C31_first_result.

(** Whenever no firing call is in progress, exactly the Deferreds followed by a
    firing call have fired. *)
Theorem C31_fired_when_called : forall l s d c r, Pending.Reach l s -> stack s = [] ->
  (In (Pending.EFire d c r) l <-> first_call d l = Some (c, r)).
Proof. exact @Pending.fired_iff_called. Qed.
Print Assumptions C31_fired_when_called.

(** And a firing call in progress, however deep, completes by firing alone
    once the callbacks do no more than return. *)
Theorem C31_all_fire : forall l s, Pending.Reach l s ->
  exists l' s', Pending.Reach (l' ++ l) s' /\ stack s' = []
    /\ (forall e, In e l' -> exists d c r, e = Pending.EFire d c r)
    /\ forall d c r, first_call d l = Some (c, r) -> In (Pending.EFire d c r) (l' ++ l).
Proof. exact @Pending.all_fire. Qed.
Print Assumptions C31_all_fire.

(** The Deferreds fired by one call fire in the order of their numbers, *)
Theorem C31_in_order : forall l s l1 l2 d1 d2 c r1 r2, Pending.Reach l s ->
  l = l1 ++ Pending.EFire d1 c r1 :: l2 -> In (Pending.EFire d2 c r2) l2 -> d2 < d1.
Proof. exact @Pending.fired_in_order. Qed.
Print Assumptions C31_in_order.

(** which is the order of their creation. *)
Theorem C31_numbered_in_order : forall l s l1 l2 d1 d2, Pending.Reach l s ->
  l = l1 ++ EWait d1 :: l2 -> In (EWait d2) l2 -> d2 < d1.
Proof. exact @Pending.created_in_order. Qed.
Print Assumptions C31_numbered_in_order.

(** A re-entrant history: the callback of Deferred 0 asks for Deferred 2 and
    fires the event, before Deferred 1 is fired by the outer call. *)
Example C31_nonvacuous :
  let r := RCallback 7 in let e := RErrback 8 in
  exists s, Pending.Reach
    [Pending.EFire 1 0 r; Pending.EFire 2 1 e; ECall 1 e; EWait 2; Pending.EFire 0 0 r; ECall 0 r; EWait 1; EWait 0] s
    /\ stack s = [].
Proof.
  cbv zeta. eexists. split.
  - eapply Pending.execs_sound with (ms := [MWait; MWait; MFire (RCallback 7); MNext; MWait;
      MFire (RErrback 8); MNext; MPop; MPop; MPop; MNext; MPop; MPop]);
      [apply Pending.R_init|]. vm_compute. reflexivity.
  - reflexivity.
Qed.

(** ** C33 *)

(** The full claim includes that react never stops a reactor which is already
    being stopped: its [reactor.stop] is always accepted. *)
Definition C33_full : Prop := forall l s l1 r l2, React.Reach l s ->
  l = l1 ++ EReactStop r :: l2 -> r = Ok tt.

(** False: between another [reactor.stop] and the shutdown event that follows,
    main's Deferred may fire, and react stops the reactor a second time, which
    raises ReactorNotRunning. *)
Theorem C33_stopped_twice_refuted :
  (exists s, React.Reach
     [EReactStop (Err RuntimeError); React.EFire; EOtherStop (Ok tt); ERun] s)
  /\ ~ C33_full.
Proof.
  assert (H : exists s, React.Reach
     [EReactStop (Err RuntimeError); React.EFire; EOtherStop (Ok tt); ERun] s).
  { eexists. eapply React.execs_sound with (os := [Run; OtherStop; Fire]);
      [apply React.R_init|]. vm_compute. reflexivity. }
  split; [exact H|]. intros F. destruct H as [s H].
  discriminate (F _ _ [] _ _ H eq_refl).
Qed.
Print Assumptions C33_stopped_twice_refuted.

(** What holds.  Once main's Deferred has fired (before or after the start,
    with a result or an error) and the reactor has been started, react has
    stopped it exactly once, unless the Deferred fired after the shutdown
    event, when it does not stop it at all. *)
Theorem C33_stop_count_partial : forall l s, React.Reach l s ->
  React.fired s = true -> ran s = true -> queued s = false ->
  react_stops l = (if fired_after_shutdown l then 0 else 1).
Proof. exact @React.stop_count. Qed.
Print Assumptions C33_stop_count_partial.

(** Every stop by react comes after the firing and the start, before any
    shutdown event, and is the only one; it is refused only if other code has
    stopped the reactor. *)
Theorem C33_stop_justified_partial : forall l s l1 r l2, React.Reach l s ->
  l = l1 ++ EReactStop r :: l2 ->
  happened is_fire l2 = true /\ happened is_run l2 = true /\ happened is_shutdown l2 = false
  /\ react_stops l2 = 0 /\ (forall e, r = Err e -> happened is_other_stop l2 = true).
Proof. exact @React.stop_justified. Qed.
Print Assumptions C33_stop_justified_partial.

(** If no other code stops the reactor, react's stop is accepted, and the
    reactor shuts down only after main's Deferred fired. *)
Theorem C33_stop_accepted_partial : forall l s l1 r l2, React.Reach l s ->
  l = l1 ++ EReactStop r :: l2 -> happened is_other_stop l = false -> r = Ok tt.
Proof. exact @React.stop_accepted. Qed.
Print Assumptions C33_stop_accepted_partial.

Theorem C33_not_before_partial : forall l s l1 l2, React.Reach l s ->
  l = l1 ++ EShutdown :: l2 -> happened is_other_stop l = false -> happened is_fire l2 = true.
Proof. exact @React.shutdown_needs_fire. Qed.
Print Assumptions C33_not_before_partial.

(** With main finished and the reactor running, the shutdown event is at most
    the pending startup trigger and one turn of the loop away. *)
Theorem C33_shutdown_follows_partial : forall l s, React.Reach l s ->
  React.fired s = true -> started s = true -> happened is_shutdown l = false ->
  exists s1 ev1 s2, (s1 = s /\ ev1 = [] \/ (allowed s Startup = true /\ React.step s Startup = (s1, ev1)))
    /\ allowed s1 Turn = true /\ React.step s1 Turn = (s2, [EShutdown]).
Proof. exact @React.shutdown_follows. Qed.
Print Assumptions C33_shutdown_follows_partial.

(** main's Deferred has fired before the reactor starts *)
Example C33_nonvacuous : exists s,
  React.Reach [EShutdown; EReactStop (Ok tt); ERun; React.EFire] s
  /\ React.fired s = true /\ ran s = true /\ queued s = false.
Proof.
  eexists. split.
  - eapply React.execs_sound with (os := [Fire; Run; Startup; Turn]);
      [apply React.R_init|]. vm_compute. reflexivity.
  - repeat split.
Qed.
