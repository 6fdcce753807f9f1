(** * Properties C177 to C179: the simulated connection of epsilon/test/iosim.py

    [P] is the type of the protocols' states, [ps] what they do, [s0] their
    states at first.  [Reach ps s0 clean w]: after any code of the two ends and
    any pumping the world is [w]; [clean] if no pump raised. *)

From Coq Require Import NArith String List Bool Arith.
From Verif Require Import Py IoSim.
Import ListNotations.
Open Scope nat_scope.

(** ** C177 *)

(** The full claim: what an end has written is what the other got, and what is
    still to be pumped. *)
Definition C177_full : Prop := forall (P : Type) (ps : protos P) s0 clean w x,
  Reach ps s0 clean w -> got (peer x) (log w) ++ out (tr w x) = wrote x (log w).

Definition say (b : data) (n : nat) : prog nat := Do (Write b) (fun _ => Ret n).
Definition silent : protos nat := Protos (fun _ p _ => Ret p) (fun _ p => Ret p) (fun _ p => Ret p).
Definition picky : protos nat :=
  Protos (fun x p _ => match x with Srv => Raise p ValueError | Cli => Ret p end) (fun _ p => Ret p) (fun _ p => Ret p).

(** both ends write *)
Definition both_said : world nat := fst (run Cli (say [1%N] 0) (fst (run Srv (say [2%N] 0) (start (fun _ => 0))))).
Lemma both_said_reach ps : Reach ps (fun _ => 0) true both_said.
Proof. exact (R_code ps (fun _ => 0) true _ Cli (say [1%N]) (R_code ps (fun _ => 0) true _ Srv (say [2%N]) (R_start _ _))). Qed.

(** False: if the server raises an exception, what it had written is lost; in
    debug mode (Python 3) everything is. *)
Theorem C177_lost_refuted :
  snd (pump picky false both_said) = Err ValueError /\
  (let w := fst (pump picky false both_said) in wrote Srv (log w) = [2%N] /\ got Cli (log w) = [] /\ out (tr w Srv) = []) /\
  snd (pump silent true both_said) = Err TypeError /\
  (let w := fst (pump silent true both_said) in wrote Cli (log w) = [1%N] /\ got Srv (log w) = [] /\ out (tr w Cli) = []) /\
  ~ C177_full.
Proof.
  split; [reflexivity|]. split; [repeat split|]. split; [reflexivity|]. split; [repeat split|]. intros F.
  specialize (F nat picky (fun _ => 0) false (fst (pump picky false both_said)) Srv
    (R_pump _ _ _ _ false _ _ (both_said_reach picky) (surjective_pairing _))). vm_compute in F. discriminate.
Qed.
Print Assumptions C177_lost_refuted.

(** What holds: it is so while no pump raises. *)
Theorem C177_carried_partial : forall (P : Type) (ps : protos P) s0 w x,
  Reach ps s0 true w -> got (peer x) (log w) ++ out (tr w x) = wrote x (log w).
Proof. intros P ps s0 w x H. exact (reach_carried ps s0 true w H x). Qed.
Print Assumptions C177_carried_partial.

(** Otherwise parts are missing, but nothing is repeated, reordered or
    invented. *)
Theorem C177_order_partial : forall (P : Type) (ps : protos P) s0 clean w x,
  Reach ps s0 clean w -> sub (got (peer x) (log w) ++ out (tr w x)) (wrote x (log w)).
Proof. intros P ps s0 clean w x H. exact (rel_weak _ _ _ (reach_carried ps s0 clean w H x)). Qed.
Print Assumptions C177_order_partial.

Example C177_nonvacuous : Reach silent (fun _ => 0) true (fst (pump silent false both_said)) /\
  (let w := fst (pump silent false both_said) in got Cli (log w) = [2%N] /\ got Srv (log w) = [1%N]).
Proof.
  split; [|split; reflexivity].
  exact (R_pump _ _ _ _ false _ _ (both_said_reach silent) (surjective_pairing _)).
Qed.

(** ** C178 *)

(** The full claim: if the traffic ends by itself, flush returns, and nothing
    is left to be pumped. *)
Definition C178_full : Prop := forall (P : Type) (ps : protos P) s0 clean w w' r debug,
  Reach ps s0 clean w -> flush ps debug w = (w', r) ->
  (exists n w1 w2, moves ps debug n w w1 /\ pump ps debug w1 = (w2, Ok false)) ->
  (exists b, r = Ok b) /\ forall x, out (tr w' x) = [].

(** a server with a streaming producer, which has a byte to write *)
Definition producing : protos nat :=
  Protos (fun _ p _ => Ret p) (fun _ p => Ret p)
         (fun x p => match x, p with Srv, S n => Do (Write [7%N]) (fun _ => Ret n) | _, _ => Ret p end).
(** the two ends answer each other until one is tired *)
Definition chatty : protos N :=
  Protos (fun _ p d => match p with N0 => Ret N0 | _ => Do (Write d) (fun _ => Ret (N.pred p)) end) (fun _ p => Ret p) (fun _ p => Ret p).
Definition chat : world N := fst (run Cli (Do (Write [1%N]) (fun _ => Ret 499%N)) (start (fun _ => 500%N))).

(** False: what a producer writes when it is resumed stays there; and a
    conversation of a thousand messages, though it has ended, is "Too long". *)
Theorem C178_flush_refuted :
  (let w := fst (flush producing false (start (fun _ => 1))) in snd (flush producing false (start (fun _ => 1))) = Ok false /\ out (tr w Srv) = [7%N]) /\
  snd (flush chatty false chat) = Err AssertionError /\
  snd (pump chatty false (fst (flush chatty false chat))) = Ok false /\
  ~ C178_full.
Proof.
  split; [vm_compute; split; reflexivity|]. split; [vm_compute; reflexivity|]. split; [vm_compute; reflexivity|]. intros F.
  specialize (F nat producing (fun _ => 1) true (start (fun _ => 1)) _ _ false (R_start _ _) (surjective_pairing _)).
  destruct F as [_ F].
  - exists 0, (start (fun _ => 1)), (fst (pump producing false (start (fun _ => 1)))). split; [constructor|reflexivity].
  - specialize (F Srv). vm_compute in F. discriminate.
Qed.
Print Assumptions C178_flush_refuted.

(** What holds: flush pumps until a round moves nothing, a round raises or a
    thousand rounds have moved something. *)
Theorem C178_rounds_partial : forall (P : Type) (ps : protos P) debug w,
  (exists k w1 w2, k < N.to_nat 1000 /\ moves ps debug k w w1 /\ pump ps debug w1 = (w2, Ok false) /\ flush ps debug w = (w2, Ok (0 <? k))) \/
  (exists k w1 w2 e, k < N.to_nat 1000 /\ moves ps debug k w w1 /\ pump ps debug w1 = (w2, Err e) /\ flush ps debug w = (w2, Err e)) \/
  (exists w1, moves ps debug (N.to_nat 1000) w w1 /\ flush ps debug w = (w1, Err AssertionError)).
Proof. intros P. exact flush_exact. Qed.
Print Assumptions C178_rounds_partial.

(** If it returns: it tells whether anything was delivered or anyone told of
    the end; without producers nothing is left; and if an end has closed the
    connection both have been told. *)
Theorem C178_returns_partial : forall (P : Type) (ps : protos P) s0 debug clean w w' b,
  Reach ps s0 clean w -> flush ps debug w = (w', Ok b) ->
  Reach ps s0 clean w' /\ (exists l, log w' = log w ++ l /\ b = existsb moved l) /\
  (forall x, ing (tr w' x) = true -> forall y, told y (log w') = 1) /\
  ((forall x, ing (tr w' x) = false) -> forall y, told y (log w') = 0) /\
  (no_producers ps -> forall x, out (tr w' x) = []).
Proof. intros P. exact flush_returns. Qed.
Print Assumptions C178_returns_partial.

Definition closed : world nat := fst (run Cli (Do (Write [1%N]) (fun _ => Do Lose (fun _ => Ret 0))) (start (fun _ => 0))).
Example C178_nonvacuous : snd (flush silent false closed) = Ok true /\
  log (fst (flush silent false closed)) = [EWrote Cli [1%N]; EGot Srv [1%N]; ELost Srv; ELost Cli].
Proof. split; vm_compute; reflexivity. Qed.

(** ** C179 *)

(** The full claim: an end that has been told that the connection is lost gets
    nothing after that. *)
Definition C179_full : Prop := forall (P : Type) (ps : protos P) s0 clean w x l1 l2,
  Reach ps s0 clean w -> log w = l1 ++ ELost x :: l2 -> got x l2 = [].

(** False: the end that closed the connection is told last, and what it writes
    meanwhile arrives. *)
Definition late : list (world nat * res bool) :=
  let w0 := fst (run Cli (Do Lose (fun _ => Ret 0)) (start (fun _ => 0))) in
  let r1 := pump silent false w0 in
  let r2 := pump silent false (fst (run Cli (say [9%N] 0) (fst r1))) in [r1; r2].
Theorem C179_late_refuted :
  map snd late = [Ok true; Ok true] /\
  map (fun r => log (fst r)) late = [[ELost Srv]; [ELost Srv; EWrote Cli [9%N]; EGot Srv [9%N]]] /\ ~ C179_full.
Proof.
  split; [reflexivity|]. split; [reflexivity|]. intros F.
  set (w0 := fst (run Cli (Do Lose (fun _ => Ret 0)) (start (fun _ => 0)))).
  assert (R0 : Reach silent (fun _ => 0) true w0) by exact (R_code silent (fun _ => 0) true _ Cli (fun _ => Do Lose (fun _ => Ret 0)) (R_start _ _)).
  pose proof (R_pump _ _ _ _ false _ _ R0 (surjective_pairing _)) as R1.
  pose proof (R_code _ _ _ _ Cli (say [9%N]) R1) as R2.
  pose proof (R_pump _ _ _ _ false _ _ R2 (surjective_pairing _)) as R3.
  specialize (F nat silent (fun _ => 0) _ _ Srv [] [EWrote Cli [9%N]; EGot Srv [9%N]] R3 eq_refl). discriminate.
Qed.
Print Assumptions C179_late_refuted.

(** What holds: nobody is told twice; ... *)
Theorem C179_once_partial : forall (P : Type) (ps : protos P) s0 clean w x, Reach ps s0 clean w -> told x (log w) <= 1.
Proof. intros P. exact told_once. Qed.
Print Assumptions C179_once_partial.

(** ... without producers, and if no pump raised, whoever is told has got all
    that was written before, and after it gets only what is written after. *)
Theorem C179_after_partial : forall (P : Type) (ps : protos P) s0 w l1 x l2, no_producers ps -> Reach ps s0 true w -> log w = l1 ++ ELost x :: l2 ->
  (forall y, got (peer y) l1 = wrote y l1) /\ got x l2 ++ out (tr w (peer x)) = wrote (peer x) l2.
Proof. intros P. exact after_end. Qed.
Print Assumptions C179_after_partial.

Example C179_nonvacuous : no_producers silent /\ Reach silent (fun _ => 0) true (fst (flush silent false closed)) /\
  log (fst (flush silent false closed)) = [EWrote Cli [1%N]; EGot Srv [1%N]] ++ ELost Srv :: [ELost Cli].
Proof.
  split; [intros x p; reflexivity|]. split; [|vm_compute; reflexivity].
  assert (R : Reach silent (fun _ => 0) true closed) by exact (R_code silent (fun _ => 0) true _ Cli (fun _ => Do (Write [1%N]) (fun _ => Do Lose (fun _ => Ret 0))) (R_start _ _)).
  assert (Hr : snd (flush silent false closed) = Ok true) by (vm_compute; reflexivity).
  destruct (flush silent false closed) as [w r] eqn:E. cbn [fst snd] in *. subst r. exact (proj1 (flush_returns silent (fun _ => 0) false true closed w true R E)).
Qed.
