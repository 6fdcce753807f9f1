(** * C118: the loopback connection (epsilon/hotfixes/loopbackasync_reentrancy.py) *)

From Coq Require Import NArith List Bool Arith Lia.
From Verif Require Import Py Loopback.
Import ListNotations.
Open Scope nat_scope.

(** Whatever the two protocols do and in whatever order other code uses the
    transports, each side has received an initial part of what the other side
    wrote: in order, each write once. *)
Theorem C118_in_order : forall rx s o x, Run rx s o -> prefix (received x o) (written (other x) o).
Proof. exact run_prefix. Qed.
Print Assumptions C118_in_order.

(** Writing or dropping the connection calls nobody's [dataReceived] ... *)
Theorem C118_write_calls_nobody : forall rx s o x a s' o', Run rx s o -> step rx s (EApp x a) = Some (s', o') ->
  o' = [match a with Write b => OWrote x b | Lose => OLose x end].
Proof. intros rx s o x a s' o' _. apply app_silent. Qed.
Print Assumptions C118_write_calls_nobody.

(** ... and while [dataReceived] of one side runs, what it writes is only put
    down: the step that delivers makes one call, followed by that side's own
    writes. *)
Theorem C118_not_reentered : forall rx s o s' o', Run rx s o -> step rx s EBody = Some (s', o') ->
  o' = [] \/ o' = [OLost Srv; OLost Cli] \/ exists x c w, o' = ODeliver x c :: w /\ Forall (own x) w.
Proof. exact body_shape. Qed.
Print Assumptions C118_not_reentered.

(** No Deferred is called back twice, and the reactor is never asked for a
    second call while it owes one. *)
Theorem C118_fires_once : forall rx s o, Run rx s o -> raised s = false /\ turns s <= 1.
Proof. exact run_once. Qed.
Print Assumptions C118_fires_once.

(** Until the connection is gone, either the reactor or the loop has something
    to do, or everything written has been received. *)
Theorem C118_nothing_stuck : forall rx s o, Run rx s o -> at_ s <> Gone ->
  (exists e s' o', (e = ETurn \/ e = EBody) /\ step rx s e = Some (s', o')) \/
  forall x, received x o = written (other x) o.
Proof. exact run_live. Qed.
Print Assumptions C118_nothing_stuck.

(** [connectionLost] is called once on each side, the server first; nothing is
    delivered after; someone asked for it; and what the first to call
    [loseConnection] wrote before that has all been received. *)
Theorem C118_lost : forall rx s o y, Run rx s o -> In (OLost y) o ->
  exists a b, o = a ++ [OLost Srv; OLost Cli] ++ b /\ (forall z, ~ In (OLost z) (a ++ b)) /\ (forall z c, ~ In (ODeliver z c) b) /\
    exists x p, first_lose x p a /\ prefix (written x p) (received (other x) a).
Proof. exact run_lost. Qed.
Print Assumptions C118_lost.

(** ** The hypotheses can be met *)

(** the server answers everything twice; the client drops the connection when
    it has two messages *)
Definition chat (x : side) (got : list data) : list action :=
  match x with
  | Srv => [Write [10%N]; Write [11%N]]
  | Cli => if List.length got =? 2 then [Write [9%N]; Lose] else []
  end.

Fixpoint run_all (es : list event) (s : st) (o : list out) : option (st * list out) :=
  match es with
  | [] => Some (s, o)
  | e :: t => match step chat s e with Some (s', o') => run_all t s' (o ++ o') | None => None end
  end.

Lemma run_all_run es : forall s o s' o', Run chat s o -> run_all es s o = Some (s', o') -> Run chat s' o'.
Proof.
  induction es as [|e es IH]; intros s o s' o' R E; cbn in E.
  - injection E as <- <-. exact R.
  - destruct (step chat s e) as [[s1 o1]|] eqn:S1; [|discriminate]. exact (IH _ _ _ _ (R_step chat _ _ _ _ _ R S1) E).
Qed.

(** the first write only wakes the loop; then a whole conversation, at the end
    of which the client, who dropped the connection, does not get the last answer *)
Example C118_nonvacuous : exists s o, Run chat s o /\ at_ s = Gone /\
  received Srv o = [[1%N]; [9%N]] /\ received Cli o = [[10%N]; [11%N]] /\ written Srv o = [[10%N]; [11%N]; [10%N]; [11%N]] /\ In (OLost Cli) o /\ fired s = [0].
Proof.
  destruct (run_all ([ETurn; EBody; EBody; EApp Cli (Write [1%N]); ETurn] ++ repeat EBody 10) init []) as [[s o]|] eqn:E; [|vm_compute in E; discriminate].
  exists s, o. split; [exact (run_all_run _ _ _ _ _ (R_init chat) E)|]. vm_compute in E. injection E as <- <-. repeat split. cbn. tauto.
Qed.
