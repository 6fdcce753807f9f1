(** * C161: calls a server has in flight while its peer logs in.  Theorems only;
    model, specification and proofs in AuthCalls.v. *)

From Coq Require Import List Bool Arith Lia Permutation.
From Verif Require Import AuthCalls.
Import ListNotations.

(** The full claim: every call fires with its own answer, answers never break the
    connection, and once the connection is lost every call has fired or failed. *)
Definition C161_full : Prop :=
  forall l,
    (forall c c', In (Fired c c') (snd (run conn0 l)) -> c' = c)
    /\ ~ In Unknown (snd (run conn0 l))
    /\ forall c, c < ncalls (fst (run conn0 (l ++ [Lost]))) -> In c (settled (snd (run conn0 (l ++ [Lost])))).

(** False, in all three ways: a call of the avatar fires with the answer to a call
    made before the login; such an answer breaks the connection; a call made before
    the login never fires, not even when the connection is lost. *)
Theorem C161_calls_refuted :
  (exists l, In (Fired 1 0) (snd (run conn0 l)))
  /\ (exists l, In Unknown (snd (run conn0 l)))
  /\ (exists l, 0 < ncalls (fst (run conn0 (l ++ [Lost]))) /\ settled (snd (run conn0 (l ++ [Lost]))) = []).
Proof.
  split; [|split].
  - exists [Call 0; Login; Call 1; Answer 0]. now left.
  - exists [Call 0; Login; Answer 0]. now left.
  - exists [Call 0; Login]. split; [cbn; lia|reflexivity].
Qed.
Print Assumptions C161_calls_refuted.

(** Exactly which calls a login strands: those still open when it succeeds; from
    then on nothing settles them, whatever happens. *)
Theorem C161_stranded_partial :
  forall l1 l2 c, c < ncalls (fst (run conn0 l1)) ->
    (In c (settled (snd (run conn0 (l1 ++ Login :: l2)))) <-> In c (settled (snd (run conn0 l1)))).
Proof. exact login_strands. Qed.
Print Assumptions C161_stranded_partial.

(** In every history no Deferred fires twice. *)
Theorem C161_once_partial :
  forall l, NoDup (settled (snd (run conn0 l))) /\ forall c, In c (settled (snd (run conn0 l))) -> c < ncalls (fst (run conn0 l)).
Proof. exact settled_once. Qed.
Print Assumptions C161_once_partial.

(** If logins succeed only while no call is open and only the current receiver of
    boxes calls, every answer reaches its own call and none breaks the connection. *)
Theorem C161_answers_partial :
  forall l, quiet 0 0 l ->
    forall x, In x (snd (run conn0 l)) -> x <> Unknown /\ forall c c', x = Fired c c' -> c' = c.
Proof. exact quiet_answers. Qed.
Print Assumptions C161_answers_partial.

(** ... and when the connection is lost every call has fired or failed, once. *)
Theorem C161_all_partial :
  forall l, quiet 0 0 l -> ~ In Lost l ->
    Permutation (settled (snd (run conn0 (l ++ [Lost])))) (seq 0 (calls l)).
Proof. exact quiet_all. Qed.
Print Assumptions C161_all_partial.

(** The hypotheses are met: calls of the receiver and then of an avatar, answered out
    of order, one of them never. *)
Example C161_nonvacuous :
  let l := [Call 0; Call 0; Answer 1; Answer 0; Login; Call 1; Call 1; Answer 1] in
  quiet 0 0 l /\ ~ In Lost l
  /\ snd (run conn0 l) = [Fired 1 1; Fired 0 0; Fired 3 3]
  /\ snd (run conn0 (l ++ [Lost])) = [Fired 1 1; Fired 0 0; Fired 3 3; Failed 2].
Proof. cbv zeta. split; [cbn; repeat split|]. split; [cbn; intuition discriminate|]. split; reflexivity. Qed.
