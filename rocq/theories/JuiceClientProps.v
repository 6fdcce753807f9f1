(** * C119: asking for another protocol (epsilon/juice.py, ProtocolSwitchCommand)

    [CReach d decode build h s]: [h] is what happened on a connection on which
    switches are asked for, [base h] the calls into the connection itself.
    [build k] is what the factory of the [k]-th call of [do] does in
    [buildProtocol]; [decode k b] tells whether the answer [b] can be
    converted. *)

From Coq Require Import ZArith NArith String List Bool Arith Lia Permutation.
From Verif Require Import Py PyStr PyHex JuiceCodec JuiceProto JuiceClient.
Import ListNotations.
Open Scope nat_scope.

(** once the connection is lost and its requests are settled, every factory
    given to [do] has its protocol connected or was told that it failed *)
Definition C119_full : Prop := forall d decode build h s, CReach d decode build h s -> was_lost (base h) = true -> losing (jst s) = [] ->
  forall k, In k (begun h) -> In (FFailed k) h \/ exists p, In (FConn k p) h.

Definition yes : nat -> dict str str -> bool := fun _ _ => true.
Definition ans := [(lit "_answer", lit "1")].
Definition any : str -> option exn := fun _ => None.

Ltac crun es := eapply (cexecs_sound _ _ _ es); [apply C_init|vm_compute; reflexivity].

(** a factory that cannot build a protocol hears nothing more, though the
    Deferred fails and the connection is closed *)
Theorem C119_told_refuted :
  (exists h s, CReach any yes (fun _ => BRaise) h s /\ was_lost (base h) = true /\ losing (jst s) = [] /\
     begun h = [0] /\ In (FBuild 0) h /\ told_failed h = [] /\ connected h = []) /\ ~ C119_full.
Proof.
  assert (W : exists h s, CReach any yes (fun _ => BRaise) h s /\ was_lost (base h) = true /\ losing (jst s) = [] /\
     begun h = [0] /\ In (FBuild 0) h /\ told_failed h = [] /\ connected h = []).
  { eexists _, _. split; [crun [CDo (lit "switch") []; CE (ERecv ans); CE ELost; CInner]|]. repeat split; vm_compute; tauto. }
  split; [exact W|]. intros F. destruct W as (h & s & R & L & Lo & B & _ & Tf & Co).
  destruct (F _ _ _ h s R L Lo 0) as [X|(p & X)]; [rewrite B; now left| |].
  - assert (In 0 (told_failed h)) as Y by (unfold told_failed; apply in_flat_map; eexists; split; [exact X|now left]). rewrite Tf in Y. destruct Y.
  - assert (In (0, p) (connected h)) as Y by (unfold connected; apply in_flat_map; eexists; split; [exact X|now left]). rewrite Co in Y. destruct Y.
Qed.
Print Assumptions C119_told_refuted.

(** A factory is asked for a protocol or told of the failure, never both and
    never twice, and only for a [do] that returned. *)
Theorem C119_once : forall d decode build h s, CReach d decode build h s -> NoDup (told h) /\ incl (told h) (begun h).
Proof. exact told_once. Qed.
Print Assumptions C119_once.

(** When its request has fired, one of the two has happened ... *)
Theorem C119_fired : forall d decode build h s k r, CReach d decode build h s -> In (CBegun k (Some r)) h ->
  (In k (told h) <-> In r (fired (outs_of (base h)))).
Proof. intros d decode build h s k r R B. split; [exact (told_fired d decode build h s k r R B)|exact (told_when_fired d decode build h s k r R B)]. Qed.
Print Assumptions C119_fired.

(** ... and so it has for every one when the connection is lost and no error
    answer came without its code or description. *)
Theorem C119_told_partial : forall d decode build h s, CReach d decode build h s -> was_lost (base h) = true -> losing (jst s) = [] ->
  forgot (outs_of (base h)) = [] -> Permutation (begun h) (told h).
Proof. exact told_settled. Qed.
Print Assumptions C119_told_partial.

(** What follows immediately: after a failure the connection is closed; the
    protocol that was built is connected, or, if there is none or the
    connection has an inner protocol already, the connection is closed. *)
Theorem C119_next : forall d decode build h s a x b, CReach d decode build h s -> h = a ++ x :: b ->
  match x with
  | FFailed k => exists t, b = CDie :: t
  | FBuild k =>
      (exists t, b = CDie :: t) \/
      (exists p t, build k = BOk p /\ b = CB (En (ESwitch p) [OInner p] None) :: FConn k p :: t) \/
      (exists p t, build k = BOk p /\ b = CB (En (ESwitch p) [] (Some AssertionError)) :: CDie :: t)
  | _ => True
  end.
Proof. intros d decode build h s a x b R E. exact (creach_orderly d decode build h s R a x b E). Qed.
Print Assumptions C119_next.

(** A protocol is asked for only when the answer to the request arrives ... *)
Theorem C119_only_answer : forall d decode build h s e s' o k, CReach d decode build h s -> cstep d decode build s e = Some (s', o) -> In (FBuild k) o ->
  exists r t b, In (CBegun k (Some r)) h /\ e = CE (ERecv b) /\ dget b (lit "_answer") = Some t /\ JuiceProto.open (base h) r t /\ decode k b = true.
Proof. exact build_why. Qed.
Print Assumptions C119_only_answer.

(** ... and then always; if there is no inner protocol yet, what the factory
    builds is connected. *)
Theorem C119_answer : forall d decode build h s k r t b, CReach d decode build h s -> In (CBegun k (Some r)) h ->
  JuiceProto.open (base h) r t -> was_lost (base h) = false ->
  dget b (lit "_answer") = Some t -> din b (lit "_command") = false -> decode k b = true ->
  exists s' o, cstep d decode build s (CE (ERecv b)) = Some (s', o) /\ In (FBuild k) o /\
    forall p, build k = BOk p -> inners (outs_of (base h)) = [] -> In (FConn k p) o.
Proof. exact answer_builds. Qed.
Print Assumptions C119_answer.

(** An error answer, a lost connection or an answer that cannot be read is
    told to the factory. *)
Theorem C119_failure : forall d decode build h s k r e s' o f, CReach d decode build h s -> In (CBegun k (Some r)) h ->
  cstep d decode build s (CE e) = Some (s', o) -> ~ In r (fired (outs_of (base h))) ->
  In (OFire r f) (outs_of (base o)) -> (forall b, f = Answered b -> decode k b = false) -> In (FFailed k) o.
Proof. exact else_fails. Qed.
Print Assumptions C119_failure.

(** From the moment [do] returns no packet is written or put aside. *)
Theorem C119_silent : forall d decode build h s e s' o, CReach d decode build h s -> begun h <> [] -> cstep d decode build s e = Some (s', o) ->
  accepted (outs_of (base o)) = [] /\ written (outs_of (base o)) = [].
Proof. exact silent. Qed.
Print Assumptions C119_silent.

(** The inner protocol and its factory hear of the loss of the connection, at
    most once; and no other factory does. *)
Theorem C119_lost : forall d decode build h s k p, CReach d decode build h s -> In (FConn k p) h ->
  forall s' o, cstep d decode build s CInner = Some (s', o) -> o = [PLost p; FLost k].
Proof. exact lost_told. Qed.
Print Assumptions C119_lost.

Theorem C119_lost_once : forall d decode build h s, CReach d decode build h s -> length (inner_lost h) <= 1 /\ length (told_lost h) <= 1 /\
  forall k, In (FLost k) h -> exists p, In (FConn k p) h /\ In (PLost p) h.
Proof. exact lost_once. Qed.
Print Assumptions C119_lost_once.

(** the calls into the connection are a history of it: all that is proved of
    those (C45-C53) holds *)
Theorem C119_connection : forall d decode build h s, CReach d decode build h s -> Reach d (base h) (jst s).
Proof. intros d decode build h s R. exact (c_base _ _ _ (creach_inv _ _ _ _ _ R)). Qed.
Print Assumptions C119_connection.

(** ** The hypotheses can be met *)

(** a request is on its way; a switch is asked for and answered; the old
    request is failed when the connection ends; a second [do] raises, a third,
    after the loss, fails at once *)
Example C119_nonvacuous : exists h s, CReach any yes (fun k => BOk (N.of_nat k + 7)) h s /\
  begun h = [0; 2] /\ told h = [0; 2] /\ connected h = [(0, 7%N)] /\ inner_lost h = [7%N] /\ told_lost h = [0] /\ told_failed h = [2] /\
  fired (outs_of (base h)) = [1; 0; 2] /\ was_lost (base h) = true /\ losing (jst s) = [] /\ forgot (outs_of (base h)) = [].
Proof.
  eexists _, _. split.
  - crun [CE (ESend (lit "sum") KPlain [] true); CDo (lit "switch") []; CE (ERecv [(lit "_answer", lit "2")]); CDo (lit "switch") [];
          CE ELost; CE EFailNext; CE EFailNext; CInner; CDo (lit "switch") []].
  - repeat split; vm_compute; reflexivity.
Qed.
