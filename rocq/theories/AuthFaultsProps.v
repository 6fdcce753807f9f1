(** * C155: logins whose avatar, portal or logout raises *)

From Coq Require Import NArith String List Bool Arith Lia.
From Verif Require Import Py AmpAuth AuthFaults.
Import ListNotations.
Open Scope nat_scope.

(** C155: the peer of the one login accepted is told so, and when the connection ends
    the avatar is told and logged out *)
Definition C155_full : Prop := forall h s i a, FReach h s -> ended h = true -> accepted (while_open h) = [(i, a)] -> accepted h = [(i, a)] ->
  answers i (happened h) = [WEmpty i] /\ stops_called (happened h) = [RAvatar a] /\ logouts_called (happened h) = [i].

(** false of an avatar which raises when it is started: the peer is told there is none
    while its next box goes to it; and of one which raises when it is stopped: it is
    never logged out *)
Theorem C155_refuted :
  (exists h s, FReach h s /\ accepted h = [(0, 7)] /\ answers 0 (happened h) = [WError (Some 0) FNotImplemented] /\
     In (FCall (EForward 7 (KOtpLogin (lit "q")))) (happened h)) /\
  (exists h s, FReach h s /\ ended h = true /\ accepted (while_open h) = [(0, 7)] /\ answers 0 (happened h) = [WEmpty 0] /\ logouts_called (happened h) = []) /\
  ~ C155_full.
Proof.
  assert (B : exists h s, FReach h s /\ ended h = true /\ accepted (while_open h) = [(0, 7)] /\ accepted h = [(0, 7)] /\ answers 0 (happened h) = [WEmpty 0] /\ logouts_called (happened h) = []).
  { set (l := [FCommand (KOtpLogin (lit "p")) [] None; FFire 0 (Accepted 7 [] None); FLost true false]).
    exists (fst (frun l [] finit)), (snd (frun l [] finit)). split; [apply okf_reach; [constructor|reflexivity]|]. repeat split. }
  split; [|split].
  - set (l := [FCommand (KOtpLogin (lit "p")) [] None; FFire 0 (Accepted 7 [] (Some FNotImplemented)); FCommand (KOtpLogin (lit "q")) [] None]).
    exists (fst (frun l [] finit)), (snd (frun l [] finit)). split; [apply okf_reach; [constructor|reflexivity]|]. repeat split. cbn. auto.
  - destruct B as (h & s & B1 & B2 & B3 & _ & B4). exists h, s. auto.
  - destruct B as (h & s & B1 & B2 & B3 & B4 & _ & B5). intros F. destruct (F h s 0 7 B1 B2 B3 B4) as (_ & _ & E). congruence.
Qed.
Print Assumptions C155_refuted.

(** True whatever raises: every login decided while the connection is open is answered
    once, with success exactly if the portal accepted it and its avatar started; *)
Theorem C155_answered_partial : forall h s i v, FReach h s -> In (FFire i v) (map fst (while_open h)) ->
  answers i (happened h) = [match v with Accepted _ _ None => WEmpty i | Accepted _ _ (Some f) | Refused f => WError (Some i) f end].
Proof. exact answered. Qed.
Print Assumptions C155_answered_partial.

(** none is answered twice; *)
Theorem C155_once : forall h s i, FReach h s -> length (answers i (happened h)) <= 1.
Proof. intros h s i Hr. exact (fi_one _ _ (freach_inv _ _ Hr) i). Qed.
Print Assumptions C155_once.

(** a peer told of success has an avatar which was started; *)
Theorem C155_told : forall h s i, FReach h s -> In (WEmpty i) (answers i (happened h)) ->
  exists a boxes, In (FFire i (Accepted a boxes None)) (map fst (while_open h)).
Proof. exact told_success. Qed.
Print Assumptions C155_told.

(** boxes go to the avatar of the latest login accepted, even one that raised; *)
Theorem C155_receiver : forall h s, FReach h s -> ended h = false ->
  c_recv (f_c s) = match accepted h with (_, a) :: _ => RAvatar a | [] => RSelf end.
Proof. intros h s Hr. exact (fi_recv _ _ (freach_inv _ _ Hr)). Qed.
Print Assumptions C155_receiver.

(** when the connection ends that receiver, and only it, is told, once; *)
Theorem C155_stopped : forall h s, FReach h s ->
  stops_called (happened h) = if ended h then [match accepted (while_open h) with (_, a) :: _ => RAvatar a | [] => RSelf end] else [].
Proof. intros h s Hr. exact (fi_stop _ _ (freach_inv _ _ Hr)). Qed.
Print Assumptions C155_stopped.

(** and unless that raises it is logged out, once, whether or not it raised when it was
    started. *)
Theorem C155_logout_partial : forall h s, FReach h s ->
  logouts_called (happened h) = if ended h && negb (stop_raised h) then match accepted (while_open h) with (i, _) :: _ => [i] | [] => [] end else [].
Proof. intros h s Hr. rewrite (fi_out _ _ (freach_inv _ _ Hr)). destruct (ended h), (stop_raised h); reflexivity. Qed.
Print Assumptions C155_logout_partial.

(** What an avatar sends while it is being started goes out before the answer of the
    login, and the connection is closed if it raises an error the command does not
    declare. *)
Theorem C155_order : forall h s i a boxes raises, FReach h s -> ended h = false ->
  snd (fstep s (FFire i (Accepted a boxes raises))) =
    FCall (EStartRecv a) :: map (fun b => FWrite (WBox a b)) boxes ++
    FWrite (match raises with None => WEmpty i | Some f => WError (Some i) f end) :: match raises with Some FOther => [FClose] | _ => [] end.
Proof. exact fire_order. Qed.
Print Assumptions C155_order.

(** Where nothing raises when the connection ends, states and calls are those of C17-C19. *)
Theorem C155_plain : forall s o, (forall stop logout, o = FLost stop logout -> stop = false /\ logout = false) ->
  f_c (fst (fstep s o)) = snd (fst (cstep (f_c s) (plain_op o))) /\ called (snd (fstep s o)) = snd (cstep (f_c s) (plain_op o)).
Proof. exact step_plain. Qed.
Print Assumptions C155_plain.

Example C155_nonvacuous :
  let l := [FCommand (KOtpLogin (lit "p")) [] (Some FUnauthorized); FCommand (KOtpLogin (lit "q")) [] None; FFire 1 (Refused FUnauthorized);
            FCommand (KPasswordLogin (lit "u")) (lit "ch") None; FCommand (KResponse (lit "n") (lit "r")) [] None; FFire 2 (Accepted 7 [lit "hello"] (Some FOther)); FLost false true] in
  let h := fst (frun l [] finit) in
  FReach h (snd (frun l [] finit)) /\ ended h = true /\ stop_raised h = false /\ accepted (while_open h) = [(2, 7)] /\
  answers 0 (happened h) = [WError (Some 0) FUnauthorized] /\ answers 1 (happened h) = [WError (Some 1) FUnauthorized] /\ answers 2 (happened h) = [WError (Some 2) FOther] /\
  stops_called (happened h) = [RAvatar 7] /\ logouts_called (happened h) = [2] /\ In (FWrite (WBox 7 (lit "hello"))) (happened h).
Proof.
  cbn zeta. split; [apply okf_reach; [constructor|reflexivity]|]. repeat split. cbn. intuition.
Qed.
