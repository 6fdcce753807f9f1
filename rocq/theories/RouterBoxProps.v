(** * C153: what a router does to the boxes it is given *)
From Coq Require Import NArith String List Bool Arith Lia.
From Verif Require Import Py PyStr PyNum AmpRouter RouterBox.
Import ListNotations.
Open Scope nat_scope.

(** C153.  Sending a box and receiving a box leave the caller's box as it was.  This is
    false. *)
Definition C153_full : Prop := forall l st i, feasible init st l -> let '(_, st', _) := brun init st l in nth_error st' i = nth_error st i.

(** One box sent through a route with a name, then through a route with none: the second
    time it still carries the name, and is delivered to the wrong route at the other side. *)
Definition resent : list bop :=
  [BOther (OBind 1 None); BOther (OBind 2 None); BOther (OStart 9); BOther (OConnect 0 (Some (lit "a"))); BOther (OConnect 1 None); BSend 0 0; BSend 1 0].
Theorem C153_refuted : ~ C153_full.
Proof. intros F. specialize (F resent [[]] 0). vm_compute in F. assert (A : Some [([95; 114; 111; 117; 116; 101]%N, [97%N])] = Some []) by (apply F; repeat split; lia). discriminate A. Qed.
Print Assumptions C153_refuted.

(** Exactly: after any calls, a box has all its other entries as they were, and the name in
    it is that of the latest route with a name it was sent through, none if it was received
    since, and the one it had at first if neither happened. *)
Theorem C153_box_partial : forall l st i b0, feasible init st l -> nth_error st i = Some b0 -> wf_dict b0 ->
  let '(_, st', _) := brun init st l in
  exists b1, nth_error st' i = Some b1 /\ (forall k, k <> ROUTE -> dget b1 k = dget b0 k) /\ dget b1 ROUTE = name_in i [] (dget b0 ROUTE) l.
Proof.
  intros l st i b0 F Hi W. assert (R : forall rid, remote_of init rid = connected_to rid []) by (intros [|]; reflexivity).
  pose proof (brun_box l init st [] i b0 F R Hi W) as H. destruct (brun init st l) as [[s' st'] h]. destruct H as (_ & b1 & H1 & _ & H2 & H3). exists b1. auto.
Qed.
Print Assumptions C153_box_partial.

(** So this is what is sent: after any calls, sending a box through a route connected to a
    name puts this name into it; through a route connected to no name the box carries
    whatever name is left in it from before. *)
Theorem C153_sent : forall l st i b0 rid n sn, feasible init st l -> nth_error st i = Some b0 -> wf_dict b0 ->
  let '(s, st', _) := brun init st l in
  rid < length (routes_made s) -> connected_to rid l = Some n -> sender s = Some sn ->
  exists b, snd (bstep s st' (BSend rid i)) = [ESend sn b] /\ (forall k, k <> ROUTE -> dget b k = dget b0 k) /\
    dget b ROUTE = match n with Some x => Some x | None => name_in i [] (dget b0 ROUTE) l end.
Proof.
  intros l st i b0 rid n sn F Hi W. assert (R : forall rid, remote_of init rid = connected_to rid []) by (intros [|]; reflexivity).
  pose proof (brun_box l init st [] i b0 F R Hi W) as H. destruct (brun init st l) as [[s st'] h]. intros L Hc Hs. destruct H as (H0 & b1 & H1 & H2 & H3 & H4). cbn [app] in H0.
  specialize (H0 rid). rewrite Hc in H0. unfold remote_of in H0. destruct (nth_error (routes_made s) rid) as [r|] eqn:Er; [|apply nth_error_None in Er; lia].
  cbn [bstep]. rewrite Er, H1, H0, Hs. eexists. split; [reflexivity|]. destruct n as [x|]; [|auto]. split; [intros k Hk; rewrite dget_dset_neq; auto|apply dget_dset_eq].
Qed.
Print Assumptions C153_sent.

(** The calls are those of AmpRouter.v, on the box as it is at that moment. *)
Theorem C153_calls : forall s st i b x s' st' ev, nth_error st i = Some b ->
  (forall rid, bstep s st (BSend rid i) = (x, s', st', ev) -> step s (OSend rid b) = (x, s', ev)) /\
  (bstep s st (BReceive i) = (x, s', st', ev) -> step s (OReceive b) = (x, s', ev)).
Proof. intros s st i b x s' st' ev Hi. split; [intros rid; now apply bsend_as_send|now apply breceive_as_receive]. Qed.
Print Assumptions C153_calls.

Example C153_nonvacuous :
  feasible init [[]] resent /\
  (let '(_, st', h) := brun init [[]] resent in
   st' = [[(ROUTE, lit "a")]] /\ map b_ev h = [[]; []; []; [EStart 1 0]; [EStart 2 1]; [ESend 9 [(ROUTE, lit "a")]]; [ESend 9 [(ROUTE, lit "a")]]]) /\
  name_in 0 [] None resent = Some (lit "a").
Proof. vm_compute. repeat split; lia. Qed.
