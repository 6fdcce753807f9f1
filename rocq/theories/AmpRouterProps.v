(** * Properties of epsilon/amprouter.py *)

From Coq Require Import NArith String List Bool Arith Lia Sorted.
From Verif Require Import Py PyStr PyNum AmpRouter.
Import ListNotations.
Open Scope nat_scope.

(** A history used by the examples: two routes bound before the start, one of
    them connected; then a start, a rebinding and an unbinding. *)
Definition ex_ops : list op :=
  [ OBind 10 None; OBind 11 (Some (Some (lit "x"))); OConnect 0 (Some (lit "r"));
    OStart 5; OBind 12 (Some None); OConnect 1 None; OBind 13 (Some (Some (lit "x")));
    OUnbind 0 ].

(** C07.  A running router hands a box to exactly one receiver: the one of the
    route most recently bound (and not unbound) under the box's [_route] value;
    the box loses that key and nothing else; with no such route KeyError is
    raised and nobody is called.  (A router which is not running raises
    TypeError.)  The router itself does not change. *)
Theorem C07_delivery : forall h s b, Reach h s -> wf_dict b ->
  step s (OReceive b) =
    (if running h then
       match bound h (dget b (lit "_route")) with
       | Some rid => Ok RNone
       | None => Err KeyError
       end
     else Err TypeError,
     s,
     if running h then
       match bound h (dget b (lit "_route")) with
       | Some rid => match route_info h rid with
                     | Some (recv, _) => [EBox recv (ddel b (lit "_route"))]
                     | None => []
                     end
       | None => []
       end
     else [])
  /\ forall rid, bound h (dget b (lit "_route")) = Some rid -> running h = true ->
       exists recv, route_info h rid = Some (recv, dget b (lit "_route")).
Proof. exact receive_spec. Qed.
Print Assumptions C07_delivery.

Example C07_nonvacuous :
  let hs := run ex_ops in
  Reach (fst hs) (snd hs) /\ running (fst hs) = true
  /\ step (snd hs) (OReceive [(ROUTE, lit "x"); (lit "k", lit "v")])
     = (Ok RNone, snd hs, [EBox 13 [(lit "k", lit "v")]])
  /\ step (snd hs) (OReceive [(ROUTE, lit "0")]) = (Err KeyError, snd hs, [])
  /\ step (snd hs) (OReceive [(lit "k", lit "v")])
     = (Ok RNone, snd hs, [EBox 12 [(lit "k", lit "v")]]).
Proof. split; [apply run_reach|]. repeat split. Qed.

(** C08.  The identifiers handed out by one router, directly or through
    [bindRoute] without a name, are pairwise different. *)
Theorem C08_identifiers_distinct : forall h s, Reach h s -> NoDup (flat_map generated h).
Proof. exact generated_nodup. Qed.
Print Assumptions C08_identifiers_distinct.

Example C08_nonvacuous :
  flat_map generated (fst (run [OCreate; OBind 3 None; OStart 1; OBind 4 None; OCreate]))
  = [lit "3"; lit "2"; lit "1"; lit "0"].
Proof. reflexivity. Qed.

(** C09.  As documented ("not yet associated with a route") the claim is false:
    the identifier can be one that was bound explicitly. *)
Theorem C09_identifier_fresh_refuted : exists h s i s' ev rid, Reach h s
  /\ step s OCreate = (Ok (RId i), s', ev) /\ bound h (Some i) = Some rid.
Proof. exact fresh_identifier_refuted. Qed.
Print Assumptions C09_identifier_fresh_refuted.

(** It holds as long as callers never choose a decimal numeral as a name. *)
Theorem C09_identifier_fresh_partial : forall h s, Reach h s ->
  (forall n, In n (flat_map explicit h) -> ~ is_numeral n) ->
  forall i s' ev, step s OCreate = (Ok (RId i), s', ev) -> bound h (Some i) = None.
Proof. exact fresh_identifier. Qed.
Print Assumptions C09_identifier_fresh_partial.

(** In every history, an identifier that is in use was bound by name by a caller. *)
Theorem C09_chosen_partial : forall h s, Reach h s -> forall i s' ev rid,
  step s OCreate = (Ok (RId i), s', ev) -> bound h (Some i) = Some rid -> In (Some i) (flat_map explicit h).
Proof. exact fresh_chosen. Qed.
Print Assumptions C09_chosen_partial.

Example C09_nonvacuous :
  forall n, In n (flat_map explicit (fst (run ex_ops))) -> ~ is_numeral n.
Proof.
  assert (H : flat_map explicit (fst (run ex_ops)) = [Some (lit "x"); None; Some (lit "x")])
    by reflexivity.
  rewrite H. intros n [<-|[<-|[<-|[]]]] [k E]; try discriminate;
    inversion E as [E']; pose proof (dec_digits k) as Hd; rewrite <- E' in Hd; discriminate.
Qed.

(** C10.  How often a route's receiver is told to start is exactly: once for
    every connection made after the router was started, and once at the router's
    start if the route was by then connected and still bound. *)
Theorem C10_start_count : forall h s, Reach h s ->
  forall rid, starts h rid = starts_spec h rid.
Proof. exact starts_correct. Qed.
Print Assumptions C10_start_count.

Theorem C10_at_most_once : forall h s rid, Reach h s ->
  connects h rid <= 1 -> starts h rid <= 1.
Proof. exact starts_at_most_once. Qed.
Print Assumptions C10_at_most_once.

Theorem C10_only_when_connected_and_running : forall h s rid, Reach h s ->
  1 <= starts h rid -> was_started h = true /\ is_connected h rid = true.
Proof. exact starts_only_when. Qed.
Print Assumptions C10_only_when_connected_and_running.

Theorem C10_right_receiver : forall h s, Reach h s -> forall e recv rid,
  In e h -> In (EStart recv rid) (e_ev e) -> exists nm, route_info h rid = Some (recv, nm).
Proof. exact starts_receiver. Qed.
Print Assumptions C10_right_receiver.

Example C10_nonvacuous :
  let h := fst (run ex_ops) in
  starts h 0 = 1 /\ starts h 1 = 1 /\ starts h 2 = 0 /\ connects h 0 = 1 /\ connects h 1 = 1.
Proof. repeat split. Qed.

(** C11.  Stopping a running router stops the receiver of every bound route
    once, in the order the names became bound, and does nothing else. *)
Theorem C11_stop : forall h s reason, Reach h s ->
  if running h then
    exists s' names, step s (OStop reason) =
        (Ok RNone, s', flat_map (fun n => match bound h n with
                                          | Some rid => match route_info h rid with
                                                        | Some (recv, _) => [EStop recv reason]
                                                        | None => [] end
                                          | None => [] end) names)
      /\ NoDup names
      /\ (forall n, In n names <-> bound h n <> None)
      /\ (forall n rid, bound h n = Some rid -> exists recv, route_info h rid = Some (recv, n))
      /\ StronglySorted (fun a b => bound_since h a < bound_since h b) names
  else step s (OStop reason) = (Err AttributeError, s, []).
Proof. exact stop_spec. Qed.
Print Assumptions C11_stop.

Example C11_nonvacuous :
  let hs := run ex_ops in running (fst hs) = true
  /\ snd (step (snd hs) (OStop 9)) = [EStop 13 9; EStop 12 9].
Proof. split; reflexivity. Qed.

(** C12.  Sending through a route: refused until connected; then exactly one
    box is sent, tagged with the remote name (untouched if that is None). *)
Theorem C12_send : forall h s rid recv nm b, Reach h s ->
  route_info h rid = Some (recv, nm) ->
  step s (OSend rid b) =
    match remote_of h rid with
    | None => (Err RouteNotConnected, s, [])
    | Some rem =>
        match sender_of h with
        | None => (Err AttributeError, s, [])
        | Some sn => (Ok RNone, s,
            [ESend sn (match rem with Some n => dset b (lit "_route") n | None => b end)])
        end
    end.
Proof. exact send_spec. Qed.
Print Assumptions C12_send.

(** C12.  A failure is passed to the sender as it is, connected or not. *)
Theorem C12_errors : forall h s rid recv nm f, Reach h s ->
  route_info h rid = Some (recv, nm) ->
  step s (OError rid f) =
    match sender_of h with
    | None => (Err AttributeError, s, [])
    | Some sn => (Ok RNone, s, [EUnhandled sn f])
    end.
Proof. exact error_spec. Qed.
Print Assumptions C12_errors.

Example C12_nonvacuous :
  let hs := run ex_ops in
  route_info (fst hs) 0 = Some (10, Some (lit "0"))
  /\ route_info (fst hs) 2 = Some (12, None)
  /\ step (snd hs) (OSend 0 [(lit "k", lit "v")])
     = (Ok RNone, snd hs, [ESend 5 [(lit "k", lit "v"); (ROUTE, lit "r")]])
  /\ step (snd hs) (OSend 2 [(lit "k", lit "v")]) = (Err RouteNotConnected, snd hs, []).
Proof. repeat split. Qed.

(** C13.  Two routers joined by an ordered connection: for every schedule of
    sends (on any routes, either side) and deliveries, what the receiver has got
    plus what is still in flight for it is what was in flight for it at first
    plus what was sent through its peer route, in order. *)
Theorem C13_multiplex : forall x hx hy rid name recv, paired hx hy rid name recv ->
  forall acts n n' sent got,
  Reach hx (at_ n x) -> Reach hy (at_ n (negb x)) ->
  (forall b, In b (toward n (negb x)) -> wf_dict b) ->
  Forall plain acts ->
  Forall (fun a => match a with Send _ _ b => wf_dict b | _ => True end) acts ->
  net_run n acts x rid recv = (n', sent, got) ->
  in_flight (toward n (negb x)) name ++ sent = got ++ in_flight (toward n' (negb x)) name.
Proof. exact multiplex. Qed.
Print Assumptions C13_multiplex.

Definition C13_left : history * rstate :=
  run [OBind 20 (Some (Some (lit "p"))); OBind 21 (Some (Some (lit "q"))); OStart 1;
       OConnect 0 (Some (lit "P")); OConnect 1 None].
Definition C13_right : history * rstate :=
  run [OBind 30 (Some (Some (lit "P"))); OBind 31 (Some None); OStart 2;
       OConnect 0 (Some (lit "p")); OConnect 1 (Some (lit "q"))].
Definition C13_net : net :=
  {| at_ := fun x => if x then snd C13_left else snd C13_right; toward := fun _ => [] |}.
Definition C13_b (k : string) : box := [(lit "k", lit k)].
Definition C13_acts : list act :=
  [Send true 0 (C13_b "a"); Send true 1 (C13_b "b"); Send false 0 (C13_b "z"); Deliver false;
   Send true 0 (C13_b "c"); Deliver true; Deliver false].

Example C13_nonvacuous :
  paired (fst C13_left) (fst C13_right) 0 (Some (lit "P")) 30
  /\ Forall plain C13_acts
  /\ exists n', net_run C13_net C13_acts true 0 30 = (n', [C13_b "a"; C13_b "c"], [C13_b "a"])
       /\ in_flight (toward n' false) (Some (lit "P")) = [C13_b "c"].
Proof.
  split; [|split].
  - constructor; try reflexivity.
    + discriminate.
    + intros [|[|i]]; split; intros H; try reflexivity; try discriminate.
    + exists 0, (Some (lit "P")). split; reflexivity.
    + intros n j nm H1 H2.
      pose proof (stop_spec _ _ 0 (run_reach [OBind 30 (Some (Some (lit "P")));
        OBind 31 (Some None); OStart 2; OConnect 0 (Some (lit "p"));
        OConnect 1 (Some (lit "q"))])) as Hs.
      destruct Hs as (s' & names & _ & _ & _ & Hi & _).
      destruct (Hi n j H1) as [rc Hrc]. fold C13_right in Hrc.
      assert (nm = n) by congruence. subst nm. clear -H2.
      destruct j as [|[|j]]; cbn in H2; try discriminate. inversion H2. reflexivity.
  - repeat constructor; cbn; intuition discriminate.
  - eexists. split; reflexivity.
Qed.
