(** * C164: routes over a Twisted AMP connection, on Python 3 *)
From Coq Require Import NArith String List Bool Arith Lia.
From Verif Require Import Py PyStr PyNum AmpRouter RouterWire.
Import ListNotations.
Open Scope nat_scope.

(** C164.  A box sent through a route connected to a name is written to the connection, and
    the peer's router gives it to the receiver bound under this name.  This is false: *)
Definition C164_full : Prop := forall h s rid recv nm r b n sn h2 s2 rid2 recv2 nm2,
  Reach h s -> route_info h rid = Some (recv, nm) -> nth_error (routes_made s) rid = Some r ->
  remote_of h rid = Some (Some n) -> sender_of h = Some sn -> amp_box b -> dget b (Bytes (lit "_route")) = None ->
  Reach h2 s2 -> running h2 = true -> bound h2 (Some n) = Some rid2 -> route_info h2 rid2 = Some (recv2, nm2) ->
  exists b' items, wsend s r b = (Ok RNone, b', [WWrite sn items]) /\ wreceive s2 (parse items) = (Ok RNone, [WBox recv2 b]).

(** the two ends of one connection, each with a route named "0" and one for unrouted boxes *)
Definition end_ops : list op := [OBind 8 (Some None); OConnect 0 None; OStart 5; OBind 10 None; OConnect 1 (Some (lit "0"))].
Theorem C164_refuted : ~ C164_full.
Proof.
  intros F. destruct (F (fst (run end_ops)) (snd (run end_ops)) 1 10 (Some (lit "0")) {| r_recv := 10; r_local := Some (lit "0"); r_remote := Some (Some (lit "0")) |} [] (lit "0") 5
     (fst (run end_ops)) (snd (run end_ops)) 1 10 (Some (lit "0")) (run_reach end_ops) eq_refl eq_refl eq_refl eq_refl
     (conj (NoDup_nil _) (Forall_nil _)) eq_refl (run_reach end_ops) eq_refl eq_refl eq_refl) as (b' & items & E & _).
  vm_compute in E. discriminate E.
Qed.
Print Assumptions C164_refuted.

(** Exactly, after any calls: sending through a route connected to a name raises TypeError
    whatever the box and whatever the name, and nothing is written (the box is left with the
    name in it).  Through a route connected to None the box is written as it is, unless it
    has text in it. *)
Theorem C164_send_partial : forall h s rid recv nm r b sn, Reach h s ->
  route_info h rid = Some (recv, nm) -> nth_error (routes_made s) rid = Some r -> sender_of h = Some sn ->
  (forall n, remote_of h rid = Some (Some n) -> wsend s r b = (Err TypeError, dset b (Text (lit "_route")) (Text n), [])) /\
  (remote_of h rid = Some None -> amp_box b -> exists items, wsend s r b = (Ok RNone, b, [WWrite sn items]) /\ parse items = b) /\
  (remote_of h rid = Some None -> (exists t, In (Text t) (keys b) \/ In (Text t) (values b)) -> wsend s r b = (Err TypeError, b, [])).
Proof.
  intros h s rid recv nm r b sn R Hi Hr Hs. pose proof (wsend_spec h s rid recv nm b r R Hi Hr) as E. rewrite Hs in E. split; [|split].
  - intros n Hn. rewrite Hn in E. exact E.
  - intros Hn A. rewrite Hn in E. cbv zeta in E. destruct (amp_box_serialize b A) as (items & E1 & E2). rewrite E1 in E. exists items. auto.
  - intros Hn (t & T). rewrite Hn in E. cbv zeta in E. unfold serialize in E.
    replace (existsb is_text (keys b) || existsb is_text (values b)) with true in E; [exact E|]. symmetry. apply orb_true_iff.
    destruct T as [T|T]; [left|right]; apply existsb_exists; exists (Text t); auto.
Qed.
Print Assumptions C164_send_partial.

(** Exactly, after any calls: a box off the connection goes to the receiver bound under
    None, with everything in it, and never to a route with a name; KeyError if there is no
    such receiver. *)
Theorem C164_receive_partial : forall h s items, Reach h s -> running h = true ->
  match bound h None with
  | None => wreceive s (parse items) = (Err KeyError, [])
  | Some rid => exists recv, route_info h rid = Some (recv, None) /\ wreceive s (parse items) = (Ok RNone, [WBox recv (parse items)])
  end.
Proof.
  intros h s items R Rn. pose proof (wreceive_spec h s items R) as E. rewrite Rn in E. destruct (bound h None) as [rid|] eqn:B; [|exact E].
  destruct (receive_spec h s [] R (NoDup_nil _)) as [_ H]. destruct (H rid B Rn) as [recv Hr]. change (dget [] ROUTE) with (@None str) in Hr. exists recv. rewrite Hr in E. auto.
Qed.
Print Assumptions C164_receive_partial.

(** So the one pair of routes that works is the unnamed one: a box sent through a route
    connected to None reaches the peer's receiver bound under None, the same box. *)
Theorem C164_unnamed_partial : forall h s rid recv nm r b sn h2 s2 rid2,
  Reach h s -> route_info h rid = Some (recv, nm) -> nth_error (routes_made s) rid = Some r ->
  remote_of h rid = Some None -> sender_of h = Some sn -> amp_box b ->
  Reach h2 s2 -> running h2 = true -> bound h2 None = Some rid2 ->
  exists items recv2, wsend s r b = (Ok RNone, b, [WWrite sn items]) /\
    route_info h2 rid2 = Some (recv2, None) /\ wreceive s2 (parse items) = (Ok RNone, [WBox recv2 b]).
Proof.
  intros h s rid recv nm r b sn h2 s2 rid2 R Hi Hr Hn Hs A R2 Rn B.
  destruct (proj1 (proj2 (C164_send_partial h s rid recv nm r b sn R Hi Hr Hs)) Hn A) as (items & E & P).
  pose proof (C164_receive_partial h2 s2 items R2 Rn) as Q. rewrite B in Q. destruct Q as (recv2 & Q1 & Q2). rewrite P in Q2. exists items, recv2. rewrite P. auto.
Qed.
Print Assumptions C164_unnamed_partial.

Example C164_nonvacuous :
  let hs := run end_ops in
  let r0 := {| r_recv := 8; r_local := None; r_remote := Some None |} in
  let r1 := {| r_recv := 10; r_local := Some (lit "0"); r_remote := Some (Some (lit "0")) |} in
  let b := [(Bytes (lit "_command"), Bytes (lit "Count"))] in
  Reach (fst hs) (snd hs) /\ running (fst hs) = true /\ bound (fst hs) None = Some 0 /\ bound (fst hs) (Some (lit "0")) = Some 1 /\
  sender_of (fst hs) = Some 5 /\ remote_of (fst hs) 0 = Some None /\ remote_of (fst hs) 1 = Some (Some (lit "0")) /\
  nth_error (routes_made (snd hs)) 0 = Some r0 /\ nth_error (routes_made (snd hs)) 1 = Some r1 /\ amp_box b /\
  wsend (snd hs) r0 b = (Ok RNone, b, [WWrite 5 [(lit "_command", lit "Count")]]) /\
  wsend (snd hs) r1 b = (Err TypeError, b ++ [(Text (lit "_route"), Text (lit "0"))], []) /\
  wreceive (snd hs) (parse [(lit "_route", lit "0")]) = (Ok RNone, [WBox 8 [(Bytes (lit "_route"), Bytes (lit "0"))]]).
Proof.
  split; [apply run_reach|]. repeat (split; [first [reflexivity | split; [repeat constructor; intros []|constructor; [|constructor]; eexists _, _; split; [reflexivity|split; vm_compute; [repeat constructor|discriminate]]]]|]). reflexivity.
Qed.
