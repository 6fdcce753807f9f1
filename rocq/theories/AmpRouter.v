(** * epsilon/amprouter.py: routes multiplexed over one AMP connection *)

From Coq Require Import NArith String List Bool Arith Lia Sorted.
From Verif Require Import Py PyStr PyNum.
Import ListNotations.
Open Scope nat_scope.

(** A box is a dictionary from keys to values. *)
Definition box := dict str str.

(** amprouter.py:17 *)
Definition ROUTE : str := lit "_route".

(** A route name: a string, or [None]. *)
Definition rname := option str.

(** A [Route] object (amprouter.py:30-31).  Its receiver is an opaque
    identity.  [r_remote = None] is the [_unspecified] marker. *)
Record route := { r_recv : nat; r_local : rname; r_remote : option rname }.

(** A [Router] (amprouter.py:126-131) together with the [Route] objects it has
    created (a route is its position in [routes_made]); the two dictionaries
    are [None] when the attribute is [None]. *)
Record rstate := {
  routes_made : list route;
  started : option (dict rname nat);   (* _routes *)
  unstarted : option (dict rname nat); (* _unstarted *)
  sender : option nat;                 (* _sender *)
  counter : N                          (* _routeCounter *)
}.

(** amprouter.py:126-131, [Router.__init__] *)
Definition init : rstate :=
  {| routes_made := []; started := None; unstarted := Some [];
     sender := None; counter := 0%N |}.

(** Calls made on the objects around the router *)
Inductive event :=
| EStart (recv : nat) (rid : nat)          (* recv.startReceivingBoxes(route) *)
| EStop (recv : nat) (reason : nat)        (* recv.stopReceivingBoxes(reason) *)
| EBox (recv : nat) (b : box)              (* recv.ampBoxReceived(box) *)
| ESend (snd : nat) (b : box)              (* sender.sendBox(box) *)
| EUnhandled (snd : nat) (f : nat).        (* sender.unhandledError(failure) *)

Inductive op :=
| OCreate                                  (* router.createRouteIdentifier() *)
| OBind (recv : nat) (name : option rname) (* router.bindRoute(recv[, name]) *)
| OConnect (rid : nat) (remote : rname)    (* route.connectTo(remote) *)
| OUnbind (rid : nat)                      (* route.unbind() *)
| OStart (snd : nat)                       (* router.startReceivingBoxes(sender) *)
| OReceive (b : box)                       (* router.ampBoxReceived(box) *)
| OStop (reason : nat)                     (* router.stopReceivingBoxes(reason) *)
| OSend (rid : nat) (b : box)              (* route.sendBox(box) *)
| OError (rid : nat) (f : nat).            (* route.unhandledError(failure) *)

Inductive ret :=
| RNone
| RId (s : str)
| RRoute (rid : nat) (name : rname).

(** Simplification throughout: the receivers and the sender return normally,
    and do not call back into the router while [startReceivingBoxes] or
    [stopReceivingBoxes] iterates (a call made from any other callback is in
    tail position, so it is covered as the next operation).  RouterReentry.v is
    the model without the second of these. *)

Definition set_made s m := {| routes_made := m; started := started s;
  unstarted := unstarted s; sender := sender s; counter := counter s |}.

Definition upd_nth {A} (l : list A) (i : nat) (x : A) : list A :=
  firstn i l ++ match skipn i l with [] => [] | _ :: t => x :: t end.

(** amprouter.py:134-141 *)
Definition createRouteIdentifier (s : rstate) : str * rstate :=
  (dec (counter s),
   {| routes_made := routes_made s; started := started s; unstarted := unstarted s;
      sender := sender s; counter := (counter s + 1)%N |}).

(** amprouter.py:144-165 *)
Definition bindRoute (s : rstate) (recv : nat) (name : option rname)
  : res ret * rstate :=
  let '(nm, s1) := match name with
                   | Some n => (n, s)
                   | None => let '(i, s1) := createRouteIdentifier s in (Some i, s1)
                   end in
  let rid := length (routes_made s1) in
  let made := routes_made s1 ++ [{| r_recv := recv; r_local := nm; r_remote := None |}] in
  match started s1 with
  | Some d => (Ok (RRoute rid nm),
      {| routes_made := made; started := Some (dset d nm rid);
         unstarted := unstarted s1; sender := sender s1; counter := counter s1 |})
  | None =>
      match unstarted s1 with
      | Some d => (Ok (RRoute rid nm),
          {| routes_made := made; started := None;
             unstarted := Some (dset d nm rid); sender := sender s1;
             counter := counter s1 |})
      | None => (Err TypeError, s1)  (* None[routeName] = route; the Route is garbage *)
      end
  end.

(** amprouter.py:71-75 [Route.start] *)
Definition route_start (r : route) (rid : nat) : event := EStart (r_recv r) rid.

(** amprouter.py:52-61 [Route.connectTo] *)
Definition connectTo (s : rstate) (rid : nat) (r : route) (remote : rname)
  : res ret * rstate * list event :=
  let r' := {| r_recv := r_recv r; r_local := r_local r; r_remote := Some remote |} in
  (Ok RNone, set_made s (upd_nth (routes_made s) rid r'),
   match sender s with Some _ => [route_start r' rid] | None => [] end).

(** amprouter.py:64-68 [Route.unbind] *)
Definition unbind (s : rstate) (r : route) : res ret * rstate :=
  match started s with
  | None => (Err TypeError, s)
  | Some d =>
      if din d (r_local r) then
        (Ok RNone, {| routes_made := routes_made s; started := Some (ddel d (r_local r));
                      unstarted := unstarted s; sender := sender s; counter := counter s |})
      else (Err KeyError, s)
  end.

(** amprouter.py:173-178: the routes started by the router's start *)
Definition start_events (s : rstate) (d : dict rname nat) : list event :=
  flat_map (fun rid => match nth_error (routes_made s) rid with
                       | Some r => match r_remote r with
                                   | Some _ => [route_start r rid]
                                   | None => []
                                   end
                       | None => []
                       end) (values d).

(** amprouter.py:168-180 [Router.startReceivingBoxes] *)
Definition startReceivingBoxes (s : rstate) (sn : nat) : res ret * rstate * list event :=
  let s1 := {| routes_made := routes_made s; started := started s;
               unstarted := unstarted s; sender := Some sn; counter := counter s |} in
  match unstarted s with
  | None => (Err AttributeError, s1, [])
  | Some d => (Ok RNone,
      {| routes_made := routes_made s; started := Some d; unstarted := None;
         sender := Some sn; counter := counter s |},
      start_events s d)
  end.

(** amprouter.py:183-189 [Router.ampBoxReceived] *)
Definition ampBoxReceived (s : rstate) (b : box) : res ret * list event :=
  let rt := dget b ROUTE in
  let b' := ddel b ROUTE in
  match started s with
  | None => (Err TypeError, [])
  | Some d =>
      match dget d rt with
      | None => (Err KeyError, [])
      | Some rid =>
          match nth_error (routes_made s) rid with
          | None => (Err (OtherExn 0), []) (* excluded by the invariant *)
          | Some r => (Ok RNone, [EBox (r_recv r) b'])
          end
      end
  end.

(** amprouter.py:196-197, with amprouter.py:78-82 [Route.stop] *)
Definition stop_events (s : rstate) (d : dict rname nat) (reason : nat) : list event :=
  flat_map (fun rid => match nth_error (routes_made s) rid with
                       | Some r => [EStop (r_recv r) reason]
                       | None => []
                       end) (values d).

(** amprouter.py:192-198 [Router.stopReceivingBoxes] *)
Definition stopReceivingBoxes (s : rstate) (reason : nat) : res ret * rstate * list event :=
  match started s with
  | None => (Err AttributeError, s, [])
  | Some d => (Ok RNone,
      {| routes_made := routes_made s; started := None; unstarted := unstarted s;
         sender := sender s; counter := counter s |},
      stop_events s d reason)
  end.

(** amprouter.py:85-93 [Route.sendBox].  [None.sendBox] raises
    AttributeError.  (The caller's box is changed in place; the model's boxes
    are values, so this is not represented; RouterBox.v has it.) *)
Definition sendBox (s : rstate) (r : route) (b : box) : res ret * list event :=
  match r_remote r with
  | None => (Err RouteNotConnected, [])
  | Some rem =>
      let b' := match rem with Some n => dset b ROUTE n | None => b end in
      match sender s with
      | None => (Err AttributeError, [])
      | Some sn => (Ok RNone, [ESend sn b'])
      end
  end.

(** amprouter.py:96-101 [Route.unhandledError] *)
Definition unhandledError (s : rstate) (f : nat) : res ret * list event :=
  match sender s with
  | None => (Err AttributeError, [])
  | Some sn => (Ok RNone, [EUnhandled sn f])
  end.

(** One operation.  An operation on a route that does not exist is not
    possible in the program; it does nothing here. *)
Definition step (s : rstate) (o : op) : res ret * rstate * list event :=
  let on_route rid k :=
    match nth_error (routes_made s) rid with
    | Some r => k r
    | None => (Err (OtherExn 1), s, [])
    end in
  match o with
  | OCreate => let '(i, s') := createRouteIdentifier s in (Ok (RId i), s', [])
  | OBind recv name => let '(x, s') := bindRoute s recv name in (x, s', [])
  | OConnect rid remote => on_route rid (fun r => connectTo s rid r remote)
  | OUnbind rid => on_route rid (fun r => let '(x, s') := unbind s r in (x, s', []))
  | OStart sn => startReceivingBoxes s sn
  | OReceive b => let '(x, ev) := ampBoxReceived s b in (x, s, ev)
  | OStop reason => stopReceivingBoxes s reason
  | OSend rid b => on_route rid (fun r => let '(x, ev) := sendBox s r b in (x, s, ev))
  | OError rid f => on_route rid (fun r => let '(x, ev) := unhandledError s f in (x, s, ev))
  end.

(** ** Histories

    One entry per call: the operation, what it returned or raised, and the
    calls it made.  Histories are listed latest first. *)

Record entry := { e_op : op; e_res : res ret; e_ev : list event }.
Definition history := list entry.

Inductive Reach : history -> rstate -> Prop :=
| Reach_init : Reach [] init
| Reach_step h s o r s' ev : Reach h s -> step s o = (r, s', ev) ->
    Reach ({| e_op := o; e_res := r; e_ev := ev |} :: h) s'.

(** ** Specification, on histories only *)

(** the receiver and local name of a route, from the call that returned it *)
Fixpoint route_info (h : history) (rid : nat) : option (nat * rname) :=
  match h with
  | [] => None
  | {| e_op := OBind recv _; e_res := Ok (RRoute i nm) |} :: t =>
      if Nat.eqb i rid then Some (recv, nm) else route_info t rid
  | _ :: t => route_info t rid
  end.

(** the route most recently bound under a name and not unbound since *)
Fixpoint bound (h : history) (n : rname) : option nat :=
  match h with
  | [] => None
  | {| e_op := OBind _ _; e_res := Ok (RRoute rid nm) |} :: t =>
      if eqb nm n then Some rid else bound t n
  | {| e_op := OUnbind rid; e_res := Ok _ |} :: t =>
      match route_info t rid with
      | Some (_, nm) => if eqb nm n then None else bound t n
      | None => bound t n
      end
  | _ :: t => bound t n
  end.

(** the router has been started; and not stopped since *)
Fixpoint was_started (h : history) : bool :=
  match h with
  | [] => false
  | {| e_op := OStart _ |} :: _ => true
  | _ :: t => was_started t
  end.

Fixpoint was_stopped (h : history) : bool :=
  match h with
  | [] => false
  | {| e_op := OStop _; e_res := Ok _ |} :: _ => true
  | _ :: t => was_stopped t
  end.

Definition running (h : history) : bool := was_started h && negb (was_stopped h).

(** the remote name a route was last connected to *)
Fixpoint remote_of (h : history) (rid : nat) : option rname :=
  match h with
  | [] => None
  | {| e_op := OConnect i rem; e_res := Ok _ |} :: t => if Nat.eqb i rid then Some rem else remote_of t rid
  | _ :: t => remote_of t rid
  end.

(** the current sender: the argument of the latest start *)
Fixpoint sender_of (h : history) : option nat :=
  match h with
  | [] => None
  | {| e_op := OStart sn |} :: _ => Some sn
  | _ :: t => sender_of t
  end.

(** identifiers handed out by the router *)
Definition generated (e : entry) : list str :=
  match e with
  | {| e_op := OCreate; e_res := Ok (RId i) |} => [i]
  | {| e_op := OBind _ None; e_res := Ok (RRoute _ (Some i)) |} => [i]
  | _ => []
  end.

(** when a name last became bound (the length of the history before) *)
Fixpoint bound_since (h : history) (n : rname) : nat :=
  match h with
  | [] => 0
  | {| e_op := OBind _ _; e_res := Ok (RRoute _ nm) |} :: t =>
      if eqb nm n then match bound t n with Some _ => bound_since t n | None => length t end
      else bound_since t n
  | _ :: t => bound_since t n
  end.

(** ** Invariants *)

Definition table (s : rstate) : option (dict rname nat) :=
  match started s with Some d => Some d | None => unstarted s end.

Record Inv (h : history) (s : rstate) : Prop := {
  inv_info : forall rid, nth_error (routes_made s) rid = None /\ route_info h rid = None
      \/ exists r, nth_error (routes_made s) rid = Some r
                   /\ route_info h rid = Some (r_recv r, r_local r)
                   /\ r_remote r = remote_of h rid;
  inv_remote : forall rid, nth_error (routes_made s) rid = None -> remote_of h rid = None;
  inv_started : started s = None <-> running h = false;
  inv_unstarted : unstarted s = None <-> was_started h = true;
  inv_sender : sender s = sender_of h;
  inv_stop : was_stopped h = true -> was_started h = true;
  inv_table : forall d, table s = Some d ->
      wf_dict d
      /\ (forall n, dget d n = bound h n)
      /\ (forall n rid, bound h n = Some rid ->
            exists r, nth_error (routes_made s) rid = Some r /\ r_local r = n)
      /\ StronglySorted (fun a b => bound_since h a < bound_since h b) (keys d)
      /\ (forall n, In n (keys d) -> bound_since h n < length h)
}.

Lemma upd_nth_length {A} (l : list A) i x : length (upd_nth l i x) = length l.
Proof.
  unfold upd_nth. rewrite app_length, firstn_length.
  pose proof (skipn_length i l) as E. destruct (skipn i l); cbn in *; lia.
Qed.

Lemma upd_nth_nth {A} (l : list A) i x j : i < length l ->
  nth_error (upd_nth l i x) j = if Nat.eqb j i then Some x else nth_error l j.
Proof.
  intros Hi. unfold upd_nth.
  assert (E : exists y, skipn i l = y :: skipn (S i) l).
  { clear x j. revert l Hi. induction i as [|i IH]; intros [|a l] Hi; cbn in *; try lia; eauto.
    apply IH. lia. }
  destruct E as [y E]. rewrite E.
  assert (Hf : length (firstn i l) = i) by (rewrite firstn_length; lia).
  destruct (Nat.eqb_spec j i) as [->|Hn].
  - rewrite nth_error_app2 by lia. rewrite Hf, Nat.sub_diag. reflexivity.
  - destruct (Nat.lt_ge_cases j i) as [Hlt|Hge].
    + rewrite nth_error_app1 by lia.
      rewrite <- (firstn_skipn i l) at 2. rewrite nth_error_app1 by lia. auto.
    + rewrite nth_error_app2 by lia. rewrite Hf.
      rewrite <- (firstn_skipn i l) at 2. rewrite nth_error_app2 by lia. rewrite Hf, E.
      destruct (j - i) as [|k] eqn:Ek; [lia|]. reflexivity.
Qed.

Lemma running_false h : running h = false <-> was_started h = false \/ was_stopped h = true.
Proof. unfold running. destruct (was_started h), (was_stopped h); cbn; intuition congruence. Qed.

Lemma SS_impl {A} (R R' : A -> A -> Prop) l :
  (forall a b, In a l -> In b l -> R a b -> R' a b) -> StronglySorted R l -> StronglySorted R' l.
Proof.
  intros Hi Hs. induction Hs as [|a l Hs IH Hf]; constructor.
  - apply IH. intros; apply Hi; cbn; auto.
  - rewrite Forall_forall in *. intros x Hx. apply Hi; cbn; auto.
Qed.

Lemma SS_snoc {A} (R : A -> A -> Prop) l x :
  StronglySorted R l -> (forall a, In a l -> R a x) -> StronglySorted R (l ++ [x]).
Proof.
  intros Hs Ha. induction Hs as [|a l Hs IH Hf]; cbn.
  - repeat constructor.
  - constructor.
    + apply IH. intros; apply Ha; cbn; auto.
    + apply Forall_app. split; auto. constructor; auto. apply Ha; cbn; auto.
Qed.

Lemma SS_ddel {V} (R : rname -> rname -> Prop) (d : dict rname V) n :
  StronglySorted R (keys d) -> StronglySorted R (keys (ddel d n)).
Proof.
  induction d as [|[k v] d IH]; cbn [keys map ddel fst]; auto.
  intros Hs. inversion Hs as [|? ? Hs' Hf]; subst.
  destruct (eqb n k); auto. cbn [keys map fst]. constructor; [apply IH; auto|].
  rewrite Forall_forall in *. intros x Hx. apply Hf. eapply keys_ddel_subset; eauto.
Qed.

(** entries that leave the dictionaries alone *)
Definition quiet (e : entry) : Prop :=
  match e with
  | {| e_op := OBind _ _; e_res := Ok (RRoute _ _) |} => False
  | {| e_op := OUnbind _; e_res := Ok _ |} => False
  | {| e_op := OStart _ |} => False
  | {| e_op := OStop _; e_res := Ok _ |} => False
  | _ => True
  end.

Lemma quiet_spec e h : quiet e ->
  (forall rid, route_info (e :: h) rid = route_info h rid)
  /\ (forall n, bound (e :: h) n = bound h n)
  /\ was_started (e :: h) = was_started h
  /\ was_stopped (e :: h) = was_stopped h
  /\ sender_of (e :: h) = sender_of h
  /\ (forall n, bound_since (e :: h) n = bound_since h n).
Proof.
  destruct e as [o r ev]; destruct o; destruct r as [[| |]|]; cbn; try tauto.
  all: intros _; repeat split; auto.
Qed.

Lemma inv_quiet e h s s' : Inv h s -> quiet e ->
  started s' = started s -> unstarted s' = unstarted s -> sender s' = sender s ->
  length (routes_made s') = length (routes_made s) ->
  (forall rid r, nth_error (routes_made s) rid = Some r ->
     exists r', nth_error (routes_made s') rid = Some r' /\ r_recv r' = r_recv r
                /\ r_local r' = r_local r /\ r_remote r' = remote_of (e :: h) rid) ->
  (forall rid, nth_error (routes_made s) rid = None ->
     remote_of (e :: h) rid = remote_of h rid) ->
  Inv (e :: h) s'.
Proof.
  intros [I1 I2 I3 I4 I5 I6 I7] Hq E1 E2 E3 Hlen Hr Hn.
  destruct (quiet_spec e h Hq) as (Q1 & Q2 & Q3 & Q4 & Q5 & Q6).
  constructor.
  - intros rid. rewrite Q1. destruct (I1 rid) as [[H1 H2]|(r & H1 & H2 & H3)].
    + left. split; auto. apply nth_error_None. rewrite Hlen. now apply nth_error_None.
    + right. destruct (Hr rid r H1) as (r' & G1 & G2 & G3 & G4). exists r'.
      rewrite G2, G3. auto.
  - intros rid Hnone. assert (Hno : nth_error (routes_made s) rid = None).
    { apply nth_error_None. rewrite <- Hlen. now apply nth_error_None. }
    rewrite Hn; auto.
  - rewrite E1. unfold running. rewrite Q3, Q4. exact I3.
  - rewrite E2, Q3. exact I4.
  - now rewrite E3, Q5.
  - now rewrite Q3, Q4.
  - intros d Hd. unfold table in Hd. rewrite E1, E2 in Hd.
    destruct (I7 d Hd) as (W & G & M & So & L).
    split; auto. split; [|split; [|split]].
    + intros n. rewrite Q2. apply G.
    + intros n rid Hb. rewrite Q2 in Hb. destruct (M n rid Hb) as (r & H1 & H2).
      destruct (Hr rid r H1) as (r' & G1 & G2 & G3 & _).
      exists r'. rewrite G3. auto.
    + eapply SS_impl; [|exact So]. intros a b _ _. rewrite !Q6. auto.
    + intros n Hin. rewrite Q6. cbn. apply L in Hin. lia.
Qed.

Lemma remote_of_other e h rid :
  (forall i rem, e_op e = OConnect i rem -> i <> rid \/ forall x, e_res e <> Ok x) ->
  remote_of (e :: h) rid = remote_of h rid.
Proof.
  destruct e as [o r ev]. cbn. intros H. destruct o; auto. destruct r; auto.
  destruct (H _ _ eq_refl) as [Hn|Hn].
  - apply Nat.eqb_neq in Hn. now rewrite Hn.
  - exfalso; eapply Hn; eauto.
Qed.

Lemma inv_same e h s : Inv h s -> quiet e ->
  (forall i rem, e_op e = OConnect i rem -> forall x, e_res e <> Ok x) ->
  forall s', s' = {| routes_made := routes_made s; started := started s;
                     unstarted := unstarted s; sender := sender s; counter := counter s' |} ->
  Inv (e :: h) s'.
Proof.
  intros HI Hq Ho s' ->.
  eapply inv_quiet; eauto; cbn [started unstarted sender routes_made]; auto.
  - intros rid r Hr. exists r. split; [auto|]. split; [auto|]. split; [auto|].
    rewrite remote_of_other by eauto.
    destruct (inv_info _ _ HI rid) as [[H1 H2]|(r0 & H1 & H2 & H3)]; congruence.
  - intros rid _. apply remote_of_other. eauto.
Qed.

Lemma inv_bind h s recv nm (c : N) ev name : Inv h s ->
  forall d, table s = Some d ->
  let rid := length (routes_made s) in
  let s' := {| routes_made := routes_made s ++ [{| r_recv := recv; r_local := nm; r_remote := None |}];
               started := match started s with Some d => Some (dset d nm rid) | None => None end;
               unstarted := match started s with
                            | Some _ => unstarted s
                            | None => Some (dset d nm rid) end;
               sender := sender s; counter := c |} in
  Inv ({| e_op := OBind recv name; e_res := Ok (RRoute rid nm); e_ev := ev |} :: h) s'.
Proof.
  intros [I1 I2 I3 I4 I5 I6 I7] d Hd rid s'.
  constructor; cbn [route_info remote_of sender_of was_started was_stopped].
  - intros i. destruct (Nat.eqb_spec rid i) as [Heq|Hne].
    + right. exists {| r_recv := recv; r_local := nm; r_remote := None |}.
      subst i. cbn. rewrite nth_error_app2 by (unfold rid; lia).
      unfold rid. rewrite Nat.sub_diag. cbn. repeat split.
      symmetry. apply I2. apply nth_error_None. lia.
    + destruct (I1 i) as [[H1 H2]|(r & H1 & H2 & H3)].
      * left. split; auto. apply nth_error_None in H1. apply nth_error_None.
        cbn. rewrite app_length. cbn. unfold rid in Hne. lia.
      * right. exists r. cbn. rewrite nth_error_app1; auto.
        apply nth_error_Some. congruence.
  - intros i Hi. apply I2. apply nth_error_None in Hi. apply nth_error_None.
    cbn in Hi. rewrite app_length in Hi. lia.
  - unfold running. cbn [was_started was_stopped]. cbn [started s'].
    unfold running in I3. rewrite <- I3. destruct (started s); intuition congruence.
  - cbn [unstarted s']. rewrite <- I4. unfold table in Hd.
    destruct (started s); [reflexivity|]. rewrite Hd. intuition congruence.
  - exact I5.
  - exact I6.
  - intros d' Hd'.
    assert (d' = dset d nm rid) as ->.
    { unfold table in *. cbn in Hd'. destruct (started s); congruence. }
    destruct (I7 d Hd) as (W & G & M & So & L).
    split; [eauto with dict|]. split; [|split; [|split]].
    + intros n. rewrite dget_dset. cbn [bound].
      rewrite (eqb_sym nm n). destruct (eqb n nm); auto.
    + intros n i. cbn [bound]. destruct (eqb_spec nm n) as [->|Hnm].
      * intros E; inversion E; subst i.
        exists {| r_recv := recv; r_local := n; r_remote := None |}.
        cbn. rewrite nth_error_app2 by (unfold rid; lia).
        unfold rid. rewrite Nat.sub_diag. auto.
      * intros E. destruct (M n i E) as (r & H1 & H2). exists r. split; auto. cbn.
        rewrite nth_error_app1; auto. apply nth_error_Some. congruence.
    + assert (Hs : StronglySorted (fun a b => bound_since
         ({| e_op := OBind recv name; e_res := Ok (RRoute rid nm); e_ev := ev |} :: h) a <
         bound_since
         ({| e_op := OBind recv name; e_res := Ok (RRoute rid nm); e_ev := ev |} :: h) b) (keys d)).
      { eapply SS_impl; [|exact So]. intros a b Ha Hb. cbn [bound_since].
        assert (K : forall n, In n (keys d) -> (if eqb nm n then
            match bound h n with Some _ => bound_since h n | None => length h end
            else bound_since h n) = bound_since h n).
        { intros n Hn. destruct (eqb nm n); auto. rewrite <- G.
          destruct (dget d n) eqn:E; [|apply dget_None in E; tauto]. auto. }
        rewrite !K by auto. auto. }
      destruct (in_dec eqdec nm (keys d)) as [Hin|Hni].
      * rewrite keys_dset_in by auto. exact Hs.
      * rewrite keys_dset_new by auto. unfold keys. rewrite map_app. cbn [map fst].
        apply SS_snoc; [exact Hs|].
        intros a Ha. cbn [bound_since]. fold (keys d) in Ha.
        destruct (eqb_spec nm a) as [->|Hna]; [tauto|]. rewrite eqb_refl.
        assert (Hg : dget d nm = None) by (apply dget_None; auto).
        rewrite <- G, Hg. auto.
    + intros n Hn. apply keys_dset in Hn. cbn [bound_since length].
      destruct (eqb_spec nm n) as [->|Hne].
      * rewrite <- G. destruct (dget d n) eqn:E; [|lia].
        apply dget_Some_keys in E. apply L in E. lia.
      * destruct Hn as [Hn|Hn]; [congruence|]. apply L in Hn. lia.
Qed.

Lemma inv_connect h s rid r rem ev : Inv h s -> nth_error (routes_made s) rid = Some r ->
  Inv ({| e_op := OConnect rid rem; e_res := Ok RNone; e_ev := ev |} :: h)
    (set_made s (upd_nth (routes_made s) rid
       {| r_recv := r_recv r; r_local := r_local r; r_remote := Some rem |})).
Proof.
  intros HI Hr. assert (Hl : rid < length (routes_made s)) by (apply nth_error_Some; congruence).
  eapply inv_quiet; eauto; cbn [started unstarted sender routes_made set_made quiet]; auto.
  - apply upd_nth_length.
  - intros i r0 Hi. rewrite upd_nth_nth by auto.
    cbn [remote_of]. rewrite (Nat.eqb_sym rid i).
    destruct (Nat.eqb_spec i rid) as [->|Hne].
    + rewrite Hr in Hi. inversion Hi; subst. eexists; split; [reflexivity|]. auto.
    + exists r0. repeat split; auto.
      destruct (inv_info _ _ HI i) as [[H1 H2]|(r1 & H1 & H2 & H3)]; congruence.
  - intros i Hi. cbn [remote_of]. destruct (Nat.eqb_spec rid i) as [->|]; [congruence|auto].
Qed.

Lemma inv_unbind h s rid r d ev : Inv h s -> nth_error (routes_made s) rid = Some r ->
  started s = Some d ->
  Inv ({| e_op := OUnbind rid; e_res := Ok RNone; e_ev := ev |} :: h)
    {| routes_made := routes_made s; started := Some (ddel d (r_local r));
       unstarted := unstarted s; sender := sender s; counter := counter s |}.
Proof.
  intros [I1 I2 I3 I4 I5 I6 I7] Hr Hd.
  assert (Hinfo : route_info h rid = Some (r_recv r, r_local r)).
  { destruct (I1 rid) as [[H1 H2]|(r1 & H1 & H2 & H3)]; congruence. }
  constructor; cbn [route_info remote_of sender_of was_started was_stopped routes_made
                    started unstarted sender]; auto.
  - unfold running. cbn [was_started was_stopped]. unfold running in I3. rewrite <- I3, Hd.
    intuition congruence.
  - intros d' Hd'. cbn in Hd'. inversion Hd'; subst d'.
    destruct (I7 d) as (W & G & M & So & L); [unfold table; now rewrite Hd|].
    split; [eauto with dict|]. split; [|split; [|split]].
    + intros n. rewrite dget_ddel by auto. cbn [bound]. rewrite Hinfo.
      rewrite (eqb_sym (r_local r) n). destruct (eqb n (r_local r)); auto.
    + intros n i. cbn [bound]. rewrite Hinfo. destruct (eqb (r_local r) n); [discriminate|].
      apply M.
    + apply SS_ddel. exact So.
    + intros n Hn. cbn. apply keys_ddel_subset in Hn. apply L in Hn. lia.
Qed.

Theorem reach_inv h s : Reach h s -> Inv h s.
Proof.
  induction 1 as [|h s o r s' ev HR HI Hs].
  - constructor; cbn; auto; try tauto; try (intuition congruence).
    + intros rid. left. split; auto. now destruct rid.
    + intros d Hd. inversion Hd; subst. cbn. split; [constructor|]. split; [auto|].
      split; [discriminate|]. split; [constructor|tauto].
  - destruct o; cbn [step] in Hs.
    + (* OCreate *) inversion Hs; subst. eapply inv_same; eauto; cbn; auto; discriminate.
    + (* OBind *)
      unfold bindRoute in Hs.
      set (p := match name with Some n => (n, s) | None => _ end) in Hs.
      assert (Hp : exists nm c, p = (nm, {| routes_made := routes_made s; started := started s;
           unstarted := unstarted s; sender := sender s; counter := c |})).
      { unfold p. destruct name as [n|]; cbn.
        - exists n, (counter s). now destruct s.
        - eexists _, _. reflexivity. }
      destruct Hp as (nm & c & Hp). rewrite Hp in Hs. cbn [started unstarted routes_made sender counter] in Hs.
      destruct (started s) as [d|] eqn:Es.
      * inversion Hs; subst.
        pose proof (inv_bind h s recv nm c [] name HI d) as Hb.
        unfold table in Hb. rewrite Es in Hb. apply Hb. auto.
      * destruct (unstarted s) as [d|] eqn:Eu.
        -- inversion Hs; subst.
           pose proof (inv_bind h s recv nm c [] name HI d) as Hb.
           unfold table in Hb. rewrite Es in Hb. apply Hb. auto.
        -- inversion Hs; subst. eapply inv_same; eauto; cbn; auto; try discriminate.
           now rewrite Es, Eu.
    + (* OConnect *)
      destruct (nth_error (routes_made s) rid) as [r0|] eqn:Er.
      * unfold connectTo in Hs. inversion Hs; subst. now apply inv_connect.
      * inversion Hs; subst. eapply inv_same; eauto; cbn; auto; try discriminate.
        now destruct s'.
    + (* OUnbind *)
      destruct (nth_error (routes_made s) rid) as [r0|] eqn:Er.
      * unfold unbind in Hs. destruct (started s) as [d|] eqn:Es.
        -- destruct (din d (r_local r0)) eqn:Ed; inversion Hs; subst.
           ++ eapply inv_unbind; eauto.
           ++ eapply inv_same; eauto; cbn; auto; try discriminate. now destruct s'.
        -- inversion Hs; subst. eapply inv_same; eauto; cbn; auto; try discriminate.
           now destruct s'.
      * inversion Hs; subst. eapply inv_same; eauto; cbn; auto; try discriminate.
        now destruct s'.
    + (* OStart *)
      unfold startReceivingBoxes in Hs. destruct HI as [I1 I2 I3 I4 I5 I6 I7].
      destruct (unstarted s) as [d|] eqn:Eu; inversion Hs; subst;
        constructor; cbn [route_info remote_of sender_of was_started was_stopped routes_made
                    started unstarted sender]; auto; try tauto.
      * unfold running. cbn [was_started was_stopped].
        assert (was_started h = false) by (destruct (was_started h); intuition congruence).
        destruct (was_stopped h); [intuition congruence|]. cbn. intuition congruence.
      * intros d' Hd'. cbn in Hd'. inversion Hd'; subst d'.
        assert (Hs0 : started s = None).
        { apply I3. unfold running. destruct (was_started h) eqn:Ew; auto.
          assert (unstarted s = None) by (rewrite Eu; apply I4; auto). congruence. }
        destruct (I7 d) as (W & G & M & So & L); [unfold table; now rewrite Hs0|].
        repeat split; auto. intros n Hn. cbn. apply L in Hn. lia.
      * unfold running. cbn [was_started was_stopped]. unfold running in I3.
        assert (Hw : was_started h = true) by (apply I4; auto). rewrite Hw in I3. exact I3.
      * intros d' Hd'. unfold table in *. cbn in Hd'.
        destruct (started s) as [d0|] eqn:Es; [|discriminate]. inversion Hd'; subst.
        destruct (I7 d') as (W & G & M & So & L); auto.
        repeat split; auto. intros n Hn. cbn. apply L in Hn. lia.
    + (* OReceive *)
      unfold ampBoxReceived in Hs.
      assert (s' = s) as -> by (destruct (started s) as [d|]; [destruct (dget d _) as [x|];
         [destruct (nth_error _ x)|]|]; inversion Hs; auto).
      eapply inv_same; eauto; cbn; auto; try discriminate. now destruct s.
    + (* OStop *)
      unfold stopReceivingBoxes in Hs. destruct (started s) as [d|] eqn:Es; inversion Hs; subst.
      * destruct HI as [I1 I2 I3 I4 I5 I6 I7].
        assert (Hw : was_started h = true).
        { destruct (was_started h) eqn:Ew; auto. exfalso.
          assert (started s = None); [|congruence].
          apply I3. unfold running. now rewrite Ew. }
        constructor; cbn [route_info remote_of sender_of was_started was_stopped routes_made
                    started unstarted sender]; auto; try tauto.
        -- unfold running. cbn [was_started was_stopped]. rewrite Hw. cbn. tauto.
        -- intros d' Hd'. unfold table in *. cbn in Hd'.
           assert (unstarted s = None) by (apply I4; auto). congruence.
      * eapply inv_same; eauto; cbn; auto; try discriminate. now destruct s'.
    + (* OSend *)
      destruct (nth_error (routes_made s) rid) as [r0|] eqn:Er.
      * unfold sendBox in Hs.
        assert (s' = s) as -> by (destruct (r_remote r0); [destruct (sender s)|]; inversion Hs; auto).
        eapply inv_same; eauto; cbn; auto; try discriminate. now destruct s.
      * inversion Hs; subst. eapply inv_same; eauto; cbn; auto; try discriminate.
        now destruct s'.
    + (* OError *)
      destruct (nth_error (routes_made s) rid) as [r0|] eqn:Er.
      * unfold unhandledError in Hs.
        assert (s' = s) as -> by (destruct (sender s); inversion Hs; auto).
        eapply inv_same; eauto; cbn; auto; try discriminate. now destruct s.
      * inversion Hs; subst. eapply inv_same; eauto; cbn; auto; try discriminate.
        now destruct s'.
Qed.

(** ** C07: delivery *)

Theorem receive_spec h s b : Reach h s -> wf_dict b ->
  step s (OReceive b) =
    (if running h then
       match bound h (dget b ROUTE) with
       | Some rid => Ok RNone
       | None => Err KeyError
       end
     else Err TypeError,
     s,
     if running h then
       match bound h (dget b ROUTE) with
       | Some rid => match route_info h rid with
                     | Some (recv, _) => [EBox recv (ddel b ROUTE)]
                     | None => []
                     end
       | None => []
       end
     else [])
  /\ forall rid, bound h (dget b ROUTE) = Some rid -> running h = true ->
       exists recv, route_info h rid = Some (recv, dget b ROUTE).
Proof.
  intros HR Hb. pose proof (reach_inv h s HR) as [I1 I2 I3 I4 I5 I6 I7].
  cbn [step]. unfold ampBoxReceived.
  destruct (started s) as [d|] eqn:Es.
  - assert (Hr : running h = true) by (destruct (running h); intuition congruence).
    rewrite Hr. destruct (I7 d) as (W & G & M & So & L); [unfold table; now rewrite Es|].
    rewrite G. destruct (bound h (dget b ROUTE)) as [rid|] eqn:Eb.
    + destruct (M _ _ Eb) as (r & H1 & H2).
      destruct (I1 rid) as [[H3 H4]|(r0 & H3 & H4 & H5)]; [congruence|].
      assert (r0 = r) by congruence. subst r0.
      rewrite H1, H4. split; auto. intros rid' E _. inversion E; subst rid'.
      exists (r_recv r). rewrite H4, H2. auto.
    + split; auto. discriminate.
  - assert (Hr : running h = false) by (apply I3; auto). rewrite Hr.
    split; auto. discriminate.
Qed.

(** ** C08, C09: identifiers *)

Lemma step_counter s o r s' ev : step s o = (r, s', ev) ->
  (generated {| e_op := o; e_res := r; e_ev := ev |} = [] /\ (counter s <= counter s')%N)
  \/ (generated {| e_op := o; e_res := r; e_ev := ev |} = [dec (counter s)]
      /\ counter s' = (counter s + 1)%N).
Proof.
  destruct o; cbn [step]; intros E.
  - inversion E; subst. right. auto.
  - unfold bindRoute in E. destruct name as [n|]; cbn in E.
    + left. destruct (started s); [|destruct (unstarted s)]; inversion E; subst; cbn; split; auto; lia.
    + destruct (started s); [|destruct (unstarted s)]; inversion E; subst; cbn.
      * right; auto.
      * right; auto.
      * left. split; auto. lia.
  - left. destruct (nth_error (routes_made s) rid); [unfold connectTo in E|]; inversion E; subst; cbn;
      split; auto; lia.
  - left. destruct (nth_error (routes_made s) rid); [unfold unbind in E; destruct (started s) as [d|];
      [destruct (din d _)|]|]; inversion E; subst; cbn; split; auto; lia.
  - left. unfold startReceivingBoxes in E. destruct (unstarted s); inversion E; subst; cbn; split; auto; lia.
  - left. destruct (ampBoxReceived s b). inversion E; subst; cbn; split; auto; lia.
  - left. unfold stopReceivingBoxes in E. destruct (started s); inversion E; subst; cbn; split; auto; lia.
  - left. destruct (nth_error (routes_made s) rid); [destruct (sendBox _ _ _)|]; inversion E; subst; cbn;
      split; auto; lia.
  - left. destruct (nth_error (routes_made s) rid); [destruct (unhandledError _ _)|]; inversion E; subst; cbn;
      split; auto; lia.
Qed.

Lemma generated_inv h s : Reach h s ->
  NoDup (flat_map generated h)
  /\ forall i, In i (flat_map generated h) -> exists k, (k < counter s)%N /\ i = dec k.
Proof.
  induction 1 as [|h s o r s' ev HR [IH1 IH2] Hs].
  - cbn. split; [constructor|tauto].
  - cbn [flat_map]. destruct (step_counter _ _ _ _ _ Hs) as [[E Hc]|[E Hc]]; rewrite E; cbn [app].
    + split; auto. intros i Hi. destruct (IH2 i Hi) as (k & Hk & ->). exists k. split; auto. lia.
    + split.
      * constructor; auto. intros Hin. destruct (IH2 _ Hin) as (k & Hk & Ed).
        apply dec_inj in Ed. lia.
      * intros i [<-|Hi].
        -- exists (counter s). split; auto. lia.
        -- destruct (IH2 i Hi) as (k & Hk & ->). exists k. split; auto. lia.
Qed.

Theorem generated_nodup h s : Reach h s -> NoDup (flat_map generated h).
Proof. intros HR. apply (generated_inv h s HR). Qed.

(** the names explicitly chosen by callers *)
Definition explicit (e : entry) : list rname :=
  match e with {| e_op := OBind _ (Some n) |} => [n] | _ => [] end.

Definition is_numeral (n : rname) : Prop := exists k, n = Some (dec k).

Lemma bound_names_inv h s : Reach h s -> forall n rid, bound h n = Some rid ->
  In n (flat_map explicit h) \/ exists k, n = Some (dec k) /\ (k < counter s)%N.
Proof.
  induction 1 as [|h s o r s' ev HR IH Hs]; intros n rid Hb; [discriminate|].
  pose proof (step_counter _ _ _ _ _ Hs) as Hc.
  assert (Hmon : (counter s <= counter s')%N) by (destruct Hc as [[_ ?]|[_ ->]]; lia).
  assert (Hold : bound h n = Some rid ->
     In n (flat_map explicit ({| e_op := o; e_res := r; e_ev := ev |} :: h))
     \/ exists k, n = Some (dec k) /\ (k < counter s')%N).
  { intros Hb'. destruct (IH n rid Hb') as [Hin|(k & -> & Hk)].
    - left. cbn [flat_map]. apply in_or_app; auto.
    - right. exists k. split; auto. lia. }
  destruct o; try (apply Hold; exact Hb).
  - (* OBind *)
    destruct r as [[| |i nm]|]; try (apply Hold; exact Hb).
    cbn [bound] in Hb. destruct (eqb_spec nm n) as [->|]; [|auto].
    cbn [step] in Hs. unfold bindRoute in Hs. destruct name as [n0|]; cbn in Hs.
    + left. assert (n = n0) as ->
        by (destruct (started s); [|destruct (unstarted s)]; inversion Hs; auto).
      cbn. auto.
    + right. exists (counter s).
      destruct (started s); [|destruct (unstarted s)]; inversion Hs; subst; cbn; split; auto; lia.
  - (* OUnbind *)
    destruct r; try (apply Hold; exact Hb). cbn [bound] in Hb.
    destruct (route_info h rid0) as [[? nm]|]; auto. destruct (eqb nm n); [discriminate|auto].
Qed.

Theorem fresh_identifier h s : Reach h s ->
  (forall n, In n (flat_map explicit h) -> ~ is_numeral n) ->
  forall i s' ev, step s OCreate = (Ok (RId i), s', ev) -> bound h (Some i) = None.
Proof.
  intros HR Hex i s' ev E. cbn in E. inversion E; subst.
  destruct (bound h (Some (dec (counter s)))) as [rid|] eqn:Eb; auto.
  destruct (bound_names_inv h s HR _ _ Eb) as [Hin|(k & Ek & Hk)].
  - exfalso. apply (Hex _ Hin). exists (counter s). auto.
  - inversion Ek as [Ek']. apply dec_inj in Ek'. lia.
Qed.

Theorem fresh_chosen h s : Reach h s -> forall i s' ev rid, step s OCreate = (Ok (RId i), s', ev) -> bound h (Some i) = Some rid -> In (Some i) (flat_map explicit h).
Proof.
  intros HR i s' ev rid E Eb. cbn in E. inversion E; subst. destruct (bound_names_inv h s HR _ _ Eb) as [Hin|(k & Ek & Hk)]; [exact Hin|].
  inversion Ek as [Ek']. apply dec_inj in Ek'. lia.
Qed.

Theorem fresh_identifier_refuted : exists h s i s' ev rid, Reach h s
  /\ step s OCreate = (Ok (RId i), s', ev) /\ bound h (Some i) = Some rid.
Proof.
  do 6 eexists. split; [|split].
  - eapply Reach_step with (o := OBind 7 (Some (Some (lit "0")))); [apply Reach_init|reflexivity].
  - reflexivity.
  - reflexivity.
Qed.

(** ** C11: stopping *)

Theorem stop_spec h s reason : Reach h s ->
  if running h then
    exists s' names, step s (OStop reason) =
        (Ok RNone, s', flat_map (fun n => match bound h n with
                                          | Some rid => match route_info h rid with
                                                        | Some (recv, _) => [EStop recv reason]
                                                        | None => [] end
                                          | None => [] end) names)
      /\ NoDup names
      /\ (forall n, In n names <-> bound h n <> None)
      /\ (forall n rid, bound h n = Some rid -> exists recv, route_info h rid = Some (recv, n))
      /\ StronglySorted (fun a b => bound_since h a < bound_since h b) names
  else step s (OStop reason) = (Err AttributeError, s, []).
Proof.
  intros HR. pose proof (reach_inv h s HR) as [I1 I2 I3 I4 I5 I6 I7].
  cbn [step]. unfold stopReceivingBoxes.
  destruct (started s) as [d|] eqn:Es.
  - assert (Hr : running h = true) by (destruct (running h); intuition congruence).
    rewrite Hr. destruct (I7 d) as (W & G & M & So & L); [unfold table; now rewrite Es|].
    eexists _, (keys d). split; [|split; [|split; [|split]]].
    + f_equal. unfold stop_events. clear So L.
      assert (K : forall p, In p d -> dget d (fst p) = Some (snd p)).
      { intros [k v] Hp. apply In_dget; auto. }
      assert (E : forall l : dict rname nat, (forall p, In p l -> dget d (fst p) = Some (snd p)) ->
        flat_map (fun rid : nat => match nth_error (routes_made s) rid with
           | Some r => [EStop (r_recv r) reason] | None => [] end) (values l) =
        flat_map (fun n => match bound h n with
                                          | Some rid => match route_info h rid with
                                                        | Some (recv, _) => [EStop recv reason]
                                                        | None => [] end
                                          | None => [] end) (keys l)); [|now apply E].
      induction l as [|[k v] l IH]; intros Hl; cbn [values keys map flat_map fst snd]; auto.
      f_equal; [|apply IH; intros; apply Hl; cbn; auto].
      specialize (Hl (k, v) (or_introl eq_refl)). cbn in Hl. rewrite <- G, Hl.
      destruct (I1 v) as [[H3 H4]|(r0 & H3 & H4 & H5)]; rewrite H3, H4; auto.
    + exact W.
    + intros n. rewrite <- G. rewrite dget_None.
      destruct (in_dec eqdec n (keys d)); tauto.
    + intros n rid Hb. destruct (M _ _ Hb) as (r & H1 & H2).
      destruct (I1 rid) as [[H3 H4]|(r0 & H3 & H4 & H5)]; [congruence|].
      assert (r0 = r) by congruence. subst r0. exists (r_recv r). now rewrite H4, H2.
    + exact So.
  - assert (Hr : running h = false) by (apply I3; auto). rewrite Hr. auto.
Qed.

(** ** C12: sending *)

Theorem send_spec h s rid recv nm b : Reach h s -> route_info h rid = Some (recv, nm) ->
  step s (OSend rid b) =
    match remote_of h rid with
    | None => (Err RouteNotConnected, s, [])
    | Some rem =>
        match sender_of h with
        | None => (Err AttributeError, s, [])
        | Some sn => (Ok RNone, s,
            [ESend sn (match rem with Some n => dset b ROUTE n | None => b end)])
        end
    end.
Proof.
  intros HR Hi. pose proof (reach_inv h s HR) as [I1 I2 I3 I4 I5 I6 I7].
  cbn [step]. destruct (I1 rid) as [[H3 H4]|(r0 & H3 & H4 & H5)]; [congruence|].
  rewrite H3. unfold sendBox. rewrite H5, I5.
  destruct (remote_of h rid); auto. destruct (sender_of h); auto.
Qed.

Theorem error_spec h s rid recv nm f : Reach h s -> route_info h rid = Some (recv, nm) ->
  step s (OError rid f) =
    match sender_of h with
    | None => (Err AttributeError, s, [])
    | Some sn => (Ok RNone, s, [EUnhandled sn f])
    end.
Proof.
  intros HR Hi. pose proof (reach_inv h s HR) as [I1 I2 I3 I4 I5 I6 I7].
  cbn [step]. destruct (I1 rid) as [[H3 H4]|(r0 & H3 & H4 & H5)]; [congruence|].
  rewrite H3. unfold unhandledError. rewrite I5. destruct (sender_of h); auto.
Qed.

(** ** C10: starting receivers *)

Fixpoint count_starts (ev : list event) (rid : nat) : nat :=
  match ev with
  | [] => 0
  | EStart _ i :: t => (if Nat.eqb i rid then 1 else 0) + count_starts t rid
  | _ :: t => count_starts t rid
  end.

(** how often the receiver of a route was told to start, with that route *)
Fixpoint starts (h : history) (rid : nat) : nat :=
  match h with [] => 0 | e :: t => count_starts (e_ev e) rid + starts t rid end.

(** how often a route was connected *)
Fixpoint connects (h : history) (rid : nat) : nat :=
  match h with
  | [] => 0
  | {| e_op := OConnect i _; e_res := Ok _ |} :: t =>
      (if Nat.eqb i rid then 1 else 0) + connects t rid
  | _ :: t => connects t rid
  end.

(** the route is the one bound under its own name *)
Definition is_bound (h : history) (rid : nat) : bool :=
  match route_info h rid with
  | Some (_, nm) => eqb (bound h nm) (Some rid)
  | None => false
  end.

Definition is_connected (h : history) (rid : nat) : bool :=
  match remote_of h rid with Some _ => true | None => false end.

(** the specification: one start for every connection made once the router has
    been started, and one at the router's start if the route was already
    connected and bound then *)
Fixpoint starts_spec (h : history) (rid : nat) : nat :=
  match h with
  | [] => 0
  | {| e_op := OConnect i _; e_res := Ok _ |} :: t =>
      (if Nat.eqb i rid && was_started t then 1 else 0) + starts_spec t rid
  | {| e_op := OStart _ |} :: t =>
      (if negb (was_started t) && is_connected t rid && is_bound t rid then 1 else 0)
      + starts_spec t rid
  | _ :: t => starts_spec t rid
  end.

Lemma count_starts_app a b rid :
  count_starts (a ++ b) rid = count_starts a rid + count_starts b rid.
Proof. induction a as [|[] a IH]; cbn; auto. rewrite IH. lia. Qed.

Lemma count_start_events s (l : dict rname nat) rid r :
  nth_error (routes_made s) rid = Some r ->
  wf_dict l ->
  (forall n i, dget l n = Some i -> exists r, nth_error (routes_made s) i = Some r /\ r_local r = n) ->
  count_starts (start_events s l) rid =
    if match r_remote r with Some _ => true | None => false end
       && eqb (dget l (r_local r)) (Some rid)
    then 1 else 0.
Proof.
  intros Hr. unfold start_events. induction l as [|[k v] l IH]; intros W Hd.
  - cbn. destruct (r_remote r); auto.
  - cbn [values map flat_map snd]. rewrite count_starts_app.
    change (map snd l) with (values l).
    inversion W as [|? ? Hni W']; subst. fold (keys l) in *.
    assert (Hd' : forall n i, dget l n = Some i ->
        exists r, nth_error (routes_made s) i = Some r /\ r_local r = n).
    { intros n i E. apply Hd. cbn [dget]. destruct (eqb_spec n k) as [->|]; auto.
      apply dget_Some_keys in E. tauto. }
    rewrite IH by auto. clear IH.
    destruct (Hd k v) as (rv & Hv & Hlv); [cbn [dget]; now rewrite eqb_refl|].
    rewrite Hv. cbn [dget].
    destruct (Nat.eqb_spec v rid) as [->|Hne].
    + assert (rv = r) by congruence. subst rv. rewrite Hlv.
      rewrite eqb_refl. assert (Hg : dget l k = None) by (apply dget_None; auto). rewrite Hg.
      destruct (r_remote r); cbn [count_starts route_start].
      * rewrite Nat.eqb_refl. cbn [andb]. rewrite eqb_refl. reflexivity.
      * reflexivity.
    + replace (count_starts match r_remote rv with
                            | Some _ => [route_start rv v] | None => [] end rid) with 0.
      2:{ destruct (r_remote rv); auto. cbn. apply Nat.eqb_neq in Hne. now rewrite Hne. }
      cbn [Nat.add]. destruct (eqb_spec (r_local r) k) as [Hk|Hk]; auto.
      assert (Hg : dget l k = None) by (apply dget_None; auto).
      rewrite Hk, Hg.
      assert (E1 : eqb (@None nat) (Some rid) = false) by (apply eqb_neq; discriminate).
      assert (E2 : eqb (Some v) (Some rid) = false) by (apply eqb_neq; congruence).
      rewrite E1, E2. auto.
Qed.

Lemma count_start_events_none s (l : dict rname nat) rid :
  nth_error (routes_made s) rid = None -> count_starts (start_events s l) rid = 0.
Proof.
  intros Hn. unfold start_events. induction (values l) as [|v vs IH]; cbn [flat_map]; auto.
  rewrite count_starts_app, IH. destruct (nth_error (routes_made s) v) as [r|] eqn:E; auto.
  destruct (r_remote r); auto. cbn. destruct (Nat.eqb_spec v rid); [congruence|auto].
Qed.

Lemma count_starts_nostart ev rid :
  (forall e, In e ev -> match e with EStart _ _ => False | _ => True end) ->
  count_starts ev rid = 0.
Proof.
  induction ev as [|e ev IH]; intros He; auto.
  pose proof (He e (or_introl eq_refl)). destruct e; cbn; try tauto; apply IH; intros; apply He; cbn; auto.
Qed.

Theorem starts_correct h s : Reach h s -> forall rid, starts h rid = starts_spec h rid.
Proof.
  induction 1 as [|h s o r s' ev HR IH Hs]; intros rid; auto.
  pose proof (reach_inv h s HR) as [I1 I2 I3 I4 I5 I6 I7].
  cbn [starts e_ev]. rewrite IH.
  destruct o; cbn [starts_spec]; cbn [step] in Hs.
  - inversion Hs; subst. reflexivity.
  - destruct (bindRoute s recv name). inversion Hs; subst. reflexivity.
  - destruct (nth_error (routes_made s) rid0) as [r0|] eqn:Er.
    + unfold connectTo in Hs. inversion Hs; subst. f_equal.
      rewrite I5. assert (Hw : was_started h = match sender_of h with Some _ => true | None => false end).
      { clear. induction h as [|[o r ev] h IH]; cbn; auto. destruct o; auto. }
      rewrite Hw. destruct (sender_of h); cbn.
      * destruct (Nat.eqb rid0 rid); auto.
      * now rewrite andb_false_r.
    + inversion Hs; subst. reflexivity.
  - destruct (nth_error (routes_made s) rid0) as [r0|];
      [destruct (unbind s r0)|]; inversion Hs; subst; reflexivity.
  - f_equal. unfold startReceivingBoxes in Hs.
    destruct (unstarted s) as [d|] eqn:Eu; inversion Hs; subst.
    + assert (Hw : was_started h = false) by (destruct (was_started h); intuition congruence).
      rewrite Hw. cbn [negb andb].
      assert (Hst : started s = None).
      { apply I3. unfold running. now rewrite Hw. }
      destruct (I7 d) as (W & G & M & _ & _); [unfold table; now rewrite Hst|].
      destruct (I1 rid) as [[H3 H4]|(r0 & H3 & H4 & H5)].
      * rewrite count_start_events_none by auto. unfold is_bound. rewrite H4.
        now rewrite andb_false_r.
      * rewrite (count_start_events s d rid r0); auto.
        -- unfold is_connected, is_bound. rewrite H4, H5, G. auto.
        -- intros n i E. apply M. now rewrite <- G.
    + assert (Hw : was_started h = true) by (apply I4; auto). rewrite Hw. auto.
  - unfold ampBoxReceived in Hs.
    rewrite count_starts_nostart; auto. intros e He.
    destruct (started s) as [d|]; [destruct (dget d _) as [x|];
         [destruct (nth_error _ x)|]|]; inversion Hs; subst; cbn in He; intuition subst; exact I.
  - assert (E0 : count_starts ev rid = 0).
    { apply count_starts_nostart. intros e He. unfold stopReceivingBoxes in Hs.
      destruct (started s) as [d|]; inversion Hs; subst; [|destruct He].
      unfold stop_events in He. apply in_flat_map in He as (x & _ & He).
      destruct (nth_error (routes_made s) x); [|destruct He].
      destruct He as [<-|[]]. exact I. }
    rewrite E0. reflexivity.
  - rewrite count_starts_nostart; auto. intros e He. unfold sendBox in Hs.
    destruct (nth_error (routes_made s) rid0) as [r0|];
      [destruct (r_remote r0); [destruct (sender s)|]|]; inversion Hs; subst; cbn in He;
      intuition subst; exact I.
  - rewrite count_starts_nostart; auto. intros e He. unfold unhandledError in Hs.
    destruct (nth_error (routes_made s) rid0) as [r0|];
      [destruct (sender s)|]; inversion Hs; subst; cbn in He; intuition subst; exact I.
Qed.

(** every start goes to the receiver the route was bound with *)
Theorem starts_receiver h s : Reach h s -> forall e recv rid,
  In e h -> In (EStart recv rid) (e_ev e) -> exists nm, route_info h rid = Some (recv, nm).
Proof.
  induction 1 as [|h s o r s' ev HR IH Hs]; intros e recv rid Hin Hev; [destruct Hin|].
  pose proof (reach_inv h s HR) as HI0.
  assert (HI' : Inv ({| e_op := o; e_res := r; e_ev := ev |} :: h) s')
    by (apply reach_inv; econstructor; eauto).
  assert (Hkeep : forall x, route_info h rid = Some x ->
     exists nm, route_info ({| e_op := o; e_res := r; e_ev := ev |} :: h) rid = Some (fst x, nm)).
  { intros [rc nm] Hx. exists nm. cbn [fst].
    destruct o; cbn [route_info]; auto. destruct r as [[| |i n]|]; auto.
    destruct (Nat.eqb_spec i rid) as [->|]; auto. exfalso.
    destruct (inv_info _ _ HI0 rid) as [[H1 H2]|(r1 & H1 & H2 & H3)]; [congruence|].
    assert (Hl : rid < length (routes_made s)) by (apply nth_error_Some; congruence).
    cbn [step] in Hs. unfold bindRoute in Hs.
    destruct name; cbn in Hs; (destruct (started s); [|destruct (unstarted s)]);
      inversion Hs; subst; lia. }
  destruct Hin as [<-|Hin].
  - cbn in Hev.
    assert (Hk : exists nm, route_info h rid = Some (recv, nm)).
    { destruct HI0 as [I1 I2 I3 I4 I5 I6 I7].
      destruct o; cbn [step] in Hs.
      - inversion Hs; subst. destruct Hev.
      - destruct (bindRoute s recv0 name). inversion Hs; subst. destruct Hev.
      - destruct (nth_error (routes_made s) rid0) as [r0|] eqn:Er.
        + unfold connectTo in Hs. inversion Hs; subst. destruct (sender s); [|destruct Hev].
          destruct Hev as [E|[]]. cbn in E. inversion E; subst.
          destruct (I1 rid) as [[H1 H2]|(r1 & H1 & H2 & H3)]; [congruence|].
          exists (r_local r0). congruence.
        + inversion Hs; subst. destruct Hev.
      - destruct (nth_error (routes_made s) rid0) as [r0|];
          [destruct (unbind s r0)|]; inversion Hs; subst; destruct Hev.
      - unfold startReceivingBoxes in Hs.
        destruct (unstarted s) as [d|] eqn:Eu; inversion Hs; subst; [|destruct Hev].
        unfold start_events in Hev. apply in_flat_map in Hev as (x & _ & Hx).
        destruct (nth_error (routes_made s) x) as [rx|] eqn:Ex; [|destruct Hx].
        destruct (r_remote rx); [|destruct Hx]. destruct Hx as [E|[]]. inversion E; subst.
        destruct (I1 rid) as [[H1 H2]|(r1 & H1 & H2 & H3)]; [congruence|].
        exists (r_local rx). congruence.
      - exfalso. unfold ampBoxReceived in Hs. destruct (started s) as [d|]; [destruct (dget d _) as [x|];
         [destruct (nth_error _ x)|]|]; inversion Hs; subst; cbn in Hev; intuition discriminate.
      - exfalso. unfold stopReceivingBoxes in Hs.
        destruct (started s) as [d|]; inversion Hs; subst; [|destruct Hev].
        unfold stop_events in Hev. apply in_flat_map in Hev as (x & _ & Hx).
        destruct (nth_error (routes_made s) x); [|destruct Hx].
        destruct Hx as [E|[]]. discriminate.
      - exfalso. unfold sendBox in Hs. destruct (nth_error (routes_made s) rid0) as [r0|];
          [destruct (r_remote r0); [destruct (sender s)|]|]; inversion Hs; subst; cbn in Hev;
          intuition discriminate.
      - exfalso. unfold unhandledError in Hs. destruct (nth_error (routes_made s) rid0) as [r0|];
          [destruct (sender s)|]; inversion Hs; subst; cbn in Hev; intuition discriminate. }
    destruct Hk as [nm Hk]. apply (Hkeep _ Hk).
  - destruct (IH e recv rid Hin Hev) as [nm Hk]. apply (Hkeep _ Hk).
Qed.

Lemma remote_of_connects h rid : remote_of h rid <> None <-> 1 <= connects h rid.
Proof.
  induction h as [|[o r ev] h IH]; cbn; [intuition; lia|].
  destruct o; auto. destruct r; auto. destruct (Nat.eqb rid0 rid); auto.
  split; [lia|discriminate].
Qed.

Lemma starts_spec_unstarted h rid : was_started h = false -> starts_spec h rid = 0.
Proof.
  induction h as [|[o r ev] h IH]; cbn; auto.
  destruct o; auto; try discriminate. destruct r; auto. intros Hw. rewrite Hw, andb_false_r. auto.
Qed.

Lemma starts_spec_connects h rid : starts_spec h rid <= connects h rid.
Proof.
  induction h as [|[o r ev] h IH]; cbn; auto.
  destruct o; auto.
  - destruct r; auto. destruct (Nat.eqb rid0 rid), (was_started h); cbn; lia.
  - destruct (was_started h) eqn:Ew; cbn; auto.
    rewrite starts_spec_unstarted by auto.
    destruct (is_connected h rid) eqn:Ec; cbn; [|lia].
    unfold is_connected in Ec.
    assert (1 <= connects h rid) by (apply remote_of_connects; destruct (remote_of h rid); congruence).
    destruct (is_bound h rid); lia.
Qed.

Theorem starts_at_most_once h s rid : Reach h s -> connects h rid <= 1 -> starts h rid <= 1.
Proof. intros HR Hc. rewrite (starts_correct h s HR). pose proof (starts_spec_connects h rid). lia. Qed.

Theorem starts_only_when h s rid : Reach h s -> 1 <= starts h rid ->
  was_started h = true /\ is_connected h rid = true.
Proof.
  intros HR Hs. rewrite (starts_correct h s HR) in Hs.
  pose proof (starts_spec_connects h rid). split.
  - destruct (was_started h) eqn:Ew; auto. rewrite starts_spec_unstarted in Hs by auto. lia.
  - unfold is_connected. assert (remote_of h rid <> None) by (apply remote_of_connects; lia).
    destruct (remote_of h rid); congruence.
Qed.

(** ** C13: two routers joined by an ordered connection *)

Lemma ddel_dset_absent {V} (d : dict str V) k v : ~ In k (keys d) -> ddel (dset d k v) k = d.
Proof.
  intros Hn. rewrite keys_dset_new by auto.
  induction d as [|[k1 v1] d IH]; cbn [app ddel].
  - now rewrite eqb_refl.
  - cbn in Hn. destruct (eqb_spec k k1) as [->|]; [tauto|]. f_equal. apply IH. tauto.
Qed.

(** Two routers ([true] and [false]); [toward x] is what is in flight toward
    side [x], oldest first. *)
Record net := { at_ : bool -> rstate; toward : bool -> list box }.

Inductive act :=
| Send (side : bool) (rid : nat) (b : box)  (* a route on this side sends *)
| Deliver (side : bool).                    (* this side gets its next box *)

Definition upd {A} (f : bool -> A) (x : bool) (a : A) : bool -> A :=
  fun y => if Bool.eqb y x then a else f y.

Definition sent_boxes (ev : list event) : list box :=
  flat_map (fun e => match e with ESend _ b => [b] | _ => [] end) ev.

(** what happened on which side *)
Definition net_step (n : net) (a : act) : net * list event :=
  match a with
  | Send x rid b =>
      let '(_, s', ev) := step (at_ n x) (OSend rid b) in
      ({| at_ := upd (at_ n) x s';
          toward := upd (toward n) (negb x) (toward n (negb x) ++ sent_boxes ev) |}, ev)
  | Deliver x =>
      match toward n x with
      | [] => (n, [])
      | b :: q =>
          let '(_, s', ev) := step (at_ n x) (OReceive b) in
          ({| at_ := upd (at_ n) x s'; toward := upd (toward n) x q |}, ev)
      end
  end.

(** the boxes handed to route [rid] of side [x], and those received by
    receiver [recv] of side [y], in order, along a schedule *)
Fixpoint net_run (n : net) (acts : list act) (x : bool) (rid : nat) (recv : nat)
  : net * list box * list box :=
  match acts with
  | [] => (n, [], [])
  | a :: t =>
      let '(n1, ev) := net_step n a in
      let '(n2, sent, got) := net_run n1 t x rid recv in
      (n2,
       match a with
       | Send y i b => if Bool.eqb y x && Nat.eqb i rid then b :: sent else sent
       | Deliver _ => sent
       end,
       match a with
       | Deliver y =>
           if Bool.eqb y (negb x) then
             flat_map (fun e => match e with
                                | EBox r b => if Nat.eqb r recv then [b] else []
                                | _ => [] end) ev ++ got
           else got
       | Send _ _ _ => got
       end)
  end.

(** the boxes in flight for a name, as their receiver will see them *)
Definition in_flight (q : list box) (name : rname) : list box :=
  map (fun b => ddel b (lit "_route")) (filter (fun b => eqb (dget b (lit "_route")) name) q).

Definition plain (a : act) : Prop :=
  match a with Send _ _ b => ~ In (lit "_route") (keys b) | Deliver _ => True end.

(** Routers and pairing, from the histories of the two sides: route [rid] of
    side [x] is the only one connected to [name], which the other side has
    bound to a receiver of its own. *)
Record paired (hx hy : history) (rid : nat) (name : rname) (recv : nat) : Prop := {
  p_sender : was_started hx = true;
  p_running : running hy = true;
  p_route : route_info hx rid <> None;
  p_remote : forall i, remote_of hx i = Some name <-> i = rid;
  p_bound : exists j nm, bound hy name = Some j /\ route_info hy j = Some (recv, nm);
  p_recv : forall n j nm, bound hy n = Some j -> route_info hy j = Some (recv, nm) -> n = name
}.

Lemma upd_same {A} (f : bool -> A) x a : upd f x a x = a.
Proof. unfold upd. now rewrite Bool.eqb_reflx. Qed.

Lemma upd_other {A} (f : bool -> A) x y a : y <> x -> upd f x a y = f y.
Proof. unfold upd. intros H. destruct (Bool.eqb_spec y x); congruence. Qed.

Lemma send_state s rid b : snd (fst (step s (OSend rid b))) = s.
Proof.
  cbn. unfold sendBox. destruct (nth_error (routes_made s) rid) as [r|]; auto.
  destruct (r_remote r); auto. destruct (sender s); auto.
Qed.

Lemma receive_state s b : snd (fst (step s (OReceive b))) = s.
Proof. cbn. destruct (ampBoxReceived s b). auto. Qed.

Lemma step_send_unknown s rid b : nth_error (routes_made s) rid = None ->
  step s (OSend rid b) = (Err (OtherExn 1), s, []).
Proof. intros H. cbn. now rewrite H. Qed.

Lemma in_flight_app p q name : in_flight (p ++ q) name = in_flight p name ++ in_flight q name.
Proof. unfold in_flight. rewrite filter_app, map_app. auto. Qed.

Lemma sender_started h : was_started h = true -> exists sn, sender_of h = Some sn.
Proof.
  induction h as [|[o r ev] h IH]; cbn; [discriminate|]. destruct o; eauto.
Qed.

Theorem multiplex x hx hy rid name recv : paired hx hy rid name recv ->
  forall acts n n' sent got,
  Reach hx (at_ n x) -> Reach hy (at_ n (negb x)) ->
  (forall b, In b (toward n (negb x)) -> wf_dict b) ->
  Forall plain acts -> Forall (fun a => match a with Send _ _ b => wf_dict b | _ => True end) acts ->
  net_run n acts x rid recv = (n', sent, got) ->
  in_flight (toward n (negb x)) name ++ sent = got ++ in_flight (toward n' (negb x)) name.
Proof.
  intros [Ps Pr Pro Prem (j & nm & Pb & Pi) Precv].
  induction acts as [|a acts IH]; intros n n' sent got Rx Ry Hq Hpl Hwf Hrun.
  - cbn in Hrun. inversion Hrun; subst. now rewrite app_nil_r.
  - inversion Hpl as [|? ? Hpa Hpl']; subst. inversion Hwf as [|? ? Hwa Hwf']; subst.
    cbn [net_run] in Hrun.
    destruct (net_step n a) as [n1 ev] eqn:En.
    destruct (net_run n1 acts x rid recv) as [[n2 sent1] got1] eqn:Er.
    inversion Hrun; subst n2 sent got. clear Hrun.
    destruct a as [y i b|y]; cbn [net_step] in En.
    + (* Send *)
      pose proof (send_state (at_ n y) i b) as Hst.
      destruct (step (at_ n y) (OSend i b)) as [[r s'] ev'] eqn:Es. cbn in Hst. subst s'.
      inversion En; subst n1 ev'. clear En.
      assert (Rx1 : Reach hx (at_ {| at_ := upd (at_ n) y (at_ n y);
           toward := upd (toward n) (negb y) (toward n (negb y) ++ sent_boxes ev) |} x)).
      { cbn. unfold upd. destruct (Bool.eqb_spec x y) as [->|]; auto. }
      assert (Ry1 : Reach hy (at_ {| at_ := upd (at_ n) y (at_ n y);
           toward := upd (toward n) (negb y) (toward n (negb y) ++ sent_boxes ev) |} (negb x))).
      { cbn [at_]. unfold upd. destruct (Bool.eqb_spec (negb x) y) as [<-|]; auto. }
      destruct (Bool.eqb_spec y x) as [->|Hyx]; cbn [andb].
      * (* sent on our side *)
        assert (Hev : sent_boxes ev = [] /\ i <> rid
             \/ exists rem, remote_of hx i = Some rem
                 /\ sent_boxes ev = [match rem with Some m => dset b ROUTE m | None => b end]).
        { destruct (sender_started hx Ps) as [sn Hsn].
          destruct (route_info hx i) as [[rc lc]|] eqn:Ei.
          - rewrite (send_spec hx _ i rc lc b Rx Ei), Hsn in Es.
            destruct (remote_of hx i) as [rem|] eqn:Erem.
            + right. exists rem. inversion Es; subst. auto.
            + left. inversion Es; subst. split; auto. intros ->.
              assert (remote_of hx rid = Some name) by (apply Prem; auto). congruence.
          - left. assert (Hno : nth_error (routes_made (at_ n x)) i = None).
            { destruct (inv_info _ _ (reach_inv _ _ Rx) i) as [[H1 H2]|(r1 & H1 & H2 & H3)]; congruence. }
            rewrite step_send_unknown in Es by auto. inversion Es; subst. split; auto.
            intros ->. congruence. }
        assert (Hq1 : forall b0, In b0 (upd (toward n) (negb x) (toward n (negb x) ++ sent_boxes ev) (negb x)) -> wf_dict b0).
        { rewrite upd_same. intros b0 Hb0. apply in_app_or in Hb0 as [Hb0|Hb0]; auto.
          destruct Hev as [[E _]|(rem & _ & E)]; rewrite E in Hb0; [destruct Hb0|].
          destruct Hb0 as [<-|[]]. destruct rem; auto with dict. }
        specialize (IH _ n' sent1 got1 Rx1 Ry1 Hq1 Hpl' Hwf' Er).
        cbn [toward] in IH. rewrite upd_same, in_flight_app in IH.
        rewrite <- IH. rewrite <- app_assoc. f_equal.
        destruct Hev as [[E Hne]|(rem & Erem & E)]; rewrite E.
        -- apply Nat.eqb_neq in Hne. rewrite Hne. reflexivity.
        -- unfold in_flight. fold ROUTE. cbn [filter].
           cbn [plain] in Hpa.
           assert (Hdg : dget (match rem with Some m => dset b ROUTE m | None => b end) ROUTE = rem).
           { destruct rem; [apply dget_dset_eq|]. now apply dget_None. }
           rewrite Hdg.
           destruct (Nat.eqb_spec i rid) as [->|Hne].
           ++ assert (Hrn : remote_of hx rid = Some name) by (apply Prem; auto).
              assert (rem = name) by congruence. subst rem. rewrite eqb_refl. cbn [map app].
              f_equal. destruct name.
              ** symmetry. now apply ddel_dset_absent.
              ** symmetry. now apply ddel_absent.
           ++ assert (Hrn : rem <> name) by (intros ->; apply Hne, Prem; auto).
              match goal with |- context [@eqb ?T ?I rem name] =>
                destruct (@eqb_spec T I rem name) end; [congruence|reflexivity].
      * (* sent on the other side *)
        assert (Hny : negb y = x) by (destruct x, y; cbn; congruence).
        assert (Hq1 : forall b0, In b0 (upd (toward n) (negb y) (toward n (negb y) ++ sent_boxes ev) (negb x)) -> wf_dict b0).
        { rewrite upd_other; auto. rewrite Hny. destruct x; discriminate. }
        specialize (IH _ n' sent1 got1 Rx1 Ry1 Hq1 Hpl' Hwf' Er).
        cbn [toward] in IH. rewrite upd_other in IH; auto.
        rewrite Hny. destruct x; discriminate.
    + (* Deliver *)
      destruct (toward n y) as [|b q] eqn:Eq.
      * inversion En; subst n1 ev.
        replace (if Bool.eqb y (negb x) then flat_map _ [] ++ got1 else got1) with got1
          by (destruct (Bool.eqb y (negb x)); reflexivity).
        eapply IH; eauto.
      * pose proof (receive_state (at_ n y) b) as Hst.
        destruct (step (at_ n y) (OReceive b)) as [[r s'] ev'] eqn:Es. cbn in Hst. subst s'.
        inversion En; subst n1 ev'. clear En.
        assert (Rx1 : Reach hx (at_ {| at_ := upd (at_ n) y (at_ n y);
             toward := upd (toward n) y q |} x)).
        { cbn. unfold upd. destruct (Bool.eqb_spec x y) as [->|]; auto. }
        assert (Ry1 : Reach hy (at_ {| at_ := upd (at_ n) y (at_ n y);
             toward := upd (toward n) y q |} (negb x))).
        { cbn [at_]. unfold upd. destruct (Bool.eqb_spec (negb x) y) as [<-|]; auto. }
        destruct (Bool.eqb_spec y (negb x)) as [->|Hyx].
        -- assert (Hq1 : forall b0, In b0 (upd (toward n) (negb x) q (negb x)) -> wf_dict b0).
           { rewrite upd_same. intros b0 Hb0. apply Hq. rewrite Eq. cbn; auto. }
           specialize (IH _ n' sent1 got1 Rx1 Ry1 Hq1 Hpl' Hwf' Er).
           cbn [toward] in IH. rewrite upd_same in IH.
           rewrite Eq. change (b :: q) with ([b] ++ q). rewrite in_flight_app.
           rewrite <- !app_assoc. rewrite IH. f_equal.
           assert (Wb : wf_dict b) by (apply Hq; rewrite Eq; cbn; auto).
           destruct (receive_spec hy _ b Ry Wb) as [Hrs Hri].
           rewrite Es in Hrs. rewrite Pr in Hrs. inversion Hrs as [[Hr' Hev]]. clear Hrs Hr'.
           unfold in_flight. fold ROUTE. cbn [filter map].
           destruct (eqb_spec (dget b ROUTE) name) as [E|E].
           ++ rewrite E, Pb, Pi. cbn. now rewrite Nat.eqb_refl.
           ++ destruct (bound hy (dget b ROUTE)) as [k|] eqn:Ek; [|reflexivity].
              destruct (Hri k eq_refl Pr) as [rc Hrc]. rewrite Hrc. cbn.
              destruct (Nat.eqb_spec rc recv) as [->|]; [|reflexivity].
              exfalso. apply E. eapply Precv; eauto.
        -- assert (Hq1 : forall b0, In b0 (upd (toward n) y q (negb x)) -> wf_dict b0).
           { rewrite upd_other; auto. }
           specialize (IH _ n' sent1 got1 Rx1 Ry1 Hq1 Hpl' Hwf' Er).
           cbn [toward] in IH. rewrite upd_other in IH; auto.
Qed.

(** Executing a list of operations (oldest first), for the examples *)
Definition exec (hs : history * rstate) (o : op) : history * rstate :=
  let '(r, s', ev) := step (snd hs) o in
  ({| e_op := o; e_res := r; e_ev := ev |} :: fst hs, s').

Definition run (ops : list op) : history * rstate := fold_left exec ops ([], init).

Lemma run_reach ops : Reach (fst (run ops)) (snd (run ops)).
Proof.
  unfold run. assert (G : forall hs, Reach (fst hs) (snd hs) ->
    Reach (fst (fold_left exec ops hs)) (snd (fold_left exec ops hs))).
  { induction ops as [|o ops IH]; intros hs H; cbn [fold_left]; auto.
    apply IH. unfold exec. destruct (step (snd hs) o) as [[r s'] ev] eqn:E.
    cbn [fst snd]. econstructor; eauto. }
  apply G. constructor.
Qed.
