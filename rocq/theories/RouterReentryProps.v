(** * C151-C152: routers whose receivers call back into them *)
From Coq Require Import NArith String List Bool Arith Lia.
From Verif Require Import Py PyStr PyNum AmpRouter RouterReentry.
Import ListNotations.
Open Scope nat_scope.

(** C151.  Stopping a running router stops the receiver of every route bound to it,
    whatever receivers do in the meantime, as long as they handle the exceptions they
    cause.  This is false. *)
Definition C151_full : Prop := forall react n reason w d, reached w ->
  (forall tr e o c, In (o, c) (react tr e) -> c = true) -> started (w_state w) = Some d ->
  let (w', r) := do_op react n (OStop reason) w in r <> Err NO_FUEL ->
  r = Ok RNone /\ forall e, In e (stop_events (w_state w) d reason) -> In e (w_trace w').

(** two receivers, 1 and 2, the first of which unbinds its route (route 0) when it is stopped *)
Definition tidy : list event -> event -> list (op * bool) := fun _ e => match e with EStop 1 _ => [(OUnbind 0, true)] | _ => [] end.
Definition two_routes : world := fst (do_op silent 1 (OStart 9) (fst (do_op silent 1 (OBind 2 None) (fst (do_op silent 1 (OBind 1 None) new_world))))).
Lemma two_routes_reached : reached two_routes.
Proof. exists [((silent, 1), OBind 1 None); ((silent, 1), OBind 2 None); ((silent, 1), OStart 9)]. reflexivity. Qed.

Theorem C151_refuted : ~ C151_full.
Proof.
  intros F. specialize (F tidy 2 5 two_routes (dict_now (w_state two_routes) []) two_routes_reached).
  assert (A : forall tr e o c, In (o, c) (tidy tr e) -> c = true) by (intros tr e o c; destruct e as [| [|[|]] | | |]; cbn; intuition congruence).
  specialize (F A eq_refl). vm_compute in F. destruct F as [F _]; [discriminate|]. discriminate F.
Qed.
Print Assumptions C151_refuted.

(** It goes wrong whenever the receiver of the route bound first unbinds its route when it
    is stopped, as would be tidy: stopReceivingBoxes raises RuntimeError, no other
    receiver is stopped, and the router goes on with the routes that are left. *)
Theorem C151_unbind_when_stopped : forall react n reason w k rid d r c, reached w ->
  started (w_state w) = Some ((k, rid) :: d) -> nth_error (routes_made (w_state w)) rid = Some r ->
  react (w_trace w) (EStop (r_recv r) reason) = [(OUnbind rid, c)] ->
  let (w', x) := do_op react (S (S n)) (OStop reason) w in
  x = Err RuntimeError /\ started (w_state w') = Some d /\ w_trace w' = EStop (r_recv r) reason :: w_trace w.
Proof. intros react n reason w k rid d r c H. apply stop_unbind. now apply reached_sound. Qed.
Print Assumptions C151_unbind_when_stopped.

(** What holds: if receivers only send, report errors, create identifiers, connect routes
    and cause boxes to be received, catching what these raise, then the receivers
    stopped are those of the bound routes, each once for each route, in the order
    the routes were bound. *)
Theorem C151_stop_partial : forall react n reason w, reached w ->
  (forall tr e o c, In (o, c) (react tr e) -> gentle o = true /\ c = true) ->
  let (w', r) := do_op react (S n) (OStop reason) w in r <> Err NO_FUEL ->
  match started (w_state w) with
  | None => r = Err AttributeError /\ w' = w
  | Some d => r = Ok RNone /\ started (w_state w') = None /\
      exists l, w_trace w' = l ++ w_trace w /\ filter is_stop (rev l) = stop_events (w_state w) d reason
  end.
Proof. intros react n reason w H A. apply (stop_gentle react A). now apply reached_sound. Qed.
Print Assumptions C151_stop_partial.

(** [NO_FUEL] only says that the bound on the depth is too low: any other outcome is that of
    all higher bounds. *)
Theorem C151_bound_irrelevant : forall react n k o w,
  snd (do_op react n o w) <> Err NO_FUEL -> do_op react (k + n) o w = do_op react n o w.
Proof. exact do_op_fuel. Qed.
Print Assumptions C151_bound_irrelevant.

(** Receivers that do nothing when called: every operation is that of AmpRouter.v. *)
Theorem C151_silent : forall n o w, reached w -> let '(r, s', ev) := step (w_state w) o in
  do_op silent (S n) o w = (World s' (dict_now s' (w_dict w)) (rev ev ++ w_trace w), r).
Proof. intros n o w H. apply silent_step. now apply reached_sound. Qed.
Print Assumptions C151_silent.

(** both kinds of receivers: one that unbinds; and receivers that answer the stop by
    sending a box and connecting the other route, which starts its receiver *)
Definition chatty : list event -> event -> list (op * bool) := fun _ e => match e with EStop 1 _ => [(OSend 0 [], true); (OConnect 1 None, true); (OSend 1 [], true)] | _ => [] end.
Lemma chatty_gentle tr e o c : In (o, c) (chatty tr e) -> gentle o = true /\ c = true.
Proof. destruct e as [|[|[|]]| | |]; cbn; intros H; repeat (destruct H as [H|H]; [injection H as <- <-; auto|]); destruct H. Qed.
Example C151_nonvacuous :
  let (w', r) := do_op tidy 2 (OStop 5) two_routes in
  let (w2, r2) := do_op chatty 2 (OStop 5) two_routes in
  r = Err RuntimeError /\ w_trace w' = [EStop 1 5] /\
  r2 = Ok RNone /\ w_trace w2 = [EStop 2 5; ESend 9 []; EStart 2 1; EStop 1 5] /\ (forall tr e o c, In (o, c) (chatty tr e) -> gentle o = true /\ c = true).
Proof. generalize chatty_gentle. intros H. vm_compute. do 4 (split; [reflexivity|]). exact H. Qed.

(** C152.  Starting a router starts the receiver of every bound route that has been
    connected exactly once, whatever receivers do when they are started, as long as they
    handle the exceptions they cause.  This is false. *)
Definition starts (rid : nat) (l : list event) : nat := length (filter (fun e => match e with EStart _ i => Nat.eqb i rid | _ => false end) l).
Definition C152_full : Prop := forall react n sn w d, reached w ->
  (forall tr e o c, In (o, c) (react tr e) -> c = true) -> unstarted (w_state w) = Some d ->
  let (w', r) := do_op react n (OStart sn) w in r <> Err NO_FUEL ->
  forall k rid x rem, In (k, rid) d -> nth_error (routes_made (w_state w)) rid = Some x -> r_remote x = Some rem -> starts rid (w_trace w') = starts rid (w_trace w) + 1.

(** two routes, both connected; when the receiver of the first is started it connects the
    second to another name: that one is started twice *)
Definition two_unstarted : world := fold_left (fun w o => fst (do_op silent 1 o w)) [OBind 1 None; OBind 2 None; OConnect 0 None; OConnect 1 None] new_world.
Lemma two_unstarted_reached : reached two_unstarted.
Proof. exists (map (fun o => ((silent, 1), o)) [OBind 1 None; OBind 2 None; OConnect 0 None; OConnect 1 None]). reflexivity. Qed.
Definition reconnects : list event -> event -> list (op * bool) := fun _ e => match e with EStart 1 _ => [(OConnect 1 (Some (lit "x")), true)] | _ => [] end.
Theorem C152_refuted : ~ C152_full.
Proof.
  intros F. specialize (F reconnects 3 5 two_unstarted (dict_now (w_state two_unstarted) []) two_unstarted_reached).
  assert (A : forall tr e o c, In (o, c) (reconnects tr e) -> c = true) by (intros tr e o c; destruct e as [[|[|]] | | | |]; cbn; intuition congruence).
  specialize (F A eq_refl).
  assert (D : snd (do_op reconnects 3 (OStart 5) two_unstarted) = Ok RNone) by (vm_compute; reflexivity).
  assert (T : w_trace (fst (do_op reconnects 3 (OStart 5) two_unstarted)) = [EStart 2 1; EStart 2 1; EStart 1 0]) by (vm_compute; reflexivity).
  destruct (do_op reconnects 3 (OStart 5) two_unstarted) as [w' r]. cbn [fst snd] in *. subst r. specialize (F ltac:(discriminate) (Some (dec 1)) 1 (Build_route 2 (Some (dec 1)) (Some None)) None).
  rewrite T in F. vm_compute in F. specialize (F (or_intror (or_introl eq_refl)) eq_refl eq_refl). discriminate F.
Qed.
Print Assumptions C152_refuted.

(** A receiver that binds another route when it is started breaks the router: if it is
    that of the route bound first, startReceivingBoxes raises RuntimeError, no other
    receiver is started, and although the router has its sender now it is not
    running, so that every box it receives raises TypeError. *)
Theorem C152_bind_when_started : forall react n sn w k rid d r rem recv nm c, reached w ->
  unstarted (w_state w) = Some ((k, rid) :: d) -> nth_error (routes_made (w_state w)) rid = Some r -> r_remote r = Some rem ->
  react (w_trace w) (EStart (r_recv r) rid) = [(OBind recv (Some nm), c)] -> ~ In nm (keys ((k, rid) :: d)) ->
  let (w', x) := do_op react (S (S n)) (OStart sn) w in
  x = Err RuntimeError /\ sender (w_state w') = Some sn /\ w_trace w' = EStart (r_recv r) rid :: w_trace w /\
  forall react2 m b, do_op react2 (S m) (OReceive b) w' = (w', Err TypeError).
Proof.
  intros react n sn w k rid d r rem recv nm c H Eu N Rm R Hn. pose proof (start_bind react n sn w k rid d r rem recv nm c (reached_sound w H) Eu N Rm R Hn) as T.
  pose proof (do_op_sound react (S (S n)) (OStart sn) w (reached_sound w H)) as Sd. destruct (do_op react (S (S n)) (OStart sn) w) as [w' x]. destruct T as (T1 & T2 & T3 & T4). do 3 (split; [assumption|]).
  intros react2 m b. cbn [do_op]. unfold one_op. cbn [step]. unfold ampBoxReceived. rewrite T2. unfold with_state. pose proof (s_steady _ Sd) as Q. unfold steady in Q. cbn [fst] in Q. rewrite Q. destruct w'; reflexivity.
Qed.
Print Assumptions C152_bind_when_started.

(** What holds: if receivers only send, report errors, create identifiers and cause boxes
    to be received, catching what these raise, then the receivers started are
    those of the routes that are connected, each once for each route, in the order the
    routes were bound. *)
Theorem C152_start_partial : forall react n sn w, reached w ->
  (forall tr e o c, In (o, c) (react tr e) -> quiet_op o = true /\ c = true) ->
  let (w', r) := do_op react (S n) (OStart sn) w in r <> Err NO_FUEL ->
  sender (w_state w') = Some sn /\
  match unstarted (w_state w) with
  | None => r = Err AttributeError /\ w_trace w' = w_trace w
  | Some d => r = Ok RNone /\ started (w_state w') = Some d /\ unstarted (w_state w') = None /\
      exists l, w_trace w' = l ++ w_trace w /\ filter is_start (rev l) = start_events (w_state w) d
  end.
Proof. intros react n sn w H A. apply (start_quiet react A). now apply reached_sound. Qed.
Print Assumptions C152_start_partial.

Definition greets : list event -> event -> list (op * bool) := fun _ e => match e with EStart 1 i => [(OSend i [], true); (OReceive [], true)] | _ => [] end.
Definition binds : list event -> event -> list (op * bool) := fun _ e => match e with EStart 1 i => [(OBind 3 (Some None), false)] | _ => [] end.
Lemma greets_quiet tr e o c : In (o, c) (greets tr e) -> quiet_op o = true /\ c = true.
Proof. destruct e as [[|[|]]| | | |]; cbn; intros H; repeat (destruct H as [H|H]; [injection H as <- <-; auto|]); destruct H. Qed.
Example C152_nonvacuous :
  let (w', r) := do_op greets 2 (OStart 5) two_unstarted in
  let (w2, r2) := do_op binds 2 (OStart 5) two_unstarted in
  r = Ok RNone /\ w_trace w' = [EStart 2 1; ESend 5 []; EStart 1 0] /\ (forall tr e o c, In (o, c) (greets tr e) -> quiet_op o = true /\ c = true) /\
  r2 = Err RuntimeError /\ w_trace w2 = [EStart 1 0] /\ snd (do_op silent 1 (OReceive []) w2) = Err TypeError.
Proof. generalize greets_quiet. intros H. vm_compute. do 2 (split; [reflexivity|]). split; [exact H|]. repeat split. Qed.
