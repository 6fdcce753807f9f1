(** * epsilon/ampauth.py: avatars, portals and logouts that raise *)

From Coq Require Import NArith String List Bool Arith Lia.
From Verif Require Import Py AmpAuth.
Import ListNotations.
Open Scope nat_scope.

(** What is raised: one of the two errors declared at ampauth.py:31-37, or another *)
Inductive failure := FUnauthorized | FNotImplemented | FOther.

(** What the protocol writes: answers, and the boxes an avatar sends ([WError None] is
    the answer of a command which never got to the portal) *)
Inductive wire := WChallenge (ch : str) | WEmpty (i : nat) | WError (i : option nat) (f : failure) | WBox (a : nat) (b : str).

(** what the portal's Deferred brings: an avatar, with the boxes its
    startReceivingBoxes sends and what it raises; or a failure *)
Inductive verdict := Accepted (a : nat) (boxes : list str) (raises : option failure) | Refused (f : failure).

Inductive fop :=
| FCommand (c : command) (rnd : str) (raises : option failure)  (* portal.login raises instead of returning a Deferred *)
| FFire (i : nat) (v : verdict)
| FLost (stop logout : bool).                                    (* stopReceivingBoxes raises, logout raises *)

(** calls, as in AmpAuth.v; what is written; transport.loseConnection() *)
Inductive fevent := FCall (e : cevent) | FWrite (w : wire) | FClose.

Record fstate := { f_c : cstate; f_lost : bool }.
Definition finit : fstate := {| f_c := cinit; f_lost := false |}.

(** Twisted's sendBox: nothing is written on a connection that has ended *)
Definition out (s : fstate) (l : list fevent) : list fevent := if f_lost s then [] else l.

(** Twisted's BoxDispatcher: an error the command declares is answered; for another
    one the connection is closed after the answer *)
Definition error (i : option nat) (f : failure) : list fevent :=
  FWrite (WError i f) :: match f with FOther => [FClose] | _ => [] end.

(** ampauth.py:179-228 with code that may raise; the functions are those of AmpAuth.v *)
Definition fstep (s : fstate) (o : fop) : fstate * list fevent :=
  let c0 := f_c s in
  match o with
  | FCommand c rnd p =>                                                            (* 179-186, 204-218 *)
      match c_recv c0 with
      | RSelf =>
          let '(r, c1, ev) := respond c0 c rnd in
          ({| f_c := c1; f_lost := f_lost s |},
           map FCall ev ++ out s match r with
                                 | Ok (AChallenge ch) => [FWrite (WChallenge ch)]
                                 | Ok (ADeferred i) => match p with Some f => error (Some i) f | None => [] end
                                 | Ok _ => []
                                 | Err _ => error None FOther
                                 end)
      | RAvatar a => (s, [FCall (EForward a c)])
      | RNobody => (s, [])
      end
  | FFire i (Accepted a boxes raises) =>                                           (* 194-199 *)
      let '(_, c1, ev) := cbLoggedIn c0 i a in
      ({| f_c := c1; f_lost := f_lost s |},
       map FCall ev ++ out s (map (fun b => FWrite (WBox a b)) boxes ++
                              match raises with Some f => error (Some i) f | None => [FWrite (WEmpty i)] end))
  | FFire i (Refused f) => (s, out s (error (Some i) f))
  | FLost stop logout =>                                                           (* 225-228 *)
      let gone c := {| f_c := c; f_lost := true |} in
      if stop then (gone c0, [FCall (EStopRecv (c_recv c0))])                      (* raised by 225 *)
      else match c_logout c0 with
           | None => (gone c0, [FCall (EStopRecv (c_recv c0))])
           | Some l =>
               (gone (if logout then c0                                            (* raised by 227 *)
                      else {| c_auth := c_auth c0; c_logout := None; c_recv := RNobody; c_next := c_next c0 |}),
                [FCall (EStopRecv (c_recv c0)); FCall (ELogout l)])
           end
  end.

(** ** Histories (latest first) *)
Definition fentry : Type := fop * list fevent.
Definition fhist := list fentry.

Definition ended (h : fhist) : bool := existsb (fun e => match fst e with FLost _ _ => true | _ => false end) h.
(** the logins the portal has returned a Deferred for *)
Definition awaited1 (e : fentry) : list nat :=
  match fst e with
  | FCommand _ _ None => flat_map (fun v => match v with FCall (EPortal i _) => [i] | _ => [] end) (snd e)
  | _ => []
  end.
Definition fires1 (e : fentry) : list nat := match fst e with FFire i _ => [i] | _ => [] end.

(** What may happen: boxes and the loss before the loss; each Deferred fires once *)
Definition possible (h : fhist) (o : fop) : Prop :=
  match o with
  | FCommand _ _ _ | FLost _ _ => ended h = false
  | FFire i _ => In i (flat_map awaited1 h) /\ ~ In i (flat_map fires1 h)
  end.
Inductive FReach : fhist -> fstate -> Prop :=
| FR_init : FReach [] finit
| FR_step h s o : FReach h s -> possible h o -> FReach ((o, Datatypes.snd (fstep s o)) :: h) (Datatypes.fst (fstep s o)).

(** ** Specification *)

(** everything called and written, in order *)
Definition happened (h : fhist) : list fevent := flat_map snd (rev h).
(** the part of a history before the connection ended *)
Fixpoint while_open (h : fhist) : fhist :=
  match h with
  | [] => []
  | e :: h' => if ended h then match fst e with FLost _ _ => h' | _ => while_open h' end else h
  end.
(** the logins the portal accepted, with their avatars, latest first *)
Definition accepted (h : fhist) : list (nat * nat) :=
  flat_map (fun e => match fst e with FFire i (Accepted a _ _) => [(i, a)] | _ => [] end) h.
(** the answers of login [i] *)
Definition answers (i : nat) (l : list fevent) : list wire :=
  flat_map (fun v => match v with
                     | FWrite (WEmpty j) => if Nat.eqb j i then [WEmpty j] else []
                     | FWrite (WError (Some j) f) => if Nat.eqb j i then [WError (Some j) f] else []
                     | _ => []
                     end) l.
Definition logouts_called (l : list fevent) : list nat := flat_map (fun v => match v with FCall (ELogout i) => [i] | _ => [] end) l.
Definition stops_called (l : list fevent) : list receiver := flat_map (fun v => match v with FCall (EStopRecv r) => [r] | _ => [] end) l.
(** the receiver the latest accepted login calls for *)
Definition current (h : fhist) : receiver := match accepted h with (_, a) :: _ => RAvatar a | [] => RSelf end.
(** the loss, and whether stopReceivingBoxes raised *)
Definition stop_raised (h : fhist) : bool := existsb (fun e => match fst e with FLost true _ => true | _ => false end) h.

(** ** Proofs *)
Lemma answers_app i a b : answers i (a ++ b) = answers i a ++ answers i b.
Proof. apply flat_map_app. Qed.
Lemma logouts_app a b : logouts_called (a ++ b) = logouts_called a ++ logouts_called b.
Proof. apply flat_map_app. Qed.
Lemma stops_app a b : stops_called (a ++ b) = stops_called a ++ stops_called b.
Proof. apply flat_map_app. Qed.
Lemma happened_cons e h : happened (e :: h) = happened h ++ snd e.
Proof. unfold happened. cbn [rev]. rewrite flat_map_app. cbn [flat_map]. now rewrite app_nil_r. Qed.

(** what a step writes and calls *)
Lemma calls_none i l : answers i (map FCall l) = [].
Proof. induction l; auto. Qed.
Lemma boxes_none i a l : answers i (map (fun b => FWrite (WBox a b)) l) = [].
Proof. induction l; auto. Qed.
Lemma answers_error i j f : answers i (error j f) = match j with Some k => if Nat.eqb k i then [WError j f] else [] | None => [] end.
Proof. unfold error. destruct j as [k|]; cbn; [|destruct f; reflexivity]. destruct (Nat.eqb k i), f; reflexivity. Qed.
Lemma lg_boxes a l : logouts_called (map (fun b => FWrite (WBox a b)) l) = [].
Proof. induction l; auto. Qed.
Lemma lg_error j f : logouts_called (error j f) = [].
Proof. destruct f; reflexivity. Qed.
Lemma st_boxes a l : stops_called (map (fun b => FWrite (WBox a b)) l) = [].
Proof. induction l; auto. Qed.
Lemma st_error j f : stops_called (error j f) = [].
Proof. destruct f; reflexivity. Qed.

Record finv (h : fhist) (s : fstate) : Prop := {
  fi_lost : f_lost s = ended h;
  fi_recv : ended h = false -> c_recv (f_c s) = current h;
  fi_logout : ended h = false -> c_logout (f_c s) = option_map fst (hd_error (accepted h));
  fi_ids : forall i, In i (flat_map awaited1 h) -> i < c_next (f_c s);
  fi_ans : forall i, c_next (f_c s) <= i -> answers i (happened h) = [];
  fi_wait : forall i, In i (flat_map awaited1 h) -> ~ In i (flat_map fires1 h) -> answers i (happened h) = [];
  fi_one : forall i, length (answers i (happened h)) <= 1;
  fi_out : logouts_called (happened h) = if ended h then if stop_raised h then [] else match accepted (while_open h) with (i, _) :: _ => [i] | [] => [] end else [];
  fi_stop : stops_called (happened h) = if ended h then [current (while_open h)] else [];
  fi_calm : ended h = false -> stop_raised h = false
}.

Lemma while_open_open h : ended h = false -> while_open h = h.
Proof. destruct h as [|e h]; [reflexivity|]. intros H. cbn [while_open]. now rewrite H. Qed.

(** a step which is neither the loss nor an accepted login *)
Lemma finv_step h s o c1 ev n :
  finv h s ->
  (forall b1 b2, o <> FLost b1 b2) -> (forall i a b r, o <> FFire i (Accepted a b r)) ->
  c_recv c1 = c_recv (f_c s) -> c_logout c1 = c_logout (f_c s) -> c_next c1 = n -> c_next (f_c s) <= n ->
  logouts_called ev = [] -> stops_called ev = [] ->
  (forall i, In i (awaited1 (o, ev)) -> i = c_next (f_c s) /\ n = S i) ->
  (forall i, answers i ev = [] \/ length (answers i ev) <= 1 /\
     ((i = c_next (f_c s) /\ n = S i /\ ~ In i (awaited1 (o, ev))) \/ (In i (fires1 (o, ev)) /\ In i (flat_map awaited1 h) /\ ~ In i (flat_map fires1 h)))) ->
  finv ((o, ev) :: h) {| f_c := c1; f_lost := f_lost s |}.
Proof.
  intros [] Hl Ha Er El En Hn Hlg Hst Haw Han.
  assert (E : ended ((o, ev) :: h) = ended h) by (unfold ended; cbn [existsb fst]; destruct o; try reflexivity; now destruct (Hl stop logout)).
  assert (R : stop_raised ((o, ev) :: h) = stop_raised h) by (unfold stop_raised; cbn [existsb fst]; destruct o; try reflexivity; now destruct (Hl stop logout)).
  assert (A : accepted ((o, ev) :: h) = accepted h) by (unfold accepted; cbn [flat_map fst]; destruct o as [| i [a b r|f] |]; try reflexivity; now destruct (Ha i a b r)).
  assert (C : current ((o, ev) :: h) = current h) by (unfold current; now rewrite A).
  assert (W : ended h = true -> while_open ((o, ev) :: h) = while_open h).
  { intros Hh. cbn [while_open]. rewrite E, Hh. cbn [fst]. destruct o; try reflexivity. now destruct (Hl stop logout). }
  constructor; cbn [f_c f_lost]; rewrite ?E, ?R, ?A, ?C, ?happened_cons, ?logouts_app, ?stops_app; cbn [snd]; rewrite ?Hlg, ?Hst, ?app_nil_r; try (rewrite ?Er, ?El; now auto).
  - intros i Hi. cbn [flat_map] in Hi. apply in_app_or in Hi as [Hi|Hi]; [destruct (Haw _ Hi); lia|]. specialize (fi_ids0 _ Hi). lia.
  - intros i Hi. rewrite ?happened_cons, answers_app, fi_ans0 by lia. cbn [snd app]. destruct (Han i) as [->|(_ & [(-> & H & _)|(_ & H & _)])]; [reflexivity|lia|]. specialize (fi_ids0 _ H). lia.
  - intros i Hi Hf. rewrite ?happened_cons, answers_app. cbn [snd]. cbn [flat_map] in Hi, Hf. rewrite in_app_iff in Hi, Hf.
    assert (X : answers i (happened h) = []).
    { destruct Hi as [Hi|Hi]; [destruct (Haw _ Hi); apply fi_ans0; lia|]. apply fi_wait0; [exact Hi|tauto]. }
    rewrite X. cbn [app]. destruct (Han i) as [->|(_ & [(Ei & En' & Hx)|(H & _)])]; [reflexivity| |tauto].
    destruct Hi as [Hi|Hi]; [contradiction|]. specialize (fi_ids0 _ Hi). lia.
  - intros i. rewrite ?happened_cons, answers_app. cbn [snd]. destruct (Han i) as [->|(L & [(-> & _ & _)|(_ & H1 & H2)])]; [now rewrite app_nil_r| |].
    + rewrite fi_ans0 by lia. exact L.
    + rewrite fi_wait0 by assumption. exact L.
  - rewrite fi_out0. destruct (ended h) eqn:Eh; [|reflexivity]. now rewrite W.
  - rewrite fi_stop0. destruct (ended h) eqn:Eh; [|reflexivity]. now rewrite W.
Qed.

Lemma freach_inv h s : FReach h s -> finv h s.
Proof.
  induction 1 as [|h s o Hr IH Hp].
  - constructor; try reflexivity; try discriminate; try (intros i []); intros; cbn; auto.
  - pose proof IH as I0. destruct o as [c rnd p|i v|stop logout]; cbn [possible] in Hp.
    + cbn [fstep]. assert (Hl : f_lost s = false) by (rewrite (fi_lost _ _ IH); exact Hp).
      assert (Hd : forall b1 b2, FCommand c rnd p <> FLost b1 b2) by discriminate.
      assert (Hd2 : forall i a b r, FCommand c rnd p <> FFire i (Accepted a b r)) by discriminate.
      destruct (c_recv (f_c s)) as [|a|] eqn:Erc; cbn [fst snd].
      * destruct c as [u|n r|pad]; cbn [respond].
        -- cbn [fst snd map app]. unfold out. rewrite Hl. rewrite <- Hl. apply finv_step with (n := c_next (f_c s)); auto; try reflexivity; cbn; intros; destruct p; auto; contradiction.
        -- destruct (c_auth (f_c s)) as [[u ch]|]; [unfold c_login|]; cbn [fst snd map app]; unfold out; rewrite Hl; rewrite <- Hl.
           ++ apply finv_step with (n := S (c_next (f_c s))); auto; try reflexivity.
              ** destruct p as [[| |]|]; reflexivity.
              ** destruct p as [[| |]|]; reflexivity.
              ** intros i. unfold awaited1. cbn [fst snd]. destruct p; [intros []|]. cbn. intros [<-|[]]. auto.
              ** intros i. destruct p as [f|]; [|left; reflexivity]. change (FCall (EPortal (c_next (f_c s)) (CPassword u ch n r)) :: error (Some (c_next (f_c s))) f) with (map FCall [EPortal (c_next (f_c s)) (CPassword u ch n r)] ++ error (Some (c_next (f_c s))) f).
                 rewrite answers_app, calls_none, answers_error. cbn [app]. destruct (Nat.eqb_spec (c_next (f_c s)) i) as [<-|]; [right|now left]. split; [cbn; lia|]. left. repeat split. intros [].
           ++ apply finv_step with (n := c_next (f_c s)); auto; try reflexivity.
              ** unfold awaited1. cbn. destruct p; intros i []. 
        -- unfold c_login. cbn [fst snd map app]. unfold out. rewrite Hl. rewrite <- Hl. apply finv_step with (n := S (c_next (f_c s))); auto; try reflexivity.
           ** destruct p as [[| |]|]; reflexivity.
           ** destruct p as [[| |]|]; reflexivity.
           ** intros i. unfold awaited1. cbn [fst snd]. destruct p; [intros []|]. cbn. intros [<-|[]]. auto.
           ** intros i. destruct p as [f|]; [|left; reflexivity]. change (FCall (EPortal (c_next (f_c s)) (COneTimePad pad)) :: error (Some (c_next (f_c s))) f) with (map FCall [EPortal (c_next (f_c s)) (COneTimePad pad)] ++ error (Some (c_next (f_c s))) f).
              rewrite answers_app, calls_none, answers_error. cbn [app]. destruct (Nat.eqb_spec (c_next (f_c s)) i) as [<-|]; [right|now left]. split; [cbn; lia|]. left. repeat split. intros [].
      * replace s with {| f_c := f_c s; f_lost := f_lost s |} at 1 by (destruct s; reflexivity). apply finv_step with (n := c_next (f_c s)); auto; try reflexivity. unfold awaited1. cbn. destruct p; intros i [].
      * replace s with {| f_c := f_c s; f_lost := f_lost s |} at 1 by (destruct s; reflexivity). apply finv_step with (n := c_next (f_c s)); auto; try reflexivity. unfold awaited1. cbn. destruct p; intros i [].
    + destruct Hp as [Hp1 Hp2]. destruct v as [a boxes raises|f]; cbn [fstep cbLoggedIn fst snd].
      * set (ev := map FCall [EStartRecv a] ++ out s (map (fun b => FWrite (WBox a b)) boxes ++ match raises with Some f => error (Some i) f | None => [FWrite (WEmpty i)] end)).
        assert (Lg : logouts_called ev = []).
        { unfold ev, out. rewrite logouts_app. destruct (f_lost s); [reflexivity|]. rewrite logouts_app, lg_boxes. destruct raises; [apply lg_error|reflexivity]. }
        assert (St : stops_called ev = []).
        { unfold ev, out. rewrite stops_app. destruct (f_lost s); [reflexivity|]. rewrite stops_app, st_boxes. destruct raises; [apply st_error|reflexivity]. }
        assert (An : forall j, answers j ev = [] \/ j = i /\ length (answers j ev) <= 1).
        { intros j. unfold ev, out. rewrite answers_app, calls_none. cbn [app]. destruct (f_lost s); [now left|]. rewrite answers_app, boxes_none. cbn [app]. destruct raises as [f|].
          - rewrite answers_error. destruct (Nat.eqb_spec i j) as [->|]; [right|now left]. cbn. auto.
          - cbn. destruct (Nat.eqb_spec i j) as [->|]; [right|now left]. cbn. auto. }
        destruct I0. set (e := (FFire i (Accepted a boxes raises), ev)).
        assert (E : ended (e :: h) = ended h) by reflexivity.
        assert (W : ended h = true -> while_open (e :: h) = while_open h) by (intros Hh; cbn [while_open]; rewrite E, Hh; reflexivity).
        constructor; rewrite ?E, ?happened_cons, ?logouts_app, ?stops_app; cbn [f_c f_lost]; auto; change (snd e) with ev; rewrite ?Lg, ?St, ?app_nil_r.
        -- intros j Hj. rewrite ?happened_cons, answers_app. change (snd e) with ev. cbn [c_next] in Hj. rewrite fi_ans0 by exact Hj. destruct (An j) as [->|[-> _]]; [reflexivity|]. specialize (fi_ids0 _ Hp1). lia.
        -- intros j Hj Hf. rewrite ?happened_cons, answers_app. change (snd e) with ev. cbn [flat_map] in Hj, Hf. change (awaited1 e) with (@nil nat) in Hj. change (fires1 e) with [i] in Hf. cbn [app] in Hj. rewrite fi_wait0; [|exact Hj|cbn in Hf; tauto]. destruct (An j) as [->|[-> _]]; [reflexivity|]. cbn in Hf. tauto.
        -- intros j. rewrite ?happened_cons, answers_app. change (snd e) with ev. destruct (An j) as [->|[-> L]]; [now rewrite app_nil_r|]. rewrite fi_wait0 by assumption. exact L.
        -- rewrite fi_out0. change (stop_raised (e :: h)) with (stop_raised h). destruct (ended h) eqn:Eh; [now rewrite W|reflexivity].
        -- rewrite fi_stop0. destruct (ended h) eqn:Eh; [now rewrite W|reflexivity].
      * cut (finv ((FFire i (Refused f), out s (error (Some i) f)) :: h) {| f_c := f_c s; f_lost := f_lost s |}); [destruct s; exact (fun x => x)|]. apply finv_step with (n := c_next (f_c s)); auto; try discriminate.
        -- unfold out. destruct (f_lost s); [reflexivity|apply lg_error].
        -- unfold out. destruct (f_lost s); [reflexivity|apply st_error].
        -- intros j [].
        -- intros j. unfold out. destruct (f_lost s); [now left|]. rewrite answers_error. destruct (Nat.eqb_spec i j) as [->|]; [right|now left]. split; [cbn; lia|]. right. cbn. auto.
    + destruct I0. set (e := (FLost stop logout, snd (fstep s (FLost stop logout)))). assert (E : ended (e :: h) = true) by reflexivity.
      assert (W : while_open (e :: h) = h) by (cbn [while_open]; now rewrite E).
      assert (R : stop_raised (e :: h) = stop) by (unfold stop_raised; cbn [existsb fst e]; fold (stop_raised h); rewrite (fi_calm0 Hp); destruct stop; reflexivity).
      assert (N : c_next (f_c (fst (fstep s (FLost stop logout)))) = c_next (f_c s)) by (cbn [fstep]; destruct stop; [reflexivity|]; destruct (c_logout (f_c s)); [destruct logout|]; reflexivity).
      assert (An : forall j, answers j (snd e) = []) by (intros j; unfold e; cbn [fstep snd]; destruct stop; [reflexivity|]; destruct (c_logout (f_c s)); reflexivity).
      constructor; rewrite ?E, ?R, ?W, ?happened_cons, ?logouts_app, ?stops_app; try discriminate.
      * cbn [fstep]. destruct stop; [reflexivity|]. destruct (c_logout (f_c s)); reflexivity.
      * intros j Hj. rewrite N. apply fi_ids0. exact Hj.
      * intros j Hj. rewrite ?happened_cons, answers_app, An, app_nil_r. rewrite N in Hj. auto.
      * intros j Hj Hf. rewrite ?happened_cons, answers_app, An, app_nil_r. auto.
      * intros j. rewrite ?happened_cons, answers_app, An, app_nil_r. auto.
      * rewrite fi_out0, Hp. cbn [app]. unfold e. cbn [fstep snd]. destruct stop; [reflexivity|]. rewrite (fi_logout0 Hp). destruct (accepted h) as [|[i a] t]; reflexivity.
      * rewrite fi_stop0, Hp. cbn [app]. rewrite <- (fi_recv0 Hp). unfold e. cbn [fstep snd]. destruct stop; [reflexivity|]. destruct (c_logout (f_c s)); reflexivity.
Qed.

(** a login that is decided while the connection is open *)
Lemma open_entries h s : FReach h s -> forall e, In e (while_open h) -> exists s0, f_lost s0 = false /\ e = (fst e, Datatypes.snd (fstep s0 (fst e))).
Proof.
  induction 1 as [|h s o Hr IH Hp]; intros e He; [destruct He|]. pose proof (freach_inv _ _ Hr) as I0. cbn [while_open] in He.
  assert (Lo : forall x, ended h = false -> In x h -> exists s0, f_lost s0 = false /\ x = (fst x, Datatypes.snd (fstep s0 (fst x)))) by (intros x Hx Hi; apply IH; now rewrite while_open_open).
  destruct (ended ((o, Datatypes.snd (fstep s o)) :: h)) eqn:E.
  - cbn [fst] in He. destruct o; try (now apply IH). cbn [possible] in Hp. auto.
  - assert (Eh : ended h = false) by (unfold ended in *; cbn [existsb] in E; apply orb_false_iff in E; tauto).
    destruct He as [<-|He]; [|auto]. exists s. cbn [fst]. split; [|reflexivity]. now rewrite (fi_lost _ _ I0).
Qed.

Lemma while_open_incl h e : In e (while_open h) -> In e h.
Proof.
  induction h as [|x h IH]; [auto|]. cbn [while_open]. destruct (ended (x :: h)); [|auto]. destruct (fst x); intros H; right; auto.
Qed.

Lemma answer_in i h e w : In e h -> In w (answers i (snd e)) -> In w (answers i (happened h)).
Proof.
  induction h as [|x h IH]; [intros []|]. rewrite happened_cons, answers_app, in_app_iff. intros [<-|Hi] Hw; auto.
Qed.

(** the answer a verdict calls for *)
Definition answer_of (i : nat) (v : verdict) : wire :=
  match v with Accepted _ _ None => WEmpty i | Accepted _ _ (Some f) | Refused f => WError (Some i) f end.

Lemma fire_answer s i v : f_lost s = false -> answers i (Datatypes.snd (fstep s (FFire i v))) = [answer_of i v].
Proof.
  intros Hl. destruct v as [a boxes raises|f]; cbn [fstep cbLoggedIn snd]; unfold out; rewrite Hl.
  - rewrite answers_app, calls_none, answers_app, boxes_none. cbn [app]. destruct raises as [f|]; [rewrite answers_error|cbn]; now rewrite Nat.eqb_refl.
  - now rewrite answers_error, Nat.eqb_refl.
Qed.

Lemma answered h s i v : FReach h s -> In (FFire i v) (map fst (while_open h)) -> answers i (happened h) = [answer_of i v].
Proof.
  intros Hr Hi. apply in_map_iff in Hi as (e & Ee & Hi). destruct (open_entries _ _ Hr e Hi) as (s0 & Hl & E). rewrite Ee in E.
  assert (A : In (answer_of i v) (answers i (happened h))).
  { apply (answer_in i h e); [now apply while_open_incl|]. rewrite E. cbn [snd]. rewrite fire_answer by exact Hl. now left. }
  pose proof (fi_one _ _ (freach_inv _ _ Hr) i) as L. destruct (answers i (happened h)) as [|x [|y l]]; [destruct A| |cbn in L; lia]. destruct A as [->|[]]. reflexivity.
Qed.

Lemma answers_are i l w : In w (answers i l) -> In (FWrite w) l /\ (w = WEmpty i \/ exists f, w = WError (Some i) f).
Proof.
  unfold answers. rewrite in_flat_map. intros (v & Hv & Hw). destruct v as [|w'|]; try contradiction. destruct w' as [|j|[j|] f|]; try contradiction; destruct (Nat.eqb_spec j i) as [->|]; try contradiction; destruct Hw as [<-|[]]; eauto.
Qed.

Lemma told_success h s i : FReach h s -> In (WEmpty i) (answers i (happened h)) -> exists a boxes, In (FFire i (Accepted a boxes None)) (map fst (while_open h)).
Proof.
  induction 1 as [|h s o Hr IH Hp]; [intros []|]. rewrite happened_cons, answers_app, in_app_iff. cbn [snd]. pose proof (freach_inv _ _ Hr) as I0.
  assert (M : forall x, In x (map fst (while_open h)) -> In x (map fst (while_open ((o, Datatypes.snd (fstep s o)) :: h)))).
  { intros x Hx. cbn [while_open]. destruct (ended _) eqn:E; [cbn [fst]; destruct o; try assumption; cbn [possible] in Hp; rewrite (while_open_open h Hp) in Hx; exact Hx|].
    assert (Eh : ended h = false) by (unfold ended in *; cbn [existsb] in E; apply orb_false_iff in E; tauto). rewrite (while_open_open h Eh) in Hx. cbn [map]. now right. }
  intros [H|H]; [destruct (IH H) as (a & b & Hi); exists a, b; now apply M|]. apply answers_are in H as [H _].
  assert (G : forall l, ~ In (FWrite (WEmpty i)) (map FCall l)) by (intros l Hi; apply in_map_iff in Hi as (x & Hx & _); discriminate).
  assert (Ge : forall j f, ~ In (FWrite (WEmpty i)) (error j f)) by (intros j f [Hi|Hi]; [discriminate|]; destruct f; cbn in Hi; intuition discriminate).
  destruct o as [c rnd p|k v|stop logout]; cbn [fstep] in H.
  - exfalso. destruct (c_recv (f_c s)); [|cbn in H; intuition discriminate|destruct H].
    destruct (respond (f_c s) c rnd) as [[r c1] ev]. cbn [snd] in H. apply in_app_or in H as [H|H]; [now apply G in H|]. unfold out in H. destruct (f_lost s); [destruct H|].
    destruct r as [[ch|k| | |]|x]; try (destruct H; fail); [cbn in H; intuition discriminate| |now apply Ge in H]. destruct p; [now apply Ge in H|destruct H].
  - destruct v as [a boxes raises|f]; cbn [cbLoggedIn snd] in H.
    + apply in_app_or in H as [H|H]; [now apply G in H|]. unfold out in H. destruct (f_lost s) eqn:El; [destruct H|]. apply in_app_or in H as [H|H]; [apply in_map_iff in H as (x & Hx & _); discriminate|].
      destruct raises as [f|]; [now apply Ge in H|]. destruct H as [[= <-]|[]]. exists a, boxes. cbn [while_open].
      assert (Eh : ended h = false) by (rewrite <- (fi_lost _ _ I0); exact El).
      match goal with |- context [ended (?x :: h)] => change (ended (x :: h)) with (ended h) end. rewrite Eh. now left.
    + exfalso. unfold out in H. destruct (f_lost s); [destruct H|now apply Ge in H].
  - exfalso. destruct stop; [cbn in H; intuition discriminate|]. destruct (c_logout (f_c s)); cbn in H; intuition discriminate.
Qed.

(** the step without faults, in AmpAuth.v *)
Definition plain_op (o : fop) : cop :=
  match o with
  | FCommand c rnd _ => OCommand c rnd
  | FFire i (Accepted a _ _) => OFire i (Some a)
  | FFire i (Refused _) => OFire i None
  | FLost _ _ => OLost 0
  end.
Definition called (l : list fevent) : list cevent := flat_map (fun v => match v with FCall e => [e] | _ => [] end) l.

Lemma called_error j f : called (error j f) = [].
Proof. destruct f; reflexivity. Qed.

Lemma step_plain s o : (forall stop logout, o = FLost stop logout -> stop = false /\ logout = false) ->
  f_c (Datatypes.fst (fstep s o)) = Datatypes.snd (Datatypes.fst (cstep (f_c s) (plain_op o))) /\ called (Datatypes.snd (fstep s o)) = Datatypes.snd (cstep (f_c s) (plain_op o)).
Proof.
  intros H. assert (C : forall l, called (map FCall l) = l) by (induction l as [|x l IH]; [reflexivity|cbn; f_equal; exact IH]).
  destruct o as [c rnd p|i [a boxes raises|f]|stop logout]; cbn [fstep plain_op cstep].
  - destruct (c_recv (f_c s)); [|split; reflexivity..]. destruct (respond (f_c s) c rnd) as [[r c1] ev]. cbn [fst snd f_c]. split; [reflexivity|]. unfold called. rewrite flat_map_app. fold (called (map FCall ev)). rewrite C.
    match goal with |- ev ++ ?x = ev => assert (X : x = []); [|rewrite X; apply app_nil_r] end. unfold out. destruct (f_lost s); [reflexivity|]. destruct r as [[ch|k| | |]|x]; try reflexivity. destruct p as [[| |]|]; reflexivity.
  - cbn [cbLoggedIn fst snd f_c]. split; [reflexivity|]. cbn [map app called flat_map]. f_equal. unfold out. destruct (f_lost s); [reflexivity|]. rewrite flat_map_app.
    assert (B : forall l, flat_map (fun v => match v with FCall e => [e] | _ => [] end) (map (fun b => FWrite (WBox a b)) l) = []) by (induction l; auto). rewrite B. destruct raises as [[| |]|]; reflexivity.
  - split; [reflexivity|]. cbn [snd]. unfold out. destruct (f_lost s); [reflexivity|apply called_error].
  - destruct (H stop logout eq_refl) as [-> ->]. unfold connectionLost. destruct (c_logout (f_c s)); split; reflexivity.
Qed.

(** what a fired login writes *)
Lemma fire_order h s i a boxes raises : FReach h s -> ended h = false ->
  Datatypes.snd (fstep s (FFire i (Accepted a boxes raises))) =
    FCall (EStartRecv a) :: map (fun b => FWrite (WBox a b)) boxes ++ FWrite (answer_of i (Accepted a boxes raises)) :: match raises with Some FOther => [FClose] | _ => [] end.
Proof.
  intros Hr He. cbn [fstep cbLoggedIn snd map app]. unfold out. rewrite (fi_lost _ _ (freach_inv _ _ Hr)), He. destruct raises as [[| |]|]; reflexivity.
Qed.

(** runs, for examples *)
Fixpoint frun (l : list fop) (h : fhist) (s : fstate) : fhist * fstate :=
  match l with
  | [] => (h, s)
  | o :: t => frun t ((o, Datatypes.snd (fstep s o)) :: h) (Datatypes.fst (fstep s o))
  end.
Definition possibleb (h : fhist) (o : fop) : bool :=
  match o with
  | FCommand _ _ _ | FLost _ _ => negb (ended h)
  | FFire i _ => existsb (Nat.eqb i) (flat_map awaited1 h) && negb (existsb (Nat.eqb i) (flat_map fires1 h))
  end.
Fixpoint okf (l : list fop) (h : fhist) (s : fstate) : bool :=
  match l with
  | [] => true
  | o :: t => possibleb h o && okf t ((o, Datatypes.snd (fstep s o)) :: h) (Datatypes.fst (fstep s o))
  end.
Lemma okf_reach l : forall h s, FReach h s -> okf l h s = true -> FReach (fst (frun l h s)) (snd (frun l h s)).
Proof.
  induction l as [|o t IH]; intros h s Hr Ha; [exact Hr|]. cbn [frun okf] in *. apply andb_true_iff in Ha as [H1 H2]. apply IH; [|exact H2]. constructor; [exact Hr|].
  destruct o; cbn [possible possibleb] in *; try (now apply negb_true_iff in H1). apply andb_true_iff in H1 as [A B]. apply negb_true_iff in B. split.
  - apply existsb_exists in A as (x & Hx & E). apply Nat.eqb_eq in E. now subst.
  - intros Hi. enough (existsb (Nat.eqb i) (flat_map fires1 h) = true) by congruence. apply existsb_exists. exists i. split; [exact Hi|apply Nat.eqb_refl].
Qed.
