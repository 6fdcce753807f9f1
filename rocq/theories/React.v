(** * epsilon/react.py *)

From Coq Require Import List Bool Arith Lia.
From Verif Require Import Py.
Import ListNotations.

Set Implicit Arguments.

(** The reactor as Twisted's ReactorBase has it: [_started], [_stopped],
    [_justStopped]; together with react's own [stopping] list (only its
    emptiness matters), whether main's Deferred has fired, whether [run] was
    called, and whether react's [reactor.stop] waits for the startup. *)
Record state := St {
  started : bool;
  stopped : bool;
  just : bool;
  stopping : bool;
  fired : bool;
  ran : bool;
  queued : bool
}.

(** react.py:25-32: the trigger is installed, main has returned a Deferred
    which has not fired yet and has its callbacks *)
Definition init : state := St false true false false false false false.

Inductive event :=
| EFire                     (* main's Deferred fires, with a result or a failure *)
| ERun                      (* reactor.run, react.py:33 *)
| EOtherStop (r : res unit) (* other code calls reactor.stop *)
| EReactStop (r : res unit) (* react calls reactor.stop *)
| EShutdown                 (* the reactor fires its 'shutdown' event *)
| ECrash.                   (* the main loop ends *)

(** [ReactorBase.stop]: raises ReactorNotRunning when already stopped *)
Definition stop (s : state) : res unit * state :=
  if stopped s then (Err RuntimeError, s)
  else (Ok tt, St (started s) true true (stopping s) (fired s) (ran s) (queued s)).

(** react's [callWhenRunning(reactor.stop)], when the reactor runs.  An
    exception of [stop] stays in the Deferred or in the startup event. *)
Definition react_stop (s : state) : state * list event :=
  let '(r, s') := stop s in (s', [EReactStop r]).

(** react.py:29-31 [cbFinish].  The errback of line 28 returns None, so it runs
    whether main failed or not. *)
Definition cbFinish (s : state) : state * list event :=
  if stopping s then (s, [])
  else if started s then react_stop s
  else (St (started s) (stopped s) (just s) (stopping s) (fired s) (ran s) true, []).

Inductive op := Fire | Run | Startup | OtherStop | Turn | Crash.

(** Environment: the Deferred fires once; [run] is called once; the startup
    triggers run before the loop turns; the loop ends after the shutdown event. *)
Definition allowed (s : state) (o : op) : bool :=
  match o with
  | Fire => negb (fired s)
  | Run => negb (ran s)
  | Startup => ran s && queued s
  | OtherStop => true
  | Turn => started s && just s && negb (queued s)
  | Crash => started s && stopping s
  end.

(** the events of a step, latest first *)
Definition step (s : state) (o : op) : state * list event :=
  match o with
  | Fire =>
      let '(s', ev) := cbFinish (St (started s) (stopped s) (just s) (stopping s) true (ran s) (queued s)) in
      (s', ev ++ [EFire])
  | Run => (St true false (just s) (stopping s) (fired s) true (queued s), [ERun])
  | Startup => react_stop (St (started s) (stopped s) (just s) (stopping s) (fired s) (ran s) false)
  | OtherStop => let '(r, s') := stop s in (s', [EOtherStop r])
  | Turn =>
      (* react.py:26: the 'before' 'shutdown' trigger *)
      (St (started s) (stopped s) false true (fired s) (ran s) (queued s), [EShutdown])
  | Crash => (St false (stopped s) (just s) (stopping s) (fired s) (ran s) (queued s), [ECrash])
  end.

Inductive Reach : list event -> state -> Prop :=
| R_init : Reach [] init
| R_step l s o s' ev : Reach l s -> allowed s o = true -> step s o = (s', ev) -> Reach (ev ++ l) s'.

(** ** Specification on histories (latest event first) *)

Fixpoint react_stops (l : list event) : nat :=
  match l with [] => 0 | EReactStop _ :: t => S (react_stops t) | _ :: t => react_stops t end.

Definition happened (p : event -> bool) (l : list event) : bool := existsb p l.
Definition is_fire e := match e with EFire => true | _ => false end.
Definition is_run e := match e with ERun => true | _ => false end.
Definition is_shutdown e := match e with EShutdown => true | _ => false end.
Definition is_ok_stop e :=
  match e with EOtherStop (Ok _) => true | EReactStop (Ok _) => true | _ => false end.
Definition is_other_stop e := match e with EOtherStop (Ok _) => true | _ => false end.

(** the Deferred fired after the shutdown event *)
Fixpoint fired_after_shutdown (l : list event) : bool :=
  match l with
  | [] => false
  | EFire :: t => happened is_shutdown t
  | _ :: t => fired_after_shutdown t
  end.

(** every stop by react came after the firing and the start, and before any
    shutdown event *)
Fixpoint stops_ok (l : list event) : Prop :=
  match l with
  | [] => True
  | EReactStop r :: t =>
      happened is_fire t = true /\ happened is_run t = true /\ happened is_shutdown t = false
      /\ react_stops t = 0
      /\ (forall e, r = Err e -> happened is_other_stop t = true)
      /\ stops_ok t
  | _ :: t => stops_ok t
  end.

(** ** Invariant *)
Record Inv (l : list event) (s : state) : Prop := {
  i_fired : fired s = happened is_fire l;
  i_ran : ran s = happened is_run l;
  i_stopping : stopping s = happened is_shutdown l;
  i_started : started s = true -> ran s = true;
  i_norun : ran s = false -> stopped s = true /\ stopping s = false /\ happened is_other_stop l = false;
  i_queued : queued s = true -> fired s = true /\ stopping s = false /\ react_stops l = 0
                                /\ fired_after_shutdown l = false;
  i_unfired : fired s = false -> react_stops l = 0 /\ queued s = false /\ fired_after_shutdown l = false;
  i_stopped : stopped s = true -> ran s = true -> happened is_other_stop l = true \/ react_stops l = 1;
  i_unstopped : stopped s = false -> happened is_other_stop l = false /\ react_stops l = 0 /\ stopping s = false;
  i_just : just s = true -> stopped s = true /\ ran s = true;
  i_count : fired s = true -> queued s = false -> ran s = true ->
            react_stops l = (if fired_after_shutdown l then 0 else 1);
  i_notrun : fired s = true -> ran s = false -> queued s = true;
  i_crash : started s = false -> ran s = true -> stopping s = true;
  i_pend : stopped s = true -> ran s = true -> stopping s = false -> just s = true;
  i_ok : stops_ok l
}.

Lemma happened_cons p e l : happened p (e :: l) = p e || happened p l.
Proof. reflexivity. Qed.

Ltac simp := cbn -[happened]; rewrite ?happened_cons;
  cbn [is_fire is_run is_shutdown is_other_stop orb].

Lemma reach_inv l s : Reach l s -> Inv l s.
Proof.
  induction 1 as [|l s o s' ev HR IH Ha Hs].
  - constructor; cbn; auto; discriminate.
  - destruct IH as [A B C D E F G H I J K L M P N].
    destruct s as [st sp ju sg fi ra qu]. cbn [started stopped just stopping fired ran queued] in *.
    unfold step, cbFinish, react_stop, stop in Hs.
    destruct o; cbn [allowed started stopped just stopping fired ran queued] in *.
    + (* Fire *)
      destruct fi; [discriminate|]. destruct (G eq_refl) as (G1 & G2 & G3). subst qu.
      destruct sg.
      { inversion Hs; subst s' ev; clear Hs. constructor; simp; rewrite <- ?C; auto; try discriminate; try tauto.
        intros _ Hr. destruct (E Hr) as (_ & X & _). discriminate. }
      destruct st.
      { destruct ra; [|discriminate (D eq_refl)].
        destruct sp; inversion Hs; subst s' ev; clear Hs; constructor; simp;
          rewrite <- ?C, <- ?B, ?G1; auto; try discriminate; try tauto.
        - destruct (H eq_refl eq_refl) as [X|X]; [|rewrite X in G1; discriminate].
          repeat split; auto.
        - repeat split; auto. discriminate. }
      inversion Hs; subst s' ev; clear Hs. constructor; simp; rewrite <- ?C; auto; try discriminate; tauto.
    + (* Run *)
      destruct ra; [discriminate|]. inversion Hs; subst s' ev; clear Hs.
      destruct (E eq_refl) as (E1 & E2 & E3). destruct sp; [|discriminate]. destruct sg; [discriminate|].
      assert (Ju : ju = false) by (destruct ju; auto; destruct (J eq_refl); discriminate).
      subst ju.
      assert (R0 : react_stops l = 0).
      { destruct fi; [|apply G; auto]. specialize (L eq_refl eq_refl). subst qu. apply F; auto. }
      constructor; simp; auto; try discriminate; try tauto.
      intros Hf Hq _. specialize (L Hf eq_refl). congruence.
    + (* Startup *)
      destruct qu; [|now rewrite andb_false_r in Ha]. rewrite andb_true_r in Ha. destruct ra; [|discriminate].
      destruct F as (F1 & F2 & F3 & F4); auto. destruct fi; [|discriminate]. destruct sg; [discriminate|].
      destruct sp; inversion Hs; subst s' ev; clear Hs; constructor; simp;
        rewrite <- ?A, <- ?B, <- ?C, ?F3, ?F4; auto; try discriminate; try tauto.
      * destruct (H eq_refl eq_refl) as [X|X]; [|rewrite X in F3; discriminate].
        repeat split; auto.
      * repeat split; auto. discriminate.
    + (* OtherStop *)
      destruct sp; inversion Hs; subst s' ev; clear Hs; constructor; simp; auto; try discriminate; try tauto.
      * intros X. destruct (E X) as (X1 & _). discriminate.
      * intros _. split; auto. destruct ra; auto. destruct (E eq_refl). discriminate.
    + (* Turn *)
      apply andb_true_iff in Ha. destruct Ha as [Ha Hq]. apply andb_true_iff in Ha.
      destruct Ha as [Hst Hju]. destruct qu; [discriminate|]. destruct st; [|discriminate]. destruct ju; [|discriminate].
      destruct (J eq_refl) as [J1 J2]. destruct sp; [|discriminate]. destruct ra; [|discriminate].
      inversion Hs; subst s' ev; clear Hs. constructor; simp; auto; try discriminate; try tauto.
    + (* Crash *)
      apply andb_true_iff in Ha. destruct Ha as [Hst Hsg]. destruct st; [|discriminate]. destruct sg; [|discriminate].
      inversion Hs; subst s' ev; clear Hs. constructor; simp; auto; try discriminate; try tauto.
Qed.

(** ** Consequences *)

Theorem stop_count l s : Reach l s -> fired s = true -> ran s = true -> queued s = false ->
  react_stops l = (if fired_after_shutdown l then 0 else 1).
Proof. intros HR H1 H2 H3. apply (i_count (reach_inv HR)); auto. Qed.

Lemma stops_ok_at : forall l, stops_ok l -> forall l1 r l2, l = l1 ++ EReactStop r :: l2 ->
  happened is_fire l2 = true /\ happened is_run l2 = true /\ happened is_shutdown l2 = false
  /\ react_stops l2 = 0 /\ (forall e, r = Err e -> happened is_other_stop l2 = true).
Proof.
  induction l as [|x l IH]; intros Hok l1 r l2 E; [destruct l1; discriminate|].
  destruct l1 as [|y l1]; inversion E; subst.
  - destruct Hok as (A & B & C & D & F & _). auto.
  - assert (Hl : stops_ok (l1 ++ EReactStop r :: l2)) by (destruct y; cbn in Hok; tauto).
    eapply IH; eauto.
Qed.

Theorem stop_justified l s l1 r l2 : Reach l s -> l = l1 ++ EReactStop r :: l2 ->
  happened is_fire l2 = true /\ happened is_run l2 = true /\ happened is_shutdown l2 = false
  /\ react_stops l2 = 0 /\ (forall e, r = Err e -> happened is_other_stop l2 = true).
Proof. intros HR E. eapply stops_ok_at; [apply (i_ok (reach_inv HR))|exact E]. Qed.

(** With main finished and the reactor running, the shutdown event has
    happened or comes at the next turn of the loop (after the pending startup
    trigger, if there is one). *)
Theorem shutdown_follows l s : Reach l s -> fired s = true -> started s = true ->
  happened is_shutdown l = false ->
  exists s1 ev1 s2, (s1 = s /\ ev1 = [] \/ (allowed s Startup = true /\ step s Startup = (s1, ev1)))
    /\ allowed s1 Turn = true /\ step s1 Turn = (s2, [EShutdown]).
Proof.
  intros HR Hf Hs Hsh. pose proof (reach_inv HR) as [A B C D E F G H I J K L M P N].
  destruct s as [st sp ju sg fi ra qu].
  cbn [started stopped just stopping fired ran queued] in *. subst st fi.
  rewrite Hsh in C. destruct sg; [discriminate|]. destruct ra; [|discriminate (D eq_refl)].
  destruct qu.
  - destruct sp.
    + specialize (P eq_refl eq_refl eq_refl). subst ju.
      eexists _, _, _. split; [right; split; reflexivity|]. split; reflexivity.
    + eexists _, _, _. split; [right; split; reflexivity|]. split; reflexivity.
  - assert (ju = true).
    { destruct sp; [apply P; auto|]. destruct (I eq_refl) as (_ & I2 & _).
      rewrite K in I2 by auto. destruct (fired_after_shutdown l) eqn:Ef; [|discriminate].
      exfalso. clear -Ef Hsh. induction l as [|e l IH]; [discriminate|].
      rewrite happened_cons in Hsh. apply orb_false_iff in Hsh. destruct Hsh as [H1 H2].
      destruct e; cbn [fired_after_shutdown] in Ef; auto. congruence. }
    subst ju. eexists _, _, _. split; [left; split; reflexivity|]. split; reflexivity.
Qed.

(** nobody else stopping: react's stop is always accepted *)
Theorem stop_accepted l s l1 r l2 : Reach l s -> l = l1 ++ EReactStop r :: l2 ->
  happened is_other_stop l = false -> r = Ok tt.
Proof.
  intros HR E Ho. destruct (stop_justified _ _ _ HR E) as (_ & _ & _ & _ & X).
  destruct r as [[]|e]; auto. exfalso. specialize (X e eq_refl). subst l.
  unfold happened in *. rewrite existsb_app in Ho. cbn [existsb] in Ho.
  rewrite X, !orb_true_r in Ho. discriminate.
Qed.

Lemma app_split (A : Type) (ev l l1 : list A) x l2 : ev ++ l = l1 ++ x :: l2 -> ~ In x ev ->
  exists l1', l = l1' ++ x :: l2.
Proof.
  revert l1. induction ev as [|e ev IH]; intros l1 E Hn; [eauto|].
  destruct l1 as [|y l1]; inversion E; subst.
  - exfalso. apply Hn. now left.
  - eapply IH; eauto. intros H. apply Hn. now right.
Qed.

(** without other stops, the reactor shuts down only after main finished *)
Theorem shutdown_needs_fire l s l1 l2 : Reach l s -> l = l1 ++ EShutdown :: l2 ->
  happened is_other_stop l = false -> happened is_fire l2 = true.
Proof.
  intros HR. revert l1 l2. induction HR as [|l s o s' ev HR IH Ha Hs]; intros l1 l2 E Ho.
  - destruct l1; discriminate.
  - assert (Ho' : happened is_other_stop l = false).
    { unfold happened in *. rewrite existsb_app in Ho. apply orb_false_iff in Ho. tauto. }
    pose proof (reach_inv HR) as Hi.
    assert (Hev : o = Turn \/ ~ In EShutdown ev).
    { destruct o; auto; right; unfold step, cbFinish, react_stop, stop in Hs;
        repeat match type of Hs with context [if ?b then _ else _] => destruct b end;
        inversion Hs; subst ev; cbn; intuition discriminate. }
    destruct Hev as [->|Hev]; [|destruct (app_split _ _ _ _ _ E Hev) as (l1' & E'); eauto].
    cbn [step] in Hs. inversion Hs; subst ev.
    destruct l1 as [|x l1]; inversion E; subst; [|eauto].
    cbn [allowed] in Ha. apply andb_true_iff in Ha. destruct Ha as [Ha _].
    apply andb_true_iff in Ha. destruct Ha as [_ Ha].
    destruct (i_just Hi Ha) as [J1 J2]. destruct (i_stopped Hi J1 J2) as [X|X]; [congruence|].
    rewrite <- (i_fired Hi). destruct (fired s) eqn:Ef; auto.
    destruct (i_unfired Hi Ef) as [X2 _]. congruence.
Qed.

(** ** Executable histories, for examples *)
Fixpoint execs (ls : list event * state) (os : list op) : option (list event * state) :=
  match os with
  | [] => Some ls
  | o :: t => if allowed (snd ls) o
              then let '(s', ev) := step (snd ls) o in execs (ev ++ fst ls, s') t
              else None
  end.

Lemma execs_sound os : forall l s l' s', Reach l s -> execs (l, s) os = Some (l', s') -> Reach l' s'.
Proof.
  induction os as [|o os IH]; intros l s l' s' HR H; cbn [execs fst snd] in H.
  - inversion H; now subst.
  - destruct (allowed s o) eqn:Ea; [|discriminate]. destruct (step s o) as [s1 ev] eqn:Es.
    eapply IH; [|exact H]. eapply R_step; eauto.
Qed.
