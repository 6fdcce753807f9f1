(** * epsilon/amprouter.py when receivers call back into the router

    AmpRouter.v has the receivers return without using the router while it starts or
    stops them.  Here they may do anything with it at any time. *)

From Coq Require Import NArith String List Bool Arith Lia.
From Verif Require Import Py PyStr PyNum AmpRouter.
Import ListNotations.
Open Scope nat_scope.

(** "the bound on the depth was reached": no operation raises it *)
Definition NO_FUEL : exn := OtherExn 77.
Definition no_fuel (e : exn) : bool := match e with OtherExn n => N.eqb n 77 | _ => false end.

(** The router; the content of the one dictionary it ever has, which is [_unstarted] and
    then [_routes] and may be neither any more while a loop still goes over it; and the
    calls made so far, the latest first. *)
Record world := World { w_state : rstate; w_dict : dict rname nat; w_trace : list event }.

Definition dict_now (s : rstate) (old : dict rname nat) : dict rname nat :=
  match started s, unstarted s with Some d, _ => d | None, Some d => d | None, None => old end.
Definition with_state (w : world) (s : rstate) : world := World s (dict_now s (w_dict w)) (w_trace w).
Definition record_event (w : world) (e : event) : world := World (w_state w) (w_dict w) (e :: w_trace w).

(** amprouter.py:126-131 *)
Definition new_world : world := World init [] [].

Section Receivers.
  (** What a receiver does when it is called: it is given all calls so far, and the
      present one.  The operations are done in order; the flag says if the receiver
      catches what the operation raises. *)
  Variable react : list event -> event -> list (op * bool).

  (** A receiver's own code, given what operations do *)
  Fixpoint reactions (do_op : op -> world -> world * res ret) (l : list (op * bool)) (w : world) : world * res unit :=
    match l with
    | [] => (w, Ok tt)
    | (o, catches) :: l' =>
        let (w', r) := do_op o w in
        match r with
        | Ok _ => reactions do_op l' w'
        | Err e => if catches && negb (no_fuel e) then reactions do_op l' w' else (w', Err e)
        end
    end.
  Definition deliver (do_op : op -> world -> world * res ret) (e : event) (w : world) : world * res unit :=
    reactions do_op (react (w_trace w) e) (record_event w e).
  Fixpoint deliver_all (do_op : op -> world -> world * res ret) (l : list event) (w : world) : world * res unit :=
    match l with
    | [] => (w, Ok tt)
    | e :: l' => let (w', r) := deliver do_op e w in match r with Ok _ => deliver_all do_op l' w' | Err x => (w', Err x) end
    end.

  (** [for routeName, route in six.viewitems(d)]: what is called for each route is
      looked up when its turn comes.  A dictionary that was given other names in the
      meantime raises RuntimeError.  Simplification: CPython compares the sizes only
      at first, so when one name was removed and another added it notices later, but
      it does notice. *)
  Fixpoint loop (do_op : op -> world -> world * res ret) (calls : rstate -> nat -> list event) (names : list rname) (todo : list rname) (w : world) : world * res unit :=
    if eqb (keys (w_dict w)) names then
      match todo with
      | [] => (w, Ok tt)
      | n :: todo' =>
          match dget (w_dict w) n with
          | None => (w, Err (OtherExn 0))       (* excluded: the names are the same *)
          | Some rid =>
              let (w', r) := deliver_all do_op (calls (w_state w) rid) w in
              match r with Ok _ => loop do_op calls names todo' w' | Err x => (w', Err x) end
          end
      end
    else (w, Err RuntimeError).

  (** amprouter.py:174-178, 197 *)
  Definition calls_start (s : rstate) (rid : nat) : list event :=
    match nth_error (routes_made s) rid with
    | Some r => match r_remote r with Some _ => [route_start r rid] | None => [] end
    | None => []
    end.
  Definition calls_stop (reason : nat) (s : rstate) (rid : nat) : list event :=
    match nth_error (routes_made s) rid with Some r => [EStop (r_recv r) reason] | None => [] end.

  (** amprouter.py:168-180 *)
  Definition r_start (do_op : op -> world -> world * res ret) (sn : nat) (w : world) : world * res ret :=
    let s := w_state w in
    let w1 := with_state w {| routes_made := routes_made s; started := started s; unstarted := unstarted s; sender := Some sn; counter := counter s |} in
    match unstarted s with
    | None => (w1, Err AttributeError)
    | Some d =>
        let (w2, r) := loop do_op calls_start (keys d) (keys d) w1 in
        match r with
        | Err e => (w2, Err e)
        | Ok _ =>
            let s2 := w_state w2 in
            (with_state w2 {| routes_made := routes_made s2; started := unstarted s2; unstarted := None; sender := sender s2; counter := counter s2 |}, Ok RNone)
        end
    end.
  (** amprouter.py:192-198 *)
  Definition r_stop (do_op : op -> world -> world * res ret) (reason : nat) (w : world) : world * res ret :=
    match started (w_state w) with
    | None => (w, Err AttributeError)
    | Some d =>
        let (w2, r) := loop do_op (calls_stop reason) (keys d) (keys d) w in
        match r with
        | Err e => (w2, Err e)
        | Ok _ =>
            let s2 := w_state w2 in
            (with_state w2 {| routes_made := routes_made s2; started := None; unstarted := unstarted s2; sender := sender s2; counter := counter s2 |}, Ok RNone)
        end
    end.

  (** The sender of the connection does not call back. *)
  Definition to_receiver (e : event) : bool := match e with ESend _ _ | EUnhandled _ _ => false | _ => true end.

  (** One operation, with all that comes of it, given what the operations of receivers do.
      All operations but the two loops make at most one call, as the last thing they do. *)
  Definition one_op (do_op : op -> world -> world * res ret) (o : op) (w : world) : world * res ret :=
    match o with
    | OStart sn => r_start do_op sn w
    | OStop reason => r_stop do_op reason w
    | _ =>
        let '(r, s', ev) := step (w_state w) o in
        let w1 := with_state w s' in
        match ev with
        | [e] => if to_receiver e then let (w2, x) := deliver do_op e w1 in (w2, match x with Ok _ => r | Err y => Err y end)
                 else (record_event w1 e, r)
        | _ => (w1, r)
        end
    end.
  (** [n] bounds how deep receivers call back *)
  Fixpoint do_op (n : nat) : op -> world -> world * res ret :=
    match n with
    | O => fun _ w => (w, Err NO_FUEL)
    | S n' => one_op (do_op n')
    end.
End Receivers.

(** ** Specification *)
Definition is_stop (e : event) : bool := match e with EStop _ _ => true | _ => false end.
Definition is_start (e : event) : bool := match e with EStart _ _ => true | _ => false end.
(** operations that bind and unbind no names and start and stop no routers; and among
    these, those that connect no route *)
Definition gentle (o : op) : bool := match o with OBind _ _ | OUnbind _ | OStart _ | OStop _ => false | _ => true end.
Definition quiet_op (o : op) : bool := gentle o && match o with OConnect _ _ => false | _ => true end.

(** ** Proofs *)
Lemma no_fuel_spec e : no_fuel e = true -> e = NO_FUEL.
Proof. destruct e; try discriminate. cbn. intros H. apply N.eqb_eq in H. now subst. Qed.
Definition steady (w : world) : Prop := dict_now (w_state w) (w_dict w) = w_dict w.

(** two states that differ in what routes are connected to, at most *)
Definition alike (s s' : rstate) : Prop :=
  started s' = started s /\ unstarted s' = unstarted s /\ sender s' = sender s /\
  forall rid, match nth_error (routes_made s) rid, nth_error (routes_made s') rid with
              | Some r, Some r' => r_recv r' = r_recv r /\ r_local r' = r_local r
              | None, None => True
              | _, _ => False
              end.
Lemma alike_refl s : alike s s.
Proof. repeat split. intros rid. destruct (nth_error (routes_made s) rid); auto. Qed.
Lemma alike_trans a b c : alike a b -> alike b c -> alike a c.
Proof.
  intros (A1 & A2 & A3 & A4) (B1 & B2 & B3 & B4). unfold alike. rewrite B1, B2, B3. split; [exact A1|]. split; [exact A2|]. split; [exact A3|]. intros rid. specialize (A4 rid). specialize (B4 rid).
  destruct (nth_error (routes_made a) rid), (nth_error (routes_made b) rid), (nth_error (routes_made c) rid); try tauto. destruct A4, B4. split; congruence.
Qed.

(** what operations do as long as all that is done is gentle: [more] is what else they
    keep, [ev] the calls they make *)
Record keeps (more : rstate -> rstate -> Prop) (evs : event -> bool) (w w' : world) : Prop := {
  k_alike : alike (w_state w) (w_state w');
  k_more : more (w_state w) (w_state w');
  k_dict : w_dict w' = w_dict w;
  k_steady : steady w';
  k_trace : exists l, w_trace w' = l ++ w_trace w /\ forallb evs l = true }.

Section Gentle.
  Variable react : list event -> event -> list (op * bool).
  Variable ok : op -> bool.
  Variable more : rstate -> rstate -> Prop.
  Variable evs : event -> bool.
  Hypothesis ok_gentle : forall o, ok o = true -> gentle o = true.
  Hypothesis more_refl : forall s, more s s.
  Hypothesis more_trans : forall a b c, more a b -> more b c -> more a c.
  Hypothesis step_more : forall s o r s' ev, ok o = true -> step s o = (r, s', ev) -> more s s' /\ forallb evs ev = true.
  Hypothesis all_ok : forall tr e o c, In (o, c) (react tr e) -> ok o = true /\ c = true.

  Lemma keeps_refl w : steady w -> keeps more evs w w.
  Proof. intros H. constructor; auto using alike_refl. exists []. auto. Qed.
  Lemma keeps_trans a b c : keeps more evs a b -> keeps more evs b c -> keeps more evs a c.
  Proof.
    intros [A1 A2 A3 A4 (l & A5 & A6)] [B1 B2 B3 B4 (m & B5 & B6)]. constructor; [eapply alike_trans; eauto|eauto|congruence|assumption|].
    exists (m ++ l). rewrite B5, A5, app_assoc, forallb_app, B6, A6. auto.
  Qed.

  (** a gentle step without the reactions *)
  Lemma step_keeps s o r s' ev : gentle o = true -> step s o = (r, s', ev) -> alike s s' /\ (ev = [] \/ exists e, ev = [e]).
  Proof.
    intros G E. destruct o; try discriminate G; cbn [step] in E.
    - unfold createRouteIdentifier in E. injection E as <- <- <-. split; [|now left]. repeat split; cbn. intros rid. destruct (nth_error (routes_made s) rid); auto.
    - destruct (nth_error (routes_made s) rid) as [x|] eqn:N; [|injection E as <- <- <-; split; [apply alike_refl|now left]].
      unfold connectTo in E. injection E as <- <- <-. split.
      + repeat split; cbn. intros j. rewrite upd_nth_nth by (apply nth_error_Some; congruence). destruct (Nat.eqb_spec j rid) as [->|D]; [rewrite N; cbn; auto|destruct (nth_error (routes_made s) j); auto].
      + destruct (sender s); [right; eexists; reflexivity|now left].
    - destruct (ampBoxReceived s b) as [x l] eqn:A. injection E as <- <- <-. split; [apply alike_refl|]. unfold ampBoxReceived in A.
      destruct (started s); [|injection A as <- <-; now left]. destruct (dget _ _); [|injection A as <- <-; now left]. destruct (nth_error _ _); injection A as <- <-; [right; eexists; reflexivity|now left].
    - destruct (nth_error (routes_made s) rid) as [x|] eqn:N; [|injection E as <- <- <-; split; [apply alike_refl|now left]].
      destruct (sendBox s x b) as [y l] eqn:A. injection E as <- <- <-. split; [apply alike_refl|]. unfold sendBox in A.
      destruct (r_remote x); [|injection A as <- <-; now left]. destruct (sender s); injection A as <- <-; [right; eexists; reflexivity|now left].
    - destruct (nth_error (routes_made s) rid) as [x|] eqn:N; [|injection E as <- <- <-; split; [apply alike_refl|now left]].
      destruct (unhandledError s f) as [y l] eqn:A. injection E as <- <- <-. split; [apply alike_refl|]. unfold unhandledError in A.
      destruct (sender s); injection A as <- <-; [right; eexists; reflexivity|now left].
  Qed.

  Lemma with_alike w s' : steady w -> alike (w_state w) s' -> w_dict (with_state w s') = w_dict w /\ steady (with_state w s').
  Proof. intros H (A1 & A2 & _). unfold with_state, steady, dict_now in *. cbn. rewrite A1, A2. split; [exact H|]. destruct (started (w_state w)), (unstarted (w_state w)); reflexivity. Qed.

  Lemma reactions_keep do_ l : (forall o w, ok o = true -> steady w -> keeps more evs w (fst (do_ o w))) -> (forall o c, In (o, c) l -> ok o = true /\ c = true) ->
    forall w, steady w -> keeps more evs w (fst (reactions do_ l w)) /\ (snd (reactions do_ l w) = Ok tt \/ snd (reactions do_ l w) = Err NO_FUEL).
  Proof.
    intros D. induction l as [|[o c] l IH]; intros L w H; cbn [reactions]; [split; [now apply keeps_refl|now left]|].
    destruct (L o c (or_introl eq_refl)) as [G ->]. pose proof (D o w G H) as K. destruct (do_ o w) as [w' r]. cbn [fst] in K.
    assert (IH' : keeps more evs w (fst (reactions do_ l w')) /\ (snd (reactions do_ l w') = Ok tt \/ snd (reactions do_ l w') = Err NO_FUEL)).
    { destruct (IH ltac:(intros; apply L; now right) w' (k_steady _ _ _ _ K)) as [K' R]. split; [eapply keeps_trans; eauto|exact R]. }
    destruct r as [x|e]; [exact IH'|]. destruct (no_fuel e) eqn:Hn; cbn [andb negb]; [apply no_fuel_spec in Hn as ->; split; [exact K|now right]|exact IH'].
  Qed.

  Lemma do_op_keeps n : forall o w, ok o = true -> steady w -> keeps more evs w (fst (do_op react n o w)).
  Proof.
    induction n as [|n IH]; intros o w G H; cbn [do_op]; [now apply keeps_refl|].
    assert (X : fst (let '(r, s', ev) := step (w_state w) o in let w1 := with_state w s' in match ev with [e] => if to_receiver e then let (w2, x) := deliver react (do_op react n) e w1 in (w2, match x with Ok _ => r | Err y => Err y end) else (record_event w1 e, r) | _ => (w1, r) end)
      = fst (do_op react (S n) o w)) by (cbn [do_op]; unfold one_op; pose proof (ok_gentle o G); destruct o; try reflexivity; discriminate).
    cbn [do_op] in X. rewrite <- X. clear X.
    destruct (step (w_state w) o) as [[r s'] ev] eqn:E. destruct (step_keeps _ _ _ _ _ (ok_gentle o G) E) as [A Ev]. destruct (step_more _ _ _ _ _ G E) as [M F].
    destruct (with_alike w s' H A) as [D1 D2].
    assert (K1 : keeps more evs w (with_state w s')) by (constructor; auto; exists []; auto).
    cbn zeta. destruct Ev as [->|[e ->]]; [exact K1|]. cbn [forallb] in F. apply andb_prop in F as [F _].
    assert (K2 : keeps more evs w (record_event (with_state w s') e)) by (constructor; auto; exists [e]; cbn; rewrite F; auto).
    destruct (to_receiver e); [|exact K2]. unfold deliver.
    destruct (reactions_keep (do_op react n) (react (w_trace (with_state w s')) e) IH ltac:(intros; eapply all_ok; eauto) (record_event (with_state w s') e) (k_steady _ _ _ _ K2)) as [K3 _].
    destruct (reactions (do_op react n) (react (w_trace (with_state w s')) e) (record_event (with_state w s') e)) as [w2 x]. cbn [fst] in *. eapply keeps_trans; eauto.
  Qed.

  (** the loops *)
  Lemma deliver_keeps n e w : steady w -> forall w', record_event w e = w' ->
    keeps more evs w' (fst (deliver react (do_op react n) e w)) /\ (snd (deliver react (do_op react n) e w) = Ok tt \/ snd (deliver react (do_op react n) e w) = Err NO_FUEL).
  Proof. intros H w' <-. unfold deliver. apply reactions_keep; [intros; now apply do_op_keeps|intros; eapply all_ok; eauto|exact H]. Qed.

  (** [calls] is the same for states that are alike and [more]; its calls are not among
      those receivers cause *)
  Lemma loop_keeps n (calls : rstate -> nat -> list event) (other : event -> bool) :
    (forall s s' rid, alike s s' -> more s s' -> calls s' rid = calls s rid) ->
    (forall s rid, calls s rid = [] \/ exists e, calls s rid = [e] /\ other e = true) ->
    (forall e, evs e = true -> other e = false) ->
    forall todo w names s0, alike s0 (w_state w) -> more s0 (w_state w) -> steady w -> keys (w_dict w) = names -> incl todo names ->
    let (w', r) := loop react (do_op react n) calls names todo w in
    (r = Ok tt \/ r = Err NO_FUEL) /\ alike s0 (w_state w') /\ more s0 (w_state w') /\ w_dict w' = w_dict w /\ steady w' /\
    (r = Ok tt -> exists l, w_trace w' = l ++ w_trace w /\
       filter other (rev l) = flat_map (fun k => match dget (w_dict w) k with Some rid => calls s0 rid | None => [] end) todo).
  Proof.
    intros C1 C2 C3. induction todo as [|k todo IH]; intros w names s0 A0 M0 H HK HI; cbn [loop]; rewrite HK, eqb_refl.
    - split; [now left|]. do 4 (split; [assumption || reflexivity|]). intros _. exists []. auto.
    - destruct (dget (w_dict w) k) as [rid|] eqn:Ek.
      2: { exfalso. apply dget_None in Ek. apply Ek. rewrite HK. apply HI. now left. }
      assert (Step : forall e, calls (w_state w) rid = [e] -> other e = true ->
         let (w1, r1) := deliver react (do_op react n) e w in (r1 = Ok tt \/ r1 = Err NO_FUEL) /\ alike s0 (w_state w1) /\ more s0 (w_state w1) /\ w_dict w1 = w_dict w /\ steady w1 /\
           exists l, w_trace w1 = l ++ w_trace w /\ filter other (rev l) = [e]).
      { intros e _ He. destruct (deliver_keeps n e w H _ eq_refl) as [K R]. destruct (deliver react (do_op react n) e w) as [w1 r1]. cbn [fst snd] in *. destruct K as [K1 K2 K3 K4 (l & K5 & K6)].
        split; [exact R|]. split; [eapply alike_trans; eauto|]. split; [eapply more_trans; eauto|]. split; [exact K3|]. split; [exact K4|]. exists (l ++ [e]). split; [rewrite <- app_assoc; exact K5|].
        rewrite rev_app_distr. cbn [rev app filter]. rewrite He. f_equal.
        assert (Z : forall m, forallb evs m = true -> filter other m = []) by (induction m as [|x m IHm]; [reflexivity|]; cbn; intros Q; apply andb_prop in Q as [Q1 Q2]; rewrite (C3 x Q1); auto).
        apply Z. rewrite forallb_forall in *. intros x Hx. apply K6. now apply in_rev. }
      pose proof (C1 s0 (w_state w) rid A0 M0) as Ec. cbn [flat_map]. rewrite Ek, <- Ec.
      destruct (C2 (w_state w) rid) as [E0|(e & E1 & He)].
      + rewrite E0. cbn [deliver_all app]. apply (IH w names s0); auto. intros x Hx. apply HI. now right.
      + rewrite E1. cbn [deliver_all]. specialize (Step e E1 He). destruct (deliver react (do_op react n) e w) as [w1 r1]. destruct Step as (R1 & A1 & M1 & D1 & H1 & l & T1 & F1).
        destruct R1 as [->| ->]; [|split; [now right|]; do 4 (split; [assumption|]); discriminate].
        specialize (IH w1 names s0 A1 M1 H1 ltac:(rewrite D1; exact HK) ltac:(intros x Hx; apply HI; now right)).
        destruct (loop react (do_op react n) calls names todo w1) as [w' r]. destruct IH as (R & A & M & D & H' & T). split; [exact R|]. do 2 (split; [assumption|]). split; [congruence|]. split; [assumption|].
        intros Hr. destruct (T Hr) as (l' & T' & F'). exists (l' ++ l). split; [rewrite T', T1; apply app_assoc|]. rewrite rev_app_distr, filter_app, F1, F', D1. reflexivity.
  Qed.
End Gentle.

(** *** What holds of every router, whatever its receivers do *)
Record sound (w : world) : Prop := {
  s_steady : steady w;
  s_one : started (w_state w) = None \/ unstarted (w_state w) = None;
  s_keys : wf_dict (w_dict w);
  s_named : forall n rid, dget (w_dict w) n = Some rid -> exists r, nth_error (routes_made (w_state w)) rid = Some r /\ r_local r = n }.

Lemma dict_started w d : steady w -> started (w_state w) = Some d -> w_dict w = d.
Proof. unfold steady, dict_now. intros H E. now rewrite E in H. Qed.
Lemma dict_unstarted w d : sound w -> unstarted (w_state w) = Some d -> w_dict w = d.
Proof. intros [H O _ _] E. unfold steady, dict_now in H. rewrite E in *. destruct O as [O|O]; [|discriminate]. now rewrite O in H. Qed.

Lemma sound_new : sound new_world.
Proof. constructor; cbn; auto; [reflexivity|constructor|discriminate]. Qed.
Lemma sound_record w e : sound w -> sound (record_event w e).
Proof. intros [A B C D]. constructor; auto. Qed.

Lemma sound_step w o r s' ev : sound w -> (forall x, o <> OStart x) -> (forall x, o <> OStop x) -> step (w_state w) o = (r, s', ev) -> sound (with_state w s').
Proof.
  intros Sd N1 N2 E. pose proof Sd as [A B C D].
  assert (Al : gentle o = true -> sound (with_state w s')).
  { intros G. destruct (step_keeps _ _ _ _ _ G E) as [Ak _]. destruct (with_alike w s' A Ak) as [D1 D2]. destruct Ak as (K1 & K2 & K3 & K4). constructor; auto.
    - cbn. rewrite K1, K2. exact B.
    - now rewrite D1.
    - rewrite D1. intros n rid Hn. destruct (D n rid Hn) as (x & X1 & X2). specialize (K4 rid). rewrite X1 in K4. cbn. destruct (nth_error (routes_made s') rid) as [y|]; [|contradiction]. exists y. split; [reflexivity|]. destruct K4. congruence. }
  destruct o; try (exfalso; now eapply N1); try (exfalso; now eapply N2); try (apply Al; reflexivity); clear Al; cbn [step] in E.
  - (* bind *)
    destruct (bindRoute (w_state w) recv name) as [x s1] eqn:Eb. injection E as -> -> <-. unfold bindRoute in Eb.
    set (p := match name with Some n => (n, w_state w) | None => let '(i, s1) := createRouteIdentifier (w_state w) in (Some i, s1) end) in Eb.
    assert (P : routes_made (snd p) = routes_made (w_state w) /\ started (snd p) = started (w_state w) /\ unstarted (snd p) = unstarted (w_state w)) by (unfold p; destruct name; cbn; auto).
    destruct p as [nm s0]. cbn [snd] in P. destruct P as (P1 & P2 & P3). rewrite P1, P2, P3 in Eb.
    assert (Big : forall d, w_dict w = d -> wf_dict (dset d nm (length (routes_made (w_state w)))) /\
      forall n rid, dget (dset d nm (length (routes_made (w_state w)))) n = Some rid ->
        exists q, nth_error (routes_made (w_state w) ++ [{| r_recv := recv; r_local := nm; r_remote := None |}]) rid = Some q /\ r_local q = n).
    { intros d <-. split; [now apply wf_dset|]. intros n rid. rewrite dget_dset. destruct (eqb_spec n nm) as [->|Hn].
      - intros [= <-]. rewrite nth_error_app2, Nat.sub_diag by lia. eexists. split; reflexivity.
      - intros Hd. destruct (D n rid Hd) as (q & Q1 & Q2). exists q. rewrite nth_error_app1; [auto|]. apply nth_error_Some. congruence. }
    destruct (started (w_state w)) as [d|] eqn:Es; [|destruct (unstarted (w_state w)) as [d|] eqn:Eu].
    + injection Eb as <- <-. destruct (Big d (dict_started w d A Es)) as [W1 W2]. destruct B as [B|B]; [discriminate|]. constructor; [reflexivity|right; exact B|exact W1|exact W2].
    + injection Eb as <- <-. destruct (Big d ltac:(eapply dict_unstarted; eauto)) as [W1 W2]. constructor; [reflexivity|left; reflexivity|exact W1|exact W2].
    + injection Eb as <- <-. assert (F : with_state w s0 = World s0 (w_dict w) (w_trace w)) by (unfold with_state, dict_now; now rewrite P2, P3). rewrite F. constructor; cbn; [unfold steady, dict_now; cbn; now rewrite P2, P3|left; exact P2|exact C|]. rewrite P1. exact D.
  - (* unbind *)
    destruct (nth_error (routes_made (w_state w)) rid) as [x|] eqn:N; [|injection E as <- <- <-; unfold with_state; rewrite A; constructor; cbn; auto].
    unfold unbind in E. destruct (started (w_state w)) as [d|] eqn:Es.
    2: { injection E as <- <- <-. unfold with_state. rewrite A. constructor; cbn; auto. }
    destruct (din d (r_local x)) eqn:Ed; injection E as <- <- <-; [|unfold with_state; rewrite A; constructor; cbn; auto; rewrite Es; exact B].
    pose proof (dict_started w d A Es) as Hd. constructor; cbn; [reflexivity|destruct B as [B|B]; [discriminate|now right]|unfold dict_now; cbn; apply wf_ddel; now rewrite <- Hd|].
    unfold dict_now; cbn. intros n j Hj. apply D. rewrite Hd. destruct (eqb_spec (r_local x) n) as [Heq|Hn]; [subst n; rewrite dget_ddel_eq in Hj by (now rewrite <- Hd); discriminate|]. rewrite dget_ddel_neq in Hj; auto.
Qed.

Section Any.
  Variable react : list event -> event -> list (op * bool).

  Lemma reactions_sound do_ : (forall o w, sound w -> sound (fst (do_ o w))) -> forall l w, sound w -> sound (fst (reactions do_ l w)).
  Proof.
    intros D. induction l as [|[o c] l IH]; intros w H; cbn [reactions]; [exact H|]. pose proof (D o w H) as K. destruct (do_ o w) as [w' r]. cbn [fst] in K.
    destruct r; [now apply IH|]. destruct (_ && _); [now apply IH|exact K].
  Qed.
  Lemma deliver_sound do_ e w : (forall o w, sound w -> sound (fst (do_ o w))) -> sound w -> sound (fst (deliver react do_ e w)).
  Proof. intros D H. apply reactions_sound; auto using sound_record. Qed.
  Lemma deliver_all_sound do_ l : (forall o w, sound w -> sound (fst (do_ o w))) -> forall w, sound w -> sound (fst (deliver_all react do_ l w)).
  Proof.
    intros D. induction l as [|e l IH]; intros w H; cbn [deliver_all]; [exact H|]. pose proof (deliver_sound do_ e w D H) as K. destruct (deliver react do_ e w) as [w' r]. destruct r; [now apply IH|exact K].
  Qed.
  Lemma loop_sound do_ calls names todo : (forall o w, sound w -> sound (fst (do_ o w))) -> forall w, sound w -> sound (fst (loop react do_ calls names todo w)).
  Proof.
    intros D. induction todo as [|k todo IH]; intros w H; cbn [loop]; (destruct (eqb (keys (w_dict w)) names); [|exact H]); [exact H|].
    destruct (dget (w_dict w) k) as [rid|]; [|exact H]. pose proof (deliver_all_sound do_ (calls (w_state w) rid) D w H) as K. destruct (deliver_all react do_ (calls (w_state w) rid) w) as [w' r]. destruct r; [now apply IH|exact K].
  Qed.

  Lemma do_op_sound n : forall o w, sound w -> sound (fst (do_op react n o w)).
  Proof.
    induction n as [|n IH]; intros o w H; cbn [do_op]; [exact H|]. unfold one_op.
    assert (General : (forall x, o <> OStart x) -> (forall x, o <> OStop x) -> sound (fst (let '(r, s', ev) := step (w_state w) o in let w1 := with_state w s' in match ev with [e] => if to_receiver e then let (w2, x) := deliver react (do_op react n) e w1 in (w2, match x with Ok _ => r | Err y => Err y end) else (record_event w1 e, r) | _ => (w1, r) end))).
    { intros N1 N2. destruct (step (w_state w) o) as [[r s'] ev] eqn:E. pose proof (sound_step w o r s' ev H N1 N2 E) as K. cbn zeta. destruct ev as [|e [|]]; [exact K| |exact K]. destruct (to_receiver e); [|now apply sound_record].
      pose proof (deliver_sound (do_op react n) e _ IH K) as K2. destruct (deliver react (do_op react n) e (with_state w s')). exact K2. }
    destruct o; try (apply General; discriminate); clear General.
    - unfold r_start. destruct (unstarted (w_state w)) as [d|] eqn:Eu.
      + pose proof (dict_unstarted w d H Eu) as Hd. destruct H as [H1 H2 H3 H4]. destruct H2 as [H2|H2]; [|congruence].
        match goal with |- context [loop react ?a ?b ?c ?e ?w1] => assert (K1 : sound w1); [|pose proof (loop_sound a b c e IH w1 K1) as K; destruct (loop react a b c e w1) as [w2 r]] end.
        { unfold with_state, dict_now. constructor; unfold steady, dict_now; cbn; rewrite ?H2; auto; [rewrite <- Hd; exact H3|rewrite <- Hd; exact H4]. }
        destruct r; [|exact K]. cbn [fst] in *. pose proof K as [A B C D]. constructor; cbn; [|now right| |].
        * unfold steady, dict_now; cbn. destruct (unstarted (w_state w2)); reflexivity.
        * unfold dict_now; cbn. destruct (unstarted (w_state w2)) as [y|] eqn:Ey; [|exact C]. assert (w_dict w2 = y) by (eapply dict_unstarted; [exact K|exact Ey]). now subst y.
        * unfold dict_now; cbn. destruct (unstarted (w_state w2)) as [y|] eqn:Ey; [|exact D]. assert (w_dict w2 = y) by (eapply dict_unstarted; [exact K|exact Ey]). now subst y.
      + destruct H as [H1 H2 H3 H4]. unfold with_state. assert (Q : dict_now {| routes_made := routes_made (w_state w); started := started (w_state w); unstarted := None; sender := Some snd; counter := counter (w_state w) |} (w_dict w) = w_dict w) by (revert H1; unfold steady, dict_now; cbn; now rewrite Eu).
        cbn [fst]. rewrite Q. constructor; cbn; auto.
    - unfold r_stop. destruct (started (w_state w)) as [d|] eqn:Eu; [|exact H].
      match goal with |- context [loop react ?a ?b ?c ?e ?w1] => pose proof (loop_sound a b c e IH w1 H) as K; destruct (loop react a b c e w1) as [w2 r] end.
      destruct r; [|exact K]. cbn [fst] in *. pose proof K as [A B C D].
      assert (Q : dict_now {| routes_made := routes_made (w_state w2); started := None; unstarted := unstarted (w_state w2); sender := sender (w_state w2); counter := counter (w_state w2) |} (w_dict w2) = w_dict w2).
      { unfold dict_now; cbn. destruct (unstarted (w_state w2)) as [y|] eqn:Ey; [|reflexivity]. symmetry. eapply dict_unstarted; eauto. }
      unfold with_state. rewrite Q. constructor; cbn; auto.
  Qed.
End Any.

(** *** The bound on the depth has no influence *)
Definition deeper (f g : op -> world -> world * res ret) : Prop := forall o w, snd (f o w) <> Err NO_FUEL -> g o w = f o w.

Section Fuel.
  Variable react : list event -> event -> list (op * bool).
  Lemma reactions_deeper f g l : deeper f g -> forall w, snd (reactions f l w) <> Err NO_FUEL -> reactions g l w = reactions f l w.
  Proof.
    intros D. induction l as [|[o c] l IH]; intros w; cbn [reactions]; [reflexivity|]. specialize (D o w). destruct (f o w) as [w' r]. cbn [snd] in D. intros H.
    assert (E : g o w = (w', r)). { apply D. intros ->. apply H. cbn. now rewrite andb_false_r. }
    rewrite E. destruct r; [now apply IH|]. destruct (_ && _); [now apply IH|reflexivity].
  Qed.
  Lemma deliver_all_deeper f g l : deeper f g -> forall w, snd (deliver_all react f l w) <> Err NO_FUEL -> deliver_all react g l w = deliver_all react f l w.
  Proof.
    intros D. induction l as [|e l IH]; intros w; cbn [deliver_all]; [reflexivity|]. unfold deliver. pose proof (reactions_deeper f g (react (w_trace w) e) D (record_event w e)) as R.
    destruct (reactions f (react (w_trace w) e) (record_event w e)) as [w' r]. cbn [snd] in R. destruct r; intros H.
    - rewrite R by discriminate. now apply IH.
    - now rewrite R.
  Qed.
  Lemma loop_deeper f g calls names todo : deeper f g -> forall w, snd (loop react f calls names todo w) <> Err NO_FUEL -> loop react g calls names todo w = loop react f calls names todo w.
  Proof.
    intros D. induction todo as [|k todo IH]; intros w; cbn [loop]; (destruct (eqb (keys (w_dict w)) names); [|reflexivity]); [reflexivity|].
    destruct (dget (w_dict w) k) as [rid|]; [|reflexivity]. pose proof (deliver_all_deeper f g (calls (w_state w) rid) D w) as R. destruct (deliver_all react f (calls (w_state w) rid) w) as [w' r]. cbn [snd] in R. destruct r; intros H.
    - rewrite R by discriminate. now apply IH.
    - now rewrite R.
  Qed.
  Lemma one_op_deeper f g : deeper f g -> deeper (one_op react f) (one_op react g).
  Proof.
    intros IH o w H. unfold one_op in *.
    assert (General : snd (let '(r, s', ev) := step (w_state w) o in let w1 := with_state w s' in match ev with [e] => if to_receiver e then let (w2, x) := deliver react f e w1 in (w2, match x with Ok _ => r | Err y => Err y end) else (record_event w1 e, r) | _ => (w1, r) end) <> Err NO_FUEL ->
      (let '(r, s', ev) := step (w_state w) o in let w1 := with_state w s' in match ev with [e] => if to_receiver e then let (w2, x) := deliver react g e w1 in (w2, match x with Ok _ => r | Err y => Err y end) else (record_event w1 e, r) | _ => (w1, r) end) =
      (let '(r, s', ev) := step (w_state w) o in let w1 := with_state w s' in match ev with [e] => if to_receiver e then let (w2, x) := deliver react f e w1 in (w2, match x with Ok _ => r | Err y => Err y end) else (record_event w1 e, r) | _ => (w1, r) end)).
    { destruct (step (w_state w) o) as [[r s'] ev]. cbn zeta. destruct ev as [|e [|]]; try reflexivity. destruct (to_receiver e); [|reflexivity]. unfold deliver.
      pose proof (reactions_deeper f g (react (w_trace (with_state w s')) e) IH (record_event (with_state w s') e)) as R.
      destruct (reactions f (react (w_trace (with_state w s')) e) (record_event (with_state w s') e)) as [w2 x]. cbn [snd] in R. intros Hx. rewrite R; [reflexivity|]. intros ->. now apply Hx. }
    destruct o; try (apply General; exact H); clear General.
    - unfold r_start in *. destruct (unstarted (w_state w)); [|reflexivity].
      match goal with |- (let (_, _) := loop react _ ?b ?c ?e ?w1 in _) = _ => pose proof (loop_deeper f g b c e IH w1) as K; destruct (loop react f b c e w1) as [w2 r] end.
      cbn [Datatypes.snd] in K. rewrite K; [reflexivity|]. intros ->. now apply H.
    - unfold r_stop in *. destruct (started (w_state w)); [|reflexivity].
      match goal with |- (let (_, _) := loop react _ ?b ?c ?e ?w1 in _) = _ => pose proof (loop_deeper f g b c e IH w1) as K; destruct (loop react f b c e w1) as [w2 r] end.
      cbn [Datatypes.snd] in K. rewrite K; [reflexivity|]. intros ->. now apply H.
  Qed.
  Theorem do_op_deeper n : deeper (do_op react n) (do_op react (S n)).
  Proof. induction n as [|n IH]; [intros o w H; now elim H|]. cbn [do_op]. apply one_op_deeper. exact IH. Qed.
  Corollary do_op_fuel n k o w : snd (do_op react n o w) <> Err NO_FUEL -> do_op react (k + n) o w = do_op react n o w.
  Proof. intros H. induction k as [|k IH]; [reflexivity|]. cbn [plus]. rewrite (do_op_deeper (k + n) o w); rewrite IH; auto. Qed.
End Fuel.

(** *** Receivers that do not call back: the model of AmpRouter.v *)
Definition silent : list event -> event -> list (op * bool) := fun _ _ => [].
Lemma flat_values (f : nat -> list event) : forall (d d0 : dict rname nat), (forall k v, In (k, v) d -> dget d0 k = Some v) ->
  flat_map (fun k => match dget d0 k with Some rid => f rid | None => [] end) (keys d) = flat_map f (values d).
Proof. induction d as [|[k v] d IH]; intros d0 H; [reflexivity|]. cbn [keys values map flat_map fst snd]. rewrite (H k v) by now left. f_equal. apply IH. intros; apply H; now right. Qed.
Lemma flat_values0 (f : nat -> list event) (d : dict rname nat) : wf_dict d -> flat_map (fun k => match dget d k with Some rid => f rid | None => [] end) (keys d) = flat_map f (values d).
Proof. intros W. apply flat_values. intros k v Hk. now apply In_dget. Qed.

Definition reached (w : world) : Prop := exists l : list ((list event -> event -> list (op * bool)) * nat * op), w = fold_left (fun w x => fst (do_op (fst (fst x)) (snd (fst x)) (snd x) w)) l new_world.
Lemma reached_sound w : reached w -> sound w.
Proof.
  intros [l ->]. assert (G : forall w0, sound w0 -> sound (fold_left (fun w x => fst (do_op (fst (fst x)) (snd (fst x)) (snd x) w)) l w0)); [|apply G, sound_new].
  induction l as [|x l IH]; intros w0 H; [exact H|]. cbn [fold_left]. apply IH. now apply do_op_sound.
Qed.

(** *** Stopping *)
Section Stop.
  Variable react : list event -> event -> list (op * bool).
  Hypothesis all_ok : forall tr e o c, In (o, c) (react tr e) -> gentle o = true /\ c = true.

  Lemma stop_gentle n reason w : sound w -> let (w', r) := do_op react (S n) (OStop reason) w in r <> Err NO_FUEL ->
    match started (w_state w) with
    | None => r = Err AttributeError /\ w' = w
    | Some d => r = Ok RNone /\ started (w_state w') = None /\ exists l, w_trace w' = l ++ w_trace w /\ filter is_stop (rev l) = stop_events (w_state w) d reason
    end.
  Proof.
    intros H. cbn [do_op]. unfold one_op at 1. unfold r_stop. destruct (started (w_state w)) as [d|] eqn:Es; [|auto].
    pose proof (dict_started w d (s_steady _ H) Es) as Hd.
    pose proof (loop_keeps react gentle (fun _ _ => True) (fun e => negb (is_stop e)) (fun o X => X) (fun _ => I) (fun _ _ _ _ _ => I)) as L.
    assert (SM : forall s o r s' ev, gentle o = true -> step s o = (r, s', ev) -> True /\ forallb (fun e => negb (is_stop e)) ev = true).
    { intros s o r s' ev G E. split; [exact I|]. destruct o; try discriminate G; cbn [step] in E.
      - injection E as <- <- <-. reflexivity.
      - destruct (nth_error (routes_made s) rid); [|injection E as <- <- <-; reflexivity]. unfold connectTo in E. injection E as <- <- <-. destruct (sender s); reflexivity.
      - destruct (ampBoxReceived s b) as [x l] eqn:A. injection E as <- <- <-. unfold ampBoxReceived in A. destruct (started s); [|injection A as <- <-; reflexivity]. destruct (dget _ _); [|injection A as <- <-; reflexivity]. destruct (nth_error _ _); injection A as <- <-; reflexivity.
      - destruct (nth_error (routes_made s) rid) as [x|]; [|injection E as <- <- <-; reflexivity]. unfold sendBox in E. destruct (r_remote x); [destruct (sender s)|]; injection E as <- <- <-; reflexivity.
      - destruct (nth_error (routes_made s) rid) as [x|]; [|injection E as <- <- <-; reflexivity]. unfold unhandledError in E. destruct (sender s); injection E as <- <- <-; reflexivity. }
    specialize (L SM all_ok n (calls_stop reason) is_stop).
    assert (C1 : forall s s' rid, alike s s' -> True -> calls_stop reason s' rid = calls_stop reason s rid).
    { intros s s' rid (_ & _ & _ & A) _. specialize (A rid). unfold calls_stop. destruct (nth_error (routes_made s) rid), (nth_error (routes_made s') rid); try tauto. destruct A as [A _]. now rewrite A. }
    assert (C2 : forall s rid, calls_stop reason s rid = [] \/ exists e, calls_stop reason s rid = [e] /\ is_stop e = true).
    { intros s rid. unfold calls_stop. destruct (nth_error _ _); [right; eexists; split; reflexivity|now left]. }
    assert (C3 : forall e, negb (is_stop e) = true -> is_stop e = false) by (intros e; destruct (is_stop e); auto).
    specialize (L C1 C2 C3 (keys d) w (keys d) (w_state w) (alike_refl _) I (s_steady _ H) ltac:(now rewrite Hd) ltac:(apply incl_refl)).
    destruct (loop react (do_op react n) (calls_stop reason) (keys d) (keys d) w) as [w2 r]. destruct L as (R & _ & _ & _ & _ & T).
    destruct R as [->| ->]; [|intros X; now elim X]. intros _. split; [reflexivity|]. split; [reflexivity|]. destruct (T eq_refl) as (l & T1 & T2). exists l. split; [exact T1|]. rewrite T2, Hd.
    unfold stop_events. rewrite flat_values0; [reflexivity|]. rewrite <- Hd. apply H.
  Qed.
End Stop.

(** a receiver that unbinds its route when it is stopped, the first one *)
Lemma stop_unbind react n reason w k rid d r c : sound w -> started (w_state w) = Some ((k, rid) :: d) -> nth_error (routes_made (w_state w)) rid = Some r ->
  react (w_trace w) (EStop (r_recv r) reason) = [(OUnbind rid, c)] ->
  let (w', x) := do_op react (S (S n)) (OStop reason) w in
  x = Err RuntimeError /\ started (w_state w') = Some d /\ w_trace w' = EStop (r_recv r) reason :: w_trace w.
Proof.
  intros H Es N R. pose proof (dict_started w _ (s_steady _ H) Es) as Hd.
  destruct (s_named _ H k rid) as (r' & N' & L'); [rewrite Hd; cbn [dget]; now rewrite eqb_refl|]. assert (r' = r) by congruence. subst r'.
  set (w1 := record_event w (EStop (r_recv r) reason)).
  set (s' := {| routes_made := routes_made (w_state w); started := Some d; unstarted := unstarted (w_state w); sender := sender (w_state w); counter := counter (w_state w) |}).
  assert (U : do_op react (S n) (OUnbind rid) w1 = (World s' d (w_trace w1), Ok RNone)).
  { cbn [do_op]. unfold one_op. cbn [step]. change (w_state w1) with (w_state w). rewrite N. unfold unbind. rewrite Es. unfold din. rewrite L'. cbn [dget]. rewrite eqb_refl. cbn [ddel]. rewrite eqb_refl. reflexivity. }
  assert (Nd : eqb (keys d) (k :: keys d) = false). { destruct (eqb_spec (keys d) (k :: keys d)) as [E|]; [|reflexivity]. apply (f_equal (@List.length rname)) in E. cbn in E. lia. }
  change (do_op react (S (S n)) (OStop reason) w) with (r_stop react (do_op react (S n)) reason w). unfold r_stop. rewrite Es. cbn [keys map fst]. cbn [loop]. rewrite Hd. cbn [keys map fst]. rewrite eqb_refl. cbn [dget]. rewrite eqb_refl. unfold calls_stop at 1. rewrite N. cbn [deliver_all]. unfold deliver. rewrite R. cbn [reactions]. fold w1. rewrite U. cbn [reactions].
  assert (Lp : forall t, loop react (do_op react (S n)) (calls_stop reason) (k :: keys d) t (World s' d (w_trace w1)) = (World s' d (w_trace w1), Err RuntimeError)).
  { intros t. destruct t; cbn [loop w_dict]; now rewrite Nd. }
  rewrite Lp. repeat split.
Qed.

(** *** Starting *)
Lemma step_quiet s o r s' ev : quiet_op o = true -> step s o = (r, s', ev) -> routes_made s' = routes_made s /\ forallb (fun e => negb (is_start e)) ev = true.
Proof.
  intros G E. destruct o; try discriminate G; cbn [step] in E.
  - injection E as <- <- <-. auto.
  - destruct (ampBoxReceived s b) as [x l] eqn:A. injection E as <- <- <-. split; [reflexivity|]. unfold ampBoxReceived in A. destruct (started s); [|injection A as <- <-; reflexivity]. destruct (dget _ _); [|injection A as <- <-; reflexivity]. destruct (nth_error _ _); injection A as <- <-; reflexivity.
  - destruct (nth_error (routes_made s) rid) as [x|]; [|injection E as <- <- <-; auto]. unfold sendBox in E. destruct (r_remote x); [destruct (sender s)|]; injection E as <- <- <-; auto.
  - destruct (nth_error (routes_made s) rid) as [x|]; [|injection E as <- <- <-; auto]. unfold unhandledError in E. destruct (sender s); injection E as <- <- <-; auto.
Qed.

Section Start.
  Variable react : list event -> event -> list (op * bool).
  Hypothesis all_ok : forall tr e o c, In (o, c) (react tr e) -> quiet_op o = true /\ c = true.

  Lemma start_quiet n sn w : sound w -> let (w', r) := do_op react (S n) (OStart sn) w in r <> Err NO_FUEL ->
    sender (w_state w') = Some sn /\
    match unstarted (w_state w) with
    | None => r = Err AttributeError /\ w_trace w' = w_trace w
    | Some d => r = Ok RNone /\ started (w_state w') = Some d /\ unstarted (w_state w') = None /\
                exists l, w_trace w' = l ++ w_trace w /\ filter is_start (rev l) = start_events (w_state w) d
    end.
  Proof.
    intros H. cbn [do_op]. unfold one_op at 1. unfold r_start. destruct (unstarted (w_state w)) as [d|] eqn:Eu; [|cbn; auto].
    pose proof (dict_unstarted w d H Eu) as Hd. pose proof H as [H1 H2 H3 H4]. destruct H2 as [H2|H2]; [|congruence].
    set (w1 := with_state w {| routes_made := routes_made (w_state w); started := started (w_state w); unstarted := Some d; sender := Some sn; counter := counter (w_state w) |}).
    assert (Hd1 : w_dict w1 = d) by (unfold w1, with_state, dict_now; cbn; now rewrite H2).
    assert (St1 : steady w1) by (unfold w1, steady, with_state, dict_now; cbn; now rewrite H2).
    pose proof (loop_keeps react quiet_op (fun s s' => routes_made s' = routes_made s) (fun e => negb (is_start e)) (fun o X => proj1 (andb_prop _ _ X)) (fun _ => eq_refl) (fun a b c X Y => eq_trans Y X) step_quiet all_ok n calls_start is_start) as L.
    assert (C1 : forall s s' rid, alike s s' -> routes_made s' = routes_made s -> calls_start s' rid = calls_start s rid) by (intros s s' rid _ E; unfold calls_start; now rewrite E).
    assert (C2 : forall s rid, calls_start s rid = [] \/ exists e, calls_start s rid = [e] /\ is_start e = true).
    { intros s rid. unfold calls_start. destruct (nth_error _ _) as [r|]; [|now left]. destruct (r_remote r); [right; eexists; split; reflexivity|now left]. }
    assert (C3 : forall e, negb (is_start e) = true -> is_start e = false) by (intros e; destruct (is_start e); auto).
    specialize (L C1 C2 C3 (keys d) w1 (keys d) (w_state w1) (alike_refl _) eq_refl St1 ltac:(now rewrite Hd1) ltac:(apply incl_refl)).
    destruct (loop react (do_op react n) calls_start (keys d) (keys d) w1) as [w2 r]. destruct L as (R & (A1 & A2 & A3 & _) & _ & _ & _ & T).
    destruct R as [->| ->]; [|intros X; now elim X]. intros _. cbn [with_state w_state sender started unstarted w_trace]. split; [rewrite A3; reflexivity|]. split; [reflexivity|]. split; [rewrite A2; reflexivity|]. split; [reflexivity|]. destruct (T eq_refl) as (l & T1 & T2). exists l. split; [exact T1|]. rewrite T2, Hd1.
    unfold start_events. rewrite flat_values0; [reflexivity|]. rewrite <- Hd. exact H3.
  Qed.
End Start.

(** a receiver that binds another route when it is started, the first one *)
Lemma start_bind react n sn w k rid d r rem recv nm c : sound w -> unstarted (w_state w) = Some ((k, rid) :: d) -> nth_error (routes_made (w_state w)) rid = Some r -> r_remote r = Some rem ->
  react (w_trace w) (EStart (r_recv r) rid) = [(OBind recv (Some nm), c)] -> ~ In nm (keys ((k, rid) :: d)) ->
  let (w', x) := do_op react (S (S n)) (OStart sn) w in
  x = Err RuntimeError /\ started (w_state w') = None /\ sender (w_state w') = Some sn /\ w_trace w' = EStart (r_recv r) rid :: w_trace w.
Proof.
  intros H Eu N Rm R Hn. pose proof (dict_unstarted w _ H Eu) as Hd. pose proof H as [H1 H2 H3 H4]. destruct H2 as [H2|H2]; [|congruence].
  change (do_op react (S (S n)) (OStart sn) w) with (r_start react (do_op react (S n)) sn w). unfold r_start. rewrite Eu.
  set (w1 := with_state w _).
  assert (Hd1 : w_dict w1 = (k, rid) :: d) by (unfold w1, with_state, dict_now; cbn; now rewrite H2).
  cbn [keys map fst]. cbn [loop]. rewrite Hd1. cbn [keys map fst]. rewrite eqb_refl. cbn [dget]. rewrite eqb_refl. unfold calls_start at 1. change (routes_made (w_state w1)) with (routes_made (w_state w)). rewrite N, Rm. cbn [deliver_all]. unfold route_start, deliver. change (w_trace w1) with (w_trace w). rewrite R. cbn [reactions].
  set (w2 := record_event w1 _). set (D := dset ((k, rid) :: d) nm (length (routes_made (w_state w)))).
  set (s' := {| routes_made := routes_made (w_state w) ++ [{| r_recv := recv; r_local := nm; r_remote := None |}]; started := None; unstarted := Some D; sender := Some sn; counter := counter (w_state w) |}).
  assert (U : do_op react (S n) (OBind recv (Some nm)) w2 = (World s' D (w_trace w2), Ok (RRoute (length (routes_made (w_state w))) nm))).
  { cbn [do_op]. unfold one_op. cbn [step]. unfold bindRoute. change (started (w_state w2)) with (started (w_state w)). rewrite H2. reflexivity. }
  rewrite U. cbn [reactions].
  assert (Nd : eqb (keys D) (k :: map fst d) = false).
  { destruct (eqb_spec (keys D) (k :: map fst d)) as [E|]; [|reflexivity]. exfalso. apply Hn. change (In nm (k :: map fst d)). rewrite <- E. unfold D. clear. rewrite <- din_keys. unfold din. rewrite dget_dset_eq. reflexivity. }
  assert (Lp : forall t, loop react (do_op react (S n)) calls_start (k :: map fst d) t (World s' D (w_trace w2)) = (World s' D (w_trace w2), Err RuntimeError)).
  { intros t. destruct t; cbn [loop w_dict]; now rewrite Nd. }
  rewrite Lp. repeat split.
Qed.

(** *** Silent receivers *)
Lemma deliver_all_silent do_ l : forall w, deliver_all silent do_ l w = (World (w_state w) (w_dict w) (rev l ++ w_trace w), Ok tt).
Proof. induction l as [|e l IH]; intros w; cbn [deliver_all]; [destruct w; reflexivity|]. unfold deliver, silent. cbn [reactions]. fold silent. rewrite IH. cbn [rev record_event w_state w_dict w_trace]. now rewrite <- app_assoc. Qed.
Lemma loop_silent do_ calls names : forall todo w, keys (w_dict w) = names -> incl todo names ->
  loop silent do_ calls names todo w = (World (w_state w) (w_dict w) (rev (flat_map (fun k => match dget (w_dict w) k with Some rid => calls (w_state w) rid | None => [] end) todo) ++ w_trace w), Ok tt).
Proof.
  induction todo as [|k todo IH]; intros w HK HI; cbn [loop]; rewrite HK, eqb_refl; [destruct w; reflexivity|].
  destruct (dget (w_dict w) k) as [rid|] eqn:Ek. 2: { exfalso. apply dget_None in Ek. apply Ek. rewrite HK. apply HI. now left. }
  rewrite deliver_all_silent. rewrite IH by (auto; intros x Hx; apply HI; now right). cbn [flat_map w_state w_dict w_trace]. rewrite Ek, rev_app_distr, <- app_assoc. reflexivity.
Qed.

Theorem silent_step n o w : sound w -> let '(r, s', ev) := step (w_state w) o in
  do_op silent (S n) o w = (World s' (dict_now s' (w_dict w)) (rev ev ++ w_trace w), r).
Proof.
  intros H. assert (General : (forall x, o <> OStart x) -> (forall x, o <> OStop x) -> let '(r, s', ev) := step (w_state w) o in do_op silent (S n) o w = (World s' (dict_now s' (w_dict w)) (rev ev ++ w_trace w), r)).
  { intros N1 N2. assert (Ev : let '(r, s', ev) := step (w_state w) o in ev = [] \/ exists e, ev = [e]).
    { destruct (gentle o) eqn:G.
      - destruct (step (w_state w) o) as [[r s'] ev] eqn:E. now destruct (step_keeps _ _ _ _ _ G E).
      - destruct o; try discriminate G; try (exfalso; now eapply N1); try (exfalso; now eapply N2); cbn [step].
        + destruct (bindRoute (w_state w) recv name). now left.
        + destruct (nth_error (routes_made (w_state w)) rid) as [x|]; [|now left]. destruct (unbind (w_state w) x). now left. }
    assert (X : do_op silent (S n) o w = let '(r, s', ev) := step (w_state w) o in let w1 := with_state w s' in match ev with [e] => if to_receiver e then let (w2, x) := deliver silent (do_op silent n) e w1 in (w2, match x with Ok _ => r | Err y => Err y end) else (record_event w1 e, r) | _ => (w1, r) end).
    { cbn [do_op]. unfold one_op. destruct o; try reflexivity; [exfalso; now eapply N1|exfalso; now eapply N2]. }
    rewrite X. destruct (step (w_state w) o) as [[r s'] ev]. cbn zeta. destruct Ev as [->|[e ->]]; [reflexivity|]. destruct (to_receiver e); reflexivity. }
  destruct o; try (apply General; discriminate); clear General; change (do_op silent (S n) ?o w) with (one_op silent (do_op silent n) o w); unfold one_op; cbn [step].
  - unfold r_start, startReceivingBoxes. destruct (unstarted (w_state w)) as [d|] eqn:Eu; [|reflexivity].
    pose proof (dict_unstarted w d H Eu) as Hd. pose proof H as [H1 H2 H3 H4]. destruct H2 as [H2|H2]; [|congruence].
    rewrite loop_silent; [|unfold with_state, dict_now; cbn; now rewrite H2|apply incl_refl].
    unfold with_state, dict_now. cbn [w_state w_dict w_trace started unstarted routes_made sender counter]. rewrite H2. rewrite flat_values0 by (now rewrite <- Hd). reflexivity.
  - unfold r_stop, stopReceivingBoxes. destruct (started (w_state w)) as [d|] eqn:Es.
    2: { pose proof (s_steady _ H) as Sd. unfold steady in Sd. rewrite Sd. destruct w; reflexivity. }
    pose proof (dict_started w d (s_steady _ H) Es) as Hd. rewrite loop_silent; [|now rewrite Hd|apply incl_refl].
    unfold with_state. cbn [w_state w_dict w_trace started unstarted routes_made sender counter]. rewrite Hd, flat_values0 by (rewrite <- Hd; apply H). reflexivity.
Qed.
