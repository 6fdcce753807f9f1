(** * epsilon/juice.py: dispatch of commands, declared errors, version
    negotiation *)

From Coq Require Import ZArith NArith String List Bool Arith Lia Permutation.
From Verif Require Import Py PyStr PyNum PyInt PyHex PySplit Utf8 Liner JuiceCodec JuiceStream JuiceArgs JuiceProto.
Import ListNotations.
Open Scope nat_scope.
Open Scope py_scope.

Definition pv_eqb (a b : pv) : bool :=
  match a, b with PS s, PS t | PB s, PB t => eqb s t | _, _ => false end.
Lemma pv_eqb_spec a b : reflect (a = b) (pv_eqb a b).
Proof.
  destruct a as [s|s], b as [t|t]; unfold pv_eqb; try (constructor; congruence);
    destruct (eqb_spec s t); constructor; congruence.
Qed.
#[export] Instance EqB_pv : EqB pv := {| eqb := pv_eqb; eqb_spec := pv_eqb_spec |}.

(** ** Classes of commands and their errors *)

(** A class of exceptions is a number. *)

(** juice.py:606-625: a class statement of a command: the attributes [errors]
    and [fatalErrors] if its body sets them, [namespaces] (as looked up), and
    the class it derives from.  Only single inheritance. *)
Inductive command := Cmd (errors fatalErrors : option (dict N pv)) (namespaces : list (option str)) (base : option command).

Definition c_ns (c : command) : list (option str) := let 'Cmd _ _ ns _ := c in ns.

(** the attributes as looked up on the class; 616-617: [Command] sets both *)
Fixpoint c_errors (c : command) : dict N pv :=
  let 'Cmd e _ _ b := c in
  match e, b with Some d, _ => d | None, Some c' => c_errors c' | None, None => [] end.
Fixpoint c_fatal (c : command) : dict N pv :=
  let 'Cmd _ f _ b := c in
  match f, b with Some d, _ => d | None, Some c' => c_fatal c' | None, None => [] end.

(** juice.py:594-600 *)
Definition meta1 (acc : dict pv N * dict N pv) (vk : N * pv) : dict pv N * dict N pv :=
  (dset (fst acc) (snd vk) (fst vk), dset (snd acc) (fst vk) (snd vk)).

(** [attrs.get(name, {})] *)
Definition own (o : option (dict N pv)) : dict N pv := match o with Some d => d | None => [] end.

(** juice.py:592-602 [_CommandMeta.__new__]: [reverseErrors], [allErrors] *)
Definition commandMeta (c : command) : dict pv N * dict N pv :=
  let 'Cmd e f _ _ := c in
  fold_left meta1 (own f) (fold_left meta1 (own e) ([], [])).

Definition reverseErrors (c : command) : dict pv N := fst (commandMeta c).
Definition allErrors (c : command) : dict N pv := snd (commandMeta c).

(** An exception: its class, [str()] of it, and the attributes [errorCode],
    [description] and [fatal] of a RemoteJuiceError (juice.py:155-166). *)
Record excv := Exc { e_cls : N; e_text : str; e_code : pv; e_desc : pv; e_fatal : bool }.

(** things that can be looked up in [fatalErrors] *)
Inductive pyobj := OClass (c : N) | OFailure (e : excv).

Section Errors.
  (** the bases of a class of exceptions, itself included; the classes
      RemoteJuiceError and UnhandledRemoteJuiceError; [str] of a
      RemoteJuiceError *)
  Variable mro : N -> list N.
  Variable RJE URJE : N.
  Variable remote_text : pv -> pv -> str.

  Definition isa (e : excv) (c : N) : bool := memb c (mro (e_cls e)).

  (** Failure.trap of Twisted: the first of the classes the exception is an
      instance of *)
  Definition trap (cs : list N) (e : excv) : option N := List.find (isa e) cs.

  (** [error in command.fatalErrors]: the keys are classes, the error is a
      Failure *)
  Definition in_keys (o : pyobj) (d : dict N pv) : bool :=
    match o with OClass c => din d c | OFailure _ => false end.

  (** juice.py:223-228 [checkKnownErrors] *)
  Definition checkKnownErrors (c : command) (e : excv) : excv :=
    match trap (keys (allErrors c)) e with
    | None => e
    | Some k => match dget (allErrors c) k with
                | Some code => Exc RJE (remote_text code (PS (e_text e))) code (PS (e_text e)) (in_keys (OFailure e) (c_fatal c))
                | None => e
                end
    end.

  (** What the responder does; [RBadArgs e]: its arguments could not be
      decoded (juice.py:214-216) *)
  Inductive responded :=
  | RReturned (k : boxkind) (b : box)
  | RRaised (e : excv)
  | RBadArgs (e : excv).

  (** juice.py:352-364: how [sendError] sees the failure *)
  Definition as_outcome (e : excv) : outcome :=
    if isa e RJE then RRemote (e_code e) (e_desc e) (e_fatal e) else RCrash.

  (** juice.py:203-232 [_auto] ([doit]) *)
  Definition doit (c : command) (r : responded) : outcome :=
    match r with
    | RReturned k b => RAnswer k b
    | RRaised e => as_outcome (checkKnownErrors c e)
    | RBadArgs e => as_outcome e
    end.

  (** juice.py:660-663 [_massageError], on the RemoteJuiceError the Deferred
      fails with: the class of the exception the caller gets; it is given the
      description *)
  Definition massage (c : command) (code : str) : N :=
    match dget (reverseErrors c) (PS code) with Some k => k | None => URJE end.

  (** ** Facts about the tables *)

  Lemma meta_all d acc k : wf_dict d ->
    dget (snd (fold_left meta1 d acc)) k = match dget d k with Some c => Some c | None => dget (snd acc) k end.
  Proof.
    revert acc. induction d as [|[k1 c1] d IH]; intros acc Hw; [reflexivity|]. cbn [fold_left].
    inversion Hw as [|? ? Hn Hw']; subst. rewrite (IH _ Hw'). cbn [meta1 fst snd dget]. rewrite dget_dset.
    destruct (eqb_spec k k1) as [->|Hne]; [|reflexivity].
    destruct (dget d k1) eqn:E; [|reflexivity]. apply dget_Some_keys in E. now destruct Hn.
  Qed.

  (** the last class declared with a code *)
  Fixpoint last_with (d : dict N pv) (code : pv) : option N :=
    match d with
    | [] => None
    | (k, c) :: t => match last_with t code with
                     | Some k' => Some k'
                     | None => if eqb code c then Some k else None
                     end
    end.

  Lemma meta_rev d acc code :
    dget (fst (fold_left meta1 d acc)) code =
    match last_with d code with Some k => Some k | None => dget (fst acc) code end.
  Proof.
    revert acc. induction d as [|[k1 c1] d IH]; intros acc; [reflexivity|]. cbn [fold_left last_with].
    rewrite IH. cbn [meta1 fst snd]. destruct (last_with d code); [reflexivity|].
    rewrite dget_dset. destruct (eqb code c1); reflexivity.
  Qed.

  Lemma last_with_app d d' code : last_with (d ++ d') code =
    match last_with d' code with Some k => Some k | None => last_with d code end.
  Proof.
    induction d as [|[k c] d IH]; cbn [app last_with]; [now destruct (last_with d' code)|].
    rewrite IH. now destruct (last_with d' code).
  Qed.

  (** what a class statement declares itself *)
  Definition declared (c : command) : dict N pv :=
    let 'Cmd e f _ _ := c in
    own e ++ own f.

  Lemma reverse_declared c code : dget (reverseErrors c) code = last_with (declared c) code.
  Proof.
    unfold reverseErrors, commandMeta, declared. destruct c as [e f ns b].
    rewrite !meta_rev, last_with_app. cbn [fst dget].
    repeat match goal with |- context [last_with ?d code] => destruct (last_with d code) end; reflexivity.
  Qed.

  Lemma last_with_In d code k : last_with d code = Some k -> In (k, code) d.
  Proof.
    induction d as [|[k1 c1] d IH]; cbn [last_with]; [discriminate|].
    destruct (last_with d code) eqn:E; [intros H; injection H as <-; right; auto|].
    destruct (eqb_spec code c1) as [->|]; [|discriminate]. intros H. injection H as <-. now left.
  Qed.

  Lemma last_with_unique d code k : NoDup (map snd d) -> In (k, code) d -> last_with d code = Some k.
  Proof.
    induction d as [|[k1 c1] d IH]; [intros _ []|]. cbn [map snd last_with]. intros Hn Hin.
    inversion Hn as [|? ? Hni Hn']; subst. destruct Hin as [H|H].
    - injection H as -> ->. destruct (last_with d code) eqn:E.
      + apply last_with_In in E. exfalso. apply Hni. apply in_map_iff. exists (n, code). auto.
      + destruct (eqb_spec code code); congruence.
    - now rewrite (IH Hn' H).
  Qed.

  Lemma meta_all_In d acc k c : In (k, c) (snd (fold_left meta1 d acc)) -> In (k, c) d \/ In (k, c) (snd acc).
  Proof.
    revert acc. induction d as [|[k1 c1] d IH]; intros acc; [auto|]. cbn [fold_left]. intros H.
    apply IH in H as [H|H]; [left; now right|]. cbn [meta1 fst snd] in H.
    assert (G : forall (x : dict N pv), In (k, c) (dset x k1 c1) -> (k, c) = (k1, c1) \/ In (k, c) x).
    { clear. induction x as [|[k2 c2] x IH]; cbn [dset]; [intros [H|[]]; left; congruence|].
      destruct (eqb_spec k1 k2) as [->|]; intros [H|H]; try (left; congruence); try (right; now right).
      - right. now left.
      - destruct (IH H); auto. right. now right. }
    apply G in H as [H|H]; [left; left; congruence|auto].
  Qed.

  Lemma all_declared c k code : dget (allErrors c) k = Some code -> In (k, code) (declared c).
  Proof.
    intros H. apply dget_In in H. unfold allErrors, commandMeta, declared in *. destruct c as [e f ns b].
    apply in_or_app. apply meta_all_In in H as [H|H]; [now right|]. apply meta_all_In in H as [H|[]]. now left.
  Qed.

  Lemma meta_keys d acc : wf_dict (snd acc) -> wf_dict (snd (fold_left meta1 d acc)) /\
    forall k, In k (keys (snd (fold_left meta1 d acc))) <-> In k (keys d) \/ In k (keys (snd acc)).
  Proof.
    revert acc. induction d as [|[k1 c1] d IH]; intros acc Hw; [split; [exact Hw|intros k; cbn; tauto]|].
    cbn [fold_left]. destruct (IH (meta1 acc (k1, c1))) as [H1 H2]; [now apply wf_dset|].
    split; [exact H1|]. intros k. rewrite H2. cbn [meta1 fst snd keys map]. fold (keys d).
    assert (E : In k (keys (dset (snd acc) k1 c1)) <-> k = k1 \/ In k (keys (snd acc))).
    { rewrite <- !din_keys. unfold din. rewrite dget_dset. destruct (eqb_spec k k1) as [->|Hne]; [tauto|].
      destruct (dget (snd acc) k); intuition congruence. }
    rewrite E. cbn [In]. intuition congruence.
  Qed.

  Lemma all_keys c : wf_dict (allErrors c) /\ forall k, In k (keys (allErrors c)) <-> In k (keys (declared c)).
  Proof.
    unfold allErrors, commandMeta, declared. destruct c as [e f ns b].
    destruct (meta_keys (own e) ([], [])) as [H1 H2]; [constructor|].
    destruct (meta_keys (own f) _ H1) as [H3 H4].
    split; [exact H3|]. intros k. rewrite H4, H2. unfold keys. rewrite map_app, in_app_iff. cbn. tauto.
  Qed.

  (** an exception is translated exactly when it is an instance of a class
      this class statement declares *)
  Lemma check_known c e :
    (exists k code, In (k, code) (declared c) /\ isa e k = true /\ trap (keys (allErrors c)) e = Some k /\
       checkKnownErrors c e = Exc RJE (remote_text code (PS (e_text e))) code (PS (e_text e)) false) \/
    ((forall k, In k (keys (declared c)) -> isa e k = false) /\ checkKnownErrors c e = e).
  Proof.
    unfold checkKnownErrors. destruct (all_keys c) as [Hw Hk].
    destruct (trap (keys (allErrors c)) e) as [k|] eqn:Et.
    - left. unfold trap in Et. pose proof (List.find_some _ _ Et) as [Hin Hi].
      apply din_keys in Hin. unfold din in Hin. destruct (dget (allErrors c) k) as [code|] eqn:Eg; [|discriminate].
      exists k, code. repeat split; auto. now apply all_declared.
    - right. split; [|reflexivity]. intros k Hin. apply Hk in Hin. unfold trap in Et.
      now apply (List.find_none _ _ Et).
  Qed.

  (** ** From the responder's exception to the caller's *)

  Section Wire.
    Variable ulower : str -> str.
    Hypothesis ulower_ascii : forall s, is_ascii s = true -> ulower s = map ascii_lower s.

    Definition ebox (t code desc : str) : dict str str :=
      [(ERROR, t); (ERROR_DESCRIPTION, desc); (ERROR_CODE, code)].

    Lemma ebox_sendable t code desc : encodable t = true -> encodable code = true -> encodable desc = true ->
      sendable ulower (ebox t code desc).
    Proof.
      intros H1 H2 H3. split; [|split; [|split]].
      - unfold wf_dict, ebox, keys. cbn [map fst]. repeat constructor; cbn; intuition discriminate.
      - assert (Hc : forall k, is_ascii k = true -> canonical (map ascii_lower) k = true -> canonical ulower k = true).
        { intros k Ha Hc. unfold canonical in *. unfold normalizeKey in *. now rewrite (ulower_ascii k Ha). }
        unfold ebox, keys. cbn [map fst]. repeat constructor; apply Hc; vm_compute; reflexivity.
      - unfold ebox, values. cbn [map snd]. repeat constructor; auto.
      - intros v Hv. vm_compute in Hv. discriminate.
    Qed.

    Lemma texts_ebox t code desc : texts (ebox t code desc) = error_box t (PS code) (PS desc).
    Proof. reflexivity. Qed.
    Lemma received_ebox t code desc : received (ebox t code desc) = ebox t code desc.
    Proof. reflexivity. Qed.

    Lemma completing h st id oc st' o x d : Reach d h st -> step d st (EComplete id oc) = Some (st', o, x) ->
      exists b, In (id, b) (started (outs_of h)) /\
        dget (runs st) id = Some (dget b ASK) /\
        complete (set_runs st (ddel (runs st) id) (nextrun st)) (dget b ASK) oc = (st', o, x).
    Proof.
      intros HR Hs. cbn [step] in Hs. destruct (dget (runs st) id) as [a|] eqn:Er; [|discriminate]. injection Hs as E.
      destruct (c_ask _ _ (reach_cinv _ _ _ HR) id a) as (b & Hb & ->); [now apply dget_In|]. exists b. auto.
    Qed.

    Lemma started_run h st id oc st' o x d b : Reach d h st -> step d st (EComplete id oc) = Some (st', o, x) ->
      In (id, b) (started (outs_of h)) -> dget (runs st) id = Some (dget b ASK).
    Proof.
      intros HR Hs Hin. destruct (completing h st id oc st' o x d HR Hs) as (b' & Hb' & Hr & _).
      assert (b' = b); [|congruence].
      pose proof (c_ids _ _ (reach_cinv _ _ _ HR)) as Hc.
      pose proof (seq_NoDup (nextrun st) 0) as Hn. rewrite <- Hc in Hn. clear -Hn Hin Hb'.
      induction (started (outs_of h)) as [|[i c] l IH]; [destruct Hin|]. cbn [map fst] in Hn. inversion Hn as [|? ? Hni Hn']; subst.
      destruct Hin as [H1|H1], Hb' as [H2|H2]; auto.
      - congruence.
      - injection H1 as -> ->. exfalso. apply Hni, in_map_iff. exists (id, b'). auto.
      - injection H2 as -> ->. exfalso. apply Hni, in_map_iff. exists (id, b). auto.
    Qed.

    (** while not locked and no TLS is being prepared, the error goes out as one
        packet, and the connection is dropped only for a crash *)
    Theorem error_sent d h st id b t e cmd st' o x : Reach d h st ->
      was_locked h = false -> preparing h = false ->
      dget (runs st) id = Some (Some t) -> In (id, b) (started (outs_of h)) -> dget b ASK = Some t ->
      step d st (EComplete id (doit cmd (RRaised e))) = Some (st', o, x) ->
      forall code desc fatal, doit cmd (RRaised e) = RRemote (PS code) (PS desc) fatal ->
      encodable t = true -> encodable code = true -> encodable desc = true ->
      exists w, o = OWrite (error_box t (PS code) (PS desc)) w :: (if fatal then [OLose] else []) /\
        parseString ulower w = Ok [ebox t code desc].
    Proof.
      intros HR Hl Hp Hr Hin Ha Hs code desc fatal Ho H1 H2 H3.
      destruct (roundtrip ulower ulower_ascii _ (ebox_sendable t code desc H1 H2 H3)) as (w & Hw & Hps).
      rewrite texts_ebox in Hw. rewrite received_ebox in Hps. exists w. split; [|exact Hps].
      cbn [step] in Hs. rewrite Hr, Ho in Hs. injection Hs as Hs. cbn [complete] in Hs.
      destruct (reach_tinv _ _ _ HR) as [_ _ _ _ Hpr Hlk].
      assert (Hheld : held st = None).
      { destruct (held st) eqn:Eh; [|reflexivity]. assert (preparing h = true) by (apply Hpr; discriminate). congruence. }
      unfold sendTo, sendPacket in Hs. cbn [set_runs locked held] in Hs. rewrite Hlk, Hl, Hheld, Hw in Hs.
      destruct fatal; cbn in Hs; injection Hs as <- <- <-; reflexivity.
    Qed.

    (** an undeclared exception that is no RemoteJuiceError *)
    Theorem crash_sent d h st id b t st' o x : Reach d h st ->
      was_locked h = false -> preparing h = false ->
      dget (runs st) id = Some (Some t) -> In (id, b) (started (outs_of h)) -> dget b ASK = Some t ->
      step d st (EComplete id RCrash) = Some (st', o, x) -> encodable t = true ->
      exists w, o = [OWrite (error_box t (PS (lit "UNHANDLED")) (PS (lit "Unhandled Remote System Exception "))) w; OLose] /\
        parseString ulower w = Ok [ebox t (lit "UNHANDLED") (lit "Unhandled Remote System Exception ")].
    Proof.
      intros HR Hl Hp Hr Hin Ha Hs H1.
      destruct (roundtrip ulower ulower_ascii _ (ebox_sendable t (lit "UNHANDLED") (lit "Unhandled Remote System Exception ") H1 eq_refl eq_refl))
        as (w & Hw & Hps).
      rewrite texts_ebox in Hw. rewrite received_ebox in Hps. exists w. split; [|exact Hps].
      cbn [step] in Hs. rewrite Hr in Hs. injection Hs as Hs. unfold complete in Hs.
      destruct (reach_tinv _ _ _ HR) as [_ _ _ _ Hpr Hlk].
      assert (Hheld : held st = None).
      { destruct (held st) eqn:Eh; [|reflexivity]. assert (preparing h = true) by (apply Hpr; discriminate). congruence. }
      unfold sendTo, sendPacket in Hs. cbn [set_runs locked held] in Hs. rewrite Hlk, Hl, Hheld, Hw in Hs.
      cbn in Hs. injection Hs as <- <- <-. reflexivity.
    Qed.
  End Wire.
End Errors.

(** ** Dispatch *)

(** What [getattr] finds on the object: a responder (an object with the
    attribute [command]), or a callable without one.  [None]: nothing, or the
    value None. *)
Inductive attr := AResponder (id : N) (c : command) | APlain (id : N).

Inductive fobj := FAuto (id : N) (c : command) | FPlain (a : attr).

Inductive dispatched := DRun (f : fobj) | DUnhandled.

Section Dispatch.
  Variable uupper : str -> str.
  Variable attrs : str -> option attr.

  (** juice.py:243-246 [normalizeCommand] *)
  Definition normalizeCommand (cmd : str) : str := swap DASH USCORE (strip is_space (uupper cmd)).

  (** juice.py:203-213 [_auto] up to the check of the namespace *)
  Definition auto (a : attr) (ns : option str) : res (option fobj) :=
    match a with
    | APlain _ => Err AttributeError
    | AResponder id c => Ok (if memb ns (c_ns c) then Some (FAuto id c) else None)
    end.

  (** juice.py:248-264 [lookupFunction] *)
  Definition lookupFunction (name : str) (ns : option str) : res (option fobj) :=
    match attrs (lit "command_" ++ name) with
    | Some a => auto a ns
    | None => match ns with
              | Some _ => Err AssertionError
              | None => Ok (option_map FPlain (attrs (lit "juice_" ++ name)))
              end
    end.

  (** juice.py:266-270 [dispatchCommand] *)
  Definition dispatchCommand (cmd : str) (ns : option str) : res dispatched :=
    match lookupFunction (normalizeCommand cmd) ns with
    | Err e => Err e
    | Ok None => Ok DUnhandled
    | Ok (Some f) => Ok (DRun f)
    end.

  (** juice.py:376: [juiceBoxReceived] passes no namespace *)
  Definition dispatch_exn (cmd : str) : option exn :=
    match dispatchCommand cmd None with Err e => Some e | Ok _ => None end.

  (** juice.py:655-659 [do]: the name of the command that is sent *)
  Definition do_name (ns : option str) (name : str) : str :=
    match ns with Some n => n ++ lit ":" ++ name | None => name end.

  (** juice.py:701-702, [ProtocolSwitchCommand.do]: the namespace is not handed on *)
  Definition switch_name (ns : option str) (name : str) : str := let _ := ns in do_name None name.

  Theorem dispatch_runs cmd ns f : dispatchCommand cmd ns = Ok (DRun f) ->
    (exists id c, f = FAuto id c /\ attrs (lit "command_" ++ normalizeCommand cmd) = Some (AResponder id c) /\ In ns (c_ns c)) \/
    (exists a, f = FPlain a /\ ns = None /\ attrs (lit "command_" ++ normalizeCommand cmd) = None /\
       attrs (lit "juice_" ++ normalizeCommand cmd) = Some a).
  Proof.
    unfold dispatchCommand, lookupFunction.
    destruct (attrs (lit "command_" ++ normalizeCommand cmd)) as [[id c|id]|] eqn:Ea; cbn [auto].
    - destruct (memb ns (c_ns c)) eqn:Em; [|discriminate]. intros H. injection H as <-. left. exists id, c.
      repeat split; auto. now apply memb_In.
    - discriminate.
    - destruct ns; [discriminate|]. destruct (attrs (lit "juice_" ++ normalizeCommand cmd)) as [a|]; [|discriminate].
      intros H. injection H as <-. right. exists a. auto.
  Qed.

  Theorem dispatch_wrong_namespace cmd ns id c : attrs (lit "command_" ++ normalizeCommand cmd) = Some (AResponder id c) ->
    ~ In ns (c_ns c) -> dispatchCommand cmd ns = Ok DUnhandled.
  Proof.
    intros Ha Hn. unfold dispatchCommand, lookupFunction. rewrite Ha. cbn [auto].
    destruct (memb ns (c_ns c)) eqn:Em; [apply memb_In in Em; tauto|reflexivity].
  Qed.

  Theorem dispatch_right cmd ns id c : attrs (lit "command_" ++ normalizeCommand cmd) = Some (AResponder id c) ->
    In ns (c_ns c) -> dispatchCommand cmd ns = Ok (DRun (FAuto id c)).
  Proof.
    intros Ha Hn. unfold dispatchCommand, lookupFunction. rewrite Ha. cbn [auto].
    destruct (memb ns (c_ns c)) eqn:Em; [reflexivity|]. apply memb_not_In in Em. tauto.
  Qed.

  Theorem dispatch_unknown cmd ns : attrs (lit "command_" ++ normalizeCommand cmd) = None ->
    dispatchCommand cmd ns =
      match ns with
      | Some _ => Err AssertionError
      | None => match attrs (lit "juice_" ++ normalizeCommand cmd) with
                | Some a => Ok (DRun (FPlain a))
                | None => Ok DUnhandled
                end
      end.
  Proof.
    intros Ha. unfold dispatchCommand, lookupFunction. rewrite Ha. destruct ns; [reflexivity|].
    destruct (attrs (lit "juice_" ++ normalizeCommand cmd)); reflexivity.
  Qed.

  (** the colon of a namespaced name survives normalization *)
  Hypothesis uupper_ascii : forall s, is_ascii s = true -> uupper s = map ascii_upper s.

  Lemma lstrip_In sp c s : sp c = false -> In c s -> In c (lstrip sp s).
  Proof.
    intros Hc. induction s as [|a s IH]; [auto|]. intros Hin. cbn [lstrip]. destruct (sp a) eqn:Ea; [|exact Hin].
    destruct Hin as [->|Hin]; [congruence|auto].
  Qed.

  Lemma normalize_colon cmd : is_ascii cmd = true -> In 58%N cmd -> In 58%N (normalizeCommand cmd).
  Proof.
    intros Ha Hin. unfold normalizeCommand. rewrite (uupper_ascii cmd Ha). unfold swap. apply in_map_iff. exists 58%N. split; [reflexivity|].
    unfold strip. rewrite <- in_rev. apply lstrip_In; [reflexivity|]. rewrite <- in_rev. apply lstrip_In; [reflexivity|].
    apply in_map_iff. exists 58%N. split; [reflexivity|exact Hin].
  Qed.

  (** a name that is an identifier has no colon *)
  Theorem namespaced_never_runs n name : is_ascii n = true -> is_ascii name = true ->
    (forall k, In 58%N k -> attrs k = None) ->
    dispatchCommand (do_name (Some n) name) None = Ok DUnhandled.
  Proof.
    intros Hn Hm Hat. assert (Hin : In 58%N (normalizeCommand (do_name (Some n) name))).
    { apply normalize_colon.
      - cbn [do_name]. unfold is_ascii. rewrite !forallb_app. cbn [lit]. unfold is_ascii in Hn, Hm. rewrite Hn, Hm. reflexivity.
      - cbn [do_name]. apply in_or_app. right. apply in_or_app. left. left. reflexivity. }
    rewrite dispatch_unknown; [|apply Hat; apply in_or_app; now right].
    now rewrite Hat by (apply in_or_app; now right).
  Qed.
End Dispatch.

(** ** Version negotiation *)

Section Negotiation.
  Variable ulower : str -> str.
  Hypothesis ulower_ascii : forall s, is_ascii s = true -> ulower s = map ascii_lower s.
  (** the other classes of arguments *)
  Variable oenc odec : N -> val -> res val.
  (** juice.py:945 [VERSIONS] *)
  Variable VERSIONS : list Z.

  (** juice.py:716-722 [Negotiate] *)
  Definition neg_args : list (str * bool * codec) := [(lit "versions", false, CListOf CInteger (lit ", "))].
  Definition neg_resp : list (str * bool * codec) := [(lit "version", false, CInteger)].

  (** juice.py:937-942 [command_NEGOTIATE] *)
  Definition negotiate (versions : list Z) : res Z :=
    match List.find (fun v => memb v VERSIONS) versions with
    | Some v => Ok v
    | None => Err IncompatibleVersions
    end.

  (** juice.py:928-935 [renegotiateVersion]: what is offered *)
  Definition renegotiate (v : Z) : res (list Z) :=
    if memb v VERSIONS then Ok [v] else Err AssertionError.

  Definition as_ints (v : val) : res (list Z) :=
    match v with
    | VList l => mapM (fun x => match x with VInt z => Ok z | _ => Err TypeError end) l
    | _ => Err TypeError
    end.

  (** the responder's side: the arguments are decoded, the responder runs, the
      response is encoded (juice.py:214-231, 647-653) *)
  Definition neg_respond (b : dict str str) : res (dict str val) :=
    objs <- stringsToObjects (decs ulower odec neg_args) (vtexts b) ;;
    vs <- match dget objs (lit "versions") with Some v => as_ints v | None => Err KeyError end ;;
    v <- negotiate vs ;;
    objectsToStrings ulower (encs ulower oenc neg_resp) [(lit "version", VInt v)].

  (** the caller's side: the response is decoded, and the version is set
      (juice.py:671-673, 935) *)
  Definition neg_answer (b : dict str str) : res Z :=
    objs <- stringsToObjects (decs ulower odec neg_resp) (vtexts b) ;;
    match dget objs (lit "version") with Some (VInt z) => Ok z | _ => Err KeyError end.

  Lemma mapM_ints vs : mapM (fun x => match x with VInt z => Ok z | _ => Err TypeError end) (map VInt vs) = Ok vs.
  Proof. induction vs as [|v vs IH]; [reflexivity|]. cbn [map mapM]. now rewrite IH. Qed.

  Theorem negotiate_first vs v : negotiate vs = Ok v <->
    exists a b, vs = a ++ v :: b /\ In v VERSIONS /\ forall u, In u a -> ~ In u VERSIONS.
  Proof.
    unfold negotiate. split.
    - intros H. destruct (List.find _ vs) as [u|] eqn:E; [|discriminate]. injection H as ->.
      induction vs as [|u vs IH]; [discriminate|]. cbn [List.find] in E. destruct (memb u VERSIONS) eqn:Em.
      + injection E as ->. exists [], vs. repeat split; auto. now apply memb_In.
      + destruct (IH E) as (a & b & -> & Hv & Ha). exists (u :: a), b. repeat split; auto.
        intros w [<-|Hw]; [now apply memb_not_In|auto].
    - intros (a & b & -> & Hv & Ha). induction a as [|u a IH]; cbn [List.find app].
      + apply memb_In in Hv. now rewrite Hv.
      + destruct (memb u VERSIONS) eqn:Em; [apply memb_In in Em; exfalso; apply (Ha u); [now left|exact Em]|].
        apply IH. intros w Hw. apply Ha. now right.
  Qed.

  Theorem negotiate_none vs : negotiate vs = Err IncompatibleVersions <-> forall u, In u vs -> ~ In u VERSIONS.
  Proof.
    unfold negotiate. destruct (List.find _ vs) as [u|] eqn:E.
    - split; [discriminate|]. intros H. apply List.find_some in E as [Hin Hm]. apply memb_In in Hm. now destruct (H u Hin).
    - split; [|reflexivity]. intros _ u Hin. apply memb_not_In. apply (List.find_none _ _ E u Hin).
  Qed.

  Lemma zdec_no_delim v : containsb (lit ", ") (zdec v) = false.
  Proof.
    destruct (containsb (lit ", ") (zdec v)) eqn:E; [exfalso|reflexivity]. apply containsb_spec in E as (a & b & E).
    assert (Hin : In 44%N (zdec v)) by (rewrite E; apply in_or_app; right; now left).
    destruct (zdec_shape v) as (c & t & Ez & Hc & Ht). rewrite Ez in Hin. destruct Hin as [->|Hin].
    - destruct Hc as [Hc|Hc]; vm_compute in Hc; discriminate.
    - apply (all_digits_In _ _ Ht) in Hin. vm_compute in Hin. discriminate.
  Qed.

  Lemma join_ints vs : mapM (fun x => o <- encode ulower oenc CInteger x ;;
                               match o with
                               | VText s => if containsb (lit ", ") s then Err AssertionError else Ok s
                               | _ => Err TypeError
                               end) (map VInt vs) = Ok (map zdec vs).
  Proof.
    induction vs as [|v vs IH]; [reflexivity|]. cbn [map mapM encode py_int_val rbind].
    rewrite zdec_no_delim. cbn [encode py_int_val rbind] in IH. now rewrite IH.
  Qed.

  Lemma split_ints vs : vs <> [] -> split (lit ", ") (join (lit ", ") (map zdec vs)) = map zdec vs.
  Proof.
    intros Hn. apply split_join.
    - apply no_overlapb_spec. reflexivity.
    - destruct vs; [congruence|discriminate].
    - apply Forall_forall. intros x Hx. apply in_map_iff in Hx as (v & <- & _). apply zdec_no_delim.
  Qed.

  (** the text of the offered versions *)
  Definition offer (vs : list Z) : str := join (lit ", ") (map zdec vs).

  Lemma norm_same k : is_ascii k = true -> normalizeKey (map ascii_lower) k = k -> normalizeKey ulower k = k.
  Proof. intros Ha Hn. unfold normalizeKey in *. now rewrite (ulower_ascii k Ha). Qed.

  Theorem offer_sent vs :
    objectsToStrings ulower (encs ulower oenc neg_args) [(lit "versions", VList (map VInt vs))] =
      Ok [(lit "versions", VText (offer vs))].
  Proof.
    unfold objectsToStrings, normalized. cbn [fold_left fst snd].
    rewrite (norm_same (lit "versions")) by reflexivity.
    cbn [dset encs neg_args map fst snd toBoxes retrieve dget].
    destruct (eqb_spec (lit "versions") (lit "versions")) as [_|C]; [|now destruct C].
    cbn [rbind andb encode iter]. rewrite join_ints. reflexivity.
  Qed.

  Theorem offer_received vs b : vs <> [] -> dget b (lit "versions") = Some (offer vs) ->
    neg_respond b = (v <- negotiate vs ;; Ok [(lit "version", VText (zdec v))]).
  Proof.
    intros Hn Hb. unfold neg_respond, stringsToObjects. cbn [decs neg_args map fst snd fromBoxes retrieve].
    rewrite dget_vtexts, Hb. cbn [option_map rbind andb decode lit].
    change (split _ (offer vs)) with (split (lit ", ") (offer vs)). unfold offer. rewrite split_ints by exact Hn.
    assert (E : mapM (fun x => z <- py_int_val (VText x);; Ok (VInt z)) (map zdec vs) = Ok (map VInt vs)).
    { clear. induction vs as [|v vs IH]; [reflexivity|]. cbn [map mapM].
      change (py_int_val (VText (zdec v))) with (py_int (zdec v)). rewrite py_int_zdec. cbn [rbind]. now rewrite IH. }
    match goal with |- context [mapM ?f (map zdec vs)] =>
      change (mapM f (map zdec vs)) with (mapM (fun x => z <- py_int_val (VText x);; Ok (VInt z)) (map zdec vs)) end.
    rewrite E. cbn [rbind dset dget].
    match goal with |- context [match lit ", " with [] => ?x | _ :: _ => ?y end] => change (match lit ", " with [] => x | _ :: _ => y end) with y end.
    cbn [rbind dget]. match goal with |- context [eqb ?k ?k'] => change (eqb k k') with true end. cbn [as_ints rbind].
    rewrite mapM_ints. cbn [rbind]. destruct (negotiate vs) as [v|e]; [|reflexivity]. cbn [rbind].
    unfold objectsToStrings, normalized. cbn [fold_left fst snd].
    rewrite (norm_same (lit "version")) by reflexivity.
    cbn [dset encs neg_resp map fst snd toBoxes retrieve dget].
    destruct (eqb_spec (lit "version") (lit "version")) as [_|C]; [|now destruct C]. reflexivity.
  Qed.

  Theorem answer_received v b : dget b (lit "version") = Some (zdec v) -> neg_answer b = Ok v.
  Proof.
    intros Hb. unfold neg_answer, stringsToObjects. cbn [decs neg_resp map fst snd fromBoxes retrieve].
    rewrite dget_vtexts, Hb. cbn [option_map rbind andb decode py_int_val]. rewrite py_int_zdec. reflexivity.
  Qed.

  (** the responder's protocol sets the version it answers *)
  Theorem responder_version st t v st' o x :
    sendTo st KNegotiate (dset [(lit "version", PS (zdec v))] ANSWER (PS t)) = (st', o, x) ->
    accepted o <> [] -> version st' = v /\ x = None.
  Proof.
    intros E Ha. unfold sendTo in E. destruct (sendPacket st _) as [[st1 o1] [e|]] eqn:E1 in E.
    - injection E as <- <- <-. exfalso. apply sendPacket_cases in E1 as [(_ & _ & -> & _)|[(_ & q & _ & _ & _ & _ & _ & _ & C)|(_ & _ & _ & C)]].
      + now apply Ha.
      + discriminate.
      + destruct (serialize _) in C; destruct C as [-> C]; [discriminate|now apply Ha].
    - match type of E with context [dget ?d ?k] => change (dget d k) with (Some (PS (zdec v))) in E end.
      cbn [pv_int] in E. rewrite py_int_zdec in E. injection E as <- <- <-. auto.
  Qed.
End Negotiation.
