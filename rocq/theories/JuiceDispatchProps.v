(** * Properties C50, C51, C54: errors, namespaces and versions of Juice
    commands (epsilon/juice.py) *)

From Coq Require Import ZArith NArith String List Bool Arith Lia Permutation.
From Verif Require Import Py PyStr PyNum PyInt PyHex PySplit Utf8 Liner JuiceCodec JuiceStream JuiceArgs JuiceProto JuiceDispatch.
Import ListNotations.
Open Scope nat_scope.

Definition lowers (ulower : str -> str) : Prop :=
  forall s, is_ascii s = true -> ulower s = map ascii_lower s.
Definition uppers (uupper : str -> str) : Prop :=
  forall s, is_ascii s = true -> uupper s = map ascii_upper s.

(** ** C50 *)

(** [mro c]: the class of exceptions [c] and its bases; [RJE]: the class
    RemoteJuiceError; [doit]: what becomes of what the responder does *)
Definition C50_full : Prop := forall mro RJE remote_text c e k code,
  memb RJE (mro RJE) = true -> isa mro e k = true ->
  (In (k, code) (c_errors c) -> exists code' desc, doit mro RJE remote_text c (RRaised e) = RRemote code' desc false) /\
  (In (k, code) (c_fatal c) -> exists code' desc, doit mro RJE remote_text c (RRaised e) = RRemote code' desc true).

Definition only (c : N) : list N := [c].
Definition oops := Exc 7 (lit "oops") (PS []) (PS []) false.

(** No declared error is ever fatal; and a class of commands that inherits its
    errors has none. *)
Theorem C50_errors_refuted :
  (forall mro RJE remote_text c e code desc fatal, isa mro e RJE = false ->
     doit mro RJE remote_text c (RRaised e) = RRemote code desc fatal -> fatal = false) /\
  (forall mro RJE remote_text c e ns, isa mro e RJE = false ->
     doit mro RJE remote_text (Cmd None None ns (Some c)) (RRaised e) = RCrash) /\
  ~ C50_full.
Proof.
  split; [|split].
  - intros mro RJE rt c e code desc fatal Hi H. cbn [doit] in H. unfold as_outcome in H.
    destruct (check_known mro RJE rt c e) as [(k & code' & _ & _ & _ & E)|[_ E]]; rewrite E in H.
    + destruct (isa mro _ RJE) in H; [|discriminate]. cbn in H. congruence.
    + rewrite Hi in H. discriminate.
  - intros mro RJE rt c e ns Hi. cbn [doit]. unfold as_outcome, checkKnownErrors. cbn. now rewrite Hi.
  - intros F. specialize (F only 1%N (fun _ _ => []) (Cmd None (Some [(7%N, PS (lit "X"))]) [None] None) oops 7%N (PS (lit "X")) eq_refl eq_refl).
    destruct F as [_ F]. destruct F as (code' & desc & F); [now left|]. vm_compute in F. discriminate.
Qed.
Print Assumptions C50_errors_refuted.

(** An exception that is an instance of a class declared in this class's own
    [errors] or [fatalErrors]: the responder's end writes one packet and keeps
    the connection; when that packet reaches the caller's end, the Deferred of
    the request fails with the code and the exception's text; and the caller
    gets the exception class declared with that code.
    Missing for the full claim: fatal errors, and inherited declarations. *)
Theorem C50_translated_partial : forall ulower, lowers ulower -> forall mro RJE URJE remote_text cmd e d h st id b t st' o x,
  memb RJE (mro RJE) = true ->
  (exists k, In k (keys (declared cmd)) /\ isa mro e k = true) ->
  Forall (fun kc => exists s, snd kc = PS s /\ encodable s = true) (declared cmd) ->
  encodable (e_text e) = true -> encodable t = true ->
  Reach d h st -> was_locked h = false -> preparing h = false ->
  In (id, b) (started (outs_of h)) -> dget b (lit "_ask") = Some t ->
  step d st (EComplete id (doit mro RJE remote_text cmd (RRaised e))) = Some (st', o, x) ->
  exists k code w rb, In (k, PS code) (declared cmd) /\ isa mro e k = true /\
    o = [OWrite rb w] /\
    (exists rb', parseString ulower w = Ok [rb'] /\
       forall d' h' sc r, Reach d' h' sc -> was_lost h' = false -> open h' r t ->
         exists sc', step d' sc (ERecv rb') = Some (sc', [OFire r (Failed code (e_text e))], None)) /\
    In (massage URJE cmd code, PS code) (declared cmd) /\
    (NoDup (map snd (declared cmd)) -> massage URJE cmd code = k).
Proof.
  intros ulower Hlow mro RJE URJE rt cmd e d h st id b t st' o x HRJE (k0 & Hk0 & Hi0) Hcodes Htxt Ht HR Hl Hp Hin Hask Hs.
  assert (Hrun : dget (runs st) id = Some (Some t)).
  { rewrite <- Hask. eapply started_run; eauto. }
  destruct (check_known mro RJE rt cmd e) as [(k & code & Hd & Hik & Htr & E)|[Hno _]].
  2:{ rewrite (Hno k0 Hk0) in Hi0. discriminate. }
  rewrite Forall_forall in Hcodes. destruct (Hcodes _ Hd) as (s & Es & Henc). cbn [snd] in Es. subst code.
  assert (Ho : doit mro RJE rt cmd (RRaised e) = RRemote (PS s) (PS (e_text e)) false).
  { cbn [doit]. rewrite E. unfold as_outcome, isa. cbn [e_cls]. now rewrite HRJE. }
  destruct (error_sent mro RJE rt ulower Hlow d h st id b t e cmd st' o x HR Hl Hp Hrun Hin Hask Hs s (e_text e) false Ho Ht Henc Htxt)
    as (w & Hw & Hps).
  exists k, s, w, (error_box t (PS s) (PS (e_text e))). split; [exact Hd|]. split; [exact Hik|]. split; [exact Hw|]. split; [|split].
  - exists (ebox t s (e_text e)). split; [exact Hps|]. intros d' h' sc r HR' Hlost Hopen.
    destruct (step d' sc (ERecv (ebox t s (e_text e)))) as [[[sc' o'] x']|] eqn:Es; [|discriminate].
    exists sc'. destruct (error_fires d' h' sc (ebox t s (e_text e)) t sc' o' x' HR' Es) as [(r' & Hop & Ho')|(_ & _ & _ & Hbad)].
    + unfold ebox, din. cbn [dget]. change (dget (ebox t s (e_text e)) (lit "_command")) with (@None str).
      rewrite andb_false_r. reflexivity.
    + reflexivity.
    + reflexivity.
    + assert (r' = r) by (destruct Hop as [H1 _], Hopen as [H2 _]; eapply In_asked_tag; eauto). subst r'.
      change (dget (ebox t s (e_text e)) (lit "_error_code")) with (Some s) in Ho'.
      change (dget (ebox t s (e_text e)) (lit "_error_description")) with (Some (e_text e)) in Ho'. destruct Ho' as [-> ->]. reflexivity.
    + apply Hbad in Hopen. congruence.
  - unfold massage. rewrite reverse_declared. destruct (last_with (declared cmd) (PS s)) as [k'|] eqn:El; [now apply last_with_In|].
    exfalso. clear -El Hd. induction (declared cmd) as [|[k1 c1] l IH]; [destruct Hd|]. cbn [last_with] in El.
    destruct (last_with l (PS s)); [discriminate|]. destruct Hd as [Hd|Hd]; [|auto]. injection Hd as -> ->.
    destruct (eqb_spec (PS s) (PS s)); congruence.
  - intros Hn. unfold massage. rewrite reverse_declared, (last_with_unique _ _ _ Hn Hd). reflexivity.
Qed.
Print Assumptions C50_translated_partial.

(** Any other exception that is no RemoteJuiceError: UNHANDLED is reported and
    the connection is dropped. *)
Theorem C50_unhandled : forall ulower, lowers ulower -> forall mro RJE URJE remote_text cmd e d h st id b t st' o x,
  (forall k, In k (keys (declared cmd)) -> isa mro e k = false) -> isa mro e RJE = false -> encodable t = true ->
  Reach d h st -> was_locked h = false -> preparing h = false ->
  In (id, b) (started (outs_of h)) -> dget b (lit "_ask") = Some t ->
  step d st (EComplete id (doit mro RJE remote_text cmd (RRaised e))) = Some (st', o, x) ->
  exists w rb, o = [OWrite rb w; OLose] /\
    (exists rb', parseString ulower w = Ok [rb'] /\
       forall d' h' sc r, Reach d' h' sc -> was_lost h' = false -> open h' r t ->
         exists sc' desc, step d' sc (ERecv rb') = Some (sc', [OFire r (Failed (lit "UNHANDLED") desc)], None)) /\
    (~ In (PS (lit "UNHANDLED")) (map snd (declared cmd)) -> massage URJE cmd (lit "UNHANDLED") = URJE).
Proof.
  intros ulower Hlow mro RJE URJE rt cmd e d h st id b t st' o x Hno Hrje Ht HR Hl Hp Hin Hask Hs.
  assert (Hrun : dget (runs st) id = Some (Some t)) by (rewrite <- Hask; eapply started_run; eauto).
  assert (Ho : doit mro RJE rt cmd (RRaised e) = RCrash).
  { cbn [doit]. destruct (check_known mro RJE rt cmd e) as [(k & code & Hd & Hik & _)|[_ E]].
    - rewrite (Hno k) in Hik; [discriminate|]. unfold keys. apply in_map_iff. exists (k, code). auto.
    - rewrite E. unfold as_outcome. now rewrite Hrje. }
  rewrite Ho in Hs. set (desc := lit "Unhandled Remote System Exception ").
  destruct (crash_sent mro RJE ulower Hlow d h st id b t st' o x HR Hl Hp Hrun Hin Hask Hs Ht) as (w & Hw & Hps).
  exists w, (error_box t (PS (lit "UNHANDLED")) (PS desc)). split; [exact Hw|]. split.
  - exists (ebox t (lit "UNHANDLED") desc). split; [exact Hps|]. intros d' h' sc r HR' Hlost Hopen.
    destruct (step d' sc (ERecv (ebox t (lit "UNHANDLED") desc))) as [[[sc' o'] x']|] eqn:Es; [|discriminate].
    exists sc', desc. destruct (error_fires d' h' sc _ t sc' o' x' HR' Es) as [(r' & Hop & Ho')|(_ & _ & _ & Hbad)].
    + change (din (ebox t (lit "UNHANDLED") desc) (lit "_command")) with false. rewrite andb_false_r. reflexivity.
    + reflexivity.
    + reflexivity.
    + assert (r' = r) by (destruct Hop as [H1 _], Hopen as [H2 _]; eapply In_asked_tag; eauto). subst r'.
      change (dget (ebox t (lit "UNHANDLED") desc) (lit "_error_code")) with (Some (lit "UNHANDLED")) in Ho'.
      change (dget (ebox t (lit "UNHANDLED") desc) (lit "_error_description")) with (Some desc) in Ho'. destruct Ho' as [-> ->]. reflexivity.
    + apply Hbad in Hopen. congruence.
  - intros Hn. unfold massage. rewrite reverse_declared.
    destruct (last_with (declared cmd) (PS (lit "UNHANDLED"))) as [k|] eqn:El; [|reflexivity].
    apply last_with_In in El. exfalso. apply Hn. apply in_map_iff. exists (k, PS (lit "UNHANDLED")). auto.
Qed.
Print Assumptions C50_unhandled.

Definition anycmd : str -> option exn := fun _ => None.
Definition greet := Cmd (Some [(7%N, PS (lit "UNFRIENDLY")); (8%N, PS (lit "OTHER"))]) None [None] None.
(** class 9 derives from class 8 *)
Definition bases (c : N) : list N := if N.eqb c 9 then [9; 8; 0]%N else [c; 0]%N.

Example C50_nonvacuous :
  let e := Exc 9 (lit "go away") (PS []) (PS []) false in
  exists h st o x st', Reach anycmd h st /\ was_locked h = false /\ preparing h = false /\
    In (0, [(lit "_command", lit "greet"); (lit "_ask", lit "5")]) (started (outs_of h)) /\ ~ In 0 (completed h) /\
    (exists k, In k (keys (declared greet)) /\ isa bases e k = true) /\
    step anycmd st (EComplete 0 (doit bases 1 (fun _ _ => []) greet (RRaised e))) = Some (st', o, x) /\
    massage 2 greet (lit "OTHER") = 8%N /\
    exists w, o = [OWrite (error_box (lit "5") (PS (lit "OTHER")) (PS (lit "go away"))) w].
Proof.
  do 5 eexists. split; [eapply (execs_sound anycmd [ERecv [(lit "_command", lit "greet"); (lit "_ask", lit "5")]]); [apply R_init|vm_compute; reflexivity]|].
  split; [reflexivity|]. split; [reflexivity|]. split; [left; reflexivity|]. split; [intros []|].
  split; [exists 8%N; split; [right; left; reflexivity|reflexivity]|].
  split; [vm_compute; reflexivity|]. split; [reflexivity|]. eexists. vm_compute. reflexivity.
Qed.

(** ** C51 *)

(** [attrs name]: what [getattr] finds on the protocol *)
Definition C51_full : Prop := forall uupper attrs cmd ns, uppers uupper ->
  match dispatchCommand uupper attrs cmd ns with
  | Ok (DRun (FAuto id c)) => attrs (lit "command_" ++ normalizeCommand uupper cmd) = Some (AResponder id c) /\ In ns (c_ns c)
  | Ok (DRun (FPlain a)) => ns = None /\ attrs (lit "juice_" ++ normalizeCommand uupper cmd) = Some a
  | Ok DUnhandled => True
  | Err _ => False
  end.

(** a command that does not exist, asked for in a namespace, is an
    AssertionError *)
Theorem C51_dispatch_refuted :
  (forall uupper attrs cmd n, attrs (lit "command_" ++ normalizeCommand uupper cmd) = None ->
     dispatchCommand uupper attrs cmd (Some n) = Err AssertionError) /\ ~ C51_full.
Proof.
  split.
  - intros uupper attrs cmd n H. now rewrite dispatch_unknown.
  - intros F. specialize (F (map ascii_upper) (fun _ => None) (lit "x") (Some (lit "n")) (fun s _ => eq_refl)). exact F.
Qed.
Print Assumptions C51_dispatch_refuted.

(** What is run, and when: whatever the names, namespaces and attributes.
    Missing for the full claim: the kind of failure. *)
Theorem C51_runs_partial : forall uupper attrs cmd ns f, dispatchCommand uupper attrs cmd ns = Ok (DRun f) ->
  (exists id c, f = FAuto id c /\ attrs (lit "command_" ++ normalizeCommand uupper cmd) = Some (AResponder id c) /\ In ns (c_ns c)) \/
  (exists a, f = FPlain a /\ ns = None /\ attrs (lit "command_" ++ normalizeCommand uupper cmd) = None /\
     attrs (lit "juice_" ++ normalizeCommand uupper cmd) = Some a).
Proof. exact dispatch_runs. Qed.
Print Assumptions C51_runs_partial.

Theorem C51_namespace : forall uupper attrs cmd ns id c,
  attrs (lit "command_" ++ normalizeCommand uupper cmd) = Some (AResponder id c) ->
  (In ns (c_ns c) -> dispatchCommand uupper attrs cmd ns = Ok (DRun (FAuto id c))) /\
  (~ In ns (c_ns c) -> dispatchCommand uupper attrs cmd ns = Ok DUnhandled).
Proof.
  intros uupper attrs cmd ns id c Ha. split; intros H; [now apply dispatch_right|now eapply dispatch_wrong_namespace; eauto].
Qed.
Print Assumptions C51_namespace.

(** Over a connection no namespace is ever passed on: a command sent with one
    is sent with the namespace and a colon before its name and is never run, because no
    attribute has a colon in its name. *)
Theorem C51_remote : forall uupper attrs n name, uppers uupper -> is_ascii n = true -> is_ascii name = true ->
  (forall k, In 58%N k -> attrs k = None) ->
  do_name (Some n) name = n ++ lit ":" ++ name /\ do_name None name = name /\ dispatchCommand uupper attrs (n ++ lit ":" ++ name) None = Ok DUnhandled.
Proof. intros uupper attrs n name Hu A B C. split; [reflexivity|]. split; [reflexivity|]. exact (namespaced_never_runs uupper attrs Hu _ _ A B C). Qed.
Print Assumptions C51_remote.

(** Commands that switch protocols are sent without the namespace they are called in,
    and so are run by a responder which is not in that namespace. *)
Theorem C51_switch_refuted :
  (forall n name, switch_name (Some n) name = name) /\
  exists uupper attrs n name id c, uppers uupper /\ ~ In (Some n) (c_ns c) /\
    dispatchCommand uupper attrs (switch_name (Some n) name) None = Ok (DRun (FAuto id c)).
Proof.
  split; [reflexivity|].
  exists (map ascii_upper), (fun k => if eqb k (lit "command_SWAP") then Some (AResponder 3 (Cmd None None [None] None)) else None), (lit "admin"), (lit "Swap"), 3%N, (Cmd None None [None] None).
  split; [now repeat split|]. split; [intros [H|[]]; discriminate H|]. vm_compute. reflexivity.
Qed.
Print Assumptions C51_switch_refuted.

(** A box that asks for a command, received over a connection: its name is normalized and
    looked up; what is found is run, and with nothing found the run fails as unhandled
    ([ORun] is both).  But with an attribute [command_...] that is no responder nothing is
    run and AttributeError comes out of the receiving. *)
Theorem C51_received_partial : forall uupper attrs st b cmd, locked st = false ->
  dget b ANSWER = None -> dget b ERROR = None -> dget b COMMAND = Some cmd ->
  let '(st', o, x) := boxReceived (dispatch_exn uupper attrs) st b in
  ((exists id, attrs (lit "command_" ++ normalizeCommand uupper cmd) = Some (APlain id)) /\ st' = st /\ o = [] /\ x = Some AttributeError) \/
  ((forall id, attrs (lit "command_" ++ normalizeCommand uupper cmd) <> Some (APlain id)) /\ o = [ORun (nextrun st) b] /\ x = None).
Proof.
  intros uupper attrs st b cmd Hl Ha He Hc. unfold boxReceived. rewrite Hl, Ha, He, Hc. cbn [andb]. unfold dispatch_exn, dispatchCommand, lookupFunction.
  destruct (attrs (lit "command_" ++ normalizeCommand uupper cmd)) as [[id c|id]|]; cbn [auto].
  - destruct (memb None (c_ns c)); right; (split; [discriminate|]; now split).
  - left. split; [now exists id|]. now repeat split.
  - destruct (attrs (lit "juice_" ++ normalizeCommand uupper cmd)); cbn [option_map]; right; (split; [discriminate|]; now split).
Qed.
Print Assumptions C51_received_partial.

Example C51_nonvacuous :
  let at1 := fun k => if eqb k (lit "command_DO_IT") then Some (AResponder 3 (Cmd None None [Some (lit "ns")] None)) else None in
  dispatchCommand (map ascii_upper) at1 (lit " do-it") (Some (lit "ns")) = Ok (DRun (FAuto 3 (Cmd None None [Some (lit "ns")] None))) /\
  dispatchCommand (map ascii_upper) at1 (lit "Do_It") None = Ok DUnhandled /\
  dispatchCommand (map ascii_upper) at1 (do_name (Some (lit "ns")) (lit "do-it")) None = Ok DUnhandled /\
  (let '(_, o, x) := boxReceived (dispatch_exn (map ascii_upper) (fun _ => Some (APlain 5))) jp0 [(COMMAND, lit "do-it")] in o = [] /\ x = Some AttributeError) /\
  uppers (map ascii_upper).
Proof. repeat split; vm_compute; reflexivity. Qed.

(** ** C54 *)

Theorem C54_chosen : forall VERSIONS vs v, negotiate VERSIONS vs = Ok v <->
  exists a b, vs = a ++ v :: b /\ In v VERSIONS /\ forall u, In u a -> ~ In u VERSIONS.
Proof. exact negotiate_first. Qed.
Print Assumptions C54_chosen.

Theorem C54_refused : forall VERSIONS vs,
  (negotiate VERSIONS vs = Err IncompatibleVersions <-> forall u, In u vs -> ~ In u VERSIONS) /\
  (forall e, negotiate VERSIONS vs = Err e -> e = IncompatibleVersions).
Proof.
  intros V vs. split; [apply negotiate_none|]. intros e. unfold negotiate. destruct (List.find _ vs); congruence.
Qed.
Print Assumptions C54_refused.

(** The whole exchange: the offer [vs] is encoded; a box carrying it reaches
    the responder, which answers the version [v]; its protocol takes [v] on
    when the answer is sent; a box carrying that answer reaches the caller,
    whose protocol takes on the same [v]. *)
Theorem C54_agree : forall ulower, lowers ulower -> forall oenc odec VERSIONS vs v, vs <> [] -> negotiate VERSIONS vs = Ok v ->
  exists offered, 
    objectsToStrings ulower (encs ulower oenc neg_args) [(lit "versions", VList (map VInt vs))] = Ok [(lit "versions", VText offered)] /\
    forall b, dget b (lit "versions") = Some offered ->
    exists answered, neg_respond ulower oenc odec VERSIONS b = Ok [(lit "version", VText answered)] /\
      (forall st t st' o x, sendTo st KNegotiate (dset [(lit "version", PS answered)] (lit "_answer") (PS t)) = (st', o, x) ->
         accepted o <> [] -> version st' = v /\ x = None) /\
      (forall b', dget b' (lit "version") = Some answered -> neg_answer ulower odec b' = Ok v).
Proof.
  intros ulower Hlow oenc odec V vs v Hn Hv. exists (offer vs). split; [now apply offer_sent|].
  intros b Hb. exists (zdec v). split; [rewrite (offer_received ulower Hlow oenc odec V vs b Hn Hb), Hv; reflexivity|]. split.
  - intros st t st' o x. apply responder_version.
  - intros b'. now apply answer_received.
Qed.
Print Assumptions C54_agree.

(** renegotiateVersion offers only a version it supports itself *)
Theorem C54_offer : forall VERSIONS v,
  (In v VERSIONS -> renegotiate VERSIONS v = Ok [v] /\ negotiate VERSIONS [v] = Ok v) /\
  (~ In v VERSIONS -> renegotiate VERSIONS v = Err AssertionError).
Proof.
  intros V v. unfold renegotiate, negotiate. cbn [List.find]. split; intros H.
  - apply memb_In in H. now rewrite H.
  - apply memb_not_In in H. now rewrite H.
Qed.
Print Assumptions C54_offer.

Example C54_nonvacuous : negotiate [1; 3]%Z [7; 3; 1]%Z = Ok 3%Z /\ negotiate [1]%Z [7; 3]%Z = Err IncompatibleVersions /\
  offer [7; 3; -1]%Z = lit "7, 3, -1" /\
  (forall st, locked st = false -> exists st' o x, sendTo st KNegotiate (dset [(lit "version", PS (lit "3"))] (lit "_answer") (PS (lit "1"))) = (st', o, x) /\
     accepted o <> [] /\ version st' = 3%Z).
Proof.
  repeat split; try (vm_compute; reflexivity). intros st Hl. unfold sendTo, sendPacket. rewrite Hl.
  destruct (held st) as [q|].
  - do 3 eexists. split; [reflexivity|]. split; [discriminate|reflexivity].
  - set (b := dset _ _ _). destruct (serialize b) as [w|e] eqn:E; [|vm_compute in E; discriminate].
    do 3 eexists. split; [reflexivity|]. split; [discriminate|reflexivity].
Qed.
