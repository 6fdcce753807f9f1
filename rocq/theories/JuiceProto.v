(** * epsilon/juice.py: requests, answers, TLS and locking of a connection

    Boxes are delivered by JuiceStream.v; here one delivered box is one event.
    Code of the application that runs inside an event (callbacks of a Deferred,
    responders) may call the protocol again: such a call is the next event.
    Between the changes of state and the calls of application code that the
    code makes there is never anything left to do, except in
    [failAllOutgoing], whose loop is therefore one event per iteration. *)

From Coq Require Import ZArith NArith String List Bool Arith Lia Permutation.
From Verif Require Import Py PyStr PyNum PyInt PyHex Utf8 JuiceCodec.
Import ListNotations.
Open Scope nat_scope.
Open Scope py_scope.

(** juice.py:31-148: the classes of boxes.  Certificates and inner protocols
    are numbers; [verify] and [sslstarted] of a TLSBox are not modelled. *)
Inductive boxkind := KPlain | KQuit | KTLS (cert : N) | KSwitch (proto : N) | KNegotiate.

(** what a Deferred fires with: the answer box; a RemoteJuiceError with its
    code and description; the reason the connection was lost *)
Inductive firing := Answered (b : dict str str) | Failed (code desc : str) | Lost.

(** Effects.  [OWrite]: a packet written to the transport, and its bytes.
    [OHold]: a packet put in the TLS buffer.  [OFire r f]: the Deferred of
    request [r] fires.  [OLose]: transport.loseConnection().  [ORun id b]: the
    command in [b] is dispatched.  [OAsked r tag]: request [r] is registered
    and its box carries [tag].  [ORefused]: a request fails at once with
    CONNECTION_LOST.  [OForgot r]: nothing visible, the Deferred of [r] is no
    longer referenced by the protocol and has not been fired.  [OFlush]: a
    packet of the TLS buffer written to the transport.  [ODrop b]: nothing
    visible, the packet [b] was in the TLS buffer and is no longer referenced
    by the protocol. *)
Inductive out :=
| OWrite (b : box) (w : str)
| OHold (b : box)
| OFire (r : nat) (f : firing)
| OLose
| OStartTLS (c : N)
| OInner (p : N)
| ORun (id : nat) (b : dict str str)
| OAsked (r : nat) (tag : str)
| ORefused
| OForgot (r : nat)
| OFlush (b : box) (w : str)
| ODrop (b : box).

(** [_counter]; [_outstandingRequests]; the number of requests made; Deferreds
    still to be failed by [failAllOutgoing]; [_startingTLSBuffer]; [__locked];
    [hostCertificate]; [innerProtocol]; [protocolVersion]; the commands being
    run, with the tag each has to be answered with; the number of commands
    run. *)
Record jp := JP {
  counter : N; outst : option (dict str nat); fresh : nat; losing : list nat;
  held : option (list box); locked : bool; cert : option N; inner : option N;
  version : Z; runs : dict nat (option str); nextrun : nat }.

(** juice.py:304-305, 827-836: a new connection *)
Definition jp0 : jp := JP 0 (Some []) 0 [] None false None None 0%Z [] 0.

Definition result := (jp * list out * option exn)%type.

(** juice.py:805-818 [sendPacket] *)
Definition sendPacket (st : jp) (b : box) : result :=
  if locked st then (st, [], Some AssertionError)
  else match held st with
       | Some q => (JP (counter st) (outst st) (fresh st) (losing st) (Some (q ++ [b])) (locked st)
                       (cert st) (inner st) (version st) (runs st) (nextrun st), [OHold b], None)
       | None => match serialize b with
                 | Ok w => (st, [OWrite b w], None)
                 | Err e => (st, [], Some e)
                 end
       end.

Definition as_flush (o : out) : out := match o with OWrite b w => OFlush b w | _ => o end.

(** juice.py:850-853: the loop of [startTLS]; [_startingTLSBuffer] is None
    already, so every packet is written.  If one raises, it and the rest are
    gone. *)
Fixpoint flush (st : jp) (q : list box) : list out * option exn :=
  match q with
  | [] => ([], None)
  | b :: t => match sendPacket st b with
              | (_, o, Some e) => (map as_flush o ++ map ODrop q, Some e)
              | (_, o, None) => let '(o', e) := flush st t in (map as_flush o ++ o', e)
              end
  end.

(** juice.py:843-859 [startTLS] *)
Definition startTLS (st : jp) (c : N) : result :=
  match cert st with
  | Some _ => (st, [], Some RuntimeError)
  | None =>
      let st1 := JP (counter st) (outst st) (fresh st) (losing st) None (locked st)
                    (Some c) (inner st) (version st) (runs st) (nextrun st) in
      match held st with
      | None => (st1, [OStartTLS c], None)
      | Some q => let '(o, e) := flush st1 q in (st1, OStartTLS c :: o, e)
      end
  end.

(** juice.py:840-841 [prepareTLS] *)
Definition prepareTLS (st : jp) : result :=
  (JP (counter st) (outst st) (fresh st) (losing st) (Some []) (locked st)
      (cert st) (inner st) (version st) (runs st) (nextrun st),
   map ODrop (match held st with Some q => q | None => [] end), None).

(** juice.py:784-794 [_switchTo] (the change to raw mode is in
    JuiceSwitch.v) *)
Definition switchTo (st : jp) (p : N) : result :=
  match inner st with
  | Some _ => (st, [], Some AssertionError)
  | None => (JP (counter st) (outst st) (fresh st) (losing st) (held st) (locked st)
                (cert st) (Some p) (version st) (runs st) (nextrun st), [OInner p], None)
  end.

(** juice.py:774-780 [_lock] *)
Definition lock (st : jp) : result :=
  (JP (counter st) (outst st) (fresh st) (losing st) (held st) true
      (cert st) (inner st) (version st) (runs st) (nextrun st), [], None).

(** juice.py:922-926 [_setProtocolVersion] *)
Definition setVersion (st : jp) (v : Z) : jp :=
  JP (counter st) (outst st) (fresh st) (losing st) (held st) (locked st)
     (cert st) (inner st) v (runs st) (nextrun st).

Definition pv_int (v : option pv) : res Z :=
  match v with
  | None => Err KeyError
  | Some (PS s) => py_int s
  | Some (PB s) => if is_ascii s then py_int s else Err ValueError
  end.

(** juice.py:79-91, 108-115, 122-124, 135-137, 146-148: [sendTo] of each class *)
Definition sendTo (st : jp) (k : boxkind) (b : box) : result :=
  match sendPacket st b with
  | (st, o, Some e) => (st, o, Some e)
  | (st, o, None) =>
      match k with
      | KPlain => (st, o, None)
      | KQuit => (st, o ++ [OLose], None)
      | KTLS c => let '(st, o', e) := startTLS st c in (st, o ++ o', e)
      | KSwitch p => let '(st, o', e) := switchTo st p in (st, o ++ o', e)
      | KNegotiate => match pv_int (dget b (lit "version")) with
                      | Ok v => (setVersion st v, o, None)
                      | Err e => (st, o, Some e)
                      end
      end
  end.

(** juice.py:382-403 [sendBoxCommand] with 319-321 [_nextTag] *)
Definition sendBoxCommand (st : jp) (cmd : str) (k : boxkind) (b : box) (req : bool) : result :=
  match outst st with
  | None => (st, [ORefused], None)
  | Some o =>
      let b := dset b COMMAND (PS cmd) in
      let c := (counter st + 1)%N in
      let tag := hex c in
      if req then
        let r := fresh st in
        let st := JP c (Some (dset o tag r)) (S r) (losing st) (held st) (locked st)
                     (cert st) (inner st) (version st) (runs st) (nextrun st) in
        let '(st, o', e) := sendTo st k (dset b ASK (PS tag)) in
        (st, OAsked r tag :: o', e)
      else
        sendTo (JP c (Some o) (fresh st) (losing st) (held st) (locked st)
                   (cert st) (inner st) (version st) (runs st) (nextrun st)) k b
  end.

Definition set_outst (st : jp) (o : option (dict str nat)) : jp :=
  JP (counter st) o (fresh st) (losing st) (held st) (locked st)
     (cert st) (inner st) (version st) (runs st) (nextrun st).

Definition set_runs (st : jp) (r : dict nat (option str)) (n : nat) : jp :=
  JP (counter st) (outst st) (fresh st) (losing st) (held st) (locked st)
     (cert st) (inner st) (version st) r n.

(** juice.py:329-380 [juiceBoxReceived] of JuiceParserBase, 798-803 of Juice.
    [dispatch_exn cmd]: what looking the command up raises, if anything
    (JuiceDispatch.v).  [wrapper] is None. *)
Definition boxReceived (dispatch_exn : str -> option exn) (st : jp) (b : dict str str) : result :=
  if locked st && din b COMMAND && din b ASK then (st, [], None)
  else match dget b ANSWER with
  | Some t =>
      match outst st with
      | None => (st, [], Some AttributeError)
      | Some o => match dget o t with
                  | None => (st, [], Some KeyError)
                  | Some r => (set_outst st (Some (ddel o t)), [OFire r (Answered b)], None)
                  end
      end
  | None =>
  match dget b ERROR with
  | Some t =>
      match outst st with
      | None => (st, [], Some AttributeError)
      | Some o => match dget o t with
                  | None => (st, [], Some KeyError)
                  | Some r =>
                      let st := set_outst st (Some (ddel o t)) in
                      match dget b ERROR_CODE, dget b ERROR_DESCRIPTION with
                      | Some c, Some d => (st, [OFire r (Failed c d)], None)
                      | _, _ => (st, [OForgot r], Some KeyError)
                      end
                  end
      end
  | None =>
  match dget b COMMAND with
  | Some cmd =>
      match dispatch_exn cmd with
      | Some e => (st, [], Some e)
      | None => (set_runs st (runs st ++ [(nextrun st, dget b ASK)]) (S (nextrun st)),
                 [ORun (nextrun st) b], None)
      end
  | None => (st, [], Some RuntimeError)
  end end end.

(** What the Deferred of a command's responder fires with: an answer box; some
    other object; a RemoteJuiceError; any other failure. *)
Inductive outcome :=
| RAnswer (k : boxkind) (b : box)
| RNotBox
| RRemote (code desc : pv) (fatal : bool)
| RCrash.

(** juice.py:361-369: the error box of a command to be answered with [t] *)
Definition error_box (t : str) (code desc : pv) : box :=
  [(ERROR, PS t); (ERROR_DESCRIPTION, desc); (ERROR_CODE, code)].

(** juice.py:307-315 [_puke]: whatever was raised ends here *)
Definition puke (r : result) : result :=
  match r with
  | (st, o, None) => (st, o, None)
  | (st, o, Some _) => (st, o ++ [OLose], None)
  end.

(** juice.py:345-377: [sendAnswer] and [sendError], then [_puke]; the transport
    is set *)
Definition complete (st : jp) (ask : option str) (oc : outcome) : result :=
  match ask, oc with
  | None, RAnswer _ _ | None, RNotBox => (st, [], None)
  | None, _ => (st, [OLose], None)
  | Some t, RAnswer k b => puke (sendTo st k (dset b ANSWER (PS t)))
  | Some t, RNotBox => (st, [OLose], None)
  | Some t, RRemote code desc fatal => puke (sendTo st (if fatal then KQuit else KPlain) (error_box t code desc))
  | Some t, RCrash =>
      puke (sendTo st KQuit (error_box t (PS (lit "UNHANDLED")) (PS (lit "Unhandled Remote System Exception "))))
  end.

(** ** Histories *)

Inductive event :=
| ESend (cmd : str) (k : boxkind) (b : box) (req : bool)
| ERecv (b : dict str str)
| EComplete (id : nat) (oc : outcome)
| EPrepare
| EStartTLS (c : N)
| ELock
| ESwitch (p : N)
| ELost          (** connectionLost: [_outstandingRequests] is None from now on *)
| EFailNext.     (** the next iteration of [failAllOutgoing] *)

Lemma nodup_r {A} (l l' : list A) : NoDup (l ++ l') -> NoDup l'.
Proof. induction l as [|a l IH]; auto. intros H. inversion H; auto. Qed.

Lemma nodup_l {A} (l l' : list A) : NoDup (l ++ l') -> NoDup l.
Proof.
  induction l as [|a l IH]; [constructor|]. intros H. inversion H; subst. constructor; auto.
  intros Hi. apply H2. apply in_or_app. now left.
Qed.

Section Machine.
  Variable dispatch_exn : str -> option exn.

  Definition step (st : jp) (ev : event) : option result :=
    match ev with
    | ESend cmd k b req => Some (sendBoxCommand st cmd k b req)
    | ERecv b => Some (boxReceived dispatch_exn st b)
    | EComplete id oc =>
        match dget (runs st) id with
        | None => None
        | Some ask => Some (complete (set_runs st (ddel (runs st) id) (nextrun st)) ask oc)
        end
    | EPrepare => Some (prepareTLS st)
    | EStartTLS c => Some (startTLS st c)
    | ELock => Some (lock st)
    | ESwitch p => Some (switchTo st p)
    | ELost =>
        (* juice.py:868-873 [connectionLost], 323-325 *)
        match outst st with
        | None => Some (st, [], Some AttributeError)
        | Some o => Some (JP (counter st) None (fresh st) (losing st ++ values o) (held st) (locked st)
                             (cert st) (inner st) (version st) (runs st) (nextrun st), [], None)
        end
    | EFailNext =>
        (* juice.py:326-327 *)
        match losing st with
        | [] => None
        | r :: t => Some (JP (counter st) (outst st) (fresh st) t (held st) (locked st)
                             (cert st) (inner st) (version st) (runs st) (nextrun st), [OFire r Lost], None)
        end
    end.

  Record entry := En { ev : event; outs : list out; raised : option exn }.

  (** all executions from a new connection, oldest event first *)
  Inductive Reach : list entry -> jp -> Prop :=
  | R_init : Reach [] jp0
  | R_step h st e st' o x : Reach h st -> step st e = Some (st', o, x) -> Reach (h ++ [En e o x]) st'.

  (** running a list of events *)
  Fixpoint execs (st : jp) (es : list event) : option (list entry * jp) :=
    match es with
    | [] => Some ([], st)
    | e :: t => match step st e with
                | None => None
                | Some (st', o, x) => match execs st' t with
                                      | None => None
                                      | Some (h, st'') => Some (En e o x :: h, st'')
                                      end
                end
    end.

  Lemma execs_sound es : forall st h0 h st', Reach h0 st -> execs st es = Some (h, st') -> Reach (h0 ++ h) st'.
  Proof.
    induction es as [|e es IH]; intros st h0 h st' HR H; cbn [execs] in H.
    - inversion H; subst. now rewrite app_nil_r.
    - destruct (step st e) as [[[st1 o] x]|] eqn:Es; [|discriminate].
      destruct (execs st1 es) as [[h1 st2]|] eqn:Ee; [|discriminate]. inversion H; subst.
      change (En e o x :: h1) with ([En e o x] ++ h1). rewrite app_assoc. eapply IH; [|exact Ee].
      econstructor; eauto.
  Qed.

  Definition outs_of (h : list entry) : list out := flat_map outs h.

  (** requests registered: number and tag *)
  Definition asked (os : list out) : list (nat * str) :=
    flat_map (fun o => match o with OAsked r t => [(r, t)] | _ => [] end) os.
  Definition fired (os : list out) : list nat :=
    flat_map (fun o => match o with OFire r _ => [r] | _ => [] end) os.
  Definition forgot (os : list out) : list nat :=
    flat_map (fun o => match o with OForgot r => [r] | _ => [] end) os.
  (** packets accepted, and packets written *)
  Definition accepted (os : list out) : list box :=
    flat_map (fun o => match o with OWrite b _ | OHold b => [b] | _ => [] end) os.
  Definition written (os : list out) : list box :=
    flat_map (fun o => match o with OWrite b _ | OFlush b _ => [b] | _ => [] end) os.
  (** packets that were accepted and are gone without having been written *)
  Definition dropped (os : list out) : list box :=
    flat_map (fun o => match o with ODrop b => [b] | _ => [] end) os.
  Definition started (os : list out) : list (nat * dict str str) :=
    flat_map (fun o => match o with ORun i b => [(i, b)] | _ => [] end) os.

  Lemma outs_of_snoc h e o x : outs_of (h ++ [En e o x]) = outs_of h ++ o.
  Proof. unfold outs_of. rewrite flat_map_app. cbn. now rewrite app_nil_r. Qed.
  Lemma asked_app a b : asked (a ++ b) = asked a ++ asked b.
  Proof. apply flat_map_app. Qed.
  Lemma fired_app a b : fired (a ++ b) = fired a ++ fired b.
  Proof. apply flat_map_app. Qed.
  Lemma forgot_app a b : forgot (a ++ b) = forgot a ++ forgot b.
  Proof. apply flat_map_app. Qed.
  Lemma accepted_app a b : accepted (a ++ b) = accepted a ++ accepted b.
  Proof. apply flat_map_app. Qed.
  Lemma written_app a b : written (a ++ b) = written a ++ written b.
  Proof. apply flat_map_app. Qed.
  Lemma dropped_app a b : dropped (a ++ b) = dropped a ++ dropped b.
  Proof. apply flat_map_app. Qed.
  Lemma started_app a b : started (a ++ b) = started a ++ started b.
  Proof. apply flat_map_app. Qed.

  (** ** What the parts of a step leave alone *)

  (** an effect that is neither about requests nor about commands *)
  Definition transport_only (o : out) : Prop :=
    match o with
    | OWrite _ _ | OHold _ | OLose | OStartTLS _ | OInner _ | OFlush _ _ | ODrop _ => True
    | _ => False
    end.

  Definition quiet (st : jp) (r : result) : Prop :=
    let '(st', o, _) := r in
    counter st' = counter st /\ outst st' = outst st /\ fresh st' = fresh st /\ losing st' = losing st /\
    runs st' = runs st /\ nextrun st' = nextrun st /\ Forall transport_only o.

  Lemma quiet_sendPacket st b : quiet st (sendPacket st b).
  Proof.
    unfold sendPacket. destruct (locked st); [repeat split; constructor|].
    destruct (held st); [repeat split; repeat constructor|]. destruct (serialize b); repeat split; repeat constructor.
  Qed.

  Lemma flush_only st q : Forall transport_only (fst (flush st q)).
  Proof.
    assert (Hf : forall o, Forall transport_only o -> Forall transport_only (map as_flush o)).
    { induction 1 as [|x o Hx Ho IH]; constructor; [destruct x; exact Hx|exact IH]. }
    induction q as [|b q IH]; [constructor|]. cbn [flush].
    pose proof (quiet_sendPacket st b) as H. destruct (sendPacket st b) as [[st1 o] [e|]]; destruct H as (_ & _ & _ & _ & _ & _ & H).
    - cbn [fst]. apply Forall_app. split; [auto|]. clear. induction (b :: q) as [|y l IH]; constructor; [exact I|exact IH].
    - destruct (flush st q) as [o' e']. cbn [fst] in *. apply Forall_app. auto.
  Qed.

  Lemma quiet_startTLS st c : quiet st (startTLS st c).
  Proof.
    unfold startTLS. destruct (cert st); [repeat split; constructor|]. destruct (held st) as [q|].
    - match goal with |- context [flush ?s q] => pose proof (flush_only s q) as H; destruct (flush s q) as [o e] end.
      repeat split. constructor; [exact I|exact H].
    - repeat split. repeat constructor.
  Qed.

  Lemma quiet_prepareTLS st : quiet st (prepareTLS st).
  Proof.
    unfold prepareTLS. repeat split. destruct (held st) as [q|]; [|constructor].
    induction q; constructor; [exact I|assumption].
  Qed.

  Lemma quiet_switchTo st p : quiet st (switchTo st p).
  Proof. unfold switchTo. destruct (inner st); repeat split; repeat constructor. Qed.

  Lemma quiet_sendTo st k b : quiet st (sendTo st k b).
  Proof.
    unfold sendTo. pose proof (quiet_sendPacket st b) as H.
    destruct (sendPacket st b) as [[st1 o] [e|]]; [exact H|].
    destruct H as (H1 & H2 & H3 & H4 & H5 & H6 & H7). destruct k.
    - repeat split; auto.
    - repeat split; auto. apply Forall_app. split; [exact H7|repeat constructor].
    - pose proof (quiet_startTLS st1 cert0) as H. destruct (startTLS st1 cert0) as [[st2 o2] e2].
      destruct H as (G1 & G2 & G3 & G4 & G5 & G6 & G7). repeat split; try congruence. apply Forall_app. auto.
    - pose proof (quiet_switchTo st1 proto) as H. destruct (switchTo st1 proto) as [[st2 o2] e2].
      destruct H as (G1 & G2 & G3 & G4 & G5 & G6 & G7). repeat split; try congruence. apply Forall_app. auto.
    - destruct (pv_int _); repeat split; auto.
  Qed.

  Lemma quiet_puke st r : quiet st r -> quiet st (puke r).
  Proof.
    destruct r as [[st1 o] [e|]]; [|auto]. intros (H1 & H2 & H3 & H4 & H5 & H6 & H7). repeat split; auto.
    apply Forall_app. split; [exact H7|repeat constructor].
  Qed.

  Lemma quiet_complete st ask oc : quiet st (complete st ask oc).
  Proof.
    destruct ask as [t|], oc; cbn [complete]; try (apply quiet_puke, quiet_sendTo); repeat split; repeat constructor.
  Qed.

  Lemma only_asked o : Forall transport_only o ->
    asked o = [] /\ fired o = [] /\ forgot o = [] /\ started o = [].
  Proof.
    induction 1 as [|x o Hx Ho IH]; [auto|]. destruct IH as (H1 & H2 & H3 & H4).
    unfold asked, fired, forgot, started in *. cbn [flat_map]. rewrite H1, H2, H3, H4. destruct x; cbn in Hx; tauto.
  Qed.

  Definition no_req (o : list out) : Prop := asked o = [] /\ fired o = [] /\ forgot o = [].

  Lemma only_no_req o : Forall transport_only o -> no_req o.
  Proof. intros H. destruct (only_asked o H) as (H1 & H2 & H3 & _). now split. Qed.

  (** ** Requests: every one is outstanding, about to be failed, fired or forgotten *)

  Definition waiting (st : jp) : list nat :=
    match outst st with Some o => values o | None => [] end ++ losing st.

  Record Inv (h : list entry) (st : jp) : Prop := {
    i_perm : Permutation (map fst (asked (outs_of h)))
                         (waiting st ++ fired (outs_of h) ++ forgot (outs_of h));
    i_fresh : map fst (asked (outs_of h)) = seq 0 (fresh st);
    i_tags : exists ns, map snd (asked (outs_of h)) = map hex ns /\ NoDup ns /\ Forall (fun n => (0 < n <= counter st)%N) ns;
    i_wf : match outst st with Some o => wf_dict o | None => True end;
    i_tag : match outst st with Some o => forall t r, dget o t = Some r -> In (r, t) (asked (outs_of h)) | None => True end;
    i_losing : match outst st with Some _ => losing st = [] | None => True end
  }.

  Lemma inv_init : Inv [] jp0.
  Proof.
    constructor; cbn; auto; try constructor.
    - exists []. repeat constructor.
    - intros; discriminate.
  Qed.

  Lemma inv_quiet h st e st' o x : Inv h st -> outst st' = outst st -> fresh st' = fresh st ->
    losing st' = losing st -> (counter st <= counter st')%N -> no_req o ->
    Inv (h ++ [En e o x]) st'.
  Proof.
    intros [] H1 H2 H3 H4 (E1 & E2 & E3).
    constructor; unfold waiting in *; rewrite ?outs_of_snoc, ?asked_app, ?fired_app, ?forgot_app, ?E1, ?E2, ?E3, ?app_nil_r, ?H1, ?H2, ?H3; auto.
    destruct i_tags0 as (ns & G1 & G2 & G3). exists ns. repeat split; auto.
    eapply Forall_impl; [|exact G3]. cbn. intros. lia.
  Qed.

  Lemma values_ddel (o : dict str nat) t r : dget o t = Some r -> Permutation (values o) (r :: values (ddel o t)).
  Proof.
    induction o as [|[k v] o IH]; cbn [dget ddel]; [discriminate|].
    destruct (eqb t k); intros E.
    - inversion E; subst. reflexivity.
    - cbn [values map snd]. rewrite (IH E). apply perm_swap.
  Qed.

  Lemma inv_pop h st e o t r x out1 : Inv h st -> outst st = Some o -> dget o t = Some r ->
    (out1 = OForgot r \/ exists f, out1 = OFire r f) ->
    Inv (h ++ [En e [out1] x]) (set_outst st (Some (ddel o t))).
  Proof.
    intros [] Ho Hg Hout.
    assert (Ea : asked [out1] = []) by (destruct Hout as [->|[f ->]]; reflexivity).
    assert (Ef : Permutation (fired [out1] ++ forgot [out1]) [r]).
    { destruct Hout as [->|[f ->]]; reflexivity. }
    unfold waiting in *. rewrite Ho in *.
    constructor; unfold waiting, set_outst; cbn [outst fresh losing counter];
      rewrite ?outs_of_snoc, ?asked_app, ?fired_app, ?forgot_app, ?Ea, ?app_nil_r; auto.
    - rewrite i_perm0, (values_ddel o t r Hg). cbn [app].
      destruct Hout as [->|[f ->]]; cbn [fired forgot flat_map app]; rewrite ?app_nil_r.
      + rewrite !app_assoc. apply Permutation_cons_append.
      + rewrite !app_assoc. rewrite <- (app_assoc _ [r]). cbn [app]. apply Permutation_middle.
    - apply wf_ddel. exact i_wf0.
    - intros t' r' Hg'. apply i_tag0. rewrite <- Hg'. symmetry.
      destruct (eqb_spec t' t) as [->|Hn]; [|now apply dget_ddel_neq].
      rewrite dget_ddel_eq in Hg' by exact i_wf0. discriminate.
  Qed.

  Lemma inv_quiet' h st st1 e r : Inv h st -> quiet st1 r ->
    outst st1 = outst st -> fresh st1 = fresh st -> losing st1 = losing st -> (counter st <= counter st1)%N ->
    forall st' o x, r = (st', o, x) -> Inv (h ++ [En e o x]) st'.
  Proof.
    intros HI Hq H1 H2 H3 H4 st' o x ->. destruct Hq as (Q1 & Q2 & Q3 & Q4 & Q5 & Q6 & Q7).
    apply (inv_quiet h st); [exact HI|congruence..|rewrite Q1; exact H4|now apply only_no_req].
  Qed.

  Ltac done_quiet := match goal with H : Inv ?h ?s |- Inv (?h ++ _) _ => apply (inv_quiet h s); [exact H|try reflexivity; auto..|] end; repeat split.

  Theorem reach_inv h st : Reach h st -> Inv h st.
  Proof.
    induction 1 as [|h st e st' o x HR IH Hs]; [apply inv_init|].
    destruct e as [cmd k b req|b|id oc| |c| |p| |]; cbn [step] in Hs.
    - (* send *)
      injection Hs as Hs. unfold sendBoxCommand in Hs. destruct (outst st) as [o0|] eqn:Eo.
      + destruct req.
        * set (st1 := JP (counter st + 1) _ _ _ _ _ _ _ _ _ _) in Hs.
          pose proof (quiet_sendTo st1 k (dset (dset b COMMAND (PS cmd)) ASK (PS (hex (counter st + 1))))) as Hq.
          destruct (sendTo st1 k _) as [[st2 o2] e2]. injection Hs as <- <- <-.
          destruct Hq as (Q1 & Q2 & Q3 & Q4 & Q5 & Q6 & Q7). destruct (only_asked o2 Q7) as (E1 & E2 & E3 & _).
          destruct IH. rewrite Eo in *.
          assert (Hnew : ~ In (hex (counter st + 1)) (map snd (asked (outs_of h)))).
          { destruct i_tags0 as (ns & G1 & G2 & G3). rewrite G1, in_map_iff. intros (n & En1 & Hn).
            apply hex_inj in En1. rewrite Forall_forall in G3. specialize (G3 _ Hn). lia. }
          assert (Hk : ~ In (hex (counter st + 1)) (keys o0)).
          { intros Hk. apply din_keys in Hk. unfold din in Hk. destruct (dget o0 (hex (counter st + 1))) as [r|] eqn:Eg; [|discriminate].
            apply i_tag0 in Eg. apply Hnew. apply in_map_iff. exists (r, hex (counter st + 1)). auto. }
          change (OAsked (fresh st) (hex (counter st + 1)) :: o2) with ([OAsked (fresh st) (hex (counter st + 1))] ++ o2).
          constructor; unfold waiting in *; rewrite ?outs_of_snoc, ?asked_app, ?fired_app, ?forgot_app, ?E1, ?E2, ?E3, ?app_nil_r, ?Q1, ?Q2, ?Q3, ?Q4.
          -- rewrite Eo in i_perm0. cbn [st1 outst losing fresh asked fired forgot flat_map app map fst]. rewrite map_app. cbn [map fst].
             rewrite (dset_new o0 _ (fresh st) Hk). unfold values. rewrite map_app. cbn [map snd].
             rewrite i_perm0, <- !app_assoc. cbn [app].
             apply Permutation_app_head. apply Permutation_sym. rewrite !app_assoc.
             apply Permutation_cons_append.
          -- rewrite map_app, i_fresh0. cbn [st1 fresh asked flat_map app map fst]. rewrite seq_S. reflexivity.
          -- destruct i_tags0 as (ns & G1 & G2 & G3). exists (ns ++ [(counter st + 1)%N]).
             rewrite !map_app, G1. cbn [asked flat_map app map snd st1 counter]. split; [reflexivity|]. split.
             ++ apply Permutation_NoDup with ((counter st + 1)%N :: ns); [apply Permutation_cons_append|].
                constructor; [|exact G2]. intros Hin. rewrite Forall_forall in G3. specialize (G3 _ Hin). lia.
             ++ apply Forall_app. split; [eapply Forall_impl; [|exact G3]; cbn; intros; lia|].
                constructor; [lia|constructor].
          -- cbn [st1 outst]. apply wf_dset. exact i_wf0.
          -- cbn [st1 outst]. intros t r. rewrite dget_dset. destruct (eqb_spec t (hex (counter st + 1))) as [->|Hn]; intros Hg.
             ++ inversion Hg; subst. apply in_or_app. right. now left.
             ++ apply in_or_app. left. auto.
          -- exact i_losing0.
        * eapply inv_quiet'; [exact IH|apply quiet_sendTo| | | | |exact Hs]; cbn; auto; lia.
      + injection Hs as <- <- <-. apply (inv_quiet h st); auto; try reflexivity. repeat split.
    - (* receive *)
      injection Hs as Hs. unfold boxReceived in Hs.
      destruct (locked st && din b COMMAND && din b ASK).
      { injection Hs as <- <- <-. now done_quiet. }
      destruct (dget b ANSWER) as [t|].
      { destruct (outst st) as [o0|] eqn:Eo.
        - destruct (dget o0 t) as [r|] eqn:Eg; injection Hs as <- <- <-.
          + eapply inv_pop; eauto.
          + now done_quiet.
        - injection Hs as <- <- <-. now done_quiet. }
      destruct (dget b ERROR) as [t|].
      { destruct (outst st) as [o0|] eqn:Eo.
        - destruct (dget o0 t) as [r|] eqn:Eg.
          + destruct (dget b ERROR_CODE); [destruct (dget b ERROR_DESCRIPTION)|]; injection Hs as <- <- <-; eapply inv_pop; eauto.
          + injection Hs as <- <- <-. now done_quiet.
        - injection Hs as <- <- <-. now done_quiet. }
      destruct (dget b COMMAND) as [cmd|].
      { destruct (dispatch_exn cmd); injection Hs as <- <- <-; [now done_quiet|].
        now done_quiet. }
      injection Hs as <- <- <-. now done_quiet.
    - (* complete *)
      destruct (dget (runs st) id) as [ask|]; [|discriminate]. injection Hs as Hs.
      eapply inv_quiet'; [exact IH|apply quiet_complete| | | | |exact Hs]; cbn; auto; lia.
    - assert (E : prepareTLS st = (st', o, x)) by congruence.
      eapply inv_quiet'; [exact IH|apply quiet_prepareTLS| | | | |exact E]; cbn; auto; lia.
    - injection Hs as Hs. eapply inv_quiet'; [exact IH|apply quiet_startTLS| | | | |exact Hs]; cbn; auto; lia.
    - injection Hs as <- <- <-. now done_quiet.
    - injection Hs as Hs. eapply inv_quiet'; [exact IH|apply quiet_switchTo| | | | |exact Hs]; cbn; auto; lia.
    - (* connection lost *)
      destruct (outst st) as [o0|] eqn:Eo; injection Hs as <- <- <-; [|now done_quiet].
      destruct IH. unfold waiting in *. rewrite Eo in *.
      constructor; unfold waiting; cbn [outst fresh losing counter]; rewrite ?outs_of_snoc, ?app_nil_r; auto.
      cbn [app]. rewrite i_losing0 in *. cbn [app]. rewrite app_nil_r in i_perm0. exact i_perm0.
    - (* fail next *)
      destruct (losing st) as [|r l] eqn:El; [discriminate|]. injection Hs as <- <- <-.
      destruct IH. unfold waiting in *. rewrite El in *. destruct (outst st) as [o0|] eqn:Eo; [discriminate|].
      constructor; unfold waiting; cbn [outst fresh losing counter]; rewrite ?outs_of_snoc, ?asked_app, ?fired_app, ?forgot_app, ?Eo;
        cbn [asked fired forgot flat_map app]; rewrite ?app_nil_r; auto.
      rewrite i_perm0. cbn [app]. rewrite <- !app_assoc. cbn [app]. rewrite !app_assoc. apply Permutation_middle.
  Qed.

  Lemma seq_nodup h st : Inv h st -> NoDup (map fst (asked (outs_of h))).
  Proof. intros []. rewrite i_fresh0. apply seq_NoDup. Qed.

  Lemma parts_nodup h st : Reach h st ->
    NoDup (waiting st ++ fired (outs_of h) ++ forgot (outs_of h)).
  Proof.
    intros HR. apply reach_inv in HR. eapply Permutation_NoDup; [exact (i_perm _ _ HR)|eapply seq_nodup, HR].
  Qed.

  (** *** C45 *)

  Theorem tags_distinct h st : Reach h st -> NoDup (map snd (asked (outs_of h))).
  Proof.
    intros HR. destruct (i_tags _ _ (reach_inv _ _ HR)) as (ns & -> & Hn & _).
    apply FinFun.Injective_map_NoDup; [|exact Hn]. exact hex_inj.
  Qed.

  (** packets of the parts *)
  Lemma sendPacket_cases st b st' o x : sendPacket st b = (st', o, x) ->
    (locked st = true /\ st' = st /\ o = [] /\ x = Some AssertionError) \/
    (locked st = false /\ exists q, held st = Some q /\ held st' = Some (q ++ [b]) /\ locked st' = locked st /\
       cert st' = cert st /\ inner st' = inner st /\ o = [OHold b] /\ x = None) \/
    (locked st = false /\ held st = None /\ st' = st /\
     match serialize b with Ok w => o = [OWrite b w] /\ x = None | Err e => o = [] /\ x = Some e end).
  Proof.
    unfold sendPacket. destruct (locked st) eqn:El; [intros E; injection E as <- <- <-; auto|].
    destruct (held st) as [q|] eqn:Eh; [intros E; injection E as <- <- <-; right; left; split; [auto|]; exists q; cbn; auto 10|].
    destruct (serialize b); intros E; injection E as <- <- <-; auto 10.
  Qed.

  Lemma map_odrop (q : list box) :
    accepted (map ODrop q) = [] /\ written (map ODrop q) = [] /\ dropped (map ODrop q) = q.
  Proof.
    induction q as [|b q (H1 & H2 & H3)]; [auto|].
    unfold accepted, written, dropped in *. cbn [map flat_map]. rewrite H1, H2, H3. auto.
  Qed.

  Lemma flush_cases st q : held st = None ->
    forall o x, flush st q = (o, x) ->
    accepted o = [] /\ q = written o ++ dropped o /\ (x = None -> dropped o = []) /\
    (forall c, ~ In (OStartTLS c) o) /\ (forall p, ~ In (OInner p) o) /\ (locked st = true -> written o = []).
  Proof.
    intros Hh. induction q as [|b q IH]; intros o x E; cbn [flush] in E.
    - injection E as <- <-. repeat split; auto.
    - destruct (sendPacket st b) as [[st1 o1] [e|]] eqn:Hc; apply sendPacket_cases in Hc.
      + injection E as <- <-.
        assert (o1 = []) as ->.
        { destruct Hc as [(_ & _ & -> & _)|[(_ & q1 & Hq & _)|(_ & _ & _ & Hc)]]; [auto|congruence|].
          destruct (serialize b); destruct Hc; [discriminate|assumption]. }
        cbn [app map]. destruct (map_odrop q) as (H1 & H2 & H3).
        unfold accepted, written, dropped in *. cbn [flat_map app]. rewrite H1, H2, H3.
        repeat split; auto; try discriminate.
        * intros c [Hc1|Hc1]; [discriminate|]. apply in_map_iff in Hc1 as (? & ? & _). discriminate.
        * intros c [Hc1|Hc1]; [discriminate|]. apply in_map_iff in Hc1 as (? & ? & _). discriminate.
      + destruct (flush st q) as [o2 x2] eqn:Ef. injection E as <- <-.
        destruct Hc as [(_ & _ & _ & Hc)|[(_ & q1 & Hq & _)|(Hl & _ & _ & Hc)]]; [discriminate|congruence|].
        destruct (serialize b) as [w|] eqn:Es; destruct Hc as [-> Hc]; [|discriminate].
        destruct (IH o2 x2 eq_refl) as (H1 & H2 & H3 & H4 & H5 & H6).
        unfold accepted, written, dropped in *. cbn [map as_flush flat_map app].
        repeat split; auto.
        * now rewrite <- H2.
        * intros c [Hc1|Hc1]; [discriminate|]. now apply (H4 c).
        * intros c [Hc1|Hc1]; [discriminate|]. now apply (H5 c).
        * congruence.
  Qed.

  Lemma startTLS_cases st c : forall st' o x, startTLS st c = (st', o, x) ->
    match cert st with
    | Some _ => st' = st /\ o = [] /\ x = Some RuntimeError
    | None => exists o', o = OStartTLS c :: o' /\ accepted o' = [] /\
        match held st with Some q => q | None => [] end = written o' ++ dropped o' /\ (x = None -> dropped o' = []) /\
        (forall c', ~ In (OStartTLS c') o') /\ (forall p, ~ In (OInner p) o') /\ (locked st = true -> written o' = []) /\
        held st' = None /\ cert st' = Some c /\ inner st' = inner st /\ locked st' = locked st
    end.
  Proof.
    intros st' o x E. unfold startTLS in E. destruct (cert st); [injection E as <- <- <-; auto|].
    destruct (held st) as [q|].
    - match type of E with context [flush ?s q] => pose proof (flush_cases s q eq_refl) as H; destruct (flush s q) as [o1 x1] end.
      injection E as <- <- <-. destruct (H o1 x1 eq_refl) as (H1 & H2 & H3 & H4 & H5 & H6). exists o1. repeat split; auto.
    - injection E as <- <- <-. exists []. repeat split; auto.
  Qed.

  Lemma switchTo_cases st p : forall st' o x, switchTo st p = (st', o, x) ->
    held st' = held st /\ cert st' = cert st /\ locked st' = locked st /\
    match inner st with
    | Some _ => st' = st /\ o = [] /\ x = Some AssertionError
    | None => o = [OInner p] /\ x = None /\ inner st' = Some p
    end.
  Proof.
    intros st' o x E. unfold switchTo in E. destruct (inner st) eqn:Ei; injection E as <- <- <-; cbn; auto 10.
  Qed.

  (** ** The transport side of a step *)

  Definition heldl (st : jp) : list box := match held st with Some q => q | None => [] end.
  Definition tls (os : list out) : list N :=
    flat_map (fun o => match o with OStartTLS c => [c] | _ => [] end) os.
  Definition inners (os : list out) : list N :=
    flat_map (fun o => match o with OInner p => [p] | _ => [] end) os.

  Lemma tls_app a b : tls (a ++ b) = tls a ++ tls b.
  Proof. apply flat_map_app. Qed.
  Lemma inners_app a b : inners (a ++ b) = inners a ++ inners b.
  Proof. apply flat_map_app. Qed.
  Lemma tls_none o : (forall c, ~ In (OStartTLS c) o) -> tls o = [].
  Proof.
    induction o as [|x o IH]; intros H; [reflexivity|]. unfold tls in *. cbn [flat_map]. rewrite IH.
    - destruct x; try reflexivity. exfalso. apply (H c). now left.
    - intros c Hc. apply (H c). now right.
  Qed.
  Lemma inners_none o : (forall c, ~ In (OInner c) o) -> inners o = [].
  Proof.
    induction o as [|x o IH]; intros H; [reflexivity|]. unfold inners in *. cbn [flat_map]. rewrite IH.
    - destruct x; try reflexivity. exfalso. apply (H p). now left.
    - intros c Hc. apply (H c). now right.
  Qed.

  Definition opt_list {A} (o : option A) : list A := match o with Some a => [a] | None => [] end.

  (** how a step (or part of one) changes the transport side of the state *)
  Record Tr (st st' : jp) (o : list out) : Prop := {
    t_cert : opt_list (cert st') = opt_list (cert st) ++ tls o;
    t_inner : opt_list (inner st') = opt_list (inner st) ++ inners o;
    t_cons : Permutation (heldl st ++ accepted o) (written o ++ dropped o ++ heldl st');
    t_order : dropped o = [] -> heldl st ++ accepted o = written o ++ heldl st';
    t_hold : held st' = None <-> (held st = None \/ tls o <> []);
    t_none : held st <> None -> tls o = [] -> written o = [];
    t_first : forall pre c post, o = pre ++ OStartTLS c :: post -> held st <> None -> written pre = [];
    t_lock : locked st = true -> accepted o = [] /\ written o = [];
    t_locked : locked st' = locked st
  }.

  Lemma tr_refl st st' : held st' = held st -> cert st' = cert st -> inner st' = inner st -> locked st' = locked st ->
    Tr st st' [].
  Proof.
    intros H1 H2 H3 H4. constructor; unfold heldl; cbn; rewrite ?H1, ?H2, ?H3, ?app_nil_r; auto.
    - split; auto. intros [H|H]; [auto|congruence].
    - intros [|? ?] c post; discriminate.
  Qed.

  Lemma in_tls c o : In (OStartTLS c) o -> tls o <> [].
  Proof.
    intros H E. assert (Hin : In c (tls o)) by (apply in_flat_map; exists (OStartTLS c); cbn; auto).
    rewrite E in Hin. destruct Hin.
  Qed.

  Lemma tr_app a b c o1 o2 : Tr a b o1 -> Tr b c o2 -> Tr a c (o1 ++ o2).
  Proof.
    intros [A1 A2 A3 A4 A5 A6 A7 A8 A9] [B1 B2 B3 B4 B5 B6 B7 B8 B9].
    assert (Htwo : tls o1 <> [] -> tls o2 = []).
    { intros H. destruct (tls o2) as [|x l] eqn:E2; [reflexivity|]. exfalso.
      rewrite A1 in B1. apply (f_equal (@length N)) in B1. rewrite !app_length in B1. cbn [length] in B1.
      destruct (tls o1); [congruence|]. cbn [length] in B1. destruct (cert c); cbn in B1; lia. }
    constructor; rewrite ?tls_app, ?inners_app, ?accepted_app, ?written_app, ?dropped_app.
    - now rewrite B1, A1, app_assoc.
    - now rewrite B2, A2, app_assoc.
    - rewrite app_assoc, A3. rewrite <- !app_assoc. apply Permutation_app_head.
      rewrite (Permutation_app_comm (written o2) _). rewrite <- !app_assoc. apply Permutation_app_head.
      rewrite B3. rewrite (Permutation_app_comm (written o2)). now rewrite <- app_assoc.
    - intros H. apply app_eq_nil in H as [H1 H2]. rewrite app_assoc, (A4 H1), <- !app_assoc. f_equal. auto.
    - rewrite B5, A5. split.
      + intros [[H|H]|H]; [left; auto|right|right]; intros E; apply app_eq_nil in E; tauto.
      + intros [H|H]; [left; left; auto|]. destruct (tls o1) eqn:E1; [right; exact H|left; right; discriminate].
    - intros Hh H. apply app_eq_nil in H as [H1 H2]. rewrite A6, B6; auto. rewrite A5. intros [?|?]; [auto|congruence].
    - intros pre x post E Hh.
      destruct (app_eq_app _ _ _ _ (eq_sym E)) as (l & [[E1 E2]|[E1 E2]]).
      + (* pre = o1 ++ l *)
        subst pre. rewrite written_app.
        assert (Ht1 : tls o1 = []).
        { destruct (tls o1) eqn:Et; [reflexivity|]. exfalso. apply (in_tls x o2); [rewrite E2; apply in_or_app; right; now left|].
          apply Htwo. discriminate. }
        rewrite A6 by auto. cbn [app]. apply (B7 l x post E2).
        rewrite A5. intros [?|?]; [auto|congruence].
      + destruct l as [|y l].
        * cbn [app] in E2. rewrite app_nil_r in E1. subst pre.
          assert (Ht1 : tls o1 = []).
          { destruct (tls o1) eqn:Et; [reflexivity|]. exfalso. apply (in_tls x o2); [rewrite <- E2; now left|].
            apply Htwo. discriminate. }
          now apply A6.
        * injection E2 as <- ->. apply (A7 pre x l E1 Hh).
    - intros H. destruct (A8 H) as [-> ->]. rewrite <- A9 in H. destruct (B8 H) as [-> ->]. auto.
    - congruence.
  Qed.

  Ltac no_tls_first := let pre := fresh in let E := fresh in
    intros pre ? ? E ?; destruct pre as [|? [|? ?]]; discriminate.

  Lemma tr_lose st : Tr st st [OLose].
  Proof.
    constructor; unfold heldl; cbn; rewrite ?app_nil_r; auto; try no_tls_first.
    split; auto. intros [H|H]; [auto|congruence].
  Qed.

  Lemma tr_sendPacket st b st' o x : sendPacket st b = (st', o, x) -> Tr st st' o.
  Proof.
    intros H. apply sendPacket_cases in H.
    destruct H as [(Hl & -> & -> & _)|[(Hl & q & Hq & Hq' & Hl' & Hc & Hi & -> & ->)|(Hl & Hh & -> & H)]].
    - now apply tr_refl.
    - constructor; unfold heldl; cbn; rewrite ?Hq, ?Hq', ?Hc, ?Hi, ?app_nil_r; auto; try no_tls_first; try congruence.
      split; [discriminate|]. intros [H|H]; congruence.
    - destruct (serialize b) as [w|e]; destruct H as [-> ->]; [|now apply tr_refl].
      constructor; unfold heldl; cbn; rewrite ?Hh, ?app_nil_r; auto; try no_tls_first; try congruence. split; auto.
  Qed.

  Lemma tr_startTLS st c st' o x : startTLS st c = (st', o, x) -> Tr st st' o.
  Proof.
    intros E. apply startTLS_cases in E. destruct (cert st) as [c0|] eqn:Ec.
    - destruct E as (-> & -> & _). now apply tr_refl.
    - destruct E as (o' & -> & H1 & H2 & H3 & H4 & H5 & H6 & H7 & H8 & H9 & H10).
      change (OStartTLS c :: o') with ([OStartTLS c] ++ o'). fold (heldl st) in H2.
      constructor; rewrite ?tls_app, ?inners_app, ?accepted_app, ?written_app, ?dropped_app, ?H1, ?(tls_none o' H4), ?(inners_none o' H5),
        ?Ec, ?H8, ?H9, ?H2; cbn; rewrite ?app_nil_r; auto.
      + unfold heldl. rewrite H7, app_nil_r. reflexivity.
      + intros ->. unfold heldl. rewrite H7. reflexivity.
      + rewrite H7. split; auto. intros _. right. discriminate.
      + discriminate.
      + intros pre c' post E _. destruct pre as [|y pre]; [reflexivity|]. injection E as <- E.
        exfalso. apply (H4 c'). rewrite E. apply in_or_app. right. now left.
  Qed.

  Lemma tr_switchTo st p st' o x : switchTo st p = (st', o, x) -> Tr st st' o.
  Proof.
    intros E. apply switchTo_cases in E as (H1 & H2 & H3 & E). destruct (inner st) as [p0|] eqn:Ei.
    - destruct E as (-> & -> & _). now apply tr_refl.
    - destruct E as (-> & -> & H4).
      constructor; unfold heldl; cbn; rewrite ?H1, ?H2, ?H4, ?Ei, ?app_nil_r; auto; try no_tls_first.
      split; auto. intros [H|H]; congruence.
  Qed.

  Lemma tr_sendTo st k b st' o x : sendTo st k b = (st', o, x) -> Tr st st' o.
  Proof.
    unfold sendTo. destruct (sendPacket st b) as [[st1 o1] x1] eqn:E1. apply tr_sendPacket in E1.
    destruct x1 as [e|]; [intros E; now injection E as <- <- <-|]. destruct k.
    - intros E; now injection E as <- <- <-.
    - intros E; injection E as <- <- <-. eapply tr_app; [exact E1|apply tr_lose].
    - destruct (startTLS st1 cert0) as [[st2 o2] x2] eqn:E2. intros E; injection E as <- <- <-.
      eapply tr_app; [exact E1|eapply tr_startTLS, E2].
    - destruct (switchTo st1 proto) as [[st2 o2] x2] eqn:E2. intros E; injection E as <- <- <-.
      eapply tr_app; [exact E1|eapply tr_switchTo, E2].
    - destruct (pv_int _).
      + intros E; injection E as <- <- <-. rewrite <- (app_nil_r o1). eapply tr_app; [exact E1|now apply tr_refl].
      + intros E; now injection E as <- <- <-.
  Qed.

  Lemma tr_puke st r st' o x : (forall st1 o1 x1, r = (st1, o1, x1) -> Tr st st1 o1) -> puke r = (st', o, x) -> Tr st st' o.
  Proof.
    intros H E. destruct r as [[st1 o1] [e|]]; cbn in E; injection E as <- <- <-; [|now eapply H].
    eapply tr_app; [now eapply H|apply tr_lose].
  Qed.

  Lemma tr_complete st ask oc st' o x : complete st ask oc = (st', o, x) -> Tr st st' o.
  Proof.
    destruct ask as [t|], oc; cbn [complete]; intros E;
      try (apply (tr_puke st) in E; [exact E|intros ? ? ?; apply tr_sendTo]);
      injection E as <- <- <-; first [now apply tr_refl|apply tr_lose].
  Qed.

  (** an effect that the transport and the peer do not see *)
  Definition request_only (o : out) : Prop :=
    match o with OFire _ _ | ORun _ _ | OAsked _ _ | ORefused | OForgot _ => True | _ => False end.

  Lemma tr_request st st' o : Forall request_only o -> held st' = held st -> cert st' = cert st ->
    inner st' = inner st -> locked st' = locked st -> Tr st st' o.
  Proof.
    intros Ho H1 H2 H3 H4.
    assert (E : tls o = [] /\ inners o = [] /\ accepted o = [] /\ written o = [] /\ dropped o = [] /\ (forall c, ~ In (OStartTLS c) o)).
    { clear -Ho. induction Ho as [|x o Hx Ho (I1 & I2 & I3 & I4 & I5 & I6)]; [repeat split; auto|].
      unfold tls, inners, accepted, written, dropped in *. cbn [flat_map]. rewrite I1, I2, I3, I4, I5.
      destruct x; try contradiction; repeat split; auto; intros c [Hc|Hc]; try discriminate; now apply (I6 c). }
    destruct E as (E1 & E2 & E3 & E4 & E5 & E6).
    constructor; unfold heldl; rewrite ?H1, ?H2, ?H3, ?E1, ?E2, ?E3, ?E4, ?E5, ?app_nil_r; auto.
    - split; auto. intros [H|H]; congruence.
    - intros pre c post E. exfalso. apply (E6 c). rewrite E. apply in_or_app. right. now left.
  Qed.

  Lemma tr_boxReceived st b st' o x : boxReceived dispatch_exn st b = (st', o, x) -> Tr st st' o.
  Proof.
    unfold boxReceived. intros E.
    repeat match type of E with
           | (if ?c then _ else _) = _ => destruct c
           | (match ?c with _ => _ end) = _ => destruct c
           end; injection E as <- <- <-; apply tr_request; repeat constructor.
  Qed.

  Lemma tr_sendBoxCommand st cmd k b req st' o x : sendBoxCommand st cmd k b req = (st', o, x) -> Tr st st' o.
  Proof.
    unfold sendBoxCommand. intros E. destruct (outst st) as [o0|].
    - destruct req.
      + destruct (sendTo _ _ _) as [[st1 o1] x1] eqn:E1 in E. injection E as <- <- <-. apply tr_sendTo in E1.
        change (OAsked (fresh st) (hex (counter st + 1)) :: o1) with ([OAsked (fresh st) (hex (counter st + 1))] ++ o1).
        eapply tr_app; [|exact E1]. apply tr_request; repeat constructor.
      + apply tr_sendTo in E. change o with ([] ++ o). eapply tr_app; [|exact E]. now apply tr_refl.
    - injection E as <- <- <-. apply tr_request; repeat constructor.
  Qed.

  (** every step but [prepareTLS] and [_lock] is such a change *)
  Lemma tr_step st e st' o x : step st e = Some (st', o, x) -> e <> EPrepare -> e <> ELock -> Tr st st' o.
  Proof.
    intros E Hp Hl. destruct e; cbn [step] in E; try congruence.
    - injection E as E. now apply tr_sendBoxCommand in E.
    - injection E as E. now apply tr_boxReceived in E.
    - destruct (dget (runs st) id); [|discriminate]. injection E as E. apply tr_complete in E.
      change o with ([] ++ o). eapply tr_app; [|exact E]. now apply tr_refl.
    - injection E as E. now apply tr_startTLS in E.
    - injection E as E. now apply tr_switchTo in E.
    - destruct (outst st); injection E as <- <- <-; now apply tr_refl.
    - destruct (losing st); [discriminate|]. injection E as <- <- <-. apply tr_request; repeat constructor.
  Qed.

  (** ** TLS over histories *)

  (** prepareTLS has been called and the transport has not been switched since *)
  Definition prep1 (p : bool) (en : entry) : bool :=
    match ev en with
    | EPrepare => true
    | _ => match tls (outs en) with [] => p | _ => false end
    end.
  Definition preparing (h : list entry) : bool := fold_left prep1 h false.

  Definition was_locked (h : list entry) : bool :=
    existsb (fun en => match ev en with ELock => true | _ => false end) h.

  Record TInv (h : list entry) (st : jp) : Prop := {
    j_cert : opt_list (cert st) = tls (outs_of h);
    j_inner : opt_list (inner st) = inners (outs_of h);
    j_cons : Permutation (accepted (outs_of h)) (written (outs_of h) ++ dropped (outs_of h) ++ heldl st);
    j_order : dropped (outs_of h) = [] -> accepted (outs_of h) = written (outs_of h) ++ heldl st;
    j_prep : preparing h = true <-> held st <> None;
    j_lock : locked st = was_locked h
  }.

  Lemma prep_snoc h en : preparing (h ++ [en]) = prep1 (preparing h) en.
  Proof. unfold preparing. now rewrite fold_left_app. Qed.

  Lemma lock_snoc h en : was_locked (h ++ [en]) = was_locked h || match ev en with ELock => true | _ => false end.
  Proof. unfold was_locked. rewrite existsb_app. cbn. now rewrite orb_false_r. Qed.

  Theorem reach_tinv h st : Reach h st -> TInv h st.
  Proof.
    induction 1 as [|h st e st' o x HR IH Hs].
    { constructor; cbn; auto. split; [discriminate|congruence]. }
    assert (Hgen : e <> EPrepare -> e <> ELock -> TInv (h ++ [En e o x]) st').
    { intros Hp Hl. apply tr_step in Hs as [T1 T2 T3 T4 T5 T6 T7 T8 T9]; auto. destruct IH.
      constructor; rewrite ?outs_of_snoc, ?tls_app, ?inners_app, ?accepted_app, ?written_app, ?dropped_app, ?prep_snoc, ?lock_snoc; cbn [ev outs].
      - congruence.
      - congruence.
      - rewrite j_cons0. rewrite <- !app_assoc. apply Permutation_app_head.
        rewrite T3. rewrite (Permutation_app_comm (dropped (outs_of h))).
        rewrite <- !app_assoc. apply Permutation_app_head.
        rewrite (Permutation_app_comm (dropped (outs_of h))). now rewrite <- !app_assoc.
      - intros Hd. apply app_eq_nil in Hd as [D1 D2]. rewrite (j_order0 D1), <- !app_assoc. f_equal. auto.
      - unfold prep1. cbn [ev outs]. destruct e; try congruence;
          (destruct (tls o) as [|c0 l] eqn:Et;
           [rewrite j_prep0, T5; split; [intros H [H'|H']; congruence|intuition]
           |split; [discriminate|]; intros H; exfalso; apply H; apply T5; right; congruence]).
      - rewrite T9, j_lock0. destruct e; try congruence; now rewrite orb_false_r. }
    destruct e; try (apply Hgen; discriminate); clear Hgen; cbn [step] in Hs.
    - assert (E : prepareTLS st = (st', o, x)) by congruence. clear Hs. unfold prepareTLS in E. injection E as <- <- <-.
      destruct IH. fold (heldl st). destruct (map_odrop (heldl st)) as (M1 & M2 & M3).
      assert (M4 : tls (map ODrop (heldl st)) = [] /\ inners (map ODrop (heldl st)) = []).
      { split; [apply tls_none|apply inners_none]; intros c Hc; apply in_map_iff in Hc as (? & ? & _); discriminate. }
      destruct M4 as [M4 M5].
      constructor; rewrite ?outs_of_snoc, ?tls_app, ?inners_app, ?accepted_app, ?written_app, ?dropped_app, ?prep_snoc, ?lock_snoc,
        ?M1, ?M2, ?M3, ?M4, ?M5, ?app_nil_r; cbn [ev outs cert inner heldl held locked]; rewrite ?app_nil_r; auto.
      + intros Hd. apply app_eq_nil in Hd as [D1 D2]. rewrite (j_order0 D1), D2. apply app_nil_r.
      + unfold prep1. cbn. split; [discriminate|auto].
      + now rewrite orb_false_r.
    - assert (E : lock st = (st', o, x)) by congruence. clear Hs. unfold lock in E. injection E as <- <- <-. destruct IH.
      constructor; rewrite ?outs_of_snoc, ?app_nil_r, ?prep_snoc, ?lock_snoc; cbn; auto.
      now rewrite orb_true_r.
  Qed.

  (** ** Loss of the connection *)

  Definition was_lost (h : list entry) : bool :=
    existsb (fun en => match ev en with ELost => true | _ => false end) h.

  Lemma lost_snoc h en : was_lost (h ++ [en]) = was_lost h || match ev en with ELost => true | _ => false end.
  Proof. unfold was_lost. rewrite existsb_app. cbn. now rewrite orb_false_r. Qed.

  Lemma quiet_outst st r st' o x : quiet st r -> r = (st', o, x) -> outst st' = outst st.
  Proof. intros H ->. apply H. Qed.

  Lemma step_outst st e st' o x : step st e = Some (st', o, x) -> e <> ELost -> (outst st' = None <-> outst st = None).
  Proof.
    intros E He. destruct e; cbn [step] in E; try congruence.
    - injection E as E. unfold sendBoxCommand in E. destruct (outst st) as [o0|] eqn:Eo.
      + destruct req.
        * destruct (sendTo _ _ _) as [[st1 o1] x1] eqn:E1 in E. injection E as <- <- <-.
          eapply quiet_outst in E1; [|apply quiet_sendTo]. rewrite E1. cbn. split; discriminate.
        * eapply quiet_outst in E; [|apply quiet_sendTo]. rewrite E. cbn. split; discriminate.
      + injection E as <- <- <-. now rewrite Eo.
    - injection E as E. unfold boxReceived in E.
      destruct (locked st && din b COMMAND && din b ASK); [now injection E as <- <- <-|].
      destruct (dget b ANSWER).
      { destruct (outst st) eqn:Eo; [destruct (dget d s)|]; injection E as <- <- <-; rewrite ?Eo; cbn; split; auto; discriminate. }
      destruct (dget b ERROR).
      { destruct (outst st) eqn:Eo; [destruct (dget d s); [destruct (dget b ERROR_CODE); [destruct (dget b ERROR_DESCRIPTION)|]|]|];
          injection E as <- <- <-; rewrite ?Eo; cbn; split; auto; discriminate. }
      destruct (dget b COMMAND); [destruct (dispatch_exn s)|]; now injection E as <- <- <-.
    - destruct (dget (runs st) id); [|discriminate]. injection E as E.
      eapply quiet_outst in E; [|apply quiet_complete]. now rewrite E.
    - assert (E' : prepareTLS st = (st', o, x)) by congruence. eapply quiet_outst in E'; [|apply quiet_prepareTLS]. now rewrite E'.
    - injection E as E. eapply quiet_outst in E; [|apply quiet_startTLS]. now rewrite E.
    - assert (E' : lock st = (st', o, x)) by congruence. now injection E' as <- <- <-.
    - injection E as E. eapply quiet_outst in E; [|apply quiet_switchTo]. now rewrite E.
    - destruct (losing st); [discriminate|]. now injection E as <- <- <-.
  Qed.

  Lemma reach_lost h st : Reach h st -> (outst st = None <-> was_lost h = true).
  Proof.
    induction 1 as [|h st e st' o x HR IH Hs]; [cbn; split; discriminate|].
    rewrite lost_snoc. cbn [ev].
    assert (Hd : e = ELost \/ e <> ELost) by (destruct e; (now left) || (right; discriminate)).
    destruct Hd as [->|Hn].
    - cbn [step] in Hs. rewrite orb_true_r. split; auto. intros _.
      destruct (outst st) eqn:Eo; injection Hs as <- <- <-; auto.
    - rewrite (step_outst _ _ _ _ _ Hs Hn), IH. destruct e; try congruence; now rewrite orb_false_r.
  Qed.

  (** ** C46 *)

  (** a request that was made and whose Deferred may still fire *)
  Definition open (h : list entry) (r : nat) (t : str) : Prop :=
    In (r, t) (asked (outs_of h)) /\ ~ In r (fired (outs_of h)) /\ ~ In r (forgot (outs_of h)).

  Lemma outst_open h st o t r : Reach h st -> outst st = Some o -> dget o t = Some r -> open h r t.
  Proof.
    intros HR Ho Hg. pose proof (reach_inv _ _ HR) as HI. pose proof (parts_nodup _ _ HR) as Hn.
    pose proof (i_tag _ _ HI) as Ht. rewrite Ho in Ht. unfold waiting in Hn. rewrite Ho in Hn.
    assert (Hin : In r (values o)).
    { apply dget_In in Hg. unfold values. apply in_map_iff. exists (t, r). auto. }
    split; [now apply Ht|].
    rewrite <- !app_assoc in Hn.
    assert (Hx : ~ In r (losing st ++ fired (outs_of h) ++ forgot (outs_of h))).
    { intros Hx. clear -Hin Hx Hn. induction (values o) as [|v l IH]; [destruct Hin|].
      inversion Hn; subst. destruct Hin as [->|Hin]; [|auto]. apply H1. apply in_or_app. now right. }
    rewrite !in_app_iff in Hx. tauto.
  Qed.

  Lemma In_asked_tag h st r r' t : Reach h st -> In (r, t) (asked (outs_of h)) -> In (r', t) (asked (outs_of h)) -> r = r'.
  Proof.
    intros HR. pose proof (tags_distinct _ _ HR) as Hn. revert Hn. generalize (asked (outs_of h)). intros l.
    induction l as [|[r0 t0] l IH]; [intros _ []|]. cbn [map snd]. intros Hn H1 H2. inversion Hn as [|? ? Hni Hnl]; subst.
    destruct H1 as [H1|H1], H2 as [H2|H2].
    - congruence.
    - injection H1 as -> ->. exfalso. apply Hni. apply in_map_iff. exists (r', t). auto.
    - injection H2 as -> ->. exfalso. apply Hni. apply in_map_iff. exists (r, t). auto.
    - auto.
  Qed.

  (** no entry: every request with this tag is settled *)
  Lemma no_outst h st t : Reach h st -> (forall o, outst st = Some o -> dget o t = None) ->
    forall r, open h r t -> was_lost h = true.
  Proof.
    intros HR Hno r (Ha & Hf & Hg). destruct (outst st) as [o|] eqn:Eo; [|now apply (reach_lost _ _ HR)].
    exfalso. pose proof (reach_inv _ _ HR) as HI. destruct HI. unfold waiting in *. rewrite Eo in *. rewrite i_losing0, app_nil_r in i_perm0.
    assert (Hin : In r (values o ++ fired (outs_of h) ++ forgot (outs_of h))).
    { apply (Permutation_in _ i_perm0). apply in_map_iff. exists (r, t). auto. }
    rewrite !in_app_iff in Hin. destruct Hin as [Hin|[?|?]]; [|tauto|tauto].
    unfold values in Hin. apply in_map_iff in Hin as ([t' r'] & <- & Hin). cbn [snd] in *.
    assert (Hg' : dget o t' = Some r') by (apply In_dget; auto).
    pose proof (i_tag0 _ _ Hg') as Ha'.
    assert (t' = t).
    { clear -Ha Ha' i_fresh0. pose proof (seq_NoDup (fresh st) 0) as Hn. rewrite <- i_fresh0 in Hn.
      revert Hn Ha Ha'. generalize (asked (outs_of h)). intros l. induction l as [|[r0 t0] l IH]; [intros _ []|].
      cbn [map fst]. intros Hn H1 H2. inversion Hn as [|? ? Hni Hnl]; subst.
      destruct H1 as [H1|H1], H2 as [H2|H2]; auto.
      - congruence.
      - injection H1 as -> ->. exfalso. apply Hni. apply in_map_iff. exists (r', t'). auto.
      - injection H2 as -> ->. exfalso. apply Hni. apply in_map_iff. exists (r', t). auto. }
    subst t'. rewrite (Hno o eq_refl) in Hg'. discriminate.
  Qed.

  Theorem answer_fires h st b t st' o x : Reach h st -> step st (ERecv b) = Some (st', o, x) ->
    was_locked h && din b COMMAND && din b ASK = false -> dget b ANSWER = Some t ->
    (exists r, open h r t /\ o = [OFire r (Answered b)] /\ x = None) \/
    (o = [] /\ x <> None /\ st' = st /\ forall r, open h r t -> was_lost h = true).
  Proof.
    intros HR Hs Hl Ha. cbn [step] in Hs. injection Hs as Hs. unfold boxReceived in Hs.
    rewrite (j_lock _ _ (reach_tinv _ _ HR)), Hl, Ha in Hs. destruct (outst st) as [o0|] eqn:Eo.
    - destruct (dget o0 t) as [r|] eqn:Eg; injection Hs as <- <- <-.
      + left. exists r. split; [eapply outst_open; eauto|auto].
      + right. repeat split; auto; [discriminate|]. eapply no_outst; eauto. intros o1 E1. congruence.
    - injection Hs as <- <- <-. right. repeat split; auto; [discriminate|]. intros _ _. now apply (reach_lost _ _ HR).
  Qed.

  Theorem error_fires h st b t st' o x : Reach h st -> step st (ERecv b) = Some (st', o, x) ->
    was_locked h && din b COMMAND && din b ASK = false -> dget b ANSWER = None -> dget b ERROR = Some t ->
    (exists r, open h r t /\
       match dget b ERROR_CODE, dget b ERROR_DESCRIPTION with
       | Some c, Some d => o = [OFire r (Failed c d)] /\ x = None
       | _, _ => o = [OForgot r] /\ x = Some KeyError
       end) \/
    (o = [] /\ x <> None /\ st' = st /\ forall r, open h r t -> was_lost h = true).
  Proof.
    intros HR Hs Hl Ha He. cbn [step] in Hs. injection Hs as Hs. unfold boxReceived in Hs.
    rewrite (j_lock _ _ (reach_tinv _ _ HR)), Hl, Ha, He in Hs. destruct (outst st) as [o0|] eqn:Eo.
    - destruct (dget o0 t) as [r|] eqn:Eg.
      + left. exists r. split; [eapply outst_open; eauto|].
        destruct (dget b ERROR_CODE); [destruct (dget b ERROR_DESCRIPTION)|]; injection Hs as <- <- <-; auto.
      + injection Hs as <- <- <-. right. repeat split; auto; [discriminate|]. eapply no_outst; eauto. intros o1 E1. congruence.
    - injection Hs as <- <- <-. right. repeat split; auto; [discriminate|]. intros _ _. now apply (reach_lost _ _ HR).
  Qed.

  Lemma quiet_no_fire st r st' o x n f : quiet st r -> r = (st', o, x) -> ~ In (OFire n f) o.
  Proof.
    intros H -> Hin. destruct H as (_ & _ & _ & _ & _ & _ & H). rewrite Forall_forall in H. apply (H _ Hin).
  Qed.

  (** a Deferred fires only because of a box with its tag, or because the connection was lost *)
  Theorem fires_why h st e st' o x r f : Reach h st -> step st e = Some (st', o, x) -> In (OFire r f) o ->
    o = [OFire r f] /\
    match f with
    | Answered b => exists t, e = ERecv b /\ dget b ANSWER = Some t /\ open h r t
    | Failed c d => exists b t, e = ERecv b /\ dget b ANSWER = None /\ dget b ERROR = Some t /\
                     dget b ERROR_CODE = Some c /\ dget b ERROR_DESCRIPTION = Some d /\ open h r t
    | Lost => e = EFailNext /\ was_lost h = true /\ exists t, open h r t
    end.
  Proof.
    intros HR Hs Hin. destruct e; cbn [step] in Hs.
    - exfalso. injection Hs as E. unfold sendBoxCommand in E. destruct (outst st) as [o0|] eqn:Eo.
      + destruct req.
        * destruct (sendTo _ _ _) as [[st1 o1] x1] eqn:E1 in E. injection E as <- <- <-.
          destruct Hin as [Hin|Hin]; [discriminate|]. revert Hin. eapply quiet_no_fire; [apply quiet_sendTo|exact E1].
        * revert Hin. eapply quiet_no_fire; [apply quiet_sendTo|exact E].
      + injection E as <- <- <-. destruct Hin as [Hin|[]]. discriminate.
    - injection Hs as E. unfold boxReceived in E.
      destruct (locked st && din b COMMAND && din b ASK); [injection E as <- <- <-; destruct Hin|].
      destruct (dget b ANSWER) as [t|] eqn:Ea.
      { destruct (outst st) as [o0|] eqn:Eo; [destruct (dget o0 t) eqn:Eg|]; injection E as <- <- <-; try (destruct Hin; fail).
        destruct Hin as [Hin|[]]. injection Hin as <- <-. split; auto. exists t. repeat split; auto; eapply outst_open; eauto. }
      destruct (dget b ERROR) as [t|] eqn:Ee.
      { destruct (outst st) as [o0|] eqn:Eo; [destruct (dget o0 t) eqn:Eg; [destruct (dget b ERROR_CODE) eqn:Ec; [destruct (dget b ERROR_DESCRIPTION) eqn:Ed|]|]|];
          injection E as <- <- <-; try (destruct Hin; fail); destruct Hin as [Hin|[]]; try discriminate.
        injection Hin as <- <-. split; auto. exists b, t. repeat split; auto; eapply outst_open; eauto. }
      destruct (dget b COMMAND) as [c|]; [destruct (dispatch_exn c)|]; injection E as <- <- <-; try (destruct Hin; fail); destruct Hin as [Hin|[]]; discriminate.
    - exfalso. destruct (dget (runs st) id); [|discriminate]. injection Hs as E. revert Hin. eapply quiet_no_fire; [apply quiet_complete|exact E].
    - exfalso. assert (E : prepareTLS st = (st', o, x)) by congruence. revert Hin. eapply quiet_no_fire; [apply quiet_prepareTLS|exact E].
    - exfalso. injection Hs as E. revert Hin. eapply quiet_no_fire; [apply quiet_startTLS|exact E].
    - exfalso. assert (E : lock st = (st', o, x)) by congruence. unfold lock in E. injection E as <- <- <-. destruct Hin.
    - exfalso. injection Hs as E. revert Hin. eapply quiet_no_fire; [apply quiet_switchTo|exact E].
    - exfalso. destruct (outst st); injection Hs as <- <- <-; destruct Hin.
    - destruct (losing st) as [|r0 l] eqn:El; [discriminate|]. injection Hs as <- <- <-.
      destruct Hin as [Hin|[]]. injection Hin as <- <-. split; auto. split; auto.
      pose proof (reach_inv _ _ HR) as HI. pose proof (parts_nodup _ _ HR) as Hn. destruct HI. unfold waiting in *. rewrite El in *.
      destruct (outst st) as [o0|] eqn:Eo; [discriminate|]. split; [now apply (reach_lost _ _ HR)|].
      cbn [app] in *.
      assert (Ha : In r0 (map fst (asked (outs_of h)))).
      { apply (Permutation_in _ (Permutation_sym i_perm0)). now left. }
      apply in_map_iff in Ha as ([r1 t] & <- & Ha). exists t. cbn [fst] in *. split; [exact Ha|].
      inversion Hn as [|? ? Hni _]; subst. rewrite !in_app_iff in Hni. tauto.
  Qed.

  Theorem fired_once h st : Reach h st -> NoDup (fired (outs_of h)).
  Proof.
    intros HR. pose proof (parts_nodup _ _ HR) as Hn. apply nodup_r in Hn. now apply nodup_l in Hn.
  Qed.

  (** ** C47 *)

  (** the loop of [failAllOutgoing] can always be run to its end *)
  Theorem loss_completes h st : Reach h st -> exists h' st', Reach (h ++ h') st' /\
    Forall (fun en => ev en = EFailNext) h' /\ step st' EFailNext = None.
  Proof.
    remember (losing st) as l eqn:El. revert h st El. induction l as [|r l IH]; intros h st El HR.
    - exists [], st. rewrite app_nil_r. repeat split; auto. cbn. now rewrite <- El.
    - destruct (step st EFailNext) as [[[st1 o1] x1]|] eqn:Es; [|cbn in Es; rewrite <- El in Es; discriminate].
      destruct (IH (h ++ [En EFailNext o1 x1]) st1) as (h' & st' & H1 & H2 & H3).
      + cbn in Es. rewrite <- El in Es. now injection Es as <- <- <-.
      + econstructor; eauto.
      + exists (En EFailNext o1 x1 :: h'), st'. rewrite <- app_assoc in H1. repeat split; auto.
  Qed.

  Theorem loss_settles h st : Reach h st -> was_lost h = true -> step st EFailNext = None ->
    Permutation (map fst (asked (outs_of h))) (fired (outs_of h) ++ forgot (outs_of h)).
  Proof.
    intros HR Hl Hd. apply (reach_lost _ _ HR) in Hl. pose proof (i_perm _ _ (reach_inv _ _ HR)) as Hp.
    unfold waiting in Hp. rewrite Hl in Hp. cbn [step] in Hd. destruct (losing st); [exact Hp|discriminate].
  Qed.

  Theorem loss_refuses h st cmd k b req : Reach h st -> was_lost h = true ->
    step st (ESend cmd k b req) = Some (st, [ORefused], None).
  Proof.
    intros HR Hl. apply (reach_lost _ _ HR) in Hl. cbn [step]. unfold sendBoxCommand. now rewrite Hl.
  Qed.

  (** ** C48 *)

  Definition completed (h : list entry) : list nat :=
    flat_map (fun en => match ev en with EComplete i _ => [i] | _ => [] end) h.

  Lemma completed_snoc h e o x : completed (h ++ [En e o x]) = completed h ++ match e with EComplete i _ => [i] | _ => [] end.
  Proof. unfold completed. rewrite flat_map_app. cbn. now rewrite app_nil_r. Qed.

  Record CInv (h : list entry) (st : jp) : Prop := {
    c_ids : map fst (started (outs_of h)) = seq 0 (nextrun st);
    c_perm : Permutation (seq 0 (nextrun st)) (keys (runs st) ++ completed h);
    c_ask : forall i a, In (i, a) (runs st) -> exists b, In (i, b) (started (outs_of h)) /\ a = dget b ASK
  }.

  Lemma quiet_runs st r st' o x : quiet st r -> r = (st', o, x) ->
    runs st' = runs st /\ nextrun st' = nextrun st /\ started o = [].
  Proof. intros H ->. destruct H as (_ & _ & _ & _ & H1 & H2 & H3). repeat split; auto. now apply only_asked. Qed.

  Lemma cinv_same h st e st' o x : CInv h st -> runs st' = runs st -> nextrun st' = nextrun st -> started o = [] ->
    (forall i oc, e <> EComplete i oc) -> CInv (h ++ [En e o x]) st'.
  Proof.
    intros [] H1 H2 H3 H4.
    assert (E : completed (h ++ [En e o x]) = completed h).
    { rewrite completed_snoc. destruct e; rewrite ?app_nil_r; auto. exfalso. eapply H4. reflexivity. }
    constructor; rewrite ?outs_of_snoc, ?started_app, ?H3, ?E, ?app_nil_r, ?H1, ?H2; auto.
  Qed.

  Lemma keys_ddel_perm {V} (d : dict nat V) i v : dget d i = Some v -> Permutation (keys d) (i :: keys (ddel d i)).
  Proof.
    induction d as [|[k w] d IH]; cbn [dget ddel]; [discriminate|].
    destruct (eqb_spec i k) as [->|Hn]; intros E; [reflexivity|].
    cbn [keys map fst]. rewrite (IH E). apply perm_swap.
  Qed.

  Lemma In_ddel {K V} `{EqB K} (d : dict K V) k kv : In kv (ddel d k) -> In kv d.
  Proof.
    induction d as [|[k1 v1] d IH]; cbn [ddel]; auto. destruct (eqb k k1); [now right|].
    intros [<-|Hi]; [now left|right; auto].
  Qed.

  Theorem reach_cinv h st : Reach h st -> CInv h st.
  Proof.
    induction 1 as [|h st e st' o x HR IH Hs]; [constructor; cbn; auto; intros ? ? []|].
    destruct e; cbn [step] in Hs.
    - injection Hs as E. unfold sendBoxCommand in E. destruct (outst st) as [o0|] eqn:Eo.
      + destruct req.
        * destruct (sendTo _ _ _) as [[st1 o1] x1] eqn:E1 in E. injection E as <- <- <-.
          eapply quiet_runs in E1 as (R1 & R2 & R3); [|apply quiet_sendTo]. eapply cinv_same; eauto. discriminate.
        * eapply quiet_runs in E as (R1 & R2 & R3); [|apply quiet_sendTo]. eapply cinv_same; eauto. discriminate.
      + injection E as <- <- <-. eapply cinv_same; eauto. discriminate.
    - injection Hs as E. unfold boxReceived in E.
      destruct (locked st && din b COMMAND && din b ASK); [injection E as <- <- <-; eapply cinv_same; eauto; discriminate|].
      destruct (dget b ANSWER) as [t|].
      { destruct (outst st) as [o0|]; [destruct (dget o0 t)|]; injection E as <- <- <-; eapply cinv_same; eauto; discriminate. }
      destruct (dget b ERROR) as [t|].
      { destruct (outst st) as [o0|]; [destruct (dget o0 t); [destruct (dget b ERROR_CODE); [destruct (dget b ERROR_DESCRIPTION)|]|]|];
          injection E as <- <- <-; eapply cinv_same; eauto; discriminate. }
      destruct (dget b COMMAND) as [c|]; [destruct (dispatch_exn c)|]; injection E as <- <- <-;
        try (eapply cinv_same; eauto; discriminate).
      destruct IH. constructor; rewrite ?outs_of_snoc, ?completed_snoc, ?started_app, ?app_nil_r; unfold set_runs; cbn [runs nextrun].
      + rewrite map_app, c_ids0, seq_S. reflexivity.
      + rewrite seq_S, c_perm0. unfold keys. rewrite map_app. cbn [map fst Nat.add app]. rewrite <- !app_assoc.
        apply Permutation_app_head. apply Permutation_sym, Permutation_cons_append.
      + intros i a Hi. apply in_app_or in Hi as [Hi|[Hi|[]]].
        * destruct (c_ask0 _ _ Hi) as (b0 & H1 & H2). exists b0. split; auto. apply in_or_app. now left.
        * injection Hi as <- <-. exists b. split; auto. apply in_or_app. right. now left.
    - destruct (dget (runs st) id) as [a|] eqn:Er; [|discriminate]. injection Hs as E.
      eapply quiet_runs in E as (R1 & R2 & R3); [|apply quiet_complete]. cbn [set_runs runs nextrun] in R1, R2.
      destruct IH. constructor; rewrite ?outs_of_snoc, ?completed_snoc, ?started_app, ?R1, ?R2, ?R3, ?app_nil_r; auto.
      + rewrite c_perm0, (keys_ddel_perm _ _ _ Er). cbn [app]. rewrite app_assoc. apply Permutation_cons_append.
      + intros i a0 Hi. apply In_ddel in Hi. auto.
    - assert (E : prepareTLS st = (st', o, x)) by congruence. eapply quiet_runs in E as (R1 & R2 & R3); [|apply quiet_prepareTLS].
      eapply cinv_same; eauto. discriminate.
    - injection Hs as E. eapply quiet_runs in E as (R1 & R2 & R3); [|apply quiet_startTLS]. eapply cinv_same; eauto. discriminate.
    - assert (E : lock st = (st', o, x)) by congruence. injection E as <- <- <-. eapply cinv_same; eauto. discriminate.
    - injection Hs as E. eapply quiet_runs in E as (R1 & R2 & R3); [|apply quiet_switchTo]. eapply cinv_same; eauto. discriminate.
    - destruct (outst st); injection Hs as <- <- <-; eapply cinv_same; eauto; discriminate.
    - destruct (losing st); [discriminate|]. injection Hs as <- <- <-. eapply cinv_same; eauto. discriminate.
  Qed.

  (** a command is run only because its box arrived *)
  Lemma step_run st e st' o x i b : step st e = Some (st', o, x) -> In (ORun i b) o -> e = ERecv b /\ o = [ORun i b].
  Proof.
    intros Hs Hin.
    assert (Hq : forall s r, quiet s r -> r = (st', o, x) -> False).
    { intros s r Hq ->. destruct Hq as (_ & _ & _ & _ & _ & _ & Hq). rewrite Forall_forall in Hq. apply (Hq _ Hin). }
    destruct e; cbn [step] in Hs.
    - exfalso. injection Hs as E. unfold sendBoxCommand in E. destruct (outst st) as [o0|].
      + destruct req.
        * destruct (sendTo _ _ _) as [[st1 o1] x1] eqn:E1 in E. injection E as <- <- <-. destruct Hin as [Hin|Hin]; [discriminate|].
          match type of E1 with sendTo ?s ?k ?b = _ => pose proof (quiet_sendTo s k b) as Q end. rewrite E1 in Q.
          destruct Q as (_ & _ & _ & _ & _ & _ & Q). rewrite Forall_forall in Q. apply (Q _ Hin).
        * eapply Hq; [apply quiet_sendTo|exact E].
      + injection E as <- <- <-. destruct Hin as [Hin|[]]. discriminate.
    - injection Hs as E. unfold boxReceived in E.
      repeat match type of E with
             | (if ?c then _ else _) = _ => destruct c
             | (match ?c with _ => _ end) = _ => destruct c
             end; injection E as <- <- <-; try (destruct Hin; fail); destruct Hin as [Hin|[]]; try discriminate.
      injection Hin as <- <-. auto.
    - exfalso. destruct (dget (runs st) id); [|discriminate]. injection Hs as E. eapply Hq; [apply quiet_complete|exact E].
    - exfalso. assert (E : prepareTLS st = (st', o, x)) by congruence. eapply Hq; [apply quiet_prepareTLS|exact E].
    - exfalso. injection Hs as E. eapply Hq; [apply quiet_startTLS|exact E].
    - exfalso. assert (E : lock st = (st', o, x)) by congruence. unfold lock in E. injection E as <- <- <-. destruct Hin.
    - exfalso. injection Hs as E. eapply Hq; [apply quiet_switchTo|exact E].
    - exfalso. destruct (outst st); injection Hs as <- <- <-; destruct Hin.
    - exfalso. destruct (losing st); [discriminate|]. injection Hs as <- <- <-. destruct Hin as [Hin|[]]. discriminate.
  Qed.

  (** a packet can be taken: not locked, and either held back or serializable *)
  Definition can_send (h : list entry) (b : box) : Prop :=
    was_locked h = false /\ (preparing h = true \/ exists w, serialize b = Ok w).

  Lemma sendTo_acc h st k b st' o x : locked st = was_locked h -> (preparing h = true <-> held st <> None) ->
    sendTo st k b = (st', o, x) ->
    (can_send h b /\ accepted o = [b]) \/ (~ can_send h b /\ o = [] /\ x <> None).
  Proof.
    intros Hl Hp E. unfold sendTo in E. destruct (sendPacket st b) as [[st1 o1] x1] eqn:E1.
    apply sendPacket_cases in E1 as [(L & -> & -> & ->)|[(L & q & Hq & Hq' & Hl' & Hc & Hi & -> & ->)|(L & Hh & -> & H)]].
    - injection E as <- <- <-. right. split; [|split; [auto|discriminate]]. intros [H _]. congruence.
    - left. split; [split; [congruence|left; apply Hp; congruence]|].
      destruct k; try (injection E as <- <- <-; reflexivity).
      + destruct (startTLS st1 cert0) as [[st2 o2] x2] eqn:E2. injection E as <- <- <-.
        apply startTLS_cases in E2. destruct (cert st1); [destruct E2 as (_ & -> & _); reflexivity|].
        destruct E2 as (o' & -> & H1 & _). unfold accepted in *. cbn [flat_map app]. now rewrite H1.
      + destruct (switchTo st1 proto) as [[st2 o2] x2] eqn:E2. injection E as <- <- <-.
        apply switchTo_cases in E2 as (_ & _ & _ & E2). destruct (inner st1); [destruct E2 as (_ & -> & _)|destruct E2 as (-> & _)]; reflexivity.
      + destruct (pv_int _); injection E as <- <- <-; reflexivity.
    - destruct (serialize b) as [w|e] eqn:Es; destruct H as [-> ->].
      + left. split; [split; [congruence|right; eauto]|].
        destruct k; try (injection E as <- <- <-; reflexivity).
        * destruct (startTLS st cert0) as [[st2 o2] x2] eqn:E2. injection E as <- <- <-.
          apply startTLS_cases in E2. destruct (cert st); [destruct E2 as (_ & -> & _); reflexivity|].
          destruct E2 as (o' & -> & H1 & _). unfold accepted in *. cbn [flat_map app]. now rewrite H1.
        * destruct (switchTo st proto) as [[st2 o2] x2] eqn:E2. injection E as <- <- <-.
          apply switchTo_cases in E2 as (_ & _ & _ & E2). destruct (inner st); [destruct E2 as (_ & -> & _)|destruct E2 as (-> & _)]; reflexivity.
        * destruct (pv_int _); injection E as <- <- <-; reflexivity.
      + injection E as <- <- <-. right. split; [|split; [auto|discriminate]].
        intros [_ [H|[w H]]]; [|congruence]. apply Hp in H. congruence.
  Qed.

  (** what has to be sent back for an outcome *)
  Definition reply (t : str) (oc : outcome) : option box :=
    match oc with
    | RAnswer _ b => Some (dset b (lit "_answer") (PS t))
    | RNotBox => None
    | RRemote c d _ => Some [(lit "_error", PS t); (lit "_error_description", d); (lit "_error_code", c)]
    | RCrash => Some [(lit "_error", PS t); (lit "_error_description", PS (lit "Unhandled Remote System Exception "));
                      (lit "_error_code", PS (lit "UNHANDLED"))]
    end.

  Theorem reply_once h st id oc st' o x : Reach h st -> step st (EComplete id oc) = Some (st', o, x) ->
    x = None /\ ~ In id (completed h) /\
    exists b, In (id, b) (started (outs_of h)) /\
    match dget b ASK with
    | None => accepted o = [] /\ written o = []
    | Some t => match reply t oc with
                | Some rb => (can_send h rb /\ accepted o = [rb]) \/ (~ can_send h rb /\ o = [OLose])
                | None => o = [OLose]
                end
    end.
  Proof.
    intros HR Hs. cbn [step] in Hs. destruct (dget (runs st) id) as [a|] eqn:Er; [|discriminate]. injection Hs as E.
    pose proof (reach_cinv _ _ HR) as [C1 C2 C3]. pose proof (reach_tinv _ _ HR) as [_ _ _ _ Hp Hl].
    set (st1 := set_runs st (ddel (runs st) id) (nextrun st)) in E.
    assert (Hpk : forall k rb, puke (sendTo st1 k rb) = (st', o, x) ->
              x = None /\ ((can_send h rb /\ accepted o = [rb]) \/ (~ can_send h rb /\ o = [OLose]))).
    { intros k rb Ep. destruct (sendTo st1 k rb) as [[st2 o2] x2] eqn:E2.
      destruct (sendTo_acc h st1 k rb st2 o2 x2 Hl Hp E2) as [[H1 H2]|(H1 & -> & H2)].
      - destruct x2; cbn in Ep; injection Ep as <- <- <-; split; auto. left. split; auto. rewrite accepted_app, H2. reflexivity.
      - destruct x2; [|congruence]. cbn in Ep. injection Ep as <- <- <-. auto. }
    assert (Hx : x = None).
    { destruct a as [t|], oc; cbn [complete] in E; try (apply Hpk in E; tauto); now injection E as <- <- <-. }
    split; [exact Hx|]. split.
    { intros Hc. pose proof (seq_NoDup (nextrun st) 0) as Hn. apply (Permutation_NoDup C2) in Hn.
      assert (Hk : In id (keys (runs st))) by (apply din_keys; unfold din; now rewrite Er).
      clear -Hn Hk Hc. induction (keys (runs st)) as [|k l IH]; [destruct Hk|]. cbn in Hn. inversion Hn; subst.
      destruct Hk as [->|Hk]; [|auto]. apply H1. apply in_or_app. now right. }
    destruct (C3 id a) as (b & Hb & ->). { now apply dget_In. }
    exists b. split; [exact Hb|]. destruct (dget b ASK) as [t|], oc; cbn [complete reply] in *.
    1-4: try (apply Hpk in E; tauto); now injection E as <- <- <-.
    1-4: injection E as <- <- <-; split; reflexivity.
  Qed.

  (** every command that was started is running or has completed, and completes at most once *)
  Theorem runs_settle h st : Reach h st ->
    NoDup (map fst (started (outs_of h))) /\ NoDup (completed h) /\
    (forall i, In i (completed h) -> In i (map fst (started (outs_of h)))) /\
    (forall i oc, In i (map fst (started (outs_of h))) -> ~ In i (completed h) -> step st (EComplete i oc) <> None).
  Proof.
    intros HR. destruct (reach_cinv _ _ HR) as [C1 C2 C3]. pose proof (seq_NoDup (nextrun st) 0) as Hn.
    split; [now rewrite C1|]. split; [apply (Permutation_NoDup C2) in Hn; now apply nodup_r in Hn|].
    rewrite C1. split.
    - intros i Hi. apply (Permutation_in _ (Permutation_sym C2)). apply in_or_app. now right.
    - intros i oc Hi Hc. apply (Permutation_in _ C2) in Hi. apply in_app_or in Hi as [Hi|Hi]; [|tauto].
      apply din_keys in Hi. unfold din in Hi. cbn [step]. destruct (dget (runs st) i); [discriminate|discriminate].
  Qed.

  (** ** C45 *)

  Theorem send_tags h st cmd k b st' o x : Reach h st -> was_lost h = false ->
    step st (ESend cmd k b true) = Some (st', o, x) ->
    exists r t o', o = OAsked r t :: o' /\ ~ In t (map snd (asked (outs_of h))) /\ asked o' = [] /\
    let b' := dset (dset b COMMAND (PS cmd)) ASK (PS t) in
    (can_send h b' /\ accepted o' = [b']) \/ (~ can_send h b' /\ o' = [] /\ x <> None).
  Proof.
    intros HR Hl Hs. pose proof (tags_distinct _ _ (R_step _ _ _ _ _ _ HR Hs)) as Hn.
    pose proof (reach_tinv _ _ HR) as [_ _ _ _ Hp Hlk].
    cbn [step] in Hs. injection Hs as E. unfold sendBoxCommand in E. destruct (outst st) as [o0|] eqn:Eo.
    2:{ apply (reach_lost _ _ HR) in Eo. congruence. }
    set (st1 := JP _ _ _ _ _ _ _ _ _ _ _) in E. set (t := hex (counter st + 1)) in *.
    destruct (sendTo st1 _ _) as [[st2 o2] x2] eqn:E1 in E. injection E as <- <- <-.
    exists (fresh st), t, o2. split; [reflexivity|].
    assert (Ha : asked o2 = []).
    { pose proof (quiet_sendTo st1 k (dset (dset b COMMAND (PS cmd)) ASK (PS t))) as Q. rewrite E1 in Q. destruct Q as (_ & _ & _ & _ & _ & _ & Q). now apply only_asked. }
    split.
    - rewrite outs_of_snoc, asked_app in Hn.
      change (OAsked (fresh st) t :: o2) with ([OAsked (fresh st) t] ++ o2) in Hn.
      rewrite asked_app, Ha, app_nil_r, map_app in Hn. cbn [asked flat_map app map snd] in Hn.
      intros Hin. apply (NoDup_remove_2 (map snd (asked (outs_of h))) [] t Hn). now rewrite app_nil_r.
    - split; [exact Ha|]. cbv zeta. eapply sendTo_acc; [| |exact E1]; [exact Hlk|exact Hp].
  Qed.

  (** ** C53, the locked connection *)

  Theorem locked_quiet h st e st' o x : Reach h st -> was_locked h = true -> step st e = Some (st', o, x) ->
    accepted o = [] /\ written o = [] /\ (forall i b, In (ORun i b) o -> dget b ASK = None).
  Proof.
    intros HR Hl Hs. pose proof (j_lock _ _ (reach_tinv _ _ HR)) as Hk. rewrite Hl in Hk.
    assert (Hw : accepted o = [] /\ written o = []).
    { assert (Hd : e = EPrepare \/ e = ELock \/ (e <> EPrepare /\ e <> ELock)) by (destruct e; auto; right; right; split; discriminate).
      destruct Hd as [->|[->|[H1 H2]]].
      - cbn [step] in Hs. assert (E : prepareTLS st = (st', o, x)) by congruence. unfold prepareTLS in E. injection E as <- <- <-.
        destruct (map_odrop (match held st with Some q => q | None => [] end)) as (M1 & M2 & _). auto.
      - cbn [step] in Hs. assert (E : lock st = (st', o, x)) by congruence. unfold lock in E. injection E as <- <- <-. auto.
      - apply tr_step in Hs; auto. now apply (t_lock _ _ _ Hs). }
    destruct Hw as [Hw1 Hw2]. split; [auto|]. split; [auto|].
    intros i b Hin.
    assert (He : e = ERecv b).
    { destruct (step_run _ _ _ _ _ _ _ Hs Hin) as [He _]. exact He. }
    subst e. cbn [step] in Hs. injection Hs as E. unfold boxReceived in E. rewrite Hk in E. cbn [andb] in E.
    destruct (dget b ASK) as [a|] eqn:Ea; [exfalso|reflexivity].
    assert (Hask : din b ASK = true) by (unfold din; now rewrite Ea). rewrite Hask, andb_true_r in E.
    destruct (din b COMMAND) eqn:Ec; [injection E as <- <- <-; destruct Hin|].
    unfold din in Ec. destruct (dget b COMMAND); [discriminate|].
    destruct (dget b ANSWER) as [t|].
    { destruct (outst st) as [o0|]; [destruct (dget o0 t)|]; injection E as <- <- <-; try (destruct Hin; fail); destruct Hin as [Hin|[]]; discriminate. }
    destruct (dget b ERROR) as [t|].
    { destruct (outst st) as [o0|]; [destruct (dget o0 t); [destruct (dget b ERROR_CODE); [destruct (dget b ERROR_DESCRIPTION)|]|]|];
        injection E as <- <- <-; try (destruct Hin; fail); destruct Hin as [Hin|[]]; discriminate. }
    injection E as <- <- <-. destruct Hin.
  Qed.

  Theorem switch_once h st : Reach h st -> length (inners (outs_of h)) <= 1.
  Proof. intros HR. rewrite <- (j_inner _ _ (reach_tinv _ _ HR)). destruct (inner st); cbn; lia. Qed.

  (** ** C52 *)

  Theorem tls_once h st : Reach h st -> length (tls (outs_of h)) <= 1.
  Proof. intros HR. rewrite <- (j_cert _ _ (reach_tinv _ _ HR)). destruct (cert st); cbn; lia. Qed.

  Theorem tls_twice h st c c' : Reach h st -> In (OStartTLS c) (outs_of h) ->
    step st (EStartTLS c') = Some (st, [], Some RuntimeError).
  Proof.
    intros HR Hin. apply in_tls in Hin. rewrite <- (j_cert _ _ (reach_tinv _ _ HR)) in Hin.
    cbn [step]. unfold startTLS. destruct (cert st); [reflexivity|]. now destruct Hin.
  Qed.

  Theorem tls_holds h st e st' o x : Reach h st -> preparing h = true -> step st e = Some (st', o, x) ->
    (tls o = [] -> written o = []) /\
    (forall pre c post, o = pre ++ OStartTLS c :: post -> written pre = []).
  Proof.
    intros HR Hp Hs. apply (j_prep _ _ (reach_tinv _ _ HR)) in Hp.
    assert (Hd : e = EPrepare \/ e = ELock \/ (e <> EPrepare /\ e <> ELock)) by (destruct e; auto; right; right; split; discriminate).
    destruct Hd as [->|[->|[H1 H2]]].
    - cbn [step] in Hs. assert (E : prepareTLS st = (st', o, x)) by congruence. unfold prepareTLS in E. injection E as <- <- <-.
      destruct (map_odrop (match held st with Some q => q | None => [] end)) as (M1 & M2 & _). split; auto.
      intros pre c post E. exfalso.
      assert (Hi : In (OStartTLS c) (map ODrop (match held st with Some q => q | None => [] end))) by (rewrite E; apply in_or_app; right; now left).
      apply in_map_iff in Hi as (? & ? & _). discriminate.
    - cbn [step] in Hs. assert (E : lock st = (st', o, x)) by congruence. unfold lock in E. injection E as <- <- <-. split; auto.
      intros [|] c post; discriminate.
    - apply tr_step in Hs; auto. split; [now apply (t_none _ _ _ Hs)|]. intros pre c post E. eapply (t_first _ _ _ Hs); eauto.
  Qed.

  Theorem tls_flushes h st e st' o x : Reach h st -> step st e = Some (st', o, x) -> tls o <> [] ->
    dropped (outs_of h ++ o) = [] -> accepted (outs_of h ++ o) = written (outs_of h ++ o).
  Proof.
    intros HR Hs Ht Hd. pose proof (R_step _ _ _ _ _ _ HR Hs) as HR'. apply reach_tinv in HR'.
    pose proof (j_order _ _ HR') as Ho. rewrite outs_of_snoc in Ho. rewrite (Ho Hd).
    assert (Hh : held st' = None).
    { destruct (held st') eqn:Eh; [|reflexivity]. exfalso.
      assert (Hp : preparing (h ++ [En e o x]) = true) by (apply (j_prep _ _ HR'); congruence).
      rewrite prep_snoc in Hp. unfold prep1 in Hp. cbn [ev outs] in Hp.
      destruct (tls o) eqn:Et; [congruence|].
      destruct e; try discriminate. cbn [step] in Hs. assert (E : prepareTLS st = (st', o, x)) by congruence.
      unfold prepareTLS in E. injection E as <- <- <-. rewrite tls_none in Et; [discriminate|].
      intros c Hc. apply in_map_iff in Hc as (? & ? & _). discriminate. }
    unfold heldl. rewrite Hh. now rewrite app_nil_r.
  Qed.

  (** when packets are lost: prepareTLS while preparing, or startTLS raising *)
  Theorem tls_drops h st e st' o x : Reach h st -> step st e = Some (st', o, x) -> dropped o <> [] ->
    (e = EPrepare /\ preparing h = true) \/ (tls o <> [] /\ (preparing h = true) /\ (x <> None \/ In OLose o)).
  Proof.
    intros HR Hs Hd. destruct (reach_tinv _ _ HR) as [_ _ _ _ Hp _].
    assert (Hst : forall st1 c st2 o2 x2, (held st1 <> None -> preparing h = true) -> startTLS st1 c = (st2, o2, x2) -> dropped o2 <> [] ->
                    tls o2 <> [] /\ preparing h = true /\ x2 <> None).
    { intros st1 c st2 o2 x2 Hh E Hd2. apply startTLS_cases in E. destruct (cert st1); [destruct E as (_ & -> & _); now destruct Hd2|].
      destruct E as (o' & -> & _ & H2 & H3 & _). split; [discriminate|].
      change (OStartTLS c :: o') with ([OStartTLS c] ++ o') in Hd2. rewrite dropped_app in Hd2. cbn [dropped flat_map app] in Hd2.
      fold (dropped o') in Hd2. split; [|intros ->; auto].
      apply Hh. intros Hn. rewrite Hn in H2. symmetry in H2. apply app_eq_nil in H2. tauto. }
    assert (Hsend : forall st1 k b st2 o2 x2, (held st1 <> None -> preparing h = true) -> sendTo st1 k b = (st2, o2, x2) -> dropped o2 <> [] ->
                    tls o2 <> [] /\ preparing h = true /\ x2 <> None).
    { intros st1 k b st2 o2 x2 Hh E Hd2. unfold sendTo in E. destruct (sendPacket st1 b) as [[s3 o3] x3] eqn:E3.
      assert (Hd3 : dropped o3 = [] /\ (held s3 <> None -> preparing h = true)).
      { apply sendPacket_cases in E3 as [(_ & -> & -> & _)|[(_ & q & Hq & Hq' & _ & _ & _ & -> & _)|(_ & _ & -> & E3)]]; auto.
        - split; [reflexivity|]. intros _. apply Hh. congruence.
        - destruct (serialize b); destruct E3 as [-> _]; auto. }
      destruct Hd3 as [Hd3 Hh3].
      destruct x3; [injection E as <- <- <-; congruence|]. destruct k.
      - injection E as <- <- <-; congruence.
      - injection E as <- <- <-. rewrite dropped_app, Hd3 in Hd2. now destruct Hd2.
      - destruct (startTLS s3 cert0) as [[s4 o4] x4] eqn:E4. injection E as <- <- <-. rewrite dropped_app, Hd3 in Hd2.
        destruct (Hst _ _ _ _ _ Hh3 E4 Hd2) as (H1 & H2 & H3). rewrite tls_app. split; auto. intros En. apply app_eq_nil in En. tauto.
      - destruct (switchTo s3 proto) as [[s4 o4] x4] eqn:E4. injection E as <- <- <-. rewrite dropped_app, Hd3 in Hd2.
        apply switchTo_cases in E4 as (_ & _ & _ & E4). destruct (inner s3); [destruct E4 as (_ & -> & _)|destruct E4 as (-> & _)]; now destruct Hd2.
      - destruct (pv_int _); injection E as <- <- <-; congruence. }
    destruct e; cbn [step] in Hs.
    - right. injection Hs as E. unfold sendBoxCommand in E. destruct (outst st) as [o0|]; [|injection E as <- <- <-; now destruct Hd].
      destruct req.
      + destruct (sendTo _ _ _) as [[st1 o1] x1] eqn:E1 in E. injection E as <- <- <-.
        eapply Hsend in E1; [destruct E1 as (H1 & H2 & H3); split; [exact H1|auto]|cbn; apply Hp|exact Hd].
      + eapply Hsend in E; [destruct E as (H1 & H2 & H3); split; [exact H1|auto]|cbn; apply Hp|exact Hd].
    - exfalso. apply Hd. injection Hs as E. unfold boxReceived in E.
      repeat match type of E with
             | (if ?c then _ else _) = _ => destruct c
             | (match ?c with _ => _ end) = _ => destruct c
             end; injection E as <- <- <-; reflexivity.
    - right. destruct (dget (runs st) id) as [a|]; [|discriminate]. injection Hs as E.
      assert (Hpk : forall k rb, puke (sendTo (set_runs st (ddel (runs st) id) (nextrun st)) k rb) = (st', o, x) ->
                 tls o <> [] /\ preparing h = true /\ (x <> None \/ In OLose o)).
      { intros k rb Ep. destruct (sendTo _ k rb) as [[s2 o2] x2] eqn:E2 in Ep.
        assert (Hd2 : dropped o2 <> []).
        { intros Hn. apply Hd. destruct x2; cbn in Ep; injection Ep as <- <- <-; auto. rewrite dropped_app, Hn. reflexivity. }
        eapply Hsend in E2; [|cbn; apply Hp|exact Hd2]. destruct E2 as (H1 & H2 & H3). destruct x2; [|congruence].
        cbn in Ep. injection Ep as <- <- <-. rewrite tls_app. split; [intros En; apply app_eq_nil in En; tauto|].
        split; auto. right. apply in_or_app. right. now left. }
      destruct a as [t|], oc; cbn [complete] in E; try (apply Hpk in E; exact E); injection E as <- <- <-; now destruct Hd.
    - left. split; auto. assert (E : prepareTLS st = (st', o, x)) by congruence. unfold prepareTLS in E. injection E as <- <- <-.
      apply Hp. intros Hn. rewrite Hn in Hd. now apply Hd.
    - right. injection Hs as E. eapply Hst in E; [destruct E as (H1 & H2 & H3); auto|apply Hp|exact Hd].
    - exfalso. assert (E : lock st = (st', o, x)) by congruence. unfold lock in E. injection E as <- <- <-. now apply Hd.
    - exfalso. injection Hs as E. apply switchTo_cases in E as (_ & _ & _ & E). destruct (inner st); [destruct E as (_ & -> & _)|destruct E as (-> & _)]; now apply Hd.
    - exfalso. destruct (outst st); injection Hs as <- <- <-; now apply Hd.
    - exfalso. destruct (losing st); [discriminate|]. injection Hs as <- <- <-. now apply Hd.
  Qed.
End Machine.
