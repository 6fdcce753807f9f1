(** * epsilon/juice.py: a command as a remote call

    The keyword arguments of [Command.do] become a box, the box becomes the
    keyword arguments of the responder at the other end of the connection, and
    what it returns or raises comes back the same way.  JuiceArgs.v has the
    argument classes, JuiceDispatch.v the errors, JuicePair.v the connection. *)

From Coq Require Import ZArith NArith String List Bool Arith Lia Permutation.
From Verif Require Import Py PyStr PyNum PyInt PyHex Utf8 Liner JuiceCodec JuiceStream JuiceArgs JuiceProto JuiceDispatch JuicePair.
Import ListNotations.
Open Scope nat_scope.
Open Scope py_scope.

(** juice.py:606-625, 656-659: a class of commands: its name (with the
    namespace it is called in, if any), [arguments], [response] (names, whether they are optional, and their classes), the names of
    [extra], and the declared errors.  [commandType] and [responseType] are
    Box. *)
Record decl := Decl { d_name : str; d_args : list (str * bool * codec); d_resp : list (str * bool * codec);
                      d_extra : list str; d_errs : command }.

(** what a responder does *)
Inductive ret := Returns (objs : dict str val) | Raises (e : excv).

(** what the caller of [do] gets: a dictionary; an exception of a class, with
    its text; an exception from reading the answer; the loss of the
    connection *)
Inductive outcome_of_call := Gets (objs : dict str val) | GetsRaise (cls : N) (text : str) | GetsUnreadable (e : exn) | GetsLost.

Section Call.
  Variable ulower : str -> str.
  Variable oenc odec : N -> val -> res val.
  Variable mro : N -> list N.
  Variable RJE URJE : N.
  Variable remote_text : pv -> pv -> str.
  (** an exception raised by the code of juice.py, as an object *)
  Variable exc_of : exn -> excv.
  (** [fromTransport] of the extra argument with this name, at each end; it
      does not raise (juice.py:550-572) *)
  Variable xtra : bool -> str -> val.

  (** a box of the encoded values.  A value that is neither text nor bytes
      raises only when the box is serialized (juice.py:57-77): here already *)
  Definition to_box (st : dict str val) : res box :=
    mapM (fun kv => v <- as_pv (snd kv) ;; Ok (fst kv, v)) st.

  (** juice.py:627-645, 655-670 [Command.__init__], [do]: the box that is sent *)
  Definition do_box (c : decl) (kw : dict str val) : res box :=
    kw <- command_init ulower (map fst (d_args c)) kw ;;
    st <- objectsToStrings ulower (encs ulower oenc (d_args c)) kw ;;
    to_box st.

  (** juice.py:217-218 and 675-678 [addExtra] *)
  Definition with_extra (s : bool) (c : decl) (objs : dict str val) : dict str val :=
    fold_left (fun o n => dset o n (xtra s n)) (d_extra c) objs.

  (** juice.py:215-217: the keyword arguments of the responder *)
  Definition call_args (s : bool) (c : decl) (b : dict str str) : res (dict str val) :=
    kw <- stringsToObjects (decs ulower odec (d_args c)) (vtexts b) ;;
    Ok (with_extra s c kw).

  (** juice.py:647-653 [makeResponse] *)
  Definition makeResponse (c : decl) (objs : dict str val) : res box :=
    st <- objectsToStrings ulower (encs ulower oenc (d_resp c)) objs ;;
    to_box st.

  (** juice.py:214-231 [doit], for what the responder does if it is called *)
  Definition respond (s : bool) (c : decl) (b : dict str str) (r : ret) : outcome :=
    doit mro RJE remote_text (d_errs c)
      match call_args s c b with
      | Err e => RBadArgs (exc_of e)
      | Ok _ => match r with
                | Raises e => RRaised e
                | Returns objs => match makeResponse c objs with
                                  | Ok rb => RReturned KPlain rb
                                  | Err e => RRaised (exc_of e)
                                  end
                end
      end.

  (** juice.py:660-678: the callbacks of the Deferred of [do] *)
  Definition caller_gets (s : bool) (c : decl) (f : firing) : outcome_of_call :=
    match f with
    | Answered b => match stringsToObjects (decs ulower odec (d_resp c)) (vtexts b) with
                    | Ok objs => Gets (with_extra s c objs)
                    | Err e => GetsUnreadable e
                    end
    | Failed code desc => GetsRaise (massage URJE (d_errs c) code) desc
    | Lost => GetsLost
    end.

  (** ** Specification *)

  (** the names of a schema can be used: distinct, in their normal form, not
      reserved *)
  Definition usable (subs : list (str * bool * codec)) : Prop :=
    NoDup (map sub_name subs) /\ Forall (fun a => canonical ulower (sub_name a) = true) subs /\
    forall n, In n (map sub_name subs) -> ~ In n reserved.

  Definition wf_decl (c : decl) : Prop :=
    usable (d_args c) /\ usable (d_resp c) /\ encodable (d_name c) = true.

  (** the objects can be sent under the schema: no two spellings of one name;
      every argument that is not optional is given; the values given are
      values of their classes *)
  Definition sendable_objects (subs : list (str * bool * codec)) (objs : dict str val) : Prop :=
    NoDup (map (normalizeKey ulower) (keys objs)) /\
    forall a, In a subs ->
      (snd (fst a) = true /\ forall v, ~ given ulower objs (sub_name a) v) \/
      exists v, given ulower objs (sub_name a) v /\ arg_fits ulower oenc (fits ulower oenc odec) a v.

  (** a name of the schema that is not optional has no value *)
  Definition lacking (subs : list (str * bool * codec)) (objs : dict str val) : Prop :=
    NoDup (map (normalizeKey ulower) (keys objs)) /\
    exists a, In a subs /\ snd (fst a) = false /\ forall v, ~ given ulower objs (sub_name a) v.

  (** [got]: the names of the schema with the values of [objs], None for those
      that are not given, and the extra arguments *)
  Definition conveys (s : bool) (c : decl) (subs : list (str * bool * codec)) (objs got : dict str val) : Prop :=
    (forall n, In n (keys got) <-> In n (map sub_name subs) \/ In n (d_extra c)) /\
    (forall n, In n (d_extra c) -> dget got n = Some (xtra s n)) /\
    forall n, In n (map sub_name subs) -> ~ In n (d_extra c) ->
      (forall v, given ulower objs n v -> exists v', dget got n = Some v' /\ same v v') /\
      ((forall v, ~ given ulower objs n v) -> dget got n = Some VNone).

  (** The responder raised [e]; the caller gets an exception of class [cls] with
      this text: a declared exception under its code; any other, unless it is
      a RemoteJuiceError already, as unhandled. *)
  Definition raised_as (c : decl) (e : excv) (cls : N) (text : str) : Prop :=
    (exists k code, In (k, PS code) (declared (d_errs c)) /\ isa mro e k = true /\
       In (cls, PS code) (declared (d_errs c)) /\ text = e_text e /\
       (NoDup (map snd (declared (d_errs c))) -> cls = k)) \/
    ((forall k, In k (keys (declared (d_errs c))) -> isa mro e k = false) /\
     exists code, (if isa mro e RJE then code = reading (e_code e) /\ text = reading (e_desc e)
                   else code = lit "UNHANDLED" /\ text = lit "Unhandled Remote System Exception ") /\
       (In (cls, PS code) (declared (d_errs c)) \/
        (cls = URJE /\ ~ In (PS code) (map snd (declared (d_errs c)))))).

  (** [h] made request [r] by [do] of the command [c] with arguments [kw] *)
  Definition called (h : list entry) (r : nat) (c : decl) (kw : dict str val) : Prop :=
    exists b t o x, do_box c kw = Ok b /\ In (En (ESend (d_name c) KPlain b true) (OAsked r t :: o) x) h.

  (** The commands of end [s] finish with what their responders do:
      [impl s c kw r] if the responder of [c] at end [s], called with [kw],
      can do [r]. *)
  Definition responding (impl : bool -> decl -> dict str val -> ret -> Prop) (decls : str -> option decl)
      (s : bool) (h : list entry) : Prop :=
    forall id b oc name c, In (ORun id b) (outs_of h) -> finished h id oc ->
      dget b COMMAND = Some name -> decls name = Some c ->
      exists r, (forall kw, call_args s c b = Ok kw -> impl s c kw r) /\ oc = respond s c b r.

  (** ** Boxes *)

  Hypothesis ulower_ascii : forall s, is_ascii s = true -> ulower s = map ascii_lower s.

  Lemma fit_normalized subs objs : sendable_objects subs objs -> args_fit ulower oenc odec subs (normalized ulower objs).
  Proof.
    intros [Hn H] a Ha. destruct (dget (normalized ulower objs) (sub_name a)) as [x|] eqn:E.
    - apply dget_normalized in E; [|exact Hn]. destruct (H a Ha) as [[_ Hno]|(v & Hv & Hf)]; [destruct (Hno _ E)|].
      apply dget_normalized in E, Hv; auto. congruence.
    - destruct (H a Ha) as [[Ho _]|(v & Hv & _)]; [exact Ho|]. apply dget_normalized in Hv; [congruence|exact Hn].
  Qed.

  Lemma to_box_reads st b : Forall2 item_arrives st b ->
    exists bx, to_box st = Ok bx /\ Forall legible (values bx) /\ reads bx = b.
  Proof.
    intros H. induction H as [|[k e] [k' s] st b Hi HF IH]; [exists []; repeat split; constructor|].
    destruct IH as (bx & E & Hl & Hr). destruct Hi as (H1 & (p & w & Hp & Hw & Hu) & _). cbn [fst snd] in *. subst k'.
    assert (Er : reading p = s).
    { destruct p as [u|u]; cbn [ensure_binary reading] in *.
      - apply utf8_decode_encode in Hu. apply utf8_decode_encode in Hw. congruence.
      - injection Hw as ->. now rewrite (utf8_decode_encode _ _ Hu). }
    exists ((k, p) :: bx). unfold to_box in *. cbn [mapM fst snd]. rewrite Hp. cbn [rbind]. rewrite E. split; [reflexivity|].
    split; [apply Forall_cons; [exists w; cbn [snd]; rewrite Er; auto|exact Hl]|]. cbn [reads map fst snd]. rewrite Er. now f_equal.
  Qed.

  (** a schema's objects as a box, and back *)
  Lemma objects_box subs objs : usable subs -> sendable_objects subs objs ->
    exists st bx, objectsToStrings ulower (encs ulower oenc subs) objs = Ok st /\ to_box st = Ok bx /\ args ulower bx /\
      forall b', (forall n, In n (map sub_name subs) -> dget b' n = dget (reads bx) n) ->
        exists got, stringsToObjects (decs ulower odec subs) (vtexts b') = Ok got /\ keys got = map sub_name subs /\
          forall n, In n (map sub_name subs) ->
            (forall v, given ulower objs n v -> exists v', dget got n = Some v' /\ same v v') /\
            ((forall v, ~ given ulower objs n v) -> dget got n = Some VNone).
  Proof.
    intros (Hnd & Hcan & Hres) Hs.
    destruct (args_box ulower ulower_ascii oenc odec subs objs Hnd Hcan) as (st & b & w & H1 & HF & _ & _ & H4 & _ & _ & H5).
    { apply Forall_forall. intros a _. now apply codec_survives. }
    { now apply fit_normalized. }
    destruct (to_box_reads st b HF) as (bx & Eb & Hl & <-). exists st, bx. split; [exact H1|]. split; [exact Eb|].
    assert (Hkeys : forall k, In k (keys bx) -> In k (map sub_name subs)).
    { intros k Hk. rewrite <- keys_reads in Hk.
      assert (Ek : keys st = keys (reads bx)).
      { clear -HF. unfold keys. induction HF as [|i j its b Hi HF IH]; [reflexivity|].
        destruct Hi as [E _]. cbn [map]. now rewrite E, IH. }
      rewrite <- Ek in Hk. unfold objectsToStrings in H1.
      rewrite toBoxes_ok in H1.
      - injection H1 as <-. apply keys_items in Hk. now rewrite name_encs in Hk.
      - now rewrite name_encs.
      - intros a _ [].
      - assert (HS : Forall (fun a => forall v, fits ulower oenc odec (snd a) v -> survives ulower oenc odec (snd a) v) subs)
          by (apply Forall_forall; intros a _; now apply codec_survives).
        exact (proj1 (items_arrive ulower oenc odec subs _ Hnd HS (fit_normalized subs objs Hs))). }
    split.
    { split; [exact Hl|]. split; [exact H4|]. intros k Hk Hin. apply (Hres k); auto. }
    intros b' Hb'. destruct (H5 b' Hb') as (got & Hg & Hk & Hv). exists got. split; [exact Hg|]. split; [exact Hk|].
    intros n Hn. specialize (Hv n Hn). destruct Hs as [Hd _]. split.
    - intros v Hgv. apply dget_normalized in Hgv; [|exact Hd]. now rewrite Hgv in Hv.
    - intros Hno. destruct (dget (normalized ulower objs) n) as [x|] eqn:E; [|exact Hv].
      apply dget_normalized in E; [|exact Hd]. destruct (Hno _ E).
  Qed.

  Lemma extra_gets s c objs n : dget (with_extra s c objs) n =
    if memb n (d_extra c) then Some (xtra s n) else dget objs n.
  Proof.
    unfold with_extra. revert objs. induction (d_extra c) as [|m l IH]; intros objs; [reflexivity|].
    cbn [fold_left]. rewrite IH, dget_dset. cbn [memb existsb]. fold (memb n l).
    destruct (eqb_spec n m) as [->|Hne]; [destruct (memb m l); reflexivity|]. destruct (memb n l); reflexivity.
  Qed.

  Lemma extra_keys s c objs n : In n (keys (with_extra s c objs)) <-> In n (keys objs) \/ In n (d_extra c).
  Proof.
    rewrite <- !din_keys. unfold din. rewrite extra_gets. destruct (memb n (d_extra c)) eqn:E.
    - apply memb_In in E. tauto.
    - apply memb_not_In in E. tauto.
  Qed.

  Lemma extra_conveys s c subs objs got : keys got = map sub_name subs ->
    (forall n, In n (map sub_name subs) ->
       (forall v, given ulower objs n v -> exists v', dget got n = Some v' /\ same v v') /\
       ((forall v, ~ given ulower objs n v) -> dget got n = Some VNone)) ->
    conveys s c subs objs (with_extra s c got).
  Proof.
    intros Hk H. split; [intros n; now rewrite extra_keys, Hk|]. split.
    - intros n Hn. rewrite extra_gets. apply memb_In in Hn. now rewrite Hn.
    - intros n Hn Hx. rewrite extra_gets. apply memb_not_In in Hx. rewrite Hx. now apply H.
  Qed.

  Lemma init_ok c kw : usable (d_args c) -> sendable_objects (d_args c) kw -> command_init ulower (map fst (d_args c)) kw = Ok kw.
  Proof.
    intros (_ & Hcan & _) [_ H]. destruct (command_init_spec ulower (map fst (d_args c)) kw) as [[_ (name & Hin & Hno)]|[E _]]; [|exact E].
    exfalso. apply in_map_iff in Hin as ([[n o] cd] & E & Hin). cbn [fst] in E. injection E as -> ->.
    destruct (H _ Hin) as [[Ho _]|(v & (k & Hk & Hv) & _)]; [discriminate|].
    apply (Hno k); [apply in_map_iff; exists (k, v); auto|]. rewrite Hv. unfold sub_name. cbn [fst].
    rewrite Forall_forall in Hcan. specialize (Hcan _ Hin). unfold canonical, sub_name in Hcan. cbn [fst] in Hcan.
    rewrite !andb_true_iff in Hcan. destruct Hcan as [[_ Hc] _].
    destruct (eqb_spec (normalizeKey ulower name) name); congruence.
  Qed.

  (** ** What can be sent is sent *)

  Lemma do_good c kw : wf_decl c -> sendable_objects (d_args c) kw ->
    exists b, do_box c kw = Ok b /\ forall q, good ulower (ESend (d_name c) KPlain b q).
  Proof.
    intros (Hu & _ & He) Hs. destruct (objects_box (d_args c) kw Hu Hs) as (st & bx & H1 & H2 & H3 & _).
    exists bx. unfold do_box. rewrite (init_ok c kw Hu Hs). cbn [rbind]. rewrite H1. cbn [rbind]. split; [exact H2|].
    intros q. cbn. auto.
  Qed.

  Lemma respond_good s c b kw objs id : wf_decl c -> call_args s c b = Ok kw -> sendable_objects (d_resp c) objs ->
    good ulower (EComplete id (respond s c b (Returns objs))).
  Proof.
    intros (_ & Hu & _) Ha Hs. destruct (objects_box (d_resp c) objs Hu Hs) as (st & bx & H1 & H2 & H3 & _).
    unfold respond, makeResponse. rewrite Ha, H1. cbn [rbind]. rewrite H2. cbn. auto.
  Qed.

  (** ** A call *)

  Variable dispatch : bool -> str -> option exn.
  Variable acts : bool -> list entry -> list event.
  Hypothesis acts_good : forall s h, Forall (good ulower) (acts s h).
  Variable impl : bool -> decl -> dict str val -> ret -> Prop.
  Variable decls : str -> option decl.

  Lemma called_requested w s r c kw cmd d t : Joined ulower dispatch acts w -> called (hist (w s)) r c kw ->
    requested (hist (w s)) r cmd d t -> cmd = d_name c /\ do_box c kw = Ok d.
  Proof.
    intros HJ (b & t' & o & x & Hb & Hin) (k' & o' & x' & Hin').
    destruct (joined_reach ulower ulower_ascii dispatch acts acts_good w s HJ) as [st HR].
    pose proof (seq_nodup _ _ (reach_inv _ _ _ HR)) as Hn.
    assert (E : En (ESend (d_name c) KPlain b true) (OAsked r t' :: o) x = En (ESend cmd k' d true) (OAsked r t :: o') x').
    { revert Hn Hin Hin'. unfold outs_of. generalize (hist (w s)). clear. intros h Hn H1 H2. induction h as [|en h IH]; [destruct H1|].
      cbn [flat_map] in Hn. rewrite asked_app, map_app in Hn.
      assert (Hx : forall t e o x, In (En e (OAsked r t :: o) x) h -> In r (map fst (asked (flat_map outs h)))).
      { intros t1 e1 o1 x1 Hi. apply in_map_iff. exists (r, t1). split; [reflexivity|]. unfold asked. apply in_flat_map.
        exists (OAsked r t1). split; [|now left]. apply in_flat_map. eexists. split; [exact Hi|]. now left. }
      destruct H1 as [H1|H1], H2 as [H2|H2].
      - congruence.
      - subst en. cbn [outs asked flat_map map fst app] in Hn. inversion Hn as [|? ? Hni _]; subst. exfalso. apply Hni.
        apply in_or_app. right. eapply Hx; eauto.
      - subst en. cbn [outs asked flat_map map fst app] in Hn. inversion Hn as [|? ? Hni _]; subst. exfalso. apply Hni.
        apply in_or_app. right. eapply Hx; eauto.
      - apply IH; auto. now apply nodup_r in Hn. }
    injection E as -> _ -> _ _ _. auto.
  Qed.

  (** the arguments that reach the responder *)
  Lemma args_reach s c kw d t b : wf_decl c -> sendable_objects (d_args c) kw -> do_box c kw = Ok d ->
    dict_eq b (request_box (d_name c) d t) ->
    exists got, call_args s c b = Ok got /\ conveys s c (d_args c) kw got.
  Proof.
    intros (Hu & _ & _) Hs Hd Hb. destruct (objects_box (d_args c) kw Hu Hs) as (st & bx & H1 & H2 & _ & H4).
    unfold do_box in Hd. rewrite (init_ok c kw Hu Hs) in Hd. cbn [rbind] in Hd. rewrite H1 in Hd. cbn [rbind] in Hd.
    assert (d = bx) by congruence. subst bx. destruct Hu as (_ & _ & Hres).
    destruct (H4 b) as (got & Hg & Hk & Hv).
    { intros n Hn. rewrite (Hb n). unfold request_box. rewrite !dget_dset_neq; [reflexivity| |];
        intros ->; apply (Hres _ Hn); cbn; auto. }
    exists (with_extra s c got). unfold call_args. rewrite Hg. split; [reflexivity|]. now apply extra_conveys.
  Qed.

  (** the answer that reaches the caller *)
  Lemma answer_reaches s c objs d t b : wf_decl c -> sendable_objects (d_resp c) objs -> makeResponse c objs = Ok d ->
    dict_eq b (answer_box d t) ->
    exists got, caller_gets s c (Answered b) = Gets got /\ conveys s c (d_resp c) objs got.
  Proof.
    intros (_ & Hu & _) Hs Hd Hb. destruct (objects_box (d_resp c) objs Hu Hs) as (st & bx & H1 & H2 & _ & H4).
    unfold makeResponse in Hd. rewrite H1 in Hd. cbn [rbind] in Hd.
    assert (d = bx) by congruence. subst bx. destruct Hu as (_ & _ & Hres).
    destruct (H4 b) as (got & Hg & Hk & Hv).
    { intros n Hn. rewrite (Hb n). unfold answer_box. rewrite !dget_dset_neq; [reflexivity|].
      intros ->; apply (Hres _ Hn); cbn; auto. }
    exists (with_extra s c got). unfold caller_gets. rewrite Hg. split; [reflexivity|]. now apply extra_conveys.
  Qed.

  Lemma massage_declared (cm : command) code :
    In (massage URJE cm code, PS code) (declared cm) \/ (massage URJE cm code = URJE /\ ~ In (PS code) (map snd (declared cm))).
  Proof.
    unfold massage. rewrite reverse_declared. destruct (last_with (declared cm) (PS code)) as [k|] eqn:El; [left; now apply last_with_In|].
    right. split; [reflexivity|]. intros Hin. apply in_map_iff in Hin as ([k c'] & E & Hin). cbn [snd] in E. subst c'.
    revert El Hin. induction (declared cm) as [|[k1 c1] l IH]; [intros _ []|]. cbn [last_with].
    destruct (last_with l (PS code)); [discriminate|]. intros El [H|H]; [|auto]. injection H as -> ->.
    destruct (eqb_spec (PS code) (PS code)); congruence.
  Qed.

  Hypothesis RJE_itself : memb RJE (mro RJE) = true.

  (** an exception that reaches [checkKnownErrors] reaches the caller *)
  Lemma raised_reaches s c e oc code desc :
    oc = doit mro RJE remote_text (d_errs c) (RRaised e) -> error_of oc code desc ->
    Forall (fun kc => exists code, snd kc = PS code) (declared (d_errs c)) ->
    exists cls text, caller_gets s c (Failed code desc) = GetsRaise cls text /\ raised_as c e cls text.
  Proof.
    intros H4 Heo Hcodes. cbn [caller_gets]. exists (massage URJE (d_errs c) code), desc. split; [reflexivity|].
    cbn [doit] in H4. destruct (check_known mro RJE remote_text (d_errs c) e) as [(k & kc & Hd & Hik & _ & E)|[Hno E]].
    * left. rewrite Forall_forall in Hcodes. destruct (Hcodes _ Hd) as (code' & Ec). cbn [snd] in Ec. subst kc.
      rewrite E in H4. unfold as_outcome, isa in H4. cbn [e_cls e_code e_desc e_fatal] in H4. rewrite RJE_itself in H4.
      destruct Heo as [(pc & pd & fatal & E' & -> & ->)|(E' & _)]; [|congruence].
      rewrite H4 in E'. injection E' as <- <- _. cbn [reading]. exists k, code'. split; [exact Hd|]. split; [exact Hik|].
      destruct (massage_declared (d_errs c) code') as [Hm|[_ Hm]].
      2:{ exfalso. apply Hm. apply in_map_iff. exists (k, PS code'). auto. }
      split; [exact Hm|]. split; [reflexivity|]. intros Hn. unfold massage. rewrite reverse_declared, (last_with_unique _ _ _ Hn Hd). reflexivity.
    * right. split; [exact Hno|]. exists code. split; [|apply massage_declared].
      rewrite E in H4. unfold as_outcome in H4. destruct (isa mro e RJE).
      -- destruct Heo as [(pc & pd & fatal & E' & -> & ->)|(E' & _)]; [|congruence]. rewrite H4 in E'. injection E' as <- <- _. auto.
      -- destruct Heo as [(pc & pd & fatal & E' & _)|(_ & -> & ->)]; [congruence|auto].
  Qed.

  Lemma lacking_fails subs objs : NoDup (map sub_name subs) -> lacking subs objs ->
    exists x, objectsToStrings ulower (encs ulower oenc subs) objs = Err x.
  Proof.
    intros Hn (Hk & [[n o] k] & Ha & Ho & Hg). cbn [fst snd sub_name] in *. subst o.
    apply (toBoxes_missing (encs ulower oenc subs) n (encode ulower oenc k)).
    - apply in_map_iff. exists (n, false, k). auto.
    - rewrite name_encs. exact Hn.
    - destruct (dget (normalized ulower objs) n) as [v|] eqn:E; [|reflexivity].
      apply dget_normalized in E; auto. exfalso. eapply Hg; eauto.
  Qed.

  Theorem call_right w s r f c kw : Joined ulower dispatch acts w ->
    responding impl decls (negb s) (hist (w (negb s))) -> decls (d_name c) = Some c ->
    wf_decl c -> sendable_objects (d_args c) kw -> called (hist (w s)) r c kw ->
    In (OFire r f) (outs_of (hist (w s))) ->
    (f = Lost /\ was_lost (hist (w s)) = true) \/
    exists got result, conveys (negb s) c (d_args c) kw got /\ impl (negb s) c got result /\
      match result with
      | Returns objs =>
          (sendable_objects (d_resp c) objs -> exists out, caller_gets s c f = Gets out /\ conveys s c (d_resp c) objs out) /\
          (lacking (d_resp c) objs -> Forall (fun kc => exists code, snd kc = PS code) (declared (d_errs c)) ->
             exists x cls text, caller_gets s c f = GetsRaise cls text /\ raised_as c (exc_of x) cls text)
      | Raises e => Forall (fun kc => exists code, snd kc = PS code) (declared (d_errs c)) ->
          exists cls text, caller_gets s c f = GetsRaise cls text /\ raised_as c e cls text
      end.
  Proof.
    intros HJ Hresp Hdecl Hwf Hs Hc Hf.
    pose proof (fired_right ulower ulower_ascii dispatch acts acts_good w s r f HJ Hf) as HR.
    assert (Hserved : forall t oc, served (hist (w s)) (hist (w (negb s))) r t oc ->
      exists got result b, conveys (negb s) c (d_args c) kw got /\ call_args (negb s) c b = Ok got /\
        impl (negb s) c got result /\ oc = respond (negb s) c b result).
    { intros t oc (cmd & d & id & cb & Hq & Hr & Hd & _ & Hfin & _).
      destruct (called_requested w s r c kw cmd d t HJ Hc Hq) as [-> Hb].
      destruct (args_reach (negb s) c kw d t cb Hwf Hs Hb Hd) as (got & Hg & Hcv).
      destruct (Hresp id cb oc (d_name c) c Hr Hfin) as (result & Hi & Ho); auto.
      { rewrite (Hd COMMAND). unfold request_box. rewrite dget_dset_neq by discriminate. apply dget_dset_eq. }
      exists got, result, cb. auto. }
    destruct f as [b|code desc|]; [| |left; auto].
    - right. destruct HR as (t & k & d & Hsv & Hb). destruct (Hserved _ _ Hsv) as (got & result & cb & H1 & H2 & H3 & H4).
      exists got, result. split; [exact H1|]. split; [exact H3|]. unfold respond in H4. rewrite H2 in H4. destruct result as [objs|e].
      + split; [intros Ho; destruct (makeResponse c objs) as [rb|x] eqn:Em|].
        * cbn [doit] in H4. injection H4 as _ <-. eapply answer_reaches; eauto.
        * exfalso. destruct Hwf as (_ & Hu & _). destruct (objects_box (d_resp c) objs Hu Ho) as (st & bx & E1 & E2 & _).
          unfold makeResponse in Em. rewrite E1 in Em. cbn [rbind] in Em. congruence.
        * intros Hl _. exfalso. destruct Hwf as (_ & Hu & _). destruct (lacking_fails (d_resp c) objs (proj1 Hu) Hl) as [x Ex].
          unfold makeResponse in H4. rewrite Ex in H4. cbn [rbind doit] in H4. unfold as_outcome in H4. destruct (isa _ _ _); discriminate.
      + exfalso. cbn [doit] in H4. unfold as_outcome in H4. destruct (isa _ _ _); discriminate.
    - right. destruct HR as (t & oc & Hsv & Heo). destruct (Hserved _ _ Hsv) as (got & result & cb & H1 & H2 & H3 & H4).
      exists got, result. split; [exact H1|]. split; [exact H3|]. unfold respond in H4. rewrite H2 in H4. destruct result as [objs|e].
      + split.
        2:{ intros Hl Hcodes. destruct Hwf as (_ & Hu & _). destruct (lacking_fails (d_resp c) objs (proj1 Hu) Hl) as [x Ex].
            unfold makeResponse in H4. rewrite Ex in H4. cbn [rbind] in H4. exists x. eapply raised_reaches; eauto. }
        intros Ho. exfalso. destruct Hwf as (_ & Hu & _). destruct (objects_box (d_resp c) objs Hu Ho) as (st & bx & E1 & E2 & _).
        unfold makeResponse in H4. rewrite E1 in H4. cbn [rbind] in H4. rewrite E2 in H4. cbn [doit] in H4. subst oc.
        destruct Heo as [(pc & pd & fatal & E & _)|(E & _)]; discriminate.
      + intros Hcodes. eapply raised_reaches; eauto.
  Qed.

  (** when nothing is left to do, every call has returned *)
  Theorem call_returns w s r c kw : Joined ulower dispatch acts w -> at_rest w -> called (hist (w s)) r c kw ->
    exists f, In (OFire r f) (outs_of (hist (w s))) /\ f <> Lost.
  Proof.
    intros HJ Hr (b & t & o & x & _ & Hin). eapply (all_answered ulower ulower_ascii dispatch acts acts_good); eauto.
    eapply requested_asked. exists KPlain, o, x. exact Hin.
  Qed.
End Call.
