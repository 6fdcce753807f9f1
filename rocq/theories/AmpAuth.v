(** * epsilon/ampauth.py: authentication over AMP *)

From Coq Require Import NArith String List Bool Arith Lia.
From Verif Require Import Py Utf8.
Import ListNotations.
Open Scope nat_scope.

Set Implicit Arguments.

(** ** Challenge, nonce and response *)

(** A password argument is text or bytes; anything else is a TypeError of
    [six.ensure_binary] and is not modelled. *)
Inductive password := PText (s : str) | PBytes (b : str).

(** [six.ensure_binary(password)], used at ampauth.py:109 and 134 *)
Definition ensure_binary (p : password) : res str :=
  match p with PText s => utf8_encode s | PBytes b => Ok b end.

Definition SP : str := lit " ".

(** ampauth.py:81, the bytes which are hashed: [b'%s %s %s' % (...)] *)
Definition hash_input (challenge nonce pw : str) : str :=
  challenge ++ SP ++ nonce ++ SP ++ pw.

(** ampauth.py:62-81.  SHA-1 is a parameter: every theorem holds for any
    function from byte strings to byte strings. *)
Definition calcResponse (sha1 : str -> str) (challenge nonce pw : str) : str :=
  sha1 (hash_input challenge nonce pw).

(** ampauth.py:99-111 [PasswordChallengeResponse.determineFrom]; the random
    nonce is an argument *)
Definition determineFrom (sha1 : str -> str) (nonce challenge : str) (p : password)
  : res (str * str) :=
  match ensure_binary p with
  | Ok pw => Ok (nonce, calcResponse sha1 challenge nonce pw)
  | Err e => Err e
  end.

(** ampauth.py:116-136 [_AMPUsernamePassword] without its username, and its
    [checkPassword] *)
Definition checkPassword (sha1 : str -> str) (challenge nonce response : str)
  (p : password) : res bool :=
  match ensure_binary p with
  | Ok pw => Ok (eqb (calcResponse sha1 challenge nonce pw) response)
  | Err e => Err e
  end.

(** ** One-time pads *)

(** ampauth.py:244-247 [OneTimePadChecker.requestAvatarId]: the new [pads]
    dictionary and the outcome *)
Definition requestAvatarId {A} (pads : dict str A) (padValue : str)
  : res A * dict str A :=
  match dget pads padValue with
  | Some a => (Ok a, ddel pads padValue)
  | None => (Err UnauthorizedLogin, pads)
  end.

(** a sequence of attempts on one checker *)
Fixpoint attempts {A} (pads : dict str A) (ps : list str) : list (res A) * dict str A :=
  match ps with
  | [] => ([], pads)
  | p :: t => let '(r, pads1) := requestAvatarId pads p in
              let '(rs, pads2) := attempts pads1 t in (r :: rs, pads2)
  end.

(** ** The server side of a connection *)

(** ampauth.py:116, 141: the credentials given to the portal *)
Inductive cred :=
| CPassword (username challenge nonce response : str)
| COneTimePad (pad : str).

(** the [boxReceiver] attribute: initially the protocol itself *)
Inductive receiver := RSelf | RAvatar (a : nat) | RNobody.

(** ampauth.py:176-177, 184-185.  [c_auth] holds the attributes [username] and
    [challenge] ([None] when unset).  [c_next] numbers the calls of
    [portal.login] and is not part of the code; the logout callable which the
    portal returns for login [i] is called [i] too. *)
Record cstate := {
  c_auth : option (str * str);
  c_logout : option nat;
  c_recv : receiver;
  c_next : nat
}.

Definition cinit : cstate :=
  {| c_auth := None; c_logout := None; c_recv := RSelf; c_next := 0 |}.

(** the commands a [CredReceiver] responds to, as received from the peer *)
Inductive command :=
| KPasswordLogin (username : str)
| KResponse (cnonce response : str)
| KOtpLogin (pad : str).

Inductive cop :=
| OCommand (c : command) (rnd : str)  (* a box with this command arrives; [rnd] is the
                                         next output of secureRandom(16) *)
| OFire (i : nat) (r : option nat)    (* the Deferred of login [i] fires: with an avatar,
                                         or with a failure *)
| OLost (reason : nat).               (* connectionLost(reason) *)

Inductive cevent :=
| EPortal (i : nat) (c : cred)        (* portal.login(c, None, IBoxReceiver) *)
| EStartRecv (a : nat)                (* avatar.startReceivingBoxes(boxSender) *)
| EStopRecv (r : receiver)            (* boxReceiver.stopReceivingBoxes *)
| ELogout (i : nat)                   (* logout() *)
| EForward (a : nat) (c : command).   (* avatar.ampBoxReceived(box) *)

Inductive cret :=
| AChallenge (ch : str)               (* {'challenge': ch} *)
| ADeferred (i : nat)                 (* not answered until login [i] fires *)
| AEmpty                              (* {} *)
| AFailed                             (* the portal's failure *)
| ANothing.

(** ampauth.py:189-201 [CredReceiver._login], up to the call of the portal *)
Definition c_login (s : cstate) (c : cred) : res cret * cstate * list cevent :=
  (Ok (ADeferred (c_next s)),
   {| c_auth := c_auth s; c_logout := c_logout s; c_recv := c_recv s;
      c_next := S (c_next s) |},
   [EPortal (c_next s) c]).

(** ampauth.py:194-199 [cbLoggedIn], run when login [i] succeeds with avatar [a] *)
Definition cbLoggedIn (s : cstate) (i a : nat) : res cret * cstate * list cevent :=
  (Ok AEmpty,
   {| c_auth := c_auth s; c_logout := Some i; c_recv := RAvatar a; c_next := c_next s |},
   [EStartRecv a]).

(** ampauth.py:179-186 [passwordLogin], 204-210 [passwordChallengeResponse],
    213-218 [otpLogin] *)
Definition respond (s : cstate) (c : command) (rnd : str) : res cret * cstate * list cevent :=
  match c with
  | KPasswordLogin u =>
      (Ok (AChallenge rnd),
       {| c_auth := Some (u, rnd); c_logout := c_logout s; c_recv := c_recv s;
          c_next := c_next s |}, [])
  | KResponse n r =>
      match c_auth s with
      | None => (Err AttributeError, s, [])
      | Some (u, ch) => c_login s (CPassword u ch n r)
      end
  | KOtpLogin p => c_login s (COneTimePad p)
  end.

(** ampauth.py:221-228 [connectionLost]; [AMP.connectionLost] of Twisted is the
    call of the receiver's [stopReceivingBoxes] *)
Definition connectionLost (s : cstate) : res cret * cstate * list cevent :=
  match c_logout s with
  | Some l => (Ok ANothing,
      {| c_auth := c_auth s; c_logout := None; c_recv := RNobody; c_next := c_next s |},
      [EStopRecv (c_recv s); ELogout l])
  | None => (Ok ANothing, s, [EStopRecv (c_recv s)])
  end.

(** One thing happening to a connection.  A box goes to the current
    [boxReceiver] (Twisted's [BinaryBoxProtocol]); only while that is the
    protocol itself do the responders of this class run.  Simplification: the
    avatar's methods, the logout callable and the portal return normally. *)
Definition cstep (s : cstate) (o : cop) : res cret * cstate * list cevent :=
  match o with
  | OCommand c rnd =>
      match c_recv s with
      | RSelf => respond s c rnd
      | RAvatar a => (Ok ANothing, s, [EForward a c])
      | RNobody => (Err AttributeError, s, [])   (* None.ampBoxReceived *)
      end
  | OFire i (Some a) => cbLoggedIn s i a
  | OFire i None => (Ok AFailed, s, [])
  | OLost _ => connectionLost s
  end.

(** ** Histories (latest entry first) *)

Record centry := { ce_op : cop; ce_res : res cret; ce_ev : list cevent }.
Definition chist := list centry.

Definition is_lost (e : centry) : bool := match ce_op e with OLost _ => true | _ => false end.
Definition lost (h : chist) : bool := existsb is_lost h.

(** the logins made in a history, with the credentials presented *)
Definition portal_calls (e : centry) : list (nat * cred) :=
  flat_map (fun ev => match ev with EPortal i c => [(i, c)] | _ => [] end) (ce_ev e).
Definition logins (h : chist) : list (nat * cred) := flat_map portal_calls h.

Definition fired (e : centry) : list nat :=
  match ce_op e with OFire i _ => [i] | _ => [] end.
Definition successes1 (e : centry) : list (nat * nat) :=
  match ce_op e with OFire i (Some a) => [(i, a)] | _ => [] end.
(** the logins which succeeded, with the avatars, latest first *)
Definition successes (h : chist) : list (nat * nat) := flat_map successes1 h.

Definition logouts1 (e : centry) : list nat :=
  flat_map (fun ev => match ev with ELogout i => [i] | _ => [] end) (ce_ev e).
(** the logout callables called *)
Definition logouts (h : chist) : list nat := flat_map logouts1 h.

(** the part of a history before the connection was lost *)
Fixpoint before_loss (h : chist) : chist :=
  match h with
  | [] => []
  | e :: h' => if is_lost e then h' else if lost h' then before_loss h' else e :: h'
  end.

(** What the environment may do: boxes arrive and the loss happens only before
    the loss; a login's Deferred fires at most once, after the login. *)
Definition allowed (h : chist) (o : cop) : Prop :=
  match o with
  | OCommand _ _ | OLost _ => lost h = false
  | OFire i _ => In i (map fst (logins h)) /\ ~ In i (flat_map fired h)
  end.

Inductive CReach : chist -> cstate -> Prop :=
| CR_init : CReach [] cinit
| CR_step h s o r s' ev : CReach h s -> allowed h o -> cstep s o = (r, s', ev) ->
    CReach ({| ce_op := o; ce_res := r; ce_ev := ev |} :: h) s'.

(** the username and challenge of the most recent answered PasswordLogin *)
Fixpoint last_challenge (h : chist) : option (str * str) :=
  match h with
  | [] => None
  | e :: h' => match ce_op e, ce_res e with
               | OCommand (KPasswordLogin u) _, Ok (AChallenge ch) => Some (u, ch)
               | _, _ => last_challenge h'
               end
  end.

(** a command presents credentials *)
Definition presents (c : command) (cr : cred) : Prop :=
  match c, cr with
  | KResponse n r, CPassword _ _ n' r' => n = n' /\ r = r'
  | KOtpLogin p, COneTimePad p' => p = p'
  | _, _ => False
  end.

Fixpoint crun (ops : list cop) (h : chist) (s : cstate) : chist * cstate :=
  match ops with
  | [] => (h, s)
  | o :: t => let '(r, s', ev) := cstep s o in
              crun t ({| ce_op := o; ce_res := r; ce_ev := ev |} :: h) s'
  end.

(** ** Proofs: responses *)

Lemma determine_then_check sha1 nonce ch p nonce' r :
  determineFrom sha1 nonce ch p = Ok (nonce', r) ->
  forall q, ensure_binary q = ensure_binary p ->
  checkPassword sha1 ch nonce' r q = Ok true.
Proof.
  unfold determineFrom, checkPassword. intros Hd q Hq. rewrite Hq.
  destruct (ensure_binary p) as [pw|]; [|discriminate].
  inversion Hd; subst. now rewrite eqb_refl.
Qed.

Lemma ensure_binary_text s b : utf8_encode s = Ok b ->
  ensure_binary (PText s) = ensure_binary (PBytes b).
Proof. intros H. exact H. Qed.

Lemma determine_total sha1 nonce ch p :
  (exists r, determineFrom sha1 nonce ch p = Ok (nonce, r))
  \/ (determineFrom sha1 nonce ch p = Err UnicodeError
      /\ exists s, p = PText s /\ forallb is_scalar s = false).
Proof.
  unfold determineFrom. destruct p as [s|b]; cbn [ensure_binary]; [|eauto].
  destruct (utf8_encode s) as [b|e] eqn:E; [eauto|]. right.
  assert (e = UnicodeError) by eauto using utf8_encode_err. subst. split; auto.
  exists s; split; auto. destruct (forallb is_scalar s) eqn:F; auto.
  apply utf8_encode_ok in F. destruct F as [b Hb]. congruence.
Qed.

Lemma app_inj_len {A} (a b c d : list A) : length a = length c ->
  a ++ b = c ++ d -> a = c /\ b = d.
Proof.
  revert c. induction a as [|x a IH]; destruct c as [|y c]; cbn; try discriminate; auto.
  intros Hl E. inversion E; subst. destruct (IH c) as [-> ->]; auto.
Qed.

Lemma hash_input_inj ch n pw ch' n' pw' :
  length ch = length ch' -> length n = length n' ->
  hash_input ch n pw = hash_input ch' n' pw' -> ch = ch' /\ n = n' /\ pw = pw'.
Proof.
  unfold hash_input. intros Hc Hn E.
  apply app_inj_len in E; auto. destruct E as [-> E].
  apply app_inj_len in E; auto. destruct E as [_ E].
  apply app_inj_len in E; auto. destruct E as [-> E].
  apply app_inj_len in E; auto. destruct E as [_ ->]. auto.
Qed.

Lemma response_binds sha1 ch n pw ch' n' p' pw' :
  length ch = length ch' -> length n = length n' ->
  ensure_binary p' = Ok pw' ->
  checkPassword sha1 ch' n' (calcResponse sha1 ch n pw) p' = Ok true ->
  (ch = ch' /\ n = n' /\ pw = pw')
  \/ (hash_input ch n pw <> hash_input ch' n' pw'
      /\ sha1 (hash_input ch n pw) = sha1 (hash_input ch' n' pw')).
Proof.
  intros Hc Hn Hp. unfold checkPassword. rewrite Hp. unfold calcResponse.
  destruct (eqb_spec (sha1 (hash_input ch' n' pw')) (sha1 (hash_input ch n pw))) as [E1|E1];
    [intros _|discriminate].
  destruct (eqb_spec (hash_input ch n pw) (hash_input ch' n' pw')) as [Eq|Ne].
  - left. eauto using hash_input_inj.
  - right. split; [exact Ne|now symmetry].
Qed.

Lemma check_iff sha1 ch n r p b :
  checkPassword sha1 ch n r p = Ok b ->
  exists pw, ensure_binary p = Ok pw /\
    (b = true <-> r = sha1 (ch ++ lit " " ++ n ++ lit " " ++ pw)).
Proof.
  unfold checkPassword, calcResponse. destruct (ensure_binary p) as [pw|]; [|discriminate].
  unfold hash_input, SP.
  destruct (eqb_spec (sha1 (ch ++ lit " " ++ n ++ lit " " ++ pw)) r) as [Er|Er]; intros E; injection E as <-;
    exists pw; split; auto; split; intros; congruence.
Qed.

(** ** Proofs: one-time pads *)

Section Pads.
  Context {A : Type}.

  (** what attempt number [length earlier] on pad [p] must answer *)
  Definition pad_answer (pads : dict str A) (earlier : list str) (p : str) : res A :=
    if memb p earlier then Err UnauthorizedLogin
    else match dget pads p with Some a => Ok a | None => Err UnauthorizedLogin end.

  (** the pads left after some attempts *)
  Definition unused (pads : dict str A) (used : list str) : dict str A :=
    filter (fun kv => negb (memb (fst kv) used)) pads.

  Lemma dget_unused pads used p :
    dget (unused pads used) p = if memb p used then None else dget pads p.
  Proof.
    induction pads as [|[k v] d IH]; cbn [unused filter dget fst].
    - now destruct (memb p used).
    - destruct (memb k used) eqn:E; cbn [negb].
      + fold (unused d used). rewrite IH. cbn [dget].
        destruct (eqb_spec p k) as [->|]; auto. now rewrite E.
      + cbn [dget]. fold (unused d used). destruct (eqb_spec p k) as [->|]; [now rewrite E|auto].
  Qed.

  Lemma filter_all {B} (f : B -> bool) l : Forall (fun x => f x = true) l -> filter f l = l.
  Proof. induction 1 as [|x l Hx Hl IH]; cbn; auto. now rewrite Hx, IH. Qed.

  Lemma filter_ddel (f : str * A -> bool) p : forall d, wf_dict d ->
    ddel (filter f d) p = filter (fun kv => f kv && negb (eqb p (fst kv))) d.
  Proof.
    induction d as [|[k v] d IH]; intros Hw; auto. inversion Hw as [|? ? Hk Hw']; subst.
    cbn [filter fst]. destruct (f (k, v)) eqn:E; cbn [andb].
    - cbn [ddel]. destruct (eqb_spec p k) as [->|N]; cbn [negb].
      + symmetry. erewrite filter_ext_in; [reflexivity|].
        intros [k' v'] Hin. cbn [fst].
        assert (k <> k'). { intros ->. apply Hk. apply (in_map fst) in Hin. exact Hin. }
        replace (eqb k k') with false by (symmetry; now apply eqb_neq). cbn [negb]. now rewrite andb_true_r.
      + now rewrite <- IH.
    - now apply IH.
  Qed.

  Lemma unused_step pads used p : wf_dict pads ->
    snd (requestAvatarId (unused pads used) p) = unused pads (p :: used).
  Proof.
    intros Hw. unfold requestAvatarId.
    assert (E : ddel (unused pads used) p = unused pads (p :: used)).
    { unfold unused. rewrite filter_ddel by auto. apply filter_ext. intros [k v]. cbn [fst].
      cbn [memb]. rewrite negb_orb, (eqb_sym k p). apply andb_comm. }
    destruct (dget (unused pads used) p) eqn:G; cbn [snd]; auto.
    rewrite <- E. symmetry. apply ddel_absent. now apply dget_None.
  Qed.

  Lemma attempts_spec pads : wf_dict pads -> forall ps used,
    let r := attempts (unused pads used) ps in
    snd r = unused pads (rev ps ++ used)
    /\ length (fst r) = length ps
    /\ forall i p, nth_error ps i = Some p ->
         nth_error (fst r) i = Some (pad_answer pads (rev (firstn i ps) ++ used) p).
  Proof.
    intros Hw. induction ps as [|p t IH]; intros used; cbv zeta.
    - cbn. repeat split. intros [|i] p; discriminate.
    - cbn [attempts].
      pose proof (unused_step used p Hw) as Hs.
      destruct (requestAvatarId (unused pads used) p) as [r pads1] eqn:E.
      cbn [snd] in Hs. subst pads1.
      specialize (IH (p :: used)). cbv zeta in IH.
      destruct (attempts (unused pads (p :: used)) t) as [rs pads2]. cbn [fst snd] in *.
      destruct IH as (IH1 & IH2 & IH3).
      assert (L : forall l, rev (p :: l) ++ used = rev l ++ p :: used)
        by (intros l; cbn [rev]; now rewrite <- app_assoc).
      rewrite L. split; [auto|]. split; [cbn; auto|].
      intros [|i] q; cbn [nth_error].
      + intros Hq; inversion Hq; subst. cbn [firstn rev app].
        f_equal. unfold requestAvatarId in E. rewrite dget_unused in E.
        unfold pad_answer. destruct (memb q used); [congruence|].
        destruct (dget pads q); congruence.
      + intros Hq. rewrite (IH3 i q) by auto. now rewrite <- L.
  Qed.

  Lemma unused_nil pads : unused pads [] = pads.
  Proof. unfold unused. apply filter_all. apply Forall_forall. auto. Qed.

  Lemma pad_answers (pads : dict str A) ps i p : wf_dict pads -> nth_error ps i = Some p ->
    nth_error (fst (attempts pads ps)) i =
      Some (match dget pads p with
            | Some a => if memb p (firstn i ps) then Err UnauthorizedLogin else Ok a
            | None => Err UnauthorizedLogin
            end).
  Proof.
    intros Hw Hi. destruct (attempts_spec Hw ps []) as (_ & _ & H3).
    rewrite unused_nil in H3. rewrite (H3 i p Hi). f_equal. unfold pad_answer.
    rewrite app_nil_r.
    assert (E : memb p (rev (firstn i ps)) = memb p (firstn i ps)).
    { apply eq_true_iff_eq. rewrite !memb_In. symmetry. apply in_rev. }
    rewrite E. destruct (dget pads p); destruct (memb p (firstn i ps)); auto.
  Qed.

  Lemma pads_left (pads : dict str A) ps q : wf_dict pads ->
    dget (snd (attempts pads ps)) q = if memb q ps then None else dget pads q.
  Proof.
    intros Hw. destruct (attempts_spec Hw ps []) as (H1 & _ & _).
    rewrite unused_nil in H1. rewrite H1, dget_unused, app_nil_r.
    assert (E : memb q (rev ps) = memb q ps).
    { apply eq_true_iff_eq. rewrite !memb_In. symmetry. apply in_rev. }
    now rewrite E.
  Qed.

  (** how many of the attempts were with [p] and succeeded *)
  Fixpoint accepted (p : str) (ps : list str) (rs : list (res A)) : nat :=
    match ps, rs with
    | q :: ps', Ok _ :: rs' => (if eqb q p then 1 else 0) + accepted p ps' rs'
    | _ :: ps', _ :: rs' => accepted p ps' rs'
    | _, _ => 0
    end.

  Lemma accepted_count (pads : dict str A) p : wf_dict pads -> forall ps,
    accepted p ps (fst (attempts pads ps)) = if din pads p && memb p ps then 1 else 0.
  Proof.
    intros Hw.
    assert (G : forall ps used, accepted p ps (fst (attempts (unused pads used) ps))
                = if din pads p && negb (memb p used) && memb p ps then 1 else 0).
    { induction ps as [|q t IH]; intros used; cbn [attempts fst accepted].
      - cbn [memb]. now rewrite andb_false_r.
      - pose proof (unused_step used q Hw) as Hs.
        destruct (requestAvatarId (unused pads used) q) as [r pads1] eqn:E.
        cbn [snd] in Hs. subst pads1.
        specialize (IH (q :: used)).
        destruct (attempts (unused pads (q :: used)) t) as [rs pads2]. cbn [fst] in *.
        cbn [accepted]. rewrite IH.
        unfold requestAvatarId in E. rewrite dget_unused in E.
        assert (M : forall l, memb p (q :: l) = eqb p q || memb p l) by reflexivity.
        rewrite !M. rewrite (eqb_sym q p).
        destruct (eqb_spec p q) as [->|N]; cbn [orb negb].
        + rewrite andb_false_r. cbn [andb].
          destruct (memb q used); cbn [negb].
          * inversion E; subst. now rewrite !andb_false_r.
          * unfold din. destruct (dget pads q); inversion E; subst; reflexivity.
        + destruct r; reflexivity. }
    intros ps. specialize (G ps []). rewrite unused_nil in G. rewrite G. cbn [memb negb].
    now rewrite andb_true_r.
  Qed.
End Pads.

(** ** Proofs: connections *)

Lemma crun_reach ops : forall h s, CReach h s ->
  (forall pre o post, ops = pre ++ o :: post -> allowed (fst (crun pre h s)) o) ->
  CReach (fst (crun ops h s)) (snd (crun ops h s)).
Proof.
  induction ops as [|o t IH]; intros h s Hr Ha; auto.
  cbn [crun]. destruct (cstep s o) as [[r s'] ev] eqn:E.
  apply IH.
  - econstructor; eauto. exact (Ha [] o t eq_refl).
  - intros pre o' post Ht. specialize (Ha (o :: pre) o' post).
    cbn [crun app] in Ha. rewrite E in Ha. apply Ha. now rewrite Ht.
Qed.

(** a decidable version of [allowed], for the examples *)
Definition allowedb (h : chist) (o : cop) : bool :=
  match o with
  | OCommand _ _ | OLost _ => negb (lost h)
  | OFire i _ => existsb (Nat.eqb i) (map fst (logins h))
                 && negb (existsb (Nat.eqb i) (flat_map fired h))
  end.

Lemma allowedb_ok h o : allowedb h o = true -> allowed h o.
Proof.
  assert (M : forall i l, existsb (Nat.eqb i) l = true <-> In i l).
  { intros i l. rewrite existsb_exists. split.
    - intros (x & Hx & E). apply Nat.eqb_eq in E. now subst.
    - intros Hi. exists i. split; auto. apply Nat.eqb_refl. }
  destruct o as [c r|i r|r]; cbn.
  - now destruct (lost h).
  - rewrite andb_true_iff, negb_true_iff, M. intros [H1 H2]. split; auto.
    rewrite <- M. congruence.
  - now destruct (lost h).
Qed.

Fixpoint okrun (ops : list cop) (h : chist) (s : cstate) : bool :=
  match ops with
  | [] => true
  | o :: t => allowedb h o && let '(r, s', ev) := cstep s o in
              okrun t ({| ce_op := o; ce_res := r; ce_ev := ev |} :: h) s'
  end.

Lemma okrun_reach ops : forall h s, CReach h s -> okrun ops h s = true ->
  CReach (fst (crun ops h s)) (snd (crun ops h s)).
Proof.
  induction ops as [|o t IH]; intros h s Hr Ha; auto.
  cbn [crun okrun] in *. destruct (cstep s o) as [[r s'] ev] eqn:E.
  apply andb_true_iff in Ha. destruct Ha as [H1 H2].
  apply IH; auto. econstructor; eauto. now apply allowedb_ok.
Qed.

Definition last_success (h : chist) : option (nat * nat) := hd_error (successes h).

(** the receiver, read off the history *)
Record cinv (h : chist) (s : cstate) : Prop := {
  ci_auth : c_auth s = last_challenge h;
  ci_next : c_next s = length (logins h);
  ci_ids : forall i, In i (map fst (logins h)) <-> i < length (logins h);
  ci_nodup : NoDup (map fst (logins h));
  ci_live : lost h = false ->
     logouts h = []
     /\ c_logout s = option_map fst (last_success h)
     /\ c_recv s = match last_success h with Some (_, a) => RAvatar a | None => RSelf end;
  ci_lost : lost h = true ->
     logouts h = match last_success (before_loss h) with Some (i, _) => [i] | None => [] end;
  ci_recv : forall a, c_recv s = RAvatar a -> exists i, In (i, a) (successes h);
  ci_fire : forall i a, In (i, a) (successes h) -> In i (map fst (logins h));
  ci_prov : forall i cr, In (i, cr) (logins h) ->
     exists e, In e h /\ exists c rnd, ce_op e = OCommand c rnd /\ presents c cr
}.

Lemma before_loss_cons e h : is_lost e = false -> lost h = true ->
  before_loss (e :: h) = before_loss h.
Proof. intros H1 H2. cbn [before_loss]. now rewrite H1, H2. Qed.

Lemma ids_S {A} (l : list (nat * A)) c :
  (forall i, In i (map fst l) <-> i < length l) -> NoDup (map fst l) ->
  (forall i, In i (map fst ((length l, c) :: l)) <-> i < S (length l))
  /\ NoDup (map fst ((length l, c) :: l)).
Proof.
  intros H1 H2. split.
  - intros i. cbn [map fst In]. rewrite H1. lia.
  - cbn [map fst]. constructor; auto. rewrite H1. lia.
Qed.


Lemma last_success_cons e h : last_success (e :: h) =
  match successes1 e with x :: _ => Some x | [] => last_success h end.
Proof.
  unfold last_success, successes. cbn [flat_map].
  destruct (successes1 e); reflexivity.
Qed.

(** a step which only adds an entry without effect on the summaries *)
Lemma cinv_same h s e :
  cinv h s -> is_lost e = false -> portal_calls e = [] -> logouts1 e = [] ->
  successes1 e = [] -> last_challenge (e :: h) = last_challenge h ->
  cinv (e :: h) s.
Proof.
  intros [] Hl Hp Hlo Hs Hc.
  assert (L : logins (e :: h) = logins h) by (unfold logins; cbn; now rewrite Hp).
  assert (S : successes (e :: h) = successes h) by (unfold successes; cbn; now rewrite Hs).
  assert (O : logouts (e :: h) = logouts h) by (unfold logouts; cbn; now rewrite Hlo).
  assert (T : lost (e :: h) = lost h) by (unfold lost; cbn; now rewrite Hl).
  constructor; rewrite ?L, ?S, ?O, ?T, ?Hc; auto.
  - rewrite last_success_cons, Hs. auto.
  - intros Hlt. rewrite before_loss_cons; auto.
  - intros i cr Hi. destruct (ci_prov0 i cr Hi) as (e0 & He & P).
    exists e0. split; [now right|auto].
Qed.

(** a login *)
Lemma cinv_login h s e c cr rnd :
  cinv h s -> lost h = false ->
  ce_op e = OCommand c rnd -> presents c cr -> ce_ev e = [EPortal (c_next s) cr] ->
  cinv (e :: h) {| c_auth := c_auth s; c_logout := c_logout s; c_recv := c_recv s;
                   c_next := S (c_next s) |}.
Proof.
  intros [] Hnl Ho Hpr Hev.
  assert (Hl : is_lost e = false) by (unfold is_lost; now rewrite Ho).
  assert (Hp : portal_calls e = [(c_next s, cr)]) by (unfold portal_calls; now rewrite Hev).
  assert (Hlo : logouts1 e = []) by (unfold logouts1; now rewrite Hev).
  assert (Hs : successes1 e = []) by (unfold successes1; now rewrite Ho).
  assert (Hc : last_challenge (e :: h) = last_challenge h).
  { cbn [last_challenge]. rewrite Ho. destruct c; auto. destruct cr; contradiction. }
  assert (L : logins (e :: h) = (length (logins h), cr) :: logins h)
    by (unfold logins at 1; cbn; rewrite Hp, ci_next0; reflexivity).
  assert (S : successes (e :: h) = successes h) by (unfold successes; cbn; now rewrite Hs).
  assert (O : logouts (e :: h) = logouts h) by (unfold logouts; cbn; now rewrite Hlo).
  assert (T : lost (e :: h) = lost h) by (unfold lost; cbn; now rewrite Hl).
  destruct (ids_S (logins h) cr ci_ids0 ci_nodup0) as [I1 I2].
  constructor; rewrite ?L, ?S, ?O, ?T, ?Hc; cbn [c_auth c_logout c_recv c_next length]; auto.
  - rewrite last_success_cons, Hs. auto.
  - congruence.
  - intros i a Hi. cbn [map In]. right. eauto.
  - intros i cr' [Hi|Hi].
    + inversion Hi; subst. exists e. split; [now left|]. eauto.
    + destruct (ci_prov0 i cr' Hi) as (e0 & He & P). exists e0. split; [now right|auto].
Qed.

Lemma reach_cinv h s : CReach h s -> cinv h s.
Proof.
  induction 1 as [|h s o r s' ev Hr IH Ha E].
  - constructor; try reflexivity; try discriminate.
    + cbn. intros i. split; [tauto|lia].
    + constructor.
    + intros _. repeat split.
    + cbn. tauto.
    + cbn. tauto.
  - destruct o as [c rnd|i ra|re]; cbn [cstep] in E; cbn [allowed] in Ha.
    + destruct (c_recv s) as [|a|] eqn:Ercv.
      * destruct c as [u|n rs|p]; cbn [respond] in E.
        -- inversion E; subst. destruct IH. constructor; cbn [c_auth c_logout c_recv c_next]; auto.
           ++ intros Hl. exfalso. unfold lost in Hl. cbn in Hl. unfold lost in Ha. congruence.
           ++ intros i cr Hi. destruct (ci_prov0 i cr Hi) as (e0 & He & P).
              exists e0. split; [now right|auto].
        -- destruct (c_auth s) as [[u ch]|] eqn:Eau.
           ++ unfold c_login in E. inversion E; subst.
              apply cinv_login with (c := KResponse n rs) (cr := CPassword u ch n rs) (rnd := rnd);
                cbn; auto.
           ++ inversion E; subst. apply cinv_same; auto.
        -- unfold c_login in E. inversion E; subst.
           apply cinv_login with (c := KOtpLogin p) (cr := COneTimePad p) (rnd := rnd);
             cbn; auto.
      * inversion E; subst. apply cinv_same; auto. cbn. destruct c; auto.
      * inversion E; subst. apply cinv_same; auto. cbn. destruct c; auto.
    + destruct ra as [a|].
      * unfold cbLoggedIn in E. inversion E; subst. destruct IH.
        constructor; cbn [c_auth c_logout c_recv c_next]; auto.
        -- intros Hl. rewrite last_success_cons. cbn [successes1 ce_op option_map fst].
           destruct (ci_live0 Hl) as (? & ? & ?). repeat split; auto.
        -- intros Hl. change (lost h = true) in Hl.
           rewrite before_loss_cons by auto. exact (ci_lost0 Hl).
        -- intros a' Ea. inversion Ea; subst. exists i. cbn. auto.
        -- intros i' a'. cbn. intros [Hi|Hi].
           ++ inversion Hi; subst. exact (proj1 Ha).
           ++ exact (ci_fire0 _ _ Hi).
        -- intros j cr Hi. destruct (ci_prov0 j cr Hi) as (e0 & He & P).
           exists e0. split; [now right|auto].
      * inversion E; subst. apply cinv_same; auto.
    + unfold connectionLost in E. destruct IH.
      destruct (ci_live0 Ha) as (A1 & A2 & A3).
      destruct (c_logout s) as [l|] eqn:El; inversion E; subst.
      * constructor; cbn [c_auth c_logout c_recv c_next]; auto; try discriminate.
        -- intros _. cbn [before_loss is_lost ce_op].
           unfold logouts in *. cbn. rewrite A1. destruct (last_success h) as [[i a]|]; inversion A2.
           reflexivity.
        -- intros j cr Hi. destruct (ci_prov0 j cr Hi) as (e0 & He & P).
           exists e0. split; [now right|auto].
      * constructor; cbn [c_auth c_logout c_recv c_next]; auto; try discriminate.
        -- intros _. cbn [before_loss is_lost ce_op].
           unfold logouts in *. cbn. rewrite A1. destruct (last_success h) as [[i a]|]; inversion A2.
           reflexivity.
        -- intros j cr Hi. destruct (ci_prov0 j cr Hi) as (e0 & He & P).
           exists e0. split; [now right|auto].
Qed.

Lemma logouts_spec h s : CReach h s ->
  logouts h = if lost h then match last_success (before_loss h) with
                             | Some (i, _) => [i] | None => [] end
              else [].
Proof.
  intros Hr. apply reach_cinv in Hr. destruct Hr.
  destruct (lost h); [now apply ci_lost0|]. now destruct (ci_live0 eq_refl).
Qed.

Lemma successes_split h : exists late, successes h = late ++ successes (before_loss h)
  \/ lost h = false.
Proof.
  induction h as [|e h IH]; [exists []; now right|].
  cbn [before_loss]. destruct (is_lost e) eqn:El.
  - exists []. left. unfold is_lost in El. unfold successes. cbn. unfold successes1.
    destruct (ce_op e); try discriminate. reflexivity.
  - destruct (lost h) eqn:Eh.
    + destruct IH as (late & [IH|IH]); [|discriminate].
      exists (successes1 e ++ late). left. unfold successes in *. cbn. rewrite IH.
      now rewrite app_assoc.
    + exists []. right. unfold lost in *. cbn. now rewrite El, Eh.
Qed.

(** exactly one login, completed before the loss *)
Lemma single_logout h s i a : CReach h s -> lost h = true ->
  successes h = [(i, a)] -> successes (before_loss h) = successes h -> logouts h = [i].
Proof.
  intros Hr Hl Hs Hb. rewrite (logouts_spec Hr), Hl. unfold last_success.
  rewrite Hb, Hs. reflexivity.
Qed.

Lemma logout_only_after_success h s i : CReach h s -> In i (logouts h) ->
  lost h = true /\ (exists a, In (i, a) (successes h)) /\ logouts h = [i].
Proof.
  intros Hr. rewrite (logouts_spec Hr). destruct (lost h) eqn:Hl; [|intros []].
  destruct (successes_split h) as (late & [E|E]); [|congruence].
  unfold last_success. destruct (successes (before_loss h)) as [|[j a] t] eqn:Eb; cbn; [tauto|].
  intros [<-|[]]. repeat split. exists a. rewrite E. apply in_or_app. right. now left.
Qed.

Lemma receiver_provenance h s a : CReach h s -> c_recv s = RAvatar a ->
  exists i cr, In (i, a) (successes h) /\ In (i, cr) (logins h)
    /\ exists e, In e h /\ exists c rnd, ce_op e = OCommand c rnd /\ presents c cr.
Proof.
  intros Hr Hc. apply reach_cinv in Hr. destruct Hr.
  destruct (ci_recv0 a Hc) as (i & Hi).
  pose proof (ci_fire0 _ _ Hi) as Hf. apply in_map_iff in Hf.
  destruct Hf as ([i' cr] & E & Hin). cbn in E. subst i'.
  exists i, cr. repeat split; auto. eauto.
Qed.

Lemma receiver_current h s : CReach h s -> lost h = false ->
  c_recv s = match last_success h with Some (_, a) => RAvatar a | None => RSelf end.
Proof. intros Hr Hl. apply reach_cinv in Hr. destruct Hr. now apply ci_live0. Qed.

Lemma failed_login_no_change s i : cstep s (OFire i None) = (Ok AFailed, s, []).
Proof. reflexivity. Qed.

(** at every moment *)
Lemma reach_suffix h1 : forall h2 s, CReach (h1 ++ h2) s -> exists s2, CReach h2 s2.
Proof.
  induction h1 as [|e h1 IH]; intros h2 s Hr; [eauto|].
  inversion Hr; subst. eauto.
Qed.

Lemma password_credentials h1 e h2 s i u ch n r :
  CReach (h1 ++ e :: h2) s -> In (EPortal i (CPassword u ch n r)) (ce_ev e) ->
  last_challenge h2 = Some (u, ch) /\ exists rnd, ce_op e = OCommand (KResponse n r) rnd.
Proof.
  intros Hr Hin. apply reach_suffix in Hr. destruct Hr as [s2 Hr].
  inversion Hr as [|h0 s0 o r0 s' ev Hr0 Ha E]; subst. cbn [ce_ev ce_op] in *.
  apply reach_cinv in Hr0. destruct Hr0.
  destruct o as [c rnd|j [a|]|re]; cbn [cstep] in E.
  - destruct (c_recv s0).
    + destruct c as [u'|n' r'|p]; cbn [respond] in E.
      * inversion E; subst. destruct Hin.
      * rewrite <- ci_auth0. destruct (c_auth s0) as [[u' ch']|]; inversion E; subst.
        -- destruct Hin as [Hin|[]]. inversion Hin; subst. eauto.
        -- destruct Hin.
      * inversion E; subst. destruct Hin as [Hin|[]]. discriminate.
    + inversion E; subst. destruct Hin as [Hin|[]]. discriminate.
    + inversion E; subst. destruct Hin.
  - inversion E; subst. destruct Hin as [Hin|[]]. discriminate.
  - inversion E; subst. destruct Hin.
  - unfold connectionLost in E. destruct (c_logout s0); inversion E; subst.
    + destruct Hin as [Hin|[Hin|[]]]; discriminate.
    + destruct Hin as [Hin|[]]; discriminate.
Qed.

Lemma response_without_challenge h s n r rnd : CReach h s -> last_challenge h = None ->
  exists x ev, cstep s (OCommand (KResponse n r) rnd) = (x, s, ev)
    /\ (forall i cr, ~ In (EPortal i cr) ev)
    /\ (c_recv s = RSelf -> x = Err AttributeError /\ ev = []).
Proof.
  intros Hr Hn. apply reach_cinv in Hr. destruct Hr. cbn [cstep respond].
  rewrite Hn in ci_auth0. rewrite ci_auth0.
  destruct (c_recv s).
  - exists (Err AttributeError), []. repeat split; auto.
  - exists (Ok ANothing), [EForward a (KResponse n r)]. repeat split; try discriminate.
    intros i cr [Hx|[]]; discriminate.
  - exists (Err AttributeError), []. repeat split; auto.
Qed.

(** the whole exchange: PasswordLogin, then the response the client's
    [login] (ampauth.py:274-300) derives from the challenge it was sent *)
Lemma exchange sha1 h s u ch rnd2 nonce p :
  CReach h s -> c_recv s = RSelf -> lost h = false ->
  exists s1, cstep s (OCommand (KPasswordLogin u) ch) = (Ok (AChallenge ch), s1, [])
    /\ forall n r, determineFrom sha1 nonce ch p = Ok (n, r) ->
       exists s2 i, cstep s1 (OCommand (KResponse n r) rnd2)
                    = (Ok (ADeferred i), s2, [EPortal i (CPassword u ch n r)])
         /\ (forall q, checkPassword sha1 ch n r q = Ok true <->
               exists pw, ensure_binary q = Ok pw
                 /\ sha1 (ch ++ lit " " ++ n ++ lit " " ++ pw) = r)
         /\ checkPassword sha1 ch n r p = Ok true.
Proof.
  intros Hr Hc Hl. cbn [cstep]. rewrite Hc. cbn [respond].
  eexists. split; [reflexivity|]. cbn [c_recv c_auth c_next]. rewrite Hc. cbn [respond].
  intros n r Hd. cbn [c_auth c_next]. unfold c_login. cbn [c_next].
  do 2 eexists. split; [reflexivity|]. split.
  - intros q. split.
    + intros Hq. destruct (check_iff _ _ _ _ _ Hq) as (pw & Hp & Hi).
      exists pw. split; auto. symmetry. now apply Hi.
    + intros (pw & Hp & Hi). unfold checkPassword. rewrite Hp. unfold calcResponse, hash_input, SP.
      rewrite Hi. now rewrite eqb_refl.
  - eapply determine_then_check; eauto.
Qed.
