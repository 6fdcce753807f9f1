(** * Property C123: a Juice command is a call of its responder
    (epsilon/juice.py).

    [Joined lower dispatch acts w] and [well_behaved]: see JuicePairProps.v.
    [called h r c kw]: history [h] made request [r] by [do] of a command of
    class [c] with the keywords [kw].  [caller_gets s c f]: what the callbacks
    of [do] make of what the request fires with.  [impl s c kw r]: the
    responder of [c] at end [s], called with [kw], can return or raise [r];
    [responding]: every command that is finished, finished in that way.
    [conveys s c subs objs got]: [got] has the names of the schema [subs], with
    the values that [objs] gives them under any spelling (None for those not
    given), and the extra arguments of [c] at end [s].  [wf_decl],
    [sendable_objects]: usable names, and values of the right classes;
    [lacking]: no value for a name that is not optional.  [exc_of x]: an
    exception raised by the code of juice.py. *)

From Coq Require Import ZArith NArith String List Bool Arith Lia.
From Verif Require Import Py PyStr PyNum PyInt PyHex Liner JuiceCodec JuiceStream JuiceArgs JuiceProto JuiceDispatch JuicePair JuiceCall.
Import ListNotations.
Open Scope nat_scope.

Definition lowers (lower : str -> str) : Prop := forall s, is_ascii s = true -> lower s = map ascii_lower s.
Definition well_behaved (lower : str -> str) (acts : bool -> list entry -> list event) : Prop :=
  forall s h, Forall (good lower) (acts s h).

Theorem C123_call : forall lower oenc odec mro RJE URJE remote_text exc_of xtra, lowers lower -> memb RJE (mro RJE) = true ->
  forall dispatch acts impl decls, well_behaved lower acts ->
  forall w s r f c kw, Joined lower dispatch acts w ->
  responding lower oenc odec mro RJE remote_text exc_of xtra impl decls (negb s) (hist (w (negb s))) ->
  decls (d_name c) = Some c -> wf_decl lower c ->
  sendable_objects lower oenc odec (d_args c) kw -> called lower oenc (hist (w s)) r c kw ->
  In (OFire r f) (outs_of (hist (w s))) ->
  (f = Lost /\ was_lost (hist (w s)) = true) \/
  exists got result, conveys lower xtra (negb s) c (d_args c) kw got /\ impl (negb s) c got result /\
    match result with
    | Returns objs =>
        (sendable_objects lower oenc odec (d_resp c) objs ->
           exists out, caller_gets lower odec URJE xtra s c f = Gets out /\ conveys lower xtra s c (d_resp c) objs out) /\
        (lacking lower (d_resp c) objs -> Forall (fun kc => exists code, snd kc = PS code) (declared (d_errs c)) ->
           exists x cls text, caller_gets lower odec URJE xtra s c f = GetsRaise cls text /\ raised_as mro RJE URJE c (exc_of x) cls text)
    | Raises e => Forall (fun kc => exists code, snd kc = PS code) (declared (d_errs c)) ->
        exists cls text, caller_gets lower odec URJE xtra s c f = GetsRaise cls text /\ raised_as mro RJE URJE c e cls text
    end.
Proof.
  intros lower oenc odec mro RJE URJE rt exc_of xtra Hl Hm dispatch acts impl decls Ha w s r f c kw.
  exact (call_right lower oenc odec mro RJE URJE rt exc_of xtra Hl dispatch acts Ha impl decls Hm w s r f c kw).
Qed.
Print Assumptions C123_call.

(** the responder is called once for a call *)
Theorem C123_once : forall lower oenc, lowers lower -> forall dispatch acts, well_behaved lower acts ->
  forall w s r f c kw, Joined lower dispatch acts w -> called lower oenc (hist (w s)) r c kw ->
  In (OFire r f) (outs_of (hist (w s))) -> f <> Lost ->
  exists t, In (r, t) (asked (outs_of (hist (w s)))) /\
    exists id, forall id', (exists b, In (ORun id' b) (outs_of (hist (w (negb s)))) /\ dget b (lit "_ask") = Some t) <-> id' = id.
Proof.
  intros lower oenc Hl dispatch acts Ha w s r f c kw HJ Hc Hf Hn.
  assert (H : exists t oc, served (hist (w s)) (hist (w (negb s))) r t oc).
  { pose proof (fired_right lower Hl dispatch acts Ha w s r f HJ Hf) as H. destruct f as [b|c0 d|]; [| |congruence].
    - destruct H as (t & k & d & H & _). eauto.
    - destruct H as (t & oc & H & _). eauto. }
  destruct H as (t & oc & cmd & d & id & cb & Hq & Hr & Hd & Hu & _). exists t.
  split; [eapply requested_asked; eauto|]. exists id. intros id'. split.
  - intros (b & Hb & Ht). eauto.
  - intros ->. exists cb. split; [exact Hr|]. rewrite (Hd (lit "_ask")). apply dget_dset_eq.
Qed.
Print Assumptions C123_once.

(** when nothing is left to do, every call has returned *)
Theorem C123_returns : forall lower oenc, lowers lower -> forall dispatch acts, well_behaved lower acts ->
  forall w s r c kw, Joined lower dispatch acts w -> at_rest w -> called lower oenc (hist (w s)) r c kw ->
  exists f, In (OFire r f) (outs_of (hist (w s))) /\ f <> Lost.
Proof.
  intros lower oenc Hl dispatch acts Ha w s r c kw.
  exact (call_returns lower oenc Hl dispatch acts Ha w s r c kw).
Qed.
Print Assumptions C123_returns.

(** arguments and results of the right classes can be sent *)
Theorem C123_accepted : forall lower oenc odec mro RJE remote_text exc_of xtra, lowers lower -> forall c, wf_decl lower c ->
  (forall kw, sendable_objects lower oenc odec (d_args c) kw ->
     exists b, do_box lower oenc c kw = Ok b /\ forall q, good lower (ESend (d_name c) KPlain b q)) /\
  (forall s b kw objs id, call_args lower odec xtra s c b = Ok kw -> sendable_objects lower oenc odec (d_resp c) objs ->
     good lower (EComplete id (respond lower oenc odec mro RJE remote_text exc_of xtra s c b (Returns objs)))).
Proof.
  intros lower oenc odec mro RJE rt exc_of xtra Hl c Hw. split.
  - intros kw. exact (do_good lower oenc odec Hl c kw Hw).
  - intros s b kw objs id. exact (respond_good lower oenc odec mro RJE rt exc_of xtra Hl s c b kw objs id Hw).
Qed.
Print Assumptions C123_accepted.

(** ** An exchange: 17 / 5, and 1 / 0 *)

Definition lower0 : str -> str := map ascii_lower.
Definition noc : N -> val -> res val := fun _ _ => Err TypeError.
Definition mro0 (c : N) : list N := [c].
Definition RJE0 : N := 1.
Definition text0 : pv -> pv -> str := fun _ _ => [].
Definition exc0 (e : exn) : excv := Exc 2 [] (PS []) (PS []) false.
Definition xtra0 (s : bool) (n : str) : val := VText (if s then lit "server" else lit "client").

Definition Divide : decl :=
  Decl (lit "Divide") [(lit "numerator", false, CInteger); (lit "denominator", false, CInteger)] [(lit "quotient", false, CInteger)]
       [lit "peer"] (Cmd (Some [(7%N, PS (lit "ZERO"))]) None [None] None).

Definition divide (kw : dict str val) : ret :=
  match dget kw (lit "numerator"), dget kw (lit "denominator") with
  | Some (VInt a), Some (VInt b) =>
      if (b =? 0)%Z then Raises (Exc 7 (lit "divided by zero") (PS []) (PS []) false) else Returns [(lit "quotient", VInt (a / b))]
  | _, _ => Raises (Exc 8 [] (PS []) (PS []) false)
  end.

Definition decls0 (n : str) : option decl := if eqb n (lit "Divide") then Some Divide else None.
Definition impl0 (s : bool) (c : decl) (kw : dict str val) (r : ret) : Prop := r = divide kw.

Definition respond0 (b : dict str str) : outcome :=
  respond lower0 noc noc mro0 RJE0 text0 exc0 xtra0 false Divide b
    (match call_args lower0 noc xtra0 false Divide b with Ok kw => divide kw | Err _ => Raises (exc0 TypeError) end).

Definition acts0 (s : bool) (h : list entry) : list event :=
  match s, rev h with
  | false, En _ [ORun id b] _ :: _ => [EComplete id (respond0 b)]
  | _, _ => []
  end.

Lemma lower0_ok : lowers lower0.
Proof. intros s _. reflexivity. Qed.

Lemma divide_wf : wf_decl lower0 Divide.
Proof.
  split; [|split; [|reflexivity]].
  - split; [cbn; repeat constructor; cbn; intuition discriminate|]. split; [repeat constructor|].
    intros n [<-|[<-|[]]] H; vm_compute in H; intuition discriminate.
  - split; [cbn; repeat constructor; cbn; intuition discriminate|]. split; [repeat constructor|].
    intros n [<-|[]] H; vm_compute in H; intuition discriminate.
Qed.

Lemma quotient_ok z : sendable_objects lower0 noc noc (d_resp Divide) [(lit "quotient", VInt z)].
Proof.
  split; [repeat constructor; intros []|]. intros a [<-|[]]. right. exists (VInt z).
  split; [exists (lit "quotient"); split; [now left|vm_compute; reflexivity]|]. right. split; [exists z; reflexivity|]. intros H. vm_compute in H. discriminate.
Qed.

Lemma numbers_ok a b : sendable_objects lower0 noc noc (d_args Divide) [(lit "Numerator", VInt a); (lit "denominator", VInt b)].
Proof.
  split; [vm_compute; repeat constructor; cbn; intuition discriminate|]. intros x [<-|[<-|[]]]; right.
  - exists (VInt a). split; [exists (lit "Numerator"); split; [now left|vm_compute; reflexivity]|].
    right. split; [exists a; reflexivity|]. intros H. vm_compute in H. discriminate.
  - exists (VInt b). split; [exists (lit "denominator"); split; [right; now left|vm_compute; reflexivity]|].
    right. split; [exists b; reflexivity|]. intros H. vm_compute in H. discriminate.
Qed.

Lemma respond0_good id b : good lower0 (EComplete id (respond0 b)).
Proof.
  unfold respond0. destruct (call_args lower0 noc xtra0 false Divide b) as [kw|e] eqn:Ea.
  - assert (Hd : (exists z, divide kw = Returns [(lit "quotient", VInt z)]) \/
                 divide kw = Raises (Exc 7 (lit "divided by zero") (PS []) (PS []) false) \/ divide kw = Raises (Exc 8 [] (PS []) (PS []) false)).
    { unfold divide. destruct (dget kw (lit "numerator")) as [[]|]; auto. destruct (dget kw (lit "denominator")) as [[]|]; auto.
      destruct (_ =? 0)%Z; eauto. }
    destruct Hd as [[z ->]|[->| ->]].
    + eapply (respond_good lower0 noc noc mro0 RJE0 text0 exc0 xtra0 lower0_ok); [apply divide_wf|exact Ea|apply quotient_ok].
    + unfold respond. rewrite Ea. split; now apply legible_text.
    + unfold respond. rewrite Ea. exact I.
  - unfold respond. rewrite Ea. exact I.
Qed.

Lemma acts0_ok : well_behaved lower0 acts0.
Proof.
  intros s h. unfold acts0. destruct s; [constructor|]. destruct (rev h) as [|[e [|x [|? ?]] y] l]; try apply Forall_nil;
    destruct x; try apply Forall_nil. apply Forall_cons; [apply respond0_good|apply Forall_nil].
Qed.

Definition kw1 : dict str val := [(lit "Numerator", VInt 17); (lit "denominator", VInt 5)].
Definition kw2 : dict str val := [(lit "Numerator", VInt 1); (lit "denominator", VInt 0)].
Definition box_of (kw : dict str val) : box := match do_box lower0 noc Divide kw with Ok b => b | Err _ => [] end.
Definition script : list act :=
  [ACall true (ESend (lit "Divide") KPlain (box_of kw1) true); ACall true (ESend (lit "Divide") KPlain (box_of kw2) true);
   ADeliver false 9; ADeliver false 500; ADeliver true 5; ADeliver true 500].

Lemma box_good kw : sendable_objects lower0 noc noc (d_args Divide) kw -> do_box lower0 noc Divide kw = Ok (box_of kw) /\
  good lower0 (ESend (lit "Divide") KPlain (box_of kw) true).
Proof.
  intros H. destruct (do_good lower0 noc noc lower0_ok Divide kw divide_wf H) as (b & E & Hg).
  unfold box_of. rewrite E. split; [reflexivity|apply Hg].
Qed.

Definition final : world := played lower0 (fun _ _ => None) acts0 script.

Lemma final_joined : Joined lower0 (fun _ _ => None) acts0 final.
Proof.
  apply played_joined. unfold script. repeat apply Forall_cons; try apply Forall_nil; try exact I.
  - apply box_good, numbers_ok.
  - apply box_good, numbers_ok.
Qed.

Lemma final_responding : responding lower0 noc noc mro0 RJE0 text0 exc0 xtra0 impl0 decls0 false (hist (final false)).
Proof.
  assert (Hh : exists h, h = hist (final false) /\
    forall id b oc o x, In (ORun id b) (outs_of h) -> In (En (EComplete id oc) o x) h -> oc = respond0 b).
  { let h := eval vm_compute in (hist (final false)) in exists h. split; [vm_compute; reflexivity|].
    intros id b oc o x Hr Hf. cbn in Hr.
    repeat (destruct Hr as [Hr|Hr];
      [first [discriminate Hr | injection Hr as <- <-;
         repeat (destruct Hf as [Hf|Hf]; [first [discriminate Hf | injection Hf as <- _ _; vm_compute; reflexivity]|]); destruct Hf]|]).
    destruct Hr. }
  destruct Hh as (h & -> & Hh). intros id b oc name c Hr (o & x & Hf) Hn Hd.
  pose proof (Hh id b oc o x Hr Hf) as E. clear Hh Hr Hf.
  unfold decls0 in Hd. destruct (eqb name (lit "Divide")); [|discriminate]. injection Hd as <-.
  unfold respond0 in E. eexists. split; [|exact E]. intros kw ->. reflexivity.
Qed.

Lemma final_called1 : called lower0 noc (hist (final true)) 0 Divide kw1.
Proof. exists (box_of kw1), (lit "1"). do 2 eexists. split; [apply box_good, numbers_ok|]. vm_compute. left. reflexivity. Qed.

Lemma final_called2 : called lower0 noc (hist (final true)) 1 Divide kw2.
Proof. exists (box_of kw2), (lit "2"). do 2 eexists. split; [apply box_good, numbers_ok|]. vm_compute. right. left. reflexivity. Qed.

Example C123_nonvacuous :
  Joined lower0 (fun _ _ => None) acts0 final /\
  responding lower0 noc noc mro0 RJE0 text0 exc0 xtra0 impl0 decls0 false (hist (final false)) /\
  called lower0 noc (hist (final true)) 0 Divide kw1 /\ called lower0 noc (hist (final true)) 1 Divide kw2 /\
  exists f0 f1, In (OFire 0 f0) (outs_of (hist (final true))) /\ In (OFire 1 f1) (outs_of (hist (final true))) /\
    caller_gets lower0 noc 3 xtra0 true Divide f0 = Gets [(lit "quotient", VInt 3); (lit "peer", VText (lit "server"))] /\
    caller_gets lower0 noc 3 xtra0 true Divide f1 = GetsRaise 7 (lit "divided by zero").
Proof.
  split; [apply final_joined|]. split; [apply final_responding|]. split; [apply final_called1|]. split; [apply final_called2|].
  eexists (Answered _), (Failed _ _). split; [vm_compute; tauto|]. split; [vm_compute; tauto|]. split; vm_compute; reflexivity.
Qed.
