(** * Properties C45-C48, C52 and part of C53: requests, answers and TLS on one
    Juice connection (epsilon/juice.py).

    [Reach d h st]: [h] is a history (oldest first) of a connection ending in
    state [st]; [d cmd] says what looking up command [cmd] raises, if
    anything.  Every entry of a history is one call into the protocol: its
    event, its effects, and the exception it raised. *)

From Coq Require Import ZArith NArith String List Bool Arith Lia Permutation.
From Verif Require Import Py PyStr PyHex JuiceCodec JuiceProto.
Import ListNotations.
Open Scope nat_scope.

Definition anycmd : str -> option exn := fun _ => None.

Ltac run es := eapply (execs_sound anycmd es); [apply R_init|vm_compute; reflexivity].

(** ** C45 *)

Theorem C45_tags : forall d h st, Reach d h st -> NoDup (map snd (asked (outs_of h))).
Proof. exact tags_distinct. Qed.
Print Assumptions C45_tags.

(** and the box sent for a request carries the tag it was registered with *)
Theorem C45_carried : forall d h st cmd k b st' o x, Reach d h st -> was_lost h = false ->
  step d st (ESend cmd k b true) = Some (st', o, x) ->
  exists r t o', o = OAsked r t :: o' /\ ~ In t (map snd (asked (outs_of h))) /\ asked o' = [] /\
  let b' := dset (dset b (lit "_command") (PS cmd)) (lit "_ask") (PS t) in
  (can_send h b' /\ accepted o' = [b']) \/ (~ can_send h b' /\ o' = [] /\ x <> None).
Proof. exact send_tags. Qed.
Print Assumptions C45_carried.

Definition snd1 := ESend (lit "sum") KPlain [(lit "a", PS (lit "1"))] true.
Definition err1 := [(lit "_error", lit "1"); (lit "_error_code", lit "X"); (lit "_error_description", lit "no")].
Definition ans2 := [(lit "_answer", lit "2"); (lit "total", lit "3")].

Example C45_nonvacuous : exists h st, Reach anycmd h st /\ map snd (asked (outs_of h)) = [lit "1"; lit "3"] /\
  exists b w1 c w2, written (outs_of h) = [dset (dset [(lit "a", PS (lit "1"))] (lit "_command") (PS (lit "sum"))) (lit "_ask") (PS (lit "1")); b; c] /\
     serialize b = Ok w1 /\ serialize c = Ok w2 /\ dget b (lit "_ask") = None.
Proof.
  eexists _, _. split; [run [snd1; ESend (lit "x") KPlain [] false; snd1]|].
  split; [vm_compute; reflexivity|]. do 4 eexists. split; [vm_compute; reflexivity|].
  split; [vm_compute; reflexivity|]. split; vm_compute; reflexivity.
Qed.

(** ** C46 *)

Theorem C46_answer : forall d h st b t st' o x, Reach d h st -> step d st (ERecv b) = Some (st', o, x) ->
  was_locked h && din b (lit "_command") && din b (lit "_ask") = false -> dget b (lit "_answer") = Some t ->
  (exists r, open h r t /\ o = [OFire r (Answered b)] /\ x = None) \/
  (o = [] /\ x <> None /\ st' = st /\ forall r, open h r t -> was_lost h = true).
Proof. exact answer_fires. Qed.
Print Assumptions C46_answer.

Theorem C46_error : forall d h st b t st' o x, Reach d h st -> step d st (ERecv b) = Some (st', o, x) ->
  was_locked h && din b (lit "_command") && din b (lit "_ask") = false -> dget b (lit "_answer") = None -> dget b (lit "_error") = Some t ->
  (exists r, open h r t /\
     match dget b (lit "_error_code"), dget b (lit "_error_description") with
     | Some c, Some d => o = [OFire r (Failed c d)] /\ x = None
     | _, _ => o = [OForgot r] /\ x = Some KeyError
     end) \/
  (o = [] /\ x <> None /\ st' = st /\ forall r, open h r t -> was_lost h = true).
Proof. exact error_fires. Qed.
Print Assumptions C46_error.

(** the only reasons for a Deferred to fire *)
Theorem C46_only : forall d h st e st' o x r f, Reach d h st -> step d st e = Some (st', o, x) -> In (OFire r f) o ->
  o = [OFire r f] /\
  match f with
  | Answered b => exists t, e = ERecv b /\ dget b (lit "_answer") = Some t /\ open h r t
  | Failed c d => exists b t, e = ERecv b /\ dget b (lit "_answer") = None /\ dget b (lit "_error") = Some t /\
                   dget b (lit "_error_code") = Some c /\ dget b (lit "_error_description") = Some d /\ open h r t
  | Lost => e = EFailNext /\ was_lost h = true /\ exists t, open h r t
  end.
Proof. exact fires_why. Qed.
Print Assumptions C46_only.

Theorem C46_once : forall d h st, Reach d h st -> NoDup (fired (outs_of h)).
Proof. exact fired_once. Qed.
Print Assumptions C46_once.

(** two requests, answered in the other order, then a second answer *)
Example C46_nonvacuous : exists h st, Reach anycmd h st /\
  map outs (skipn 2 h) = [[OFire 1 (Answered ans2)]; [OFire 0 (Failed (lit "X") (lit "no"))]; []] /\
  map raised (skipn 2 h) = [None; None; Some KeyError].
Proof.
  eexists _, _. split; [run [snd1; snd1; ERecv ans2; ERecv err1; ERecv ans2]|]. split; vm_compute; reflexivity.
Qed.

(** ** C47 *)

(** [step st EFailNext = None]: the loop over the outstanding requests is over *)
Definition C47_full : Prop := forall d h st, Reach d h st -> was_lost h = true -> step d st EFailNext = None ->
  forall r, In r (map fst (asked (outs_of h))) -> In r (fired (outs_of h)).

(** an error box without a description loses the Deferred it answers *)
Theorem C47_loss_refuted :
  (exists h st, Reach anycmd h st /\ was_lost h = true /\ step anycmd st EFailNext = None /\
     map fst (asked (outs_of h)) = [0] /\ fired (outs_of h) = []) /\ ~ C47_full.
Proof.
  assert (W : exists h st, Reach anycmd h st /\ was_lost h = true /\ step anycmd st EFailNext = None /\
     map fst (asked (outs_of h)) = [0] /\ fired (outs_of h) = []).
  { eexists _, _. split; [run [snd1; ERecv [(lit "_error", lit "1"); (lit "_error_code", lit "X")]; ELost]|]. repeat split; vm_compute; reflexivity. }
  split; [exact W|]. intros F. destruct W as (h & st & HR & Hl & Hd & Ha & Hf).
  specialize (F _ h st HR Hl Hd 0). rewrite Ha, Hf in F. destruct F. now left.
Qed.
Print Assumptions C47_loss_refuted.

(** Once the connection is lost and the loop is over, every request has fired
    exactly once, or its Deferred was lost to a malformed error box. *)
Theorem C47_settled_partial : forall d h st, Reach d h st -> was_lost h = true -> step d st EFailNext = None ->
  NoDup (map fst (asked (outs_of h))) /\
  Permutation (map fst (asked (outs_of h))) (fired (outs_of h) ++ forgot (outs_of h)).
Proof.
  intros d h st HR Hl Hd. split; [eapply seq_nodup, (reach_inv _ _ _ HR)|now apply (loss_settles d h st)].
Qed.
Print Assumptions C47_settled_partial.

(** no malformed error box: all of them *)
Theorem C47_all : forall d h st, Reach d h st -> was_lost h = true -> step d st EFailNext = None ->
  forgot (outs_of h) = [] -> forall r, In r (map fst (asked (outs_of h))) -> count_occ Nat.eq_dec (fired (outs_of h)) r = 1.
Proof.
  intros d h st HR Hl Hd Hf r Hr. pose proof (loss_settles d h st HR Hl Hd) as Hp. rewrite Hf, app_nil_r in Hp.
  apply NoDup_count_occ'; [now apply (fired_once d h st)|]. now apply (Permutation_in _ Hp).
Qed.
Print Assumptions C47_all.

(** the loop always ends *)
Theorem C47_loop : forall d h st, Reach d h st -> exists h' st', Reach d (h ++ h') st' /\
  Forall (fun en => ev en = EFailNext) h' /\ step d st' EFailNext = None.
Proof. exact loss_completes. Qed.
Print Assumptions C47_loop.

Theorem C47_refused : forall d h st cmd k b req, Reach d h st -> was_lost h = true ->
  step d st (ESend cmd k b req) = Some (st, [ORefused], None).
Proof. exact loss_refuses. Qed.
Print Assumptions C47_refused.

(** two requests outstanding at the loss; a callback sends again in between *)
Example C47_nonvacuous : exists h st, Reach anycmd h st /\ was_lost h = true /\ step anycmd st EFailNext = None /\
  forgot (outs_of h) = [] /\
  map outs (skipn 4 h) = [[]; [OFire 0 Lost]; [ORefused]; [OFire 2 Lost]] /\ fired (outs_of h) = [1; 0; 2].
Proof.
  eexists _, _. split; [run [snd1; snd1; snd1; ERecv ans2; ELost; EFailNext; snd1; EFailNext]|]. repeat split; vm_compute; reflexivity.
Qed.

(** ** C48 *)

Theorem C48_reply : forall d h st id oc st' o x, Reach d h st -> step d st (EComplete id oc) = Some (st', o, x) ->
  x = None /\ ~ In id (completed h) /\
  exists b, In (id, b) (started (outs_of h)) /\
  match dget b (lit "_ask") with
  | None => accepted o = [] /\ written o = []
  | Some t => match reply t oc with
              | Some rb => (can_send h rb /\ accepted o = [rb]) \/ (~ can_send h rb /\ o = [OLose])
              | None => o = [OLose]
              end
  end.
Proof. exact reply_once. Qed.
Print Assumptions C48_reply.

Theorem C48_settle : forall d h st, Reach d h st ->
  NoDup (map fst (started (outs_of h))) /\ NoDup (completed h) /\
  (forall i, In i (completed h) -> In i (map fst (started (outs_of h)))) /\
  (forall i oc, In i (map fst (started (outs_of h))) -> ~ In i (completed h) -> step d st (EComplete i oc) <> None).
Proof. exact runs_settle. Qed.
Print Assumptions C48_settle.

(** a command is run once for every box that asks for it, and only then *)
Theorem C48_started : forall d st e st' o x i b, step d st e = Some (st', o, x) -> In (ORun i b) o ->
  e = ERecv b /\ o = [ORun i b].
Proof. exact step_run. Qed.
Print Assumptions C48_started.

Definition cmdbox (t : str) := [(lit "_command", lit "sum"); (lit "_ask", t)].
Definition total := [(lit "total", PS (lit "3"))].

Example C48_nonvacuous : exists h st, Reach anycmd h st /\
  map (fun en => accepted (outs en)) (skipn 3 h) =
    [[[(lit "_error", PS (lit "9")); (lit "_error_description", PS (lit "no")); (lit "_error_code", PS (lit "X"))]];
     []; [[(lit "total", PS (lit "3")); (lit "_answer", PS (lit "7"))]]].
Proof.
  eexists _, _. split.
  - run [ERecv (cmdbox (lit "7")); ERecv (cmdbox (lit "9")); ERecv [(lit "_command", lit "sum")];
         EComplete 1 (RRemote (PS (lit "X")) (PS (lit "no")) false); EComplete 2 (RAnswer KPlain total);
         EComplete 0 (RAnswer KPlain total)].
  - vm_compute; reflexivity.
Qed.

(** ** C52 *)

Definition C52_full : Prop := forall d h st, Reach d h st -> preparing h = false ->
  accepted (outs_of h) = written (outs_of h).

Definition note (n : string) := ESend (lit n) KPlain [] false.

(** prepareTLS twice forgets what was held back; a packet that cannot be
    serialized takes the packets behind it away *)
Theorem C52_flush_refuted :
  (exists h st, Reach anycmd h st /\ preparing h = false /\ length (accepted (outs_of h)) = 1 /\ written (outs_of h) = []) /\
  (exists h st b, Reach anycmd h st /\ preparing h = false /\ length (accepted (outs_of h)) = 2 /\ written (outs_of h) = [] /\
     In b (accepted (outs_of h)) /\ exists w, serialize b = Ok w) /\
  ~ C52_full.
Proof.
  assert (W : exists h st, Reach anycmd h st /\ preparing h = false /\ length (accepted (outs_of h)) = 1 /\ written (outs_of h) = []).
  { eexists _, _. split; [run [EPrepare; note "a"; EPrepare; EStartTLS 0%N]|]. repeat split; vm_compute; reflexivity. }
  split; [exact W|]. split.
  - eexists _, _, [(lit "_command", PS (lit "a"))].
    split; [run [EPrepare; ESend [55296%N] KPlain [] false; note "a"; EStartTLS 0%N]|].
    split; [vm_compute; reflexivity|]. split; [vm_compute; reflexivity|]. split; [vm_compute; reflexivity|].
    split; [vm_compute; auto|]. eexists; vm_compute; reflexivity.
  - intros F. destruct W as (h & st & HR & Hp & Ha & Hw). specialize (F _ h st HR Hp). rewrite F, Hw in Ha. discriminate.
Qed.
Print Assumptions C52_flush_refuted.

(** Every packet accepted is written, or held back, or was lost in one of two
    ways; if none was lost, packets are written in the order they were
    accepted. *)
Theorem C52_kept_partial : forall d h st, Reach d h st ->
  Permutation (accepted (outs_of h)) (written (outs_of h) ++ dropped (outs_of h) ++ heldl st) /\
  (dropped (outs_of h) = [] -> accepted (outs_of h) = written (outs_of h) ++ heldl st) /\
  (preparing h = false -> heldl st = []).
Proof.
  intros d h st HR. destruct (reach_tinv d h st HR) as [_ _ H1 H2 H3 _]. split; [exact H1|]. split; [exact H2|].
  intros Hp. unfold heldl. destruct (held st) eqn:E; [|reflexivity].
  assert (preparing h = true) by (apply H3; discriminate). congruence.
Qed.
Print Assumptions C52_kept_partial.

Theorem C52_lost : forall d h st e st' o x, Reach d h st -> step d st e = Some (st', o, x) -> dropped o <> [] ->
  (e = EPrepare /\ preparing h = true) \/ (tls o <> [] /\ (preparing h = true) /\ (x <> None \/ In OLose o)).
Proof. exact tls_drops. Qed.
Print Assumptions C52_lost.

(** nothing is written while preparing, before the transport has switched *)
Theorem C52_held : forall d h st e st' o x, Reach d h st -> preparing h = true -> step d st e = Some (st', o, x) ->
  (tls o = [] -> written o = []) /\ (forall pre c post, o = pre ++ OStartTLS c :: post -> written pre = []).
Proof. exact tls_holds. Qed.
Print Assumptions C52_held.

(** after the switch nothing is held back *)
Theorem C52_flushed : forall d h st e st' o x, Reach d h st -> step d st e = Some (st', o, x) -> tls o <> [] ->
  dropped (outs_of h ++ o) = [] -> accepted (outs_of h ++ o) = written (outs_of h ++ o).
Proof. exact tls_flushes. Qed.
Print Assumptions C52_flushed.

Theorem C52_once : forall d h st, Reach d h st ->
  length (tls (outs_of h)) <= 1 /\
  forall c c', In (OStartTLS c) (outs_of h) -> step d st (EStartTLS c') = Some (st, [], Some RuntimeError).
Proof. intros d h st HR. split; [now apply (tls_once d h st)|]. intros c c'. now apply (tls_twice d h st). Qed.
Print Assumptions C52_once.

Example C52_nonvacuous : exists h st w0 w1 w2, Reach anycmd h st /\
  map outs h = [[OWrite [(lit "_command", PS (lit "a"))] w0]; []; [OHold [(lit "_command", PS (lit "b"))]]; [OHold [(lit "_command", PS (lit "c"))]];
                [OStartTLS 5; OFlush [(lit "_command", PS (lit "b"))] w1; OFlush [(lit "_command", PS (lit "c"))] w2]; []].
Proof.
  do 5 eexists. split; [run [note "a"; EPrepare; note "b"; note "c"; EStartTLS 5; EStartTLS 6]|]. vm_compute. reflexivity.
Qed.

(** ** C53: a locked connection, and switching at most once
    (the bytes after a switch: JuiceSwitchProps.v) *)

Theorem C53_locked : forall d h st e st' o x, Reach d h st -> was_locked h = true -> step d st e = Some (st', o, x) ->
  accepted o = [] /\ written o = [] /\ (forall i b, In (ORun i b) o -> dget b (lit "_ask") = None).
Proof. exact locked_quiet. Qed.
Print Assumptions C53_locked.

Theorem C53_once : forall d h st, Reach d h st -> length (inners (outs_of h)) <= 1.
Proof. exact switch_once. Qed.
Print Assumptions C53_once.

Example C53_locked_nonvacuous : exists h st, Reach anycmd h st /\ was_locked h = true /\
  map raised (skipn 2 h) = [Some AssertionError; None; None; None; None; Some AssertionError] /\
  outs_of (skipn 2 h) = [OAsked 1 (lit "2"); OFire 0 (Failed (lit "X") (lit "no")); ORun 0 [(lit "_command", lit "sum")]; OInner 4].
Proof.
  eexists _, _. split; [run [snd1; ELock; snd1; ERecv err1; ERecv (cmdbox (lit "1")); ERecv [(lit "_command", lit "sum")]; ESwitch 4; ESwitch 5]|].
  repeat split; vm_compute; reflexivity.
Qed.
