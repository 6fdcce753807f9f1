(** * Properties C49, C112 and C113: two connected Juice endpoints
    (epsilon/juice.py).

    [Joined lower dispatch acts w]: [w] is a state two connected endpoints
    [w true] and [w false] can be in after any calls on either side and any
    deliveries of what the other side wrote, in order, in pieces of any size.
    [hist] is the history of an endpoint (JuiceProto.v).  [dispatch s cmd] is
    what looking up command [cmd] raises at endpoint [s]; [acts s h] are the
    calls the application makes during the last event of [h].  [lower] is
    [str.lower].  [good]: the applications send text that can be sent
    ([sendable]), or bytes that are the UTF-8 of such text, under keys that are
    not reserved, and do not switch protocols; [reads b] is the text of the
    values of the box [b]. *)

From Coq Require Import ZArith NArith String List Bool Arith Lia.
From Verif Require Import Py PyStr PyHex Liner JuiceCodec JuiceStream JuiceProto JuicePair.
Import ListNotations.
Open Scope nat_scope.

Definition lowers (lower : str -> str) : Prop := forall s, is_ascii s = true -> lower s = map ascii_lower s.
Definition well_behaved (lower : str -> str) (acts : bool -> list entry -> list event) : Prop :=
  forall s h, Forall (good lower) (acts s h).

(** ** C49 *)

(** The full claim: whatever the applications send. *)
Definition anything (e : event) : Prop := match e with ERecv _ => False | _ => True end.
Definition C49_full : Prop :=
  forall lower dispatch acts, lowers lower -> (forall s h, Forall anything (acts s h)) ->
  forall w s r b, JoinedBy lower dispatch acts anything w -> In (OFire r (Answered b)) (outs_of (hist (w s))) ->
  exists t oc, served (hist (w s)) (hist (w (negb s))) r t oc.

(** [false] asks; before that reaches [true], [true] sends a command with an
    argument called [_answer]. *)
Theorem C49_reserved_key_refuted :
  (exists w b, JoinedBy (map ascii_lower) (fun _ _ => None) (fun _ _ => []) anything w /\
     got (w true) = [] /\ In (OFire 0 (Answered b)) (outs_of (hist (w false)))) /\ ~ C49_full.
Proof.
  set (l := [ACall false (ESend (lit "q") KPlain (texts []) true);
             ACall true (ESend (lit "x") KPlain (texts [(lit "_answer", lit "1")]) false); ADeliver false 500]).
  set (w := played (map ascii_lower) (fun _ _ => None) (fun _ _ => []) l).
  assert (HJ : JoinedBy (map ascii_lower) (fun _ _ => None) (fun _ _ => []) anything w).
  { apply played_joined. unfold l. repeat apply Forall_cons; try apply Forall_nil; exact I. }
  set (b := [(lit "_answer", lit "1"); (lit "_command", lit "x")]).
  assert (Hin : In (OFire 0 (Answered b)) (outs_of (hist (w false)))) by (vm_compute; tauto).
  split; [exists w, b; split; [exact HJ|split; [vm_compute; reflexivity|exact Hin]]|].
  intros H. destruct (H (map ascii_lower) (fun _ _ => None) (fun _ _ => [])
    ltac:(intros s _; reflexivity) ltac:(intros; constructor) w false 0 b HJ Hin) as (t & oc & Hs).
  revert Hs. unfold served. cbn [negb]. set (mine := hist (w false)). vm_compute (hist (w true)).
  intros (c & d & id & cb & _ & Hr & _). vm_compute in Hr. intuition discriminate.
Qed.
Print Assumptions C49_reserved_key_refuted.

(** What holds: nobody uses the reserved keys and nobody switches protocols.
    [served mine peer r t oc]: the history [mine] made request [r] with tag
    [t]; the history [peer] ran a command, the only one with tag [t], whose
    box is that of the request; and [oc] is what it finished with. *)
Theorem C49_right_partial : forall lower dispatch acts, lowers lower -> well_behaved lower acts ->
  forall w s r f, Joined lower dispatch acts w -> In (OFire r f) (outs_of (hist (w s))) ->
  match f with
  | Answered b => exists t k d, served (hist (w s)) (hist (w (negb s))) r t (RAnswer k d) /\
                                dict_eq b (dset (reads d) (lit "_answer") t)
  | Failed c ds => exists t oc, served (hist (w s)) (hist (w (negb s))) r t oc /\
      ((exists pc pd fatal, oc = RRemote pc pd fatal /\ c = reading pc /\ ds = reading pd) \/
       (oc = RCrash /\ c = lit "UNHANDLED" /\ ds = lit "Unhandled Remote System Exception "))
  | Lost => was_lost (hist (w s)) = true
  end.
Proof.
  intros lower dispatch acts Hl Ha w s r f HJ Hin. exact (fired_right lower Hl dispatch acts Ha w s r f HJ Hin).
Qed.
Print Assumptions C49_right_partial.

(** ** C112 *)

Theorem C112_never_confused : forall lower dispatch acts, lowers lower -> well_behaved lower acts ->
  forall w s h1 b o e h2, Joined lower dispatch acts w -> hist (w s) = h1 ++ En (ERecv b) o (Some e) :: h2 ->
  was_lost h1 = true \/ exists cmd, dget b (lit "_command") = Some cmd /\ dispatch s cmd = Some e.
Proof.
  intros lower dispatch acts Hl Ha w s h1 b o e h2 HJ E. exact (never_confused lower Hl dispatch acts Ha w s h1 b o e h2 HJ E).
Qed.
Print Assumptions C112_never_confused.

(** the connection goes on at both ends ([live]: what arrives is still handed to
    the protocol) unless receiving a box raised an exception, as above *)
Theorem C112_stays_up : forall lower dispatch acts, lowers lower -> well_behaved lower acts ->
  forall w s, Joined lower dispatch acts w ->
  live (w s) = true \/ exists h1 b o e h2, hist (w s) = h1 ++ En (ERecv b) o (Some e) :: h2.
Proof. intros lower dispatch acts Hl Ha w s HJ. exact (stays_up lower Hl dispatch acts Ha w HJ s). Qed.
Print Assumptions C112_stays_up.

(** the boxes one endpoint received are the first of those the other wrote *)
Theorem C112_in_order : forall lower dispatch acts, lowers lower -> well_behaved lower acts ->
  forall w s, Joined lower dispatch acts w ->
  exists n, Forall2 dict_eq (recvd (hist (w s))) (firstn n (map reads (written (outs_of (hist (w (negb s))))))).
Proof.
  intros lower dispatch acts Hl Ha w s HJ.
  destruct (joined_recvd lower Hl dispatch acts Ha w s HJ) as (W & HW & n & E). exists n.
  rewrite (w_written _ _ _ HW), E. pose proof (w_send _ _ _ HW) as Hs. clear -Hs.
  revert n. induction Hs as [|b W Hb HW IH]; intros [|n]; cbn; constructor; auto.
  intros k. destruct (received_same b (proj1 Hb)) as [_ H]. symmetry. apply H.
Qed.
Print Assumptions C112_in_order.

(** ** C113 *)

Theorem C113_answered : forall lower dispatch acts, lowers lower -> well_behaved lower acts ->
  forall w s r t, Joined lower dispatch acts w -> at_rest w -> In (r, t) (asked (outs_of (hist (w s)))) ->
  exists f, In (OFire r f) (outs_of (hist (w s))) /\ f <> Lost.
Proof.
  intros lower dispatch acts Hl Ha w s r t HJ Hr Hin. exact (all_answered lower Hl dispatch acts Ha w s r t HJ Hr Hin).
Qed.
Print Assumptions C113_answered.

(** ** An exchange

    [true] asks [sum], [false] answers at once, [true] asks again from the
    callback; the bytes arrive 7 at a time in one direction. *)

Definition lower0 : str -> str := map ascii_lower.
Definition dispatch0 : bool -> str -> option exn := fun _ _ => None.
Definition total : dict str str := [(lit "total", lit "3")].
Definition acts0 (s : bool) (h : list entry) : list event :=
  match s, rev h with
  | false, En _ [ORun id _] _ :: _ => [EComplete id (RAnswer KPlain (texts total))]
  | true, En _ [OFire 0 _] _ :: _ => [ESend (lit "again") KPlain (texts []) true]
  | _, _ => []
  end.

Lemma lower0_ok : lowers lower0.
Proof. intros s _. reflexivity. Qed.

Lemma total_ok : args lower0 (texts total).
Proof.
  split; [apply Forall_cons; [now apply legible_text|constructor]|].
  rewrite reads_texts. split; [split; [|split; [|split]]|].
  - unfold wf_dict, total. cbn. repeat constructor. intros [].
  - repeat constructor.
  - repeat constructor.
  - discriminate.
  - intros k Hk [<-|[]]. cbn in Hk. intuition discriminate.
Qed.

Lemma none_ok : args lower0 (texts []).
Proof. split; [constructor|]. split; [split; [|split; [|split]]|]; try constructor; try discriminate. intros k _ []. Qed.

Lemma acts0_ok : well_behaved lower0 acts0.
Proof.
  intros s h. unfold acts0.
  destruct s, (rev h) as [|[e [|x [|? ?]] y] l]; try apply Forall_nil; destruct x; try apply Forall_nil;
    try (destruct r; apply Forall_nil).
  - destruct r; [|apply Forall_nil]. apply Forall_cons; [|apply Forall_nil].
    split; [exact I|]. split; [reflexivity|]. apply none_ok.
  - apply Forall_cons; [|apply Forall_nil].
    split; [exact I|]. apply total_ok.
Qed.

Definition script : list act :=
  [ACall true (ESend (lit "sum") KPlain (texts total) true);
   ADeliver false 7; ADeliver false 7; ADeliver false 7; ADeliver false 500; ADeliver true 11; ADeliver true 500;
   ADeliver false 500; ADeliver true 500].

Lemma script_ok : Forall (ok_act (good lower0)) script.
Proof.
  unfold script. repeat apply Forall_cons; try apply Forall_nil; try exact I.
  split; [exact I|]. split; [reflexivity|]. apply total_ok.
Qed.

Definition end_of (d : bool -> str -> option exn) (l : list act) : world := played lower0 d acts0 l.

Lemma script_joined : Joined lower0 dispatch0 acts0 (end_of dispatch0 script).
Proof. apply played_joined, script_ok. Qed.

Example C49_nonvacuous : exists w, Joined lower0 dispatch0 acts0 w /\ well_behaved lower0 acts0 /\ lowers lower0 /\
  exists b c, In (OFire 0 (Answered b)) (outs_of (hist (w true))) /\ In (OFire 1 (Answered c)) (outs_of (hist (w true))) /\
  dget b (lit "total") = Some (lit "3") /\ List.length (recvd (hist (w false))) = 2.
Proof.
  exists (end_of dispatch0 script). split; [apply script_joined|]. split; [apply acts0_ok|]. split; [apply lower0_ok|].
  exists [(lit "total", lit "3"); (lit "_answer", lit "1")], [(lit "total", lit "3"); (lit "_answer", lit "2")].
  vm_compute. intuition.
Qed.

Definition dispatch1 (s : bool) (cmd : str) : option exn := if s then Some (OtherExn 1) else None.
Definition script1 : list act :=
  [ACall false (ESend (lit "sum") KPlain (texts total) true); ADeliver true 500].

Example C112_nonvacuous : exists w h1 b o e h2, Joined lower0 dispatch1 acts0 w /\
  hist (w true) = h1 ++ En (ERecv b) o (Some e) :: h2 /\ was_lost h1 = false.
Proof.
  assert (HJ : Joined lower0 dispatch1 acts0 (end_of dispatch1 script1)).
  { apply played_joined. unfold script1. repeat apply Forall_cons; try apply Forall_nil; try exact I.
    split; [exact I|]. split; [reflexivity|]. apply total_ok. }
  assert (H : match hist (end_of dispatch1 script1 true) with [En (ERecv b) o (Some e)] => True | _ => False end)
    by (vm_compute; exact I).
  destruct (hist (end_of dispatch1 script1 true)) as [|[[] o [e|]] [|? ?]] eqn:E; try contradiction.
  exists (end_of dispatch1 script1), [], b, o, e, []. split; [exact HJ|]. split; [exact E|reflexivity].
Qed.

Example C113_nonvacuous : exists w, Joined lower0 dispatch0 acts0 w /\ at_rest w /\
  map fst (asked (outs_of (hist (w true)))) = [0; 1].
Proof.
  exists (end_of dispatch0 script). split; [apply script_joined|]. split; [|vm_compute; reflexivity].
  intros [|].
  - split; [vm_compute; reflexivity|]. split.
    + vm_compute. repeat constructor; discriminate.
    + intros id cb Hin. vm_compute in Hin. intuition discriminate.
  - split; [vm_compute; reflexivity|]. split.
    + vm_compute. repeat constructor; discriminate.
    + intros id cb Hin. exists (RAnswer KPlain (texts total)). split; [|discriminate].
      unfold finished. vm_compute in Hin. destruct Hin as [H|[H|[H|[H|[]]]]]; try discriminate; injection H as <- _.
      * do 2 eexists. vm_compute. right. left. reflexivity.
      * do 2 eexists. vm_compute. right. right. right. left. reflexivity.
Qed.
