(** * Property C142: commands that run in a transaction *)

From Coq Require Import NArith String List Bool Arith Lia.
From Verif Require Import Py PyStr JuiceCodec JuiceDispatch Transact.
Import ListNotations.
Open Scope list_scope.

(** The claim: a command which is wrapped in a transaction and whose answer is an error
    has left the store as it was. *)
Definition C142_full : Prop := forall (St Box Kw Answer : Type) mro RJE remote_text (r : responder St Box Kw Answer) box s e,
  snd (dispatch mro RJE remote_text true r box s) = Failed e -> fst (dispatch mro RJE remote_text true r box s) = s.

(** False of every responder found by its command: what it has done before it raises
    is kept, and so is what it has done when its result cannot be encoded. *)
Theorem C142_kept_refuted : ~ C142_full /\
  forall (St Box Kw Answer : Type) mro RJE remote_text c decode (run : Kw -> St -> St * called Answer) makeResponse (box : Box) s kw s',
    decode box = inl kw ->
    (forall e, run kw s = (s', Raised e) -> dispatch mro RJE remote_text true (Auto c decode run makeResponse) box s = (s', Failed (checkKnownErrors mro RJE remote_text c e))) /\
    (forall a e, run kw s = (s', Value a) -> makeResponse a = inr e -> dispatch mro RJE remote_text true (Auto c decode run makeResponse) box s = (s', Failed (checkKnownErrors mro RJE remote_text c e))).
Proof.
  assert (H : forall (St Box Kw Answer : Type) mro RJE remote_text c decode (run : Kw -> St -> St * called Answer) makeResponse (box : Box) s kw s',
    decode box = inl kw ->
    (forall e, run kw s = (s', Raised e) -> dispatch mro RJE remote_text true (Auto c decode run makeResponse) box s = (s', Failed (checkKnownErrors mro RJE remote_text c e))) /\
    (forall a e, run kw s = (s', Value a) -> makeResponse a = inr e -> dispatch mro RJE remote_text true (Auto c decode run makeResponse) box s = (s', Failed (checkKnownErrors mro RJE remote_text c e)))).
  { intros St Box Kw Answer mro RJE rt c decode run mk box s kw s' D. unfold dispatch, wrap, transact, fobj_of, doit_with, maybeDeferred. rewrite D. split.
    - intros e ->. reflexivity.
    - intros a e -> E. cbn [addCallback]. rewrite E. reflexivity. }
  split; [|exact H]. intros F.
  set (boom := Exc 9 [] (PS []) (PS []) false). set (c := Cmd None None [None] None).
  destruct (H N unit unit unit (fun n => [n]) 1%N (fun _ _ => []) c (fun _ => inl tt) (fun _ s => ((s + 1)%N, Raised boom)) (fun _ => inl tt) tt 0%N tt 1%N eq_refl) as [E _].
  specialize (E boom eq_refl).
  specialize (F N unit unit unit (fun n => [n]) 1%N (fun _ _ => []) (Auto c (fun _ => inl tt) (fun _ s => ((s + 1)%N, Raised boom)) (fun _ => inl tt)) tt 0%N (checkKnownErrors (fun n => [n]) 1%N (fun _ _ => []) c boom)).
  rewrite E in F. specialize (F eq_refl). discriminate F.
Qed.
Print Assumptions C142_kept_refuted.

(** The claim holds of the methods [juice_...] that raise, and for boxes that cannot be
    decoded; what is done is otherwise kept. *)
Theorem C142_undone_partial : forall (St Box Kw Answer : Type) mro RJE remote_text (box : Box) (s : St),
  (forall (run : Box -> St -> St * called Box), let (s', d) := dispatch (Kw:=Kw) (Answer:=Answer) mro RJE remote_text true (Plain run) box s in
     match snd (run box s) with Raised e => s' = s /\ d = Failed e | _ => s' = fst (run box s) end) /\
  (forall c decode (run : Kw -> St -> St * called Answer) makeResponse, let (s', d) := dispatch mro RJE remote_text true (Auto c decode run makeResponse) box s in
     match decode box with inr e => s' = s /\ d = Failed e | inl kw => s' = fst (run kw s) end).
Proof.
  intros St Box Kw Answer mro RJE rt box s. split.
  - intros run. exact (plain_kept mro RJE rt run box s).
  - intros c decode run mk. pose proof (auto_kept mro RJE rt c decode run mk box s) as K. unfold deed in K. destruct (dispatch mro RJE rt true (Auto c decode run mk) box s) as [s' d] eqn:E. cbn [fst] in K.
    destruct (decode box) as [kw|e] eqn:D; [exact K|]. split; [exact K|]. unfold dispatch, wrap, transact, fobj_of, doit_with, maybeDeferred in E. rewrite D in E. now injection E.
Qed.
Print Assumptions C142_undone_partial.

(** Being in a transaction makes no difference to the answer, and none to the store
    unless a method [juice_...] raises. *)
Theorem C142_transparent : forall (St Box Kw Answer : Type) mro RJE remote_text (r : responder St Box Kw Answer) box s,
  snd (dispatch mro RJE remote_text true r box s) = snd (dispatch mro RJE remote_text false r box s) /\
  fst (dispatch mro RJE remote_text false r box s) = deed r box s /\
  (forall c decode run makeResponse, r = Auto c decode run makeResponse -> fst (dispatch mro RJE remote_text true r box s) = deed r box s).
Proof.
  intros St Box Kw Answer mro RJE rt r box s. split; [apply same_answer|]. split; [apply without|]. intros c decode run mk ->. apply auto_kept.
Qed.
Print Assumptions C142_transparent.

(** A responder that takes 3 from an account and then finds there was too little *)
Definition withdraw (kw : nat) (s : nat) : nat * called nat := if Nat.leb kw s then (s - kw, Value (s - kw)) else (s - kw, Raised (Exc 9 (lit "too little") (PS []) (PS []) false))%nat.
Example C142_nonvacuous :
  let r := Auto (Box:=str) (Cmd (Some [(9%N, PS (lit "POOR"))]) None [None] None) (fun b => match b with [] => inr (Exc 8 (lit "empty") (PS []) (PS []) false) | _ => inl (length b) end) withdraw (fun a => inl (repeat 0%N a)) in
  let d := dispatch (fun n => [n]) 1%N (fun c t => lit "remote") true in
  d r (lit "aaa") 5 = (2, Fired (repeat 0%N 2)) /\ d r [] 5 = (5, Failed (Exc 8 (lit "empty") (PS []) (PS []) false)) /\
  d r (lit "aaa") 2 = (0, Failed (Exc 1 (lit "remote") (PS (lit "POOR")) (PS (lit "too little")) false)) /\
  d (Plain (fun b s => let (s', c) := withdraw (length b) s in (s', match c with Value a => Value (repeat 0%N a) | Later (Fired a) => Value [] | Later (Failed e) => Raised e | Later (Pending n) => Later (Pending n) | Raised e => Raised e end))) (lit "aaa") 2 =
    (2, Failed (Exc 9 (lit "too little") (PS []) (PS []) false)).
Proof. cbv zeta. repeat split; vm_compute; reflexivity. Qed.
