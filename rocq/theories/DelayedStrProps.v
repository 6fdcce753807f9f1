(** * Properties C149 and C150: the text of a DelayedCall, and the order of calls *)

From Coq Require Import ZArith NArith String List Bool Arith Lia ZifyBool.
From Verif Require Import Py PyStr Delayed DelayedStr.
Import ListNotations.
Open Scope list_scope.

(** ** C149 *)

Definition header (show : Z -> str) (id_text : str) (seconds : Z) (c : call) : str :=
  lit "<DelayedCall " ++ id_text ++ lit " [" ++ show seconds ++ lit "s] called=" ++ flag (c_called c) ++ lit " cancelled=" ++ flag (c_cancelled c).

(** The claim: the text of a pending call, whatever was done to it, gives the seconds
    until it is made, and the function with its arguments. *)
Definition C149_full (py3 : bool) : Prop := forall show safe_repr id_text t es now w,
  let c := h_call (fst (happens (scheduled t) es)) in
  active c = true ->
  to_str py3 show safe_repr id_text false now (DCall c (Some w) None None) =
    Ok (header show id_text (getTime c - now) c ++ lit " " ++ call_text safe_repr w (name_of safe_repr (w_func w)) ++ lit ">").

(** False: after [delay] the seconds are those of before; and under Python 3 there is no
    text at all for calls with keyword arguments, so that with debugging such a call
    cannot be cancelled without an exception. *)
Theorem C149_text_refuted :
  ~ C149_full false /\ ~ C149_full true /\
  (forall show safe_repr id_text debug now c w cr, w_kw w <> [] -> to_str true show safe_repr id_text debug now (DCall c (Some w) None cr) = Err AttributeError) /\
  (forall show safe_repr id_text now c w cr, w_kw w <> [] -> active c = true ->
     let (d', r) := cancel_str true show safe_repr id_text true now (DCall c (Some w) None cr) in
     r = Err AttributeError /\ c_cancelled (d_call d') = true /\ d_work d' = Some w).
Proof.
  assert (B : forall show safe_repr id_text debug now c w cr, w_kw w <> [] -> to_str true show safe_repr id_text debug now (DCall c (Some w) None cr) = Err AttributeError).
  { intros. unfold to_str; cbn [d_str d_call d_work]. rewrite func_text_name, args_text_bad by assumption. reflexivity. }
  assert (N : forall py3, ~ C149_full py3).
  { intros py3 F. specialize (F (fun z => if (z =? 10)%Z then lit "10" else lit "15") (fun _ => []) [] 10%Z [EDelay 5] 0%Z (Work (Func 1 None None) [] []) eq_refl). destruct py3; vm_compute in F; discriminate. }
  split; [apply N|]. split; [apply N|]. split; [exact B|].
  intros show sr idt now c w cr Hk Ha. unfold cancel_str; cbn [d_call d_work d_str d_creator]. unfold active in Ha. destruct (c_cancelled c), (c_called c); try discriminate.
  rewrite B by assumption. now cbn.
Qed.
Print Assumptions C149_text_refuted.

(** What holds.  Under Python 2, or without keyword arguments, there is always a text.
    It gives the time until the call is made less the delay that has not been
    activated, the function, and all the arguments in their order. *)
Theorem C149_text_partial : forall py3 show safe_repr id_text debug now c w cr,
  py3 = false \/ w_kw w = [] -> (debug = true -> cr <> None) ->
  exists trace, (debug = false -> trace = []) /\ (forall l, debug = true -> cr = Some l -> exists a, trace = a ++ join (lit "    ") l) /\
    to_str py3 show safe_repr id_text debug now (DCall c (Some w) None cr) =
      Ok (header show id_text (getTime c - c_delayed c - now) c ++ lit " " ++ call_text safe_repr w (name_of safe_repr (w_func w)) ++ trace ++ lit ">").
Proof.
  intros py3 show sr idt debug now c w cr Hk Hd. unfold to_str; cbn [d_str d_call d_work d_creator]. rewrite func_text_name, (args_text_ok py3 sr w Hk). cbn [rbind].
  assert (E : (getTime c - c_delayed c - now = c_time c - now)%Z) by (unfold getTime; lia). rewrite E. unfold header, call_text.
  destruct debug; [destruct cr as [l|]; [|destruct (Hd eq_refl eq_refl)]|]; cbn [rbind].
  - exists (trace_head ++ join (lit "    ") l). split; [discriminate|]. split; [intros l' _ H; injection H as <-; exists trace_head; reflexivity|]. f_equal; now rewrite <- ?app_assoc.
  - exists []. split; [reflexivity|]. split; [discriminate|]. f_equal; cbn [app]; now rewrite <- ?app_assoc.
Qed.
Print Assumptions C149_text_partial.

(** A call that was cancelled keeps the text it had then if there was debugging, and else
    shows that it was cancelled, and no function. *)
Theorem C149_cancelled_partial : forall py3 show safe_repr id_text debug now c w cr,
  py3 = false \/ w_kw w = [] -> (debug = true -> cr <> None) -> active c = true ->
  let d := DCall c (Some w) None cr in
  let (d', r) := cancel_str py3 show safe_repr id_text debug now d in
  r = Ok tt /\ c_cancelled (d_call d') = true /\ d_work d' = None /\
  (forall later, debug = false -> to_str py3 show safe_repr id_text false later d' = Ok (header show id_text (c_time c - later) (d_call d') ++ lit ">")) /\
  (forall later debug', debug = true -> to_str py3 show safe_repr id_text debug' later d' = to_str py3 show safe_repr id_text true now (DCall (d_call d') (Some w) None cr)) /\
  cancel_str py3 show safe_repr id_text debug now d' = (d', Err AlreadyCancelled).
Proof.
  intros py3 show sr idt debug now c w cr Hk Hd Ha d. unfold cancel_str, d; cbn [d_call d_work d_str d_creator]. unfold active in Ha. destruct (c_cancelled c) eqn:E1, (c_called c) eqn:E2; try discriminate.
  destruct debug.
  - destruct (C149_text_partial py3 show sr idt true now (Call (c_time c) (c_delayed c) true false) w cr Hk Hd) as (tr & _ & _ & E). rewrite E. cbn [d_call d_work d_str c_cancelled c_called].
    do 3 (split; [reflexivity|]). split; [discriminate|]. split; [|reflexivity]. intros later debug' _. rewrite E. reflexivity.
  - cbn [d_call d_work d_str c_cancelled]. do 3 (split; [reflexivity|]). split; [|split; [discriminate|reflexivity]].
    intros later _. unfold to_str; cbn [d_str d_work d_call func_text rbind c_time c_called c_cancelled]. unfold header; cbn [c_called c_cancelled app]. f_equal; now rewrite <- ?app_assoc.
Qed.
Print Assumptions C149_cancelled_partial.

Example C149_nonvacuous :
  to_str false (fun _ => lit "3") (fun n => if (n =? 1)%N then lit "'x'" else lit "7") (lit "42") false 7
    (DCall (newCall 10) (Some (Work (Func 9 (Some (lit "go")) (Some (lit "Car"))) [1; 2] [(lit "k", 2)])) None None)%N
  = Ok (lit "<DelayedCall 42 [3s] called=0 cancelled=0 Car.go('x', 7, k=7)>").
Proof. vm_compute. reflexivity. Qed.

(** ** C150 *)

(** The claim: calls can be kept in a heap; the one that heap takes for the smaller is
    made before the other. *)
Definition C150_full (py3 : bool) : Prop := forall t es t' es',
  let a := h_call (fst (happens (scheduled t) es)) in let b := h_call (fst (happens (scheduled t') es')) in
  active a = true -> active b = true -> exists r, heap_lt py3 a b = Ok r /\ (r = true <-> (getTime a < getTime b)%Z).

(** False under Python 3, where no two calls can be compared; and of calls that were
    delayed. *)
Theorem C150_order_refuted : ~ C150_full true /\ ~ C150_full false /\ forall a b, heap_lt true a b = Err TypeError.
Proof.
  split; [|split; [|reflexivity]]; intros F.
  - destruct (F 1%Z [] 2%Z [] eq_refl eq_refl) as (r & E & _). discriminate E.
  - destruct (F 1%Z [EDelay 5] 2%Z [] eq_refl eq_refl) as (r & E & G). injection E as <-. destruct G as [G _]. specialize (G eq_refl). vm_compute in G. discriminate G.
Qed.
Print Assumptions C150_order_refuted.

(** What holds under Python 2: calls are ordered by the time the reactor will look at
    them, which is not after the time they are made; <= is transitive, and one of two
    calls is <= the other. *)
Theorem C150_order_partial :
  (forall t es t' es', let h := fst (happens (scheduled t) es) in let h' := fst (happens (scheduled t') es') in
     active (h_call h) = true -> active (h_call h') = true ->
     exists k k', h_key h = Some k /\ h_key h' = Some k' /\ (k <= getTime (h_call h))%Z /\ (k' <= getTime (h_call h'))%Z /\
       (le (h_call h) (h_call h') = true <-> (k <= k')%Z) /\ heap_lt false (h_call h) (h_call h') = Ok (k <? k')%Z) /\
  (forall a b c, le a b = true -> le b c = true -> le a c = true) /\
  (forall a b, le a b = true \/ le b a = true) /\
  (forall a b, c_delayed a = 0%Z -> c_delayed b = 0%Z -> (le a b = true <-> (getTime a <= getTime b)%Z)).
Proof.
  split; [|split; [|split]]; [|unfold le; intros; lia|unfold le; intros; lia|unfold le, getTime; intros; lia].
  intros t es t' es' h h' Ha Hb. destruct (happens_ok es (scheduled t) (good_new t)) as [[G _] _]. destruct (happens_ok es' (scheduled t') (good_new t')) as [[G' _] _]. fold h in G. fold h' in G'.
  destruct (G Ha) as [E D]. destruct (G' Hb) as [E' D']. exists (c_time (h_call h)), (c_time (h_call h')). do 2 (split; [assumption|]). unfold getTime. do 2 (split; [lia|]). split; [unfold le; lia|]. unfold heap_lt, le. f_equal. lia.
Qed.
Print Assumptions C150_order_partial.

Example C150_nonvacuous : let a := h_call (fst (happens (scheduled 1) [EDelay 5])) in let b := h_call (fst (happens (scheduled 2) [])) in
  active a = true /\ active b = true /\ heap_lt false a b = Ok true /\ heap_lt false b a = Ok false.
Proof. now vm_compute. Qed.
