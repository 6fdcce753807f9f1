(** * Properties C53 (the bytes) and C87: switching a Juice connection to
    another protocol (epsilon/juice.py).

    [Run ulower sw recv idata s0 ops p r]: a connection started in state [s0]
    where [sw] is false saw [ops]: chunks of data, and other events changing
    its state; it ended as [p], the last call returning or raising [r].
    [recv] is the delivery of a box and everything it triggers, [idata] the
    [dataReceived] of the inner protocol; [sw s]: an inner protocol is set.
    [s_tr (app_ p)] is what was handed out: boxes, the transport, data. *)

From Coq Require Import ZArith NArith String List Bool Arith Lia.
From Verif Require Import Py PyStr PyNum PyInt Utf8 Liner JuiceCodec JuiceStream JuiceSwitch.
Import ListNotations.
Open Scope nat_scope.

Section Statements.
  Context {S : Type} (ulower : str -> str) (sw : S -> bool) (recv : S -> dict str str -> S * option exn * bool)
    (idata : S -> str -> S * option exn * bool).

  Definition switched (p : proto (sapp S)) : bool := sw (s_st (app_ p)).
  Definition handed (p : proto (sapp S)) : list tev := s_tr (app_ p).
  (** the run so far raised nothing, the transport is not disconnecting *)
  Definition live (s0 : S) ops p : Prop := sw s0 = false /\ Run ulower sw recv idata s0 ops p (Ok tt) /\ disc p = false.
End Statements.

(** ** C53 *)

(** The peer wrote the boxes [bs] and then [z]; the connection was switched by
    the delivery of the last of them.  However the bytes were cut, the boxes
    delivered are [bs], and the inner protocol got exactly [z] (up to what is
    kept for the next arrival). *)
Theorem C53_bytes : forall S ulower (sw : S -> bool) recv idata s0 ops p bs ws z,
  (forall s, is_ascii s = true -> ulower s = map ascii_lower s) -> for_ever sw recv idata ->
  live ulower sw recv idata s0 ops p -> switched sw p = true ->
  (forall f, In (App f) ops -> forall s, sw (f s) = sw s) ->
  bs <> [] -> Forall (sendable ulower) bs -> wires bs ws -> arrived ops = concat ws ++ z ->
  length (boxes (handed p)) = length bs ->
  boxes (handed p) = map received bs /\ data (handed p) ++ buf p = z.
Proof. intros S ulower sw recv idata s0 ops p bs ws z Hl [H1 H2] (H0 & HR & Hd). exact (written_switch _ _ _ _ _ H1 H2 _ _ _ _ _ _ Hl H0 HR Hd). Qed.
Print Assumptions C53_bytes.

(** Any stream: a switch while data is read divides the stream behind the box
    that caused it. *)
Theorem C53_divided : forall S ulower (sw : S -> bool) recv idata s0 ops p d p' l, for_ever sw recv idata ->
  live ulower sw recv idata s0 ops p -> switched sw p = false ->
  dataReceived (sline ulower sw recv) (sraw sw recv idata) p d = Some (p', Ok tt, l) -> disc p' = false -> switched sw p' = true ->
  exists K R, arrived ops ++ d = K ++ R /\ ends_box ulower K /\ boxes (handed p') = boxes_in ulower K /\
    data (handed p') ++ buf p' = unread ulower K ++ R.
Proof. intros S ulower sw recv idata s0 ops p d p' l [H1 H2] (H0 & HR & Hd). exact (switch_in_chunk _ _ _ _ _ H1 H2 _ _ _ _ _ _ H0 HR Hd). Qed.
Print Assumptions C53_divided.

(** A switch between two arrivals: what was not yet read goes first. *)
Theorem C53_between : forall S ulower (sw : S -> bool) recv idata s0 ops p f, for_ever sw recv idata ->
  live ulower sw recv idata s0 ops p -> switched sw p = false -> sw (f (s_st (app_ p))) = true ->
  boxes (handed (between sw p f)) = boxes_in ulower (arrived ops) /\ data (handed (between sw p f)) = [] /\
  buf (between sw p f) = unread ulower (arrived ops).
Proof. intros S ulower sw recv idata s0 ops p f [H1 H2] (H0 & HR & Hd). exact (switch_between _ _ _ _ _ H1 H2 _ _ _ _ H0 HR Hd). Qed.
Print Assumptions C53_between.

(** After the switch, data goes to the inner protocol as it arrives, and
    nothing else happens. *)
Theorem C53_after : forall S ulower (sw : S -> bool) recv idata s0 ops p d p' r l, for_ever sw recv idata ->
  live ulower sw recv idata s0 ops p -> switched sw p = true ->
  dataReceived (sline ulower sw recv) (sraw sw recv idata) p d = Some (p', r, l) ->
  switched sw p' = true /\ buf p' = [] /\
  handed p' = handed p ++ match buf p ++ d with [] => [] | x => [TData x] end.
Proof. intros S ulower sw recv idata s0 ops p d p' r l [H1 H2] (H0 & HR & Hd). exact (after_switch _ _ _ _ _ H1 H2 _ _ _ _ _ _ _ H0 HR Hd). Qed.
Print Assumptions C53_after.

(** No box is delivered after anything was handed to the inner protocol,
    whatever was raised. *)
Theorem C53_boxes_first : forall S ulower (sw : S -> bool) recv idata s0 ops p r, for_ever sw recv idata ->
  sw s0 = false -> Run ulower sw recv idata s0 ops p r ->
  exists bs rest, handed p = map TBox bs ++ rest /\ forall b, ~ In (TBox b) rest.
Proof.
  intros S ulower sw recv idata s0 ops p r [H1 H2] H0 HR.
  destruct (run_post _ _ _ _ _ H1 H2 _ _ _ _ H0 HR) as (K & R & _ & _ & (rest & E & Hf) & _).
  exists (boxes (handed p)), rest. split; [exact E|]. intros b Hb. rewrite Forall_forall in Hf. now specialize (Hf _ Hb).
Qed.
Print Assumptions C53_boxes_first.

(** *** A connection that switches when it gets a box with [go] in it *)
Definition ex_recv (s : bool) (b : dict str str) : bool * option exn * bool := (s || din b (lit "go"), None, false).
Definition ex_idata (s : bool) (d : str) : bool * option exn * bool := (s, None, false).
Definition ex_sw (s : bool) : bool := s.
Definition ex_lower : str -> str := map ascii_lower.

Lemma ex_ever : for_ever ex_sw ex_recv ex_idata.
Proof. split; intros [] x H; cbn in *; auto; discriminate. Qed.

(** run chunks and switches from outside ([None]) *)
Fixpoint ex_run (p : proto (sapp bool)) (l : list (option str)) : option (proto (sapp bool)) :=
  match l with
  | [] => Some p
  | None :: t => ex_run (between ex_sw p (fun _ => true)) t
  | Some d :: t =>
      match dataReceived (sline ex_lower ex_sw ex_recv) (sraw ex_sw ex_recv ex_idata) p d with
      | Some (p', Ok tt, _) => if disc p' then None else ex_run p' t
      | _ => None
      end
  end.
Definition ex_ops (l : list (option str)) : list (op bool) := map (fun o => match o with Some d => Chunk d | None => App (fun _ => true) end) l.

Lemma ex_run_sound : forall l ops p p', live ex_lower ex_sw ex_recv ex_idata false ops p -> ex_run p l = Some p' ->
  live ex_lower ex_sw ex_recv ex_idata false (ops ++ ex_ops l) p'.
Proof.
  induction l as [|[d|] l IH]; intros ops p p' HL H; cbn [ex_run] in H.
  - injection H as <-. cbn. now rewrite app_nil_r.
  - destruct (dataReceived (sline ex_lower ex_sw ex_recv) (sraw ex_sw ex_recv ex_idata) p d) as [[[p1 [[]|e]] l1]|] eqn:E; try discriminate.
    destruct (disc p1) eqn:Ed; [discriminate|]. destruct HL as (H0 & HR & Hd).
    apply IH with (ops := ops ++ [Chunk d]) in H; [|split; [exact H0|split; [econstructor; eauto|exact Ed]]].
    now rewrite <- app_assoc in H.
  - destruct HL as (H0 & HR & Hd). apply IH with (ops := ops ++ [App (fun _ => true)]) in H.
    + now rewrite <- app_assoc in H.
    + split; [exact H0|]. split; [|exact Hd]. constructor; auto.
Qed.

Lemma ex_start : live ex_lower ex_sw ex_recv ex_idata false [] (sstart false).
Proof. split; [reflexivity|]. split; [constructor|reflexivity]. Qed.

Definition ex_bs : list (dict str str) := [[(lit "a", lit "1")]; [(lit "go", lit "x")]].
Definition ex_ws : list str := [lit "A: 1" ++ CRLF ++ CRLF; lit "Go: x" ++ CRLF ++ CRLF].

(** the switch in the middle of a chunk; data that looks like a box *)
Example C53_nonvacuous : exists ops p, live ex_lower ex_sw ex_recv ex_idata false ops p /\ switched ex_sw p = true /\
  (forall f, In (App f) ops -> forall s, ex_sw (f s) = ex_sw s) /\ Forall (sendable ex_lower) ex_bs /\ wires ex_bs ex_ws /\
  arrived ops = concat ex_ws ++ lit "A: 2" ++ CRLF ++ CRLF ++ lit "end" /\
  handed p = [TBox [(lit "a", lit "1")]; TBox [(lit "go", lit "x")]; TConn; TData (lit "A: " ++ []); TData (lit "2" ++ CRLF ++ CRLF); TData (lit "end")].
Proof.
  set (l := [Some (lit "A: 1" ++ CRLF ++ [CR]); Some ([LF] ++ lit "Go: x" ++ CRLF ++ CRLF ++ lit "A: "); Some (lit "2" ++ CRLF ++ CRLF); Some (lit "end")]).
  destruct (ex_run (sstart false) l) as [p|] eqn:E; [|vm_compute in E; discriminate].
  exists (ex_ops l), p. split; [exact (ex_run_sound l [] _ _ ex_start E)|]. vm_compute in E. injection E as <-.
  split; [reflexivity|]. split.
  { intros f Hf. unfold ex_ops, l in Hf. cbn in Hf. intuition discriminate. }
  split.
  { repeat (apply Forall_cons || apply Forall_nil); (split; [repeat constructor; cbn; tauto|]);
      (split; [repeat constructor|]); (split; [repeat constructor|]); intros v Hv; vm_compute in Hv; discriminate. }
  split; [repeat (apply Forall2_cons; [vm_compute; reflexivity|]); apply Forall2_nil|].
  split; vm_compute; reflexivity.
Qed.

(** the switch between two arrivals, half a line having arrived *)
Example C53_between_nonvacuous : exists ops p, live ex_lower ex_sw ex_recv ex_idata false ops p /\ switched ex_sw p = true /\
  handed p = [TBox [(lit "a", lit "1")]; TConn; TData (lit "B: 3")] /\ unread ex_lower (lit "A: 1" ++ CRLF ++ CRLF ++ lit "B:") = lit "B:".
Proof.
  set (l := [Some (lit "A: 1" ++ CRLF ++ CRLF ++ lit "B:"); None; Some (lit " 3")]).
  destruct (ex_run (sstart false) l) as [p|] eqn:E; [|vm_compute in E; discriminate].
  exists (ex_ops l), p. split; [exact (ex_run_sound l [] _ _ ex_start E)|]. vm_compute in E. injection E as <-.
  repeat split; vm_compute; reflexivity.
Qed.

(** ** C87: the inner protocol is connected exactly once *)

Definition C87_full : Prop :=
  forall S ulower (sw : S -> bool) recv idata s0 ops p, for_ever sw recv idata ->
  live ulower sw recv idata s0 ops p -> switched sw p = true -> conns (handed p) = 1.

(** A box with a body that causes a switch has the transport handed to the
    inner protocol twice. *)
Theorem C87_connected_once_refuted :
  (exists ops p, live ex_lower ex_sw ex_recv ex_idata false ops p /\ switched ex_sw p = true /\
     handed p = [TBox [(lit "go", lit "x"); (lit "body", lit "b")]; TConn; TConn; TData (lit "data")]) /\ ~ C87_full.
Proof.
  assert (W : exists ops p, live ex_lower ex_sw ex_recv ex_idata false ops p /\ switched ex_sw p = true /\
     handed p = [TBox [(lit "go", lit "x"); (lit "body", lit "b")]; TConn; TConn; TData (lit "data")]).
  { set (l := [Some (lit "Go: x" ++ CRLF ++ lit "-Length: 1" ++ CRLF ++ CRLF ++ lit "bdata")]).
    destruct (ex_run (sstart false) l) as [p|] eqn:E; [|vm_compute in E; discriminate].
    exists (ex_ops l), p. split; [exact (ex_run_sound l [] _ _ ex_start E)|]. vm_compute in E. injection E as <-.
    repeat split; vm_compute; reflexivity. }
  split; [exact W|]. intros F. destruct W as (ops & p & HL & Hs & Ht).
  specialize (F _ _ _ _ _ _ _ _ ex_ever HL Hs). rewrite Ht in F. discriminate.
Qed.
Print Assumptions C87_connected_once_refuted.

(** Before the switch it is not connected; after it, once, or twice if a box
    with a body was delivered; and data only after it.  (Missing: that it is never twice.) *)
Theorem C87_connected_partial : forall S ulower (sw : S -> bool) recv idata s0 ops p r, for_ever sw recv idata ->
  sw s0 = false -> Run ulower sw recv idata s0 ops p r ->
  (switched sw p = false -> conns (handed p) = 0) /\
  (switched sw p = true -> 1 <= conns (handed p) <= 2) /\
  (switched sw p = true -> (forall b, In b (boxes (handed p)) -> dget b (lit "body") = None) -> conns (handed p) = 1) /\
  (forall t1 d t2, handed p = t1 ++ TData d :: t2 -> In TConn t1).
Proof.
  intros S ulower sw recv idata s0 ops p r [H1 H2] H0 HR. pose proof (run_connected _ _ _ _ _ H1 H2 _ _ _ _ H0 HR) as H.
  unfold connected, switched, handed in *. destruct H as [Hc H].
  assert (Hd : forall t1 d t2, s_tr (app_ p) = t1 ++ TData d :: t2 -> In TConn t1).
  { intros t1 d t2 E. destruct (conn_first_spec _ _ Hc _ _ _ E); [discriminate|assumption]. }
  destruct (sw (s_st (app_ p))); repeat split; try discriminate; auto; try lia; try exact Hd.
  intros _ Hb. destruct H as [H|[_ (b & Hin & Hw)]]; [exact H|]. apply Hb in Hin. apply dget_None in Hin. contradiction.
Qed.
Print Assumptions C87_connected_partial.

Example C87_nonvacuous : exists ops p, live ex_lower ex_sw ex_recv ex_idata false ops p /\ switched ex_sw p = true /\
  boxes (handed p) = [[(lit "go", lit "x")]] /\ conns (handed p) = 1.
Proof.
  set (l := [Some (lit "Go: x" ++ CRLF ++ CRLF ++ lit "bdata")]).
  destruct (ex_run (sstart false) l) as [p|] eqn:E; [|vm_compute in E; discriminate].
  exists (ex_ops l), p. split; [exact (ex_run_sound l [] _ _ ex_start E)|]. vm_compute in E. injection E as <-.
  repeat split; vm_compute; reflexivity.
Qed.
