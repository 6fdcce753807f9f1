(** * C183: what a peer can make a connection hold
    (epsilon/liner.py:8-63, epsilon/juice.py:745, 880-918) *)

From Coq Require Import ZArith NArith String List Bool Arith Lia.
From Verif Require Import Py PyStr Liner JuiceCodec JuiceStream JuiceHold.
Import ListNotations.
Open Scope nat_scope.

(** No more than MAX_LINE_LENGTH bytes are buffered, and no longer line is delivered; a Juice
    connection does not hold more than some bound either. *)
Definition C183_full : Prop :=
  (forall A (lineR : A -> str -> A * lact) rawR chunks a p r l, feed lineR rawR (start a) chunks = Some (p, r, l) ->
     (N.of_nat (length (buf p)) <= MAX_LINE_LENGTH)%N /\ forall x d, In (DLine x d) l -> (N.of_nat (length x) <= MAX_LINE_LENGTH)%N) /\
  (exists bound, forall ulower S recv chunks s0 p l, feed (jline ulower recv) (jraw recv) (@jstart S s0) chunks = Some (p, Ok tt, l) -> held p <= bound).

(** There is no limit: for every size there is a stream that makes any plain line receiver
    buffer that much, one that makes it deliver a line of that size, and streams that make
    any Juice connection hold that much in a line or in lines. *)
Theorem C183_limit_refuted :
  (forall A (lineR : A -> str -> A * lact) rawR a k, plain_lines lineR ->
     (exists p, feed lineR rawR (start a) [repeat 120%N k] = Some (p, Ok tt, []) /\ length (buf p) = k) /\
     (exists p, feed lineR rawR (start a) [repeat 120%N k ++ CRLF] = Some (p, Ok tt, [DLine (repeat 120%N k) false]))) /\
  (forall ulower S recv (s0 : S) k,
     (exists p l, feed (jline ulower recv) (jraw recv) (jstart s0) [repeat 120%N k] = Some (p, Ok tt, l) /\ disc p = false /\ length (buf p) = k /\ held p = k) /\
     (exists p l, feed (jline ulower recv) (jraw recv) (jstart s0) [endl (repeat (lit "a: b") k)] = Some (p, Ok tt, l) /\ disc p = false /\ buf p = [] /\ held p = 6 * k)) /\
  ~ C183_full.
Proof.
  split; [exact hold_plain|]. split; [intros ulower S recv s0 k; split; [apply hold_line|apply hold_lines]|]. intros [_ [bound H]].
  destruct (hold_line (fun x => x) unit (fun s _ => (s, None)) tt (bound + 1)) as (p & l & E & _ & _ & Hh). specialize (H _ _ _ _ _ _ _ E). lia.
Qed.
Print Assumptions C183_limit_refuted.

(** MAX_LINE_LENGTH has no effect: one byte more is buffered, and delivered as a line. *)
Theorem C183_declared_refuted :
  (exists chunks p l, feed (fun a _ => (a, Build_lact false false None)) (fun a _ => (a, RStay, false)) (start tt) chunks = Some (p, Ok tt, l) /\ (N.of_nat (length (buf p)) = MAX_LINE_LENGTH + 1)%N) /\
  (exists chunks p x, feed (fun a _ => (a, Build_lact false false None)) (fun a _ => (a, RStay, false)) (start tt) chunks = Some (p, Ok tt, [DLine x false]) /\ (N.of_nat (length x) = MAX_LINE_LENGTH + 1)%N).
Proof.
  destruct (hold_plain unit (fun a _ => (a, Build_lact false false None)) (fun a _ => (a, RStay, false)) tt (N.to_nat (MAX_LINE_LENGTH + 1)) (fun _ _ => eq_refl)) as [(p & H & L) (p' & H')]. split.
  - eexists _, p, _. split; [exact H|]. rewrite L. apply N2Nat.id.
  - eexists _, p', _. split; [exact H'|]. rewrite repeat_length. apply N2Nat.id.
Qed.
Print Assumptions C183_declared_refuted.

(** What holds of every LineReceiver, whatever its handlers do: what it buffers is the end of
    the stream, after all that was delivered, and has no complete line in it; in raw mode it
    buffers nothing. *)
Theorem C183_line_partial : forall A (lineR : A -> str -> A * lact) rawR chunks a p l,
  feed lineR rawR (start a) chunks = Some (p, Ok tt, l) -> disc p = false ->
  concat chunks = accounted l ++ buf p /\ (if lm p then find CRLF (buf p) = None else buf p = []).
Proof.
  intros A lineR rawR chunks a p l H Hd. destruct (@conservation A lineR rawR chunks (start a) p l eq_refl H Hd) as [E S]. split; [symmetry; exact E|exact S].
Qed.
Print Assumptions C183_line_partial.

(** What holds of every Juice connection, whatever is done with its boxes: the stream is cut
    in two where the last box was delivered; at that point at most one byte was held (of a
    box whose declared length is negative), and what is held now is no more than what has come
    since, exactly that while no body is read. *)
Theorem C183_box_partial : forall ulower S recv cs (s0 : S) p l,
  feed (jline ulower recv) (jraw recv) (jstart s0) cs = Some (p, Ok tt, l) -> disc p = false ->
  exists d r p0 l0, concat cs = d ++ r /\
    feed (jline ulower recv) (jraw recv) (jstart s0) [d] = Some (p0, Ok tt, l0) /\ held p0 <= 1 /\ jst (app_ p0) = jst (app_ p) /\
    held p <= held p0 + length r /\ (lm p = true -> held p = held p0 + length r).
Proof. exact hold_box. Qed.
Print Assumptions C183_box_partial.

(** A box, and the beginning of another with a body. *)
Example C183_nonvacuous :
  let s1 := lit "a: b" ++ CRLF ++ CRLF in
  let s2 := lit "c: d" ++ CRLF ++ lit "-Length: 5" ++ CRLF in
  let f cs := match feed (jline (map ascii_lower) collect) (jraw collect) (jstart []) cs with Some (p, Ok _, _) => Some (held p, jst (app_ p), lm p) | _ => None end in
  f [s1; s2] = Some (length s2, [[(lit "a", lit "b")]], true) /\
  f [s1 ++ s2; CRLF ++ lit "xyz"] = Some (3, [[(lit "a", lit "b")]], false) /\
  f [s1] = Some (0, [[(lit "a", lit "b")]], true).
Proof. vm_compute. auto. Qed.
