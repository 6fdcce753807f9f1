(** * Properties of LineReceiver (C34-C36) *)

From Coq Require Import NArith String List Bool Arith.
From Verif Require Import Py PyStr Liner.
Import ListNotations.
Open Scope nat_scope.

(** ** C34 *)

(** For every handler that stays in line mode: whatever the chunks are, the
    lines delivered are the CRLF-separated complete lines of the stream, each
    once and in order, and the unterminated rest stays buffered. *)
Theorem C34_lines : forall A (lineR : A -> str -> A * lact) rawR,
  (forall a l, snd (lineR a l) = {| l_raw := false; l_disc := false; l_exn := None |}) ->
  forall chunks a p r l,
  feed lineR rawR (start a) chunks = Some (p, r, l) ->
  let '(lines, rest) := lines_of (concat chunks) in
  r = Ok tt /\ l = map (fun x => DLine x false) lines /\ buf p = rest /\
  app_ p = fold_left (fun a x => fst (lineR a x)) lines a.
Proof.
  intros A lineR rawR Hp chunks a p r l H.
  pose proof (@feed_lines A lineR rawR Hp chunks (start a) p r l eq_refl eq_refl H eq_refl) as K.
  cbn [buf start app app_] in K. destruct (lines_of (concat chunks)). exact K.
Qed.
Print Assumptions C34_lines.

(** Every run terminates: the loop of dataReceived never runs out of fuel. *)
Theorem C34_total : forall A (lineR : A -> str -> A * lact) rawR chunks p,
  exists p' r l, feed lineR rawR p chunks = Some (p', r, l).
Proof.
  intros A lineR rawR chunks p.
  destruct (@feed_total A lineR rawR chunks p) as [[[p' r] l] H]. eauto.
Qed.
Print Assumptions C34_total.

(** For every handler whatsoever, a delivered line holds no delimiter, not
    even one whose LF is the delimiter's. *)
Theorem C34_line_content : forall A (lineR : A -> str -> A * lact) rawR p data p' r l x d,
  dataReceived lineR rawR p data = Some (p', r, l) -> In (DLine x d) l ->
  find [13%N; 10%N] (x ++ [13%N]) = None.
Proof.
  intros A lineR rawR p data p' r l x d H Hin.
  pose proof (@go_lines A lineR rawR _ _ _ _ _ _ H) as K.
  rewrite Forall_forall in K. exact (K _ Hin).
Qed.
Print Assumptions C34_line_content.

Definition count_lines (a : nat) (_ : str) : nat * lact :=
  (S a, {| l_raw := false; l_disc := false; l_exn := None |}).
Definition no_raw (a : nat) (_ : str) : nat * ract * bool := (a, RStay, false).

(** A delimiter cut in two, an empty line, a lone CR. *)
Example C34_nonvacuous :
  feed count_lines no_raw (start 0)
    [lit "ab" ++ [CR]; [LF; CR; LF; CR]; lit "c" ++ [CR; LF]; lit "d"]
  = Some (P true (lit "d") false 3, Ok tt,
          [DLine (lit "ab") false; DLine [] false; DLine ([CR] ++ lit "c") false])
  /\ forall a l, snd (count_lines a l) = {| l_raw := false; l_disc := false; l_exn := None |}.
Proof. split; [vm_compute; reflexivity | reflexivity]. Qed.

(** ** C35 *)

(** For every line handler and every raw handler: the delivered lines with
    their delimiters, the raw bytes taken, and what is still buffered, put
    together in order, are the stream. *)
Theorem C35_conserved : forall A (lineR : A -> str -> A * lact) rawR chunks a p l,
  feed lineR rawR (start a) chunks = Some (p, Ok tt, l) -> disc p = false ->
  accounted l ++ buf p = concat chunks /\
  (lm p = true -> find [13%N; 10%N] (buf p) = None) /\ (lm p = false -> buf p = []).
Proof.
  intros A lineR rawR chunks a p l H Hd.
  destruct (@conservation A lineR rawR chunks (start a) p l eq_refl H Hd) as [H1 H2].
  unfold settled in H2. split; [exact H1|]. destruct (lm p); split; intros; try discriminate; exact H2.
Qed.
Print Assumptions C35_conserved.

(** If the raw handler keeps what it gets, the deliveries are lines and then
    raw data, and the raw data is exactly what follows the last line. *)
Theorem C35_raw_rest : forall A (lineR : A -> str -> A * lact) rawR,
  (forall a d, snd (fst (rawR a d)) = RStay /\ snd (rawR a d) = false) ->
  forall chunks a p l,
  feed lineR rawR (start a) chunks = Some (p, Ok tt, l) -> disc p = false -> lm p = false ->
  exists lines raws,
    l = map (fun x => DLine x false) lines ++ map (fun d => DRaw d (length d)) raws /\
    concat chunks = concat (map (fun x => x ++ [13%N; 10%N]) lines) ++ concat raws.
Proof.
  intros A lineR rawR Hk chunks a p l H Hd Hm.
  destruct (@feed_raw_rest A lineR rawR Hk chunks (start a) p l eq_refl eq_refl H Hd)
    as (ls & rs & H1 & H2 & H3 & _).
  exists ls, rs. split; [exact H1|]. rewrite (H3 Hm), app_nil_r in H2. exact H2.
Qed.
Print Assumptions C35_raw_rest.

(** For every line handler and every raw handler that inspects its data byte
    by byte (giving control back after or before any byte), the receiver does
    what the one-byte-at-a-time machine does on the concatenated stream. *)
Theorem C35_bytewise : forall A (lineR : A -> str -> A * lact) rawB chunks a p r l,
  feed lineR (Liner.rawR rawB) (start a) chunks = Some (p, r, l) ->
  exists s, brun lineR rawB (B true [] None a) (concat chunks) = (s, flat l) /\ agrees p r s.
Proof.
  intros A lineR rawB chunks a p r l H.
  exact (@feed_bytes A lineR rawB chunks (start a) p r l eq_refl eq_refl H).
Qed.
Print Assumptions C35_bytewise.

(** So two ways of cutting the same stream cannot be told apart. *)
Theorem C35_chunking : forall A (lineR : A -> str -> A * lact) rawB cs1 cs2 a p1 r1 l1 p2 r2 l2,
  concat cs1 = concat cs2 ->
  feed lineR (Liner.rawR rawB) (start a) cs1 = Some (p1, r1, l1) ->
  feed lineR (Liner.rawR rawB) (start a) cs2 = Some (p2, r2, l2) ->
  r1 = r2 /\ flat l1 = flat l2 /\ app_ p1 = app_ p2 /\ lm p1 = lm p2 /\
  (r1 = Ok tt -> disc p1 = disc p2) /\
  (r1 = Ok tt -> disc p1 = false -> buf p1 = buf p2).
Proof.
  intros A lineR rawB cs1 cs2 a p1 r1 l1 p2 r2 l2 Hc H1 H2.
  exact (@chunking A lineR rawB cs1 cs2 (start a) p1 r1 l1 p2 r2 l2 eq_refl eq_refl Hc H1 H2).
Qed.
Print Assumptions C35_chunking.

(** "r" switches to raw mode; three raw bytes are then taken. *)
Definition ex_line (a : nat) (l : str) : nat * lact :=
  (0, {| l_raw := eqb l (lit "r"); l_disc := eqb l (lit "q"); l_exn := None |}).
Definition ex_raw (a : nat) (_ : N) : nat * verdict :=
  (S a, if Nat.eqb a 2 then DoneAfter else Continue).

Example C35_nonvacuous :
  feed ex_line (Liner.rawR ex_raw) (start 0)
    [lit "x"; [CR; LF] ++ lit "r" ++ [CR]; [LF] ++ lit "1"; lit "23y" ++ [CR; LF] ++ lit "z"]
  = Some (P true (lit "z") false 0, Ok tt,
          [DLine (lit "x") false; DLine (lit "r") false; DRaw (lit "1") 1;
           DRaw (lit "23y" ++ [CR; LF] ++ lit "z") 2; DLine (lit "y") false])
  /\ feed ex_line (Liner.rawR ex_raw) (start 0)
    [lit "x" ++ [CR; LF] ++ lit "r" ++ [CR; LF] ++ lit "123y" ++ [CR; LF] ++ lit "z"]
  = Some (P true (lit "z") false 0, Ok tt,
          [DLine (lit "x") false; DLine (lit "r") false;
           DRaw (lit "123y" ++ [CR; LF] ++ lit "z") 3; DLine (lit "y") false]).
Proof. split; vm_compute; reflexivity. Qed.

Definition keep_raw (a : nat) (_ : str) : nat * ract * bool := (a, RStay, false).

Example C35_nonvacuous_rest :
  feed ex_line keep_raw (start 0) [lit "x" ++ [CR; LF] ++ lit "r"; [CR; LF] ++ lit "1"; [CR; LF]]
  = Some (P false [] false 0, Ok tt,
          [DLine (lit "x") false; DLine (lit "r") false; DRaw (lit "1") 1; DRaw [CR; LF] 2]).
Proof. vm_compute. reflexivity. Qed.

(** ** C36 *)

(** For every handler: after a line upon which the transport is disconnecting
    nothing is delivered by this call, and nothing it received is kept for a
    later one. *)
Theorem C36_nothing_after : forall A (lineR : A -> str -> A * lact) rawR p data p' r l1 x l2,
  dataReceived lineR rawR p data = Some (p', r, l1 ++ DLine x true :: l2) ->
  l2 = [] /\ (r = Ok tt -> buf p' = []) /\ disc p' = true.
Proof.
  intros A lineR rawR p data p' r l1 x l2 H.
  exact (@go_disc A lineR rawR _ _ _ _ _ _ H l1 x l2 eq_refl).
Qed.
Print Assumptions C36_nothing_after.

Example C36_nonvacuous :
  dataReceived ex_line (Liner.rawR ex_raw) (P true (lit "q" ++ [CR]) false 5)
    ([LF] ++ lit "x" ++ [CR; LF] ++ lit "y")
  = Some (P true [] true 0, Ok tt, [] ++ [DLine (lit "q") true]).
Proof. vm_compute. reflexivity. Qed.
