(** * C181: processes that set and read one file at the same time
    (epsilon/hotfixes/filepath_copyTo.py:148-155, 281-287) *)

From Coq Require Import NArith String List Bool Arith.
From Verif Require Import Py FileRace.
Import ListNotations.
Open Scope nat_scope.

(** Any number of processes call setContent and getContent on one path, interleaved at
    every system call, any transfer cut short, any writer killed at any point: the file is
    a variable that setContent assigns when it returns, and no setContent fails. *)
Definition C181_full : Prop := forall path ext s es, start s ->
  holds (fst (run path ext s es)) path = register (holds s path) (snd (run path ext s es)) /\
  (forall i, ~ In (FailedSet i) (snd (run path ext s es))).

(** processes 0 and 1, each to set the file at [f] *)
Definition two (a b : content) : state :=
  St (Fs (fun _ => None) (fun _ => []) 0) (fun i => Wr (match i with 0 => [a] | 1 => [b] | _ => [] end) WIdle) (fun _ => RIdle).

Lemma two_start a b : start (two a b).
Proof. repeat split; cbn; discriminate. Qed.

(** With the default extension in both, process 0 can see its call return and the file then
    hold a mix of the two contents, while the call of process 1 fails. *)
Theorem C181_new_refuted : exists es,
  let r := run (lit "f") (fun _ => lit ".new") (two (lit "AA") (lit "B")) es in
  holds (fst r) (lit "f") = Some (lit "BA") /\ snd r = [DoneSet 0 (lit "AA"); FailedSet 1].
Proof. exists [Write 0 9; Write 1 9; Write 0 9; Write 0 9; Write 1 9; Write 1 9]. vm_compute. split; reflexivity. Qed.
Print Assumptions C181_new_refuted.

Theorem C181_full_refuted : ~ C181_full.
Proof.
  intros H. destruct C181_new_refuted as (es & H1 & H2). destruct (H (lit "f") (fun _ => lit ".new") _ es (two_start (lit "AA") (lit "B"))) as [_ Hf].
  apply (Hf 1). rewrite H2. right. now left.
Qed.
Print Assumptions C181_full_refuted.

(** True of processes that give different extensions, none empty: the file is such a
    variable, no setContent fails, a process that is not killed sets its contents in order,
    and no name but the file's and the siblings' changes what it holds. *)
Theorem C181_apart_partial : forall path ext s es, start s -> apart ext s ->
  let s' := fst (run path ext s es) in let o := snd (run path ext s es) in
  holds s' path = register (holds s path) o /\
  (forall i, ~ In (FailedSet i) o) /\
  (forall i, ~ In (Crash i) es -> sets i o ++ todo (wr s' i) = todo (wr s i)) /\
  (forall n, n <> path -> (forall i, todo (wr s i) <> [] -> n <> path ++ ext i) -> holds s' n = holds s n).
Proof. exact race_apart. Qed.
Print Assumptions C181_apart_partial.

(** A getContent returns what the file held when it opened it, whole, whatever is set
    while it reads. *)
Theorem C181_read_partial : forall path ext s es j k es' c, start s -> apart ext s ->
  rd (fst (run path ext s es)) j = RIdle -> holds (fst (run path ext s es)) path = Some c ->
  forall pre r post, snd (run path ext (fst (run path ext s es)) (Read j k :: es')) = pre ++ Got j r :: post ->
  (forall r', ~ In (Got j r') pre) -> r = c.
Proof. exact race_reader. Qed.
Print Assumptions C181_read_partial.

(** Whatever the extensions: every byte the file holds, or a getContent returns, is the
    byte at the same place of the old content or of a content that a process sets, or zero. *)
Theorem C181_bytes_partial : forall path ext s es, start s ->
  let from p x := x = 0%N \/ exists c, (holds s path = Some c \/ exists i, In c (todo (wr s i))) /\ nth_error c p = Some x in
  (forall c p x, holds (fst (run path ext s es)) path = Some c -> nth_error c p = Some x -> from p x) /\
  (forall j c p x, In (Got j c) (snd (run path ext s es)) -> nth_error c p = Some x -> from p x).
Proof. exact race_bytes. Qed.
Print Assumptions C181_bytes_partial.

(** The hypotheses are met by two processes with the extensions .0 and .1; a reader that
    opened the first content reads it to the end after the second is set; a writer killed in
    the middle leaves the file as it was. *)
Definition ext01 (i : nat) : str := match i with 0 => lit ".0" | _ => lit ".1" end.
Example C181_nonvacuous :
  start (two (lit "AA") (lit "B")) /\ apart ext01 (two (lit "AA") (lit "B")) /\
  (let r := run (lit "f") ext01 (two (lit "AA") (lit "B"))
              [Write 0 0; Write 1 0; Read 7 0; Write 0 0; Write 0 0; Write 0 0; Read 7 0; Read 7 0; Write 1 0; Write 1 0; Read 7 0; Read 7 0] in
   snd r = [Missing 7; DoneSet 0 (lit "AA"); DoneSet 1 (lit "B"); Got 7 (lit "AA")] /\ holds (fst r) (lit "f") = Some (lit "B")) /\
  (let r := run (lit "f") ext01 (two (lit "AA") (lit "B")) [Write 1 0; Write 1 0; Write 1 0; Write 0 0; Write 0 0; Crash 0; Write 0 0] in
   snd r = [DoneSet 1 (lit "B")] /\ holds (fst r) (lit "f") = Some (lit "B") /\ holds (fst r) (lit "f.0") = Some (lit "A")).
Proof.
  split; [apply two_start|]. split.
  - split; intros [|[|i]]; cbn; try congruence. intros [|[|j]]; cbn; congruence. intros [|[|j]]; cbn; congruence.
  - vm_compute. repeat split; reflexivity.
Qed.
