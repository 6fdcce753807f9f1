(** * C184: a remembered attribute accessed by several threads at once *)

From Coq Require Import NArith List Bool Arith Lia.
From Verif Require Import RememberRace.
Import ListNotations.
Open Scope nat_scope.

(** The full claim: however the accesses are interleaved, if the creation function never
    returns None and never raises, it is called at most once and every access returns the
    same value. *)
Definition C184_full : Prop := forall es, something es -> (forall t, ~ In (Raise t) es) ->
  (exists v, forall t w, In (Ret t w) (snd (run fresh es)) -> w = v) /\
  (forall t u, In (Call t) (snd (run fresh es)) -> In (Call u) (snd (run fresh es)) -> t = u).

(** Two threads both find nothing and both call the function; a third gets the value of the
    first and, after the second stored its own, another value. *)
Theorem C184_threads_refuted : exists es, something es /\ (forall t, ~ In (Raise t) es) /\
  snd (run fresh es) = [Call 0; Call 1; Ret 0 (Some 7%N); Ret 2 (Some 7%N); Ret 1 (Some 8%N); Ret 3 (Some 8%N)].
Proof.
  exists [Begin 0; Begin 1; Return 0 (Some 7%N); Store 0; Begin 2; Return 1 (Some 8%N); Store 1; Begin 3].
  split; [intros t H; cbn in H; intuition discriminate|]. split; [intros t H; cbn in H; intuition discriminate|]. reflexivity.
Qed.
Print Assumptions C184_threads_refuted.

Theorem C184_full_refuted : ~ C184_full.
Proof.
  intros F. destruct C184_threads_refuted as (es & H1 & H2 & H3). destruct (F es H1 H2) as [_ K]. rewrite H3 in K. specialize (K 0 1 ltac:(cbn; auto) ltac:(cbn; auto)). discriminate.
Qed.
Print Assumptions C184_full_refuted.

(** A value that was remembered can also be lost: the function called by the slower thread
    returns None, and the next access calls it again. *)
Theorem C184_lost_refuted : exists es,
  snd (run fresh es) = [Call 0; Call 1; Ret 0 (Some 7%N); Ret 1 None; Call 2].
Proof. exists [Begin 0; Begin 1; Return 0 (Some 7%N); Store 0; Return 1 None; Store 1; Begin 2]. reflexivity. Qed.
Print Assumptions C184_lost_refuted.

(** If no access begins while another is making the value, all that return a value return
    the same one, whatever raises or returns None in between. *)
Theorem C184_alone_partial : forall es, one_at_a_time fresh es ->
  exists v, forall t w, In (Ret t (Some w)) (snd (run fresh es)) -> w = v.
Proof. intros es. apply alone_same. left. intros t. reflexivity. Qed.
Print Assumptions C184_alone_partial.

(** However they are interleaved, what is returned was returned by a call of the function. *)
Theorem C184_made_partial : forall es t w, In (Ret t w) (snd (run fresh es)) -> exists u, In (Return u w) es.
Proof.
  intros es t w H. destruct (run_made es fresh (fun _ => False) (or_introl eq_refl)) with (t := t) (v := w) as [[]|X]; [intros; discriminate|exact H|exact X].
Qed.
Print Assumptions C184_made_partial.

(** However they are interleaved, if the function never returns None it is not called once a
    value was returned. *)
Theorem C184_calls_partial : forall es, something es ->
  forall pre t v post, snd (run fresh es) = pre ++ Ret t v :: post -> forall x, ~ In (Call x) post.
Proof. intros es He. apply no_call_after; [exact He|]. intros t H. discriminate. Qed.
Print Assumptions C184_calls_partial.

(** However they are interleaved, an access that does not call the function returns what was
    returned last. *)
Theorem C184_last_partial : forall es t v, at_ (fst (run fresh es)) t = Idle ->
  last_ret None (snd (run fresh es)) = Some v -> snd (step (fst (run fresh es)) (Begin t)) = [Ret t (Some v)].
Proof. intros es t v H L. pose proof (mem_last es fresh) as M. cbn [fresh mem] in M. cbn [step]. rewrite H, M, L. reflexivity. Qed.
Print Assumptions C184_last_partial.

(** Once nobody is making a value, the value that was returned last stays: whatever happens
    afterwards, every access returns it and the function is not called. *)
Theorem C184_settled_partial : forall es v rest, quiet (fst (run fresh es)) ->
  last_ret None (snd (run fresh es)) = Some v ->
  Forall (fun o => exists t, o = Ret t (Some v)) (snd (run (fst (run fresh es)) rest)).
Proof.
  intros es v rest Q L. apply settled; [exact Q|]. now rewrite mem_last.
Qed.
Print Assumptions C184_settled_partial.

Example C184_nonvacuous :
  let es := [Begin 0; Begin 1; Return 0 (Some 7%N); Store 0; Return 1 (Some 8%N); Store 1] in
  something es /\ quiet (fst (run fresh es)) /\ last_ret None (snd (run fresh es)) = Some 8%N /\
  snd (run (fst (run fresh es)) [Begin 5; Begin 6]) = [Ret 5 (Some 8%N); Ret 6 (Some 8%N)] /\
  one_at_a_time fresh [Begin 0; Raise 0; Begin 1; Return 1 (Some 7%N); Store 1; Begin 2] /\
  snd (run fresh [Begin 0; Raise 0; Begin 1; Return 1 (Some 7%N); Store 1; Begin 2]) = [Call 0; Raised 0; Call 1; Ret 1 (Some 7%N); Ret 2 (Some 7%N)].
Proof.
  cbn zeta. split; [intros t H; cbn in H; intuition discriminate|]. split; [intros t; cbn; unfold put; destruct (t =? 1); [reflexivity|]; destruct (t =? 0); reflexivity|].
  split; [reflexivity|]. split; [reflexivity|]. split; [|reflexivity]. cbn [one_at_a_time]. repeat split; try discriminate; intros x _ t; cbn; unfold put; repeat match goal with |- context [t =? ?k] => destruct (t =? k) end; reflexivity.
Qed.
