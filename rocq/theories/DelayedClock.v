(** * The test clock: epsilon/hotfixes/internet_task_clock.py *)

From Coq Require Import ZArith List Bool Arith Lia ZifyBool Permutation Sorted.
From Verif Require Import Py Delayed.
Import ListNotations.
Open Scope Z_scope.

(** ** A stable sort *)

(** list.sort with a comparison of [key]s *)
Fixpoint insert (key : nat -> Z) (x : nat) (l : list nat) : list nat :=
  match l with
  | [] => [x]
  | y :: l' => if key x <=? key y then x :: l else y :: insert key x l'
  end.
Definition sort (key : nat -> Z) (l : list nat) : list nat := fold_right (insert key) [] l.

(** ** Clock *)

(** Twisted's Clock: rightNow and the queue [ck_calls] of calls.  The calls
    themselves are numbered in the order of their creation, in [ck_table]. *)
Record clock := Clock { ck_now : Z; ck_calls : list nat; ck_table : list call }.
Definition new_clock : clock := Clock 0 [] [].

Definition time_in (t : list call) (i : nat) : Z := match nth_error t i with Some c => getTime c | None => 0 end.

(** internet_task_clock.py:7-19; the number of the new call is returned *)
Definition callLater (when_ : Z) (k : clock) : clock * nat :=
  let i := length (ck_table k) in
  let table := ck_table k ++ [newCall (ck_now k + when_)] in
  (Clock (ck_now k) (sort (time_in table) (ck_calls k ++ [i])) table, i).

(** internet_task_clock.py:14, self.calls.remove (comparing identities) *)
Fixpoint remove1 (i : nat) (l : list nat) : res (list nat) :=
  match l with
  | [] => Err ValueError
  | j :: l' => if (i =? j)%nat then Ok l' else rmap (cons j) (remove1 i l')
  end.

(** The operations of a call made by callLater; the resetter does nothing
    (internet_task_clock.py:15). *)
Inductive cop := OReset (s : Z) | ODelay (d : Z) | OCancel.
Definition operate (o : cop) (i : nat) (k : clock) : clock * answer :=
  match nth_error (ck_table k) i with
  | None => (k, Raised KeyError)
  | Some c =>
      let '(c', q, r) :=
        match o with
        | OReset s => reset _ (fun _ q => q) (ck_now k) s c (ck_calls k)
        | ODelay d => delay _ (fun _ q => q) d c (ck_calls k)
        | OCancel => cancel _ (fun _ q => remove1 i q) c (ck_calls k)
        end in
      (Clock (ck_now k) q (update (ck_table k) i c'), to_answer r)
  end.

(** Twisted's Clock.advance (of the time of r20480): the time moves on; then, as
    long as the first call of the queue is due, it is taken out, marked as
    called and called.  What the called functions do are further steps. *)
Definition advance (amount : Z) (k : clock) : clock := Clock (ck_now k + amount) (ck_calls k) (ck_table k).
Definition run_first (k : clock) : clock * option nat :=
  match ck_calls k with
  | [] => (k, None)
  | i :: q =>
      match nth_error (ck_table k) i with
      | None => (k, None)
      | Some c =>
          if getTime c <=? ck_now k
          then (Clock (ck_now k) q (update (ck_table k) i (Call (c_time c) (c_delayed c) (c_cancelled c) true)), Some i)
          else (k, None)
      end
  end.

Inductive cstep := CLater (when_ : Z) | COp (o : cop) (i : nat) | CAdvance (amount : Z) | CRun.
Definition crun (k : clock) (s : cstep) : clock :=
  match s with
  | CLater w => fst (callLater w k)
  | COp o i => fst (operate o i k)
  | CAdvance a => advance a k
  | CRun => fst (run_first k)
  end.
Definition cruns (l : list cstep) : clock := fold_left crun l new_clock.

(** ** Specification *)

Definition is_pending (k : clock) (i : nat) : Prop := exists c, nth_error (ck_table k) i = Some c /\ active c = true.
Definition due (k : clock) (i : nat) : Z := time_in (ck_table k) i.
(** no time of a call is changed *)
Definition no_change (s : cstep) : Prop := match s with COp (OReset _) _ | COp (ODelay _) _ => False | _ => True end.
Definition earlier (k : clock) (i j : nat) : Prop := due k i < due k j \/ (due k i = due k j /\ (i < j)%nat).

(** ** Proofs *)

Lemma insert_perm key x l : Permutation (insert key x l) (x :: l).
Proof. induction l as [|y l IH]; [reflexivity|]. cbn. destruct (key x <=? key y); [reflexivity|]. rewrite IH. apply perm_swap. Qed.
Lemma sort_perm key l : Permutation (sort key l) l.
Proof. induction l as [|x l IH]; [reflexivity|]. cbn. rewrite insert_perm. now apply perm_skip. Qed.

Lemma insert_sorted key (R : nat -> nat -> Prop) x l :
  (forall y, In y l -> key y < key x -> R y x) -> (forall y, In y l -> key x <= key y -> R x y) ->
  (forall y z, R y z -> key y <= key z) -> StronglySorted R l -> StronglySorted R (insert key x l).
Proof.
  intros H1 H2 H3 S. induction S as [|y l S IH F]; cbn; [repeat constructor|]. destruct (key x <=? key y) eqn:E.
  - constructor; [now constructor|]. rewrite Forall_forall in F |- *. intros z Hz. apply H2; [exact Hz|].
    destruct Hz as [<-|Hz]; [lia|]. specialize (H3 _ _ (F z Hz)). lia.
  - constructor; [apply IH; intros; [apply H1|apply H2]; auto; now right|].
    apply (Permutation_Forall (Permutation_sym (insert_perm key x l))). constructor; [|exact F]. apply H1; [now left|lia].
Qed.

Definition lex (key : nat -> Z) (i j : nat) : Prop := key i < key j \/ (key i = key j /\ (i < j)%nat).

Lemma sort_sorted key l : StronglySorted (fun i j => key i <= key j) (sort key l).
Proof. induction l as [|x l IH]; cbn; [constructor|]. apply insert_sorted; auto; intros; lia. Qed.

Lemma sort_lex (key : nat -> Z) l : ForallOrdPairs (fun i j => key i = key j -> (i < j)%nat) l -> StronglySorted (lex key) (sort key l).
Proof.
  induction 1 as [|x l F _ IH]; cbn; [constructor|]. apply insert_sorted; [| | |exact IH].
  - intros y Hy Hl. left. exact Hl.
  - intros y Hy Hl. apply (Permutation_in _ (sort_perm key l)) in Hy. rewrite Forall_forall in F. specialize (F y Hy).
    destruct (Z.eq_dec (key x) (key y)) as [E|E]; [right; auto|left; lia].
  - intros y z [H|[H _]]; lia.
Qed.

Lemma sorted_pairs (key : nat -> Z) l : StronglySorted (lex key) l -> ForallOrdPairs (fun i j => key i = key j -> (i < j)%nat) l.
Proof. induction 1 as [|x l _ IH F]; [constructor|]. constructor; [|exact IH]. eapply Forall_impl; [|exact F]. intros y [H|[_ H]] E; [lia|exact H]. Qed.

Lemma pairs_app (key : nat -> Z) l x : ForallOrdPairs (fun i j => key i = key j -> (i < j)%nat) l -> Forall (fun i => (i < x)%nat) l ->
  ForallOrdPairs (fun i j => key i = key j -> (i < j)%nat) (l ++ [x]).
Proof.
  induction 1 as [|y l F _ IH]; intros H; cbn; [repeat constructor|]. inversion H; subst. constructor; [|now apply IH].
  apply Forall_app. split; [exact F|]. constructor; [auto|constructor].
Qed.

(** updating the table *)
Lemma nth_update {A} (l : list A) i x j : (i < length l)%nat -> nth_error (update l i x) j = if (j =? i)%nat then Some x else nth_error l j.
Proof.
  intros H. unfold update. destruct (Nat.eqb_spec j i) as [->|Hn].
  - rewrite nth_error_app2; rewrite firstn_length_le by lia; [|lia]. now rewrite Nat.sub_diag.
  - destruct (Nat.lt_ge_cases j i) as [L|L].
    + rewrite nth_error_app1 by (rewrite firstn_length_le; lia). rewrite <- (firstn_skipn i l) at 2. rewrite nth_error_app1; [reflexivity|]. rewrite firstn_length_le; lia.
    + rewrite nth_error_app2 by (rewrite firstn_length_le; lia). rewrite firstn_length_le by lia.
      rewrite <- (firstn_skipn (S i) l) at 2. rewrite nth_error_app2 by (rewrite firstn_length_le; lia). rewrite firstn_length_le by lia.
      replace (j - i)%nat with (S (j - S i)) by lia. reflexivity.
Qed.
Lemma update_len {A} (l : list A) i x : (i < length l)%nat -> length (update l i x) = length l.
Proof. intros H. unfold update. rewrite app_length, firstn_length_le by lia. cbn [length]. rewrite skipn_length. lia. Qed.

Lemma remove1_ok i l : NoDup l -> In i l -> exists q, remove1 i l = Ok q /\ Permutation l (i :: q) /\ (forall R, StronglySorted R l -> StronglySorted R q).
Proof.
  induction 1 as [|j l Hj _ IH]; intros Hi; [destruct Hi|]. cbn. destruct (Nat.eqb_spec i j) as [->|Hn].
  - exists l. split; [reflexivity|]. split; [reflexivity|]. intros R H. now inversion H.
  - destruct Hi as [->|Hi]; [congruence|]. destruct (IH Hi) as (q & E & P & S). rewrite E. exists (j :: q). split; [reflexivity|]. split.
    + rewrite P. apply perm_swap.
    + intros R H. inversion H as [|? ? H1 H2]; subst. constructor; [now apply S|]. apply (Permutation_Forall P) in H2. now inversion H2.
Qed.

Definition queue_ok (k : clock) : Prop := NoDup (ck_calls k) /\ forall i, In i (ck_calls k) <-> is_pending k i.

Lemma pending_lt k i : is_pending k i -> (i < length (ck_table k))%nat.
Proof. intros (c & H & _). apply nth_error_Some. congruence. Qed.

Lemma later_perm w k : Permutation (ck_calls (fst (callLater w k))) (length (ck_table k) :: ck_calls k).
Proof. cbn. rewrite sort_perm. symmetry. apply Permutation_cons_append. Qed.

Lemma later_queue w k : queue_ok k -> queue_ok (fst (callLater w k)).
Proof.
  intros [N Q]. pose proof (later_perm w k) as P. assert (Fr : ~ In (length (ck_table k)) (ck_calls k)) by (intros H; apply Q, pending_lt in H; lia).
  split.
  - apply (Permutation_NoDup (Permutation_sym P)). now constructor.
  - intros i. assert (E : In i (ck_calls (fst (callLater w k))) <-> i = length (ck_table k) \/ In i (ck_calls k)).
    { split; intros H; [apply (Permutation_in _ P) in H; destruct H; auto|apply (Permutation_in _ (Permutation_sym P)); destruct H; [left; auto|right; auto]]. }
    rewrite E, Q. unfold is_pending. cbn [callLater fst ck_table]. split.
    + intros [->|(c & H & A)]; [exists (newCall (ck_now k + w)); rewrite nth_error_app2, Nat.sub_diag by lia; auto|]. exists c. split; [|exact A].
      rewrite nth_error_app1; [exact H|]. apply nth_error_Some. congruence.
    + intros (c & H & A). destruct (Nat.lt_ge_cases i (length (ck_table k))) as [L|L]; [right; exists c; rewrite nth_error_app1 in H by lia; auto|left].
      assert (i < length (ck_table k ++ [newCall (ck_now k + w)]))%nat by (apply nth_error_Some; congruence). rewrite app_length in H0. cbn in H0. lia.
Qed.

Lemma pending_update now q t i c' j : (i < length t)%nat -> is_pending (Clock now q (update t i c')) j <-> (j = i /\ active c' = true) \/ (j <> i /\ exists c, nth_error t j = Some c /\ active c = true).
Proof.
  intros L. unfold is_pending. cbn [ck_table]. rewrite nth_update by exact L. destruct (Nat.eqb_spec j i) as [->|Hn].
  - split; [intros (c & E & A); injection E as <-; auto|intros [[_ A]|[H _]]; [eauto|congruence]].
  - split; [intros H; right; auto|intros [[H _]|[_ H]]; [congruence|exact H]].
Qed.

Lemma op_queue o i k : queue_ok k -> queue_ok (fst (operate o i k)).
Proof.
  intros [N Q]. unfold operate. destruct (nth_error (ck_table k) i) as [c|] eqn:Ei; [|split; auto].
  assert (L : (i < length (ck_table k))%nat) by (apply nth_error_Some; congruence).
  assert (Same : forall c' q, q = ck_calls k -> active c' = active c -> queue_ok (Clock (ck_now k) q (update (ck_table k) i c'))).
  { intros c' q -> A. split; [exact N|]. intros j. rewrite pending_update by exact L. cbn [ck_calls]. rewrite Q. unfold is_pending. destruct (Nat.eq_dec j i) as [->|Hn].
    - rewrite Ei, A. split; [intros (x & E & X); injection E as <-; auto|intros [[_ X]|[X _]]; [eauto|congruence]].
    - split; [intros H; right; auto|intros [[H _]|[_ H]]; [congruence|exact H]]. }
  destruct o as [s|d|]; unfold reset, delay, cancel.
  - destruct (c_cancelled c) eqn:E1; [now apply Same|]. destruct (c_called c) eqn:E2; [now apply Same|].
    destruct (_ <? _); cbn [fst]; (apply Same; [reflexivity|]); unfold active; cbn; now rewrite ?E1, ?E2.
  - destruct (c_cancelled c) eqn:E1; [now apply Same|]. destruct (c_called c) eqn:E2; [now apply Same|]. cbv zeta. cbn [c_delayed].
    destruct (_ <? 0); cbn [fst]; (apply Same; [reflexivity|]); unfold active; cbn; now rewrite ?E1, ?E2.
  - destruct (c_cancelled c) eqn:E1; [now apply Same|]. destruct (c_called c) eqn:E2; [now apply Same|].
    assert (Hi : In i (ck_calls k)) by (apply Q; exists c; split; [exact Ei|]; unfold active; now rewrite E1, E2).
    destruct (remove1_ok i _ N Hi) as (q & Er & P & _). rewrite Er. cbn [fst].
    assert (Nq : NoDup (i :: q)) by exact (Permutation_NoDup P N). inversion Nq as [|? ? Hni Nq']; subst.
    split; [exact Nq'|]. intros j. rewrite pending_update by exact L. cbn [ck_calls]. unfold active at 1. cbn [c_cancelled orb negb]. split.
    + intros Hj. right. split; [congruence|]. apply Q. apply (Permutation_in _ (Permutation_sym P)). now right.
    + intros [[_ X]|[Hn H]]; [discriminate X|]. assert (Hj : In j (ck_calls k)) by (apply Q; exact H). apply (Permutation_in _ P) in Hj. destruct Hj; [congruence|assumption].
Qed.

Lemma run_queue k : queue_ok k -> queue_ok (fst (run_first k)).
Proof.
  intros K. pose proof K as [N Q]. unfold run_first. destruct (ck_calls k) as [|i q] eqn:Eq; [exact K|].
  destruct (nth_error (ck_table k) i) as [c|] eqn:Ei; [|exact K]. destruct (getTime c <=? ck_now k); [|exact K].
  assert (L : (i < length (ck_table k))%nat) by (apply nth_error_Some; congruence). inversion N as [|? ? Hni N']; subst. cbn [fst].
  split; [exact N'|]. intros j. rewrite pending_update by exact L. cbn [ck_calls]. unfold active. cbn [c_called c_cancelled]. rewrite orb_true_r. split.
  - intros Hj. right. split; [congruence|]. apply Q. now right.
  - intros [[_ X]|[Hn H]]; [discriminate X|]. assert (Hj : In j (i :: q)) by (apply Q; exact H). destruct Hj; [congruence|assumption].
Qed.

Lemma step_queue k s : queue_ok k -> queue_ok (crun k s).
Proof. intros H. destruct s; [now apply later_queue|now apply op_queue|exact H|now apply run_queue]. Qed.

Lemma fold_queue l : forall k, queue_ok k -> queue_ok (fold_left crun l k).
Proof. induction l as [|s l IH]; intros k H; [exact H|]. cbn. now apply IH, step_queue. Qed.

Theorem clock_queue l : queue_ok (cruns l).
Proof.
  apply fold_queue. split; [constructor|]. intros i. cbn. split; [tauto|]. intros (c & H & _). cbn in H. now destruct i.
Qed.

Theorem clock_own l w : let k := cruns l in let k' := fst (callLater w k) in let i := snd (callLater w k) in
  is_pending k' i /\ due k' i = ck_now k + w /\ ~ is_pending k i /\ Permutation (ck_calls k') (i :: ck_calls k) /\
  forall j, is_pending k j -> is_pending k' j /\ due k' j = due k j.
Proof.
  intros k k' i. assert (En : nth_error (ck_table k') i = Some (newCall (ck_now k + w))) by (cbn; rewrite nth_error_app2, Nat.sub_diag by lia; reflexivity).
  split; [exists (newCall (ck_now k + w)); auto|]. split; [unfold due, time_in; rewrite En; cbn; apply Z.add_0_r|].
  split; [intros H; apply pending_lt in H; unfold i in H; cbn in H; lia|]. split; [apply later_perm|].
  intros j (c & H & A). assert (E : nth_error (ck_table k') j = nth_error (ck_table k) j) by (cbn; apply nth_error_app1, nth_error_Some; congruence).
  split; [exists c; rewrite E; auto|]. unfold due, time_in. now rewrite E.
Qed.

Theorem clock_sorted l w : let k := fst (callLater w (cruns l)) in StronglySorted (fun i j => due k i <= due k j) (ck_calls k).
Proof. apply sort_sorted. Qed.

(** without changes of times *)
Lemma sorted_ext (R R' : nat -> nat -> Prop) (l : list nat) : (forall i j, In i l -> In j l -> R i j -> R' i j) -> StronglySorted R l -> StronglySorted R' l.
Proof.
  intros H S. induction S as [|x l S IH F]; [constructor|]. constructor.
  - apply IH. intros i j Hi Hj. apply H; now right.
  - rewrite Forall_forall in F |- *. intros y Hy. apply H; [now left|now right|auto].
Qed.

Lemma lex_ext (R R' : nat -> Z) l : (forall i, In i l -> R i = R' i) -> StronglySorted (lex R) l -> StronglySorted (lex R') l.
Proof. intros H. apply sorted_ext. intros i j Hi Hj. unfold lex. now rewrite (H i Hi), (H j Hj). Qed.

Lemma step_lex k s : no_change s -> queue_ok k -> StronglySorted (lex (due k)) (ck_calls k) -> StronglySorted (lex (due (crun k s))) (ck_calls (crun k s)).
Proof.
  intros NC [N Q] S. destruct s as [w|[s|d|] i|a|]; cbn in NC; try contradiction.
  - apply sort_lex. apply pairs_app.
    + apply sorted_pairs. eapply lex_ext; [|exact S]. intros i Hi. apply Q, pending_lt in Hi. unfold due, time_in. now rewrite nth_error_app1.
    + apply Forall_forall. intros i Hi. apply Q in Hi. now apply pending_lt.
  - cbn [crun]. unfold operate. destruct (nth_error (ck_table k) i) as [c|] eqn:Ei; [|exact S].
    assert (L : (i < length (ck_table k))%nat) by (apply nth_error_Some; congruence).
    assert (T : forall q c', getTime c' = getTime c -> forall j, due (Clock (ck_now k) q (update (ck_table k) i c')) j = due k j).
    { intros q c' E j. unfold due, time_in. cbn [ck_table]. rewrite nth_update by exact L. destruct (Nat.eqb_spec j i) as [->|]; [now rewrite Ei|reflexivity]. }
    unfold cancel. destruct (c_cancelled c) eqn:E1; [cbn [fst ck_calls]; eapply lex_ext; [|exact S]; intros j _; symmetry; now apply T|].
    destruct (c_called c) eqn:E2; [cbn [fst ck_calls]; eapply lex_ext; [|exact S]; intros j _; symmetry; now apply T|].
    assert (Hi : In i (ck_calls k)) by (apply Q; exists c; split; [exact Ei|]; unfold active; now rewrite E1, E2).
    destruct (remove1_ok i _ N Hi) as (q & Er & P & Sq). rewrite Er. cbn [fst ck_calls]. eapply lex_ext; [|apply Sq, S]. intros j _. symmetry. now apply T.
  - exact S.
  - cbn [crun]. unfold run_first. destruct (ck_calls k) as [|i q] eqn:Eq; [cbn [fst]; rewrite Eq; exact S|].
    destruct (nth_error (ck_table k) i) as [c|] eqn:Ei; [|cbn [fst]; rewrite Eq; exact S].
    destruct (getTime c <=? ck_now k); [|cbn [fst]; rewrite Eq; exact S]. cbn [fst ck_calls]. inversion S; subst. eapply lex_ext; [|eassumption].
    intros j _. unfold due, time_in. cbn [ck_table]. rewrite nth_update by (apply nth_error_Some; congruence). destruct (Nat.eqb_spec j i) as [->|]; [now rewrite Ei|reflexivity].
Qed.

Theorem clock_lex l : Forall no_change l -> StronglySorted (earlier (cruns l)) (ck_calls (cruns l)).
Proof.
  change (Forall no_change l -> StronglySorted (lex (due (cruns l))) (ck_calls (cruns l))).
  intros H. unfold cruns. assert (I : queue_ok new_clock /\ StronglySorted (lex (due new_clock)) (ck_calls new_clock)) by (split; [exact (clock_queue [])|constructor]).
  revert I. generalize new_clock. induction H as [|s l Hs _ IH]; intros k [A B]; [exact B|]. cbn. apply IH. split; [now apply step_queue|now apply step_lex].
Qed.

(** what is run: if something is due, the earliest *)
Theorem clock_runs l : Forall no_change l -> let k := cruns l in
  match snd (run_first k) with
  | Some i => is_pending k i /\ due k i <= ck_now k /\ forall j, is_pending k j -> j <> i -> earlier k i j
  | None => forall j, is_pending k j -> ck_now k < due k j
  end.
Proof.
  intros H k. pose proof (clock_lex l H) as S. fold k in S. destruct (clock_queue l) as [N Q]. fold k in N, Q. unfold run_first.
  destruct (ck_calls k) as [|i q] eqn:Eq.
  - cbn. intros j Hj. apply Q in Hj. destruct Hj.
  - assert (Hp : is_pending k i) by (apply Q; now left). destruct Hp as (c & Ei & Ha). rewrite Ei.
    inversion S as [|? ? _ F]; subst. assert (Ed : due k i = getTime c) by (unfold due, time_in; now rewrite Ei).
    destruct (getTime c <=? ck_now k) eqn:E; cbn [snd].
    + split; [exists c; auto|]. split; [lia|]. intros j Hj Hn. apply Q in Hj. destruct Hj as [->|Hj]; [congruence|]. rewrite Forall_forall in F. now apply F.
    + intros j Hj. apply Q in Hj. destruct Hj as [->|Hj]; [lia|]. rewrite Forall_forall in F. destruct (F j Hj) as [X|[X _]]; lia.
Qed.

(** ** With changes of times: the order is the one of the last callLater *)

Definition no_later (s : cstep) : Prop := match s with CLater _ => False | _ => True end.

Lemma step_keeps (R : nat -> nat -> Prop) k s : no_later s -> queue_ok k -> StronglySorted R (ck_calls k) ->
  StronglySorted R (ck_calls (crun k s)) /\ incl (ck_calls (crun k s)) (ck_calls k).
Proof.
  intros NL [N Q] S. destruct s as [w|o i|a|]; [destruct NL| |now split|].
  - cbn [crun]. unfold operate. destruct (nth_error (ck_table k) i) as [c|] eqn:Ei; [|now split]. destruct o as [s|d|]; unfold reset, delay, cancel.
    + destruct (c_cancelled c); [now split|]. destruct (c_called c); [now split|]. destruct (_ <? _); now split.
    + destruct (c_cancelled c); [now split|]. destruct (c_called c); [now split|]. cbv zeta. cbn [c_delayed]. destruct (_ <? 0); now split.
    + destruct (c_cancelled c) eqn:E1; [now split|]. destruct (c_called c) eqn:E2; [now split|].
      assert (Hi : In i (ck_calls k)) by (apply Q; exists c; split; [exact Ei|]; unfold active; now rewrite E1, E2).
      destruct (remove1_ok i _ N Hi) as (q & Er & P & Sq). rewrite Er. cbn [fst ck_calls]. split; [now apply Sq|].
      intros j Hj. apply (Permutation_in _ (Permutation_sym P)). now right.
  - cbn [crun]. unfold run_first. destruct (ck_calls k) as [|i q] eqn:Eq; [cbn [fst]; rewrite Eq; now split|].
    destruct (nth_error (ck_table k) i) as [c|]; [|cbn [fst]; rewrite Eq; now split].
    destruct (getTime c <=? ck_now k); [|cbn [fst]; rewrite Eq; now split]. cbn [fst ck_calls]. inversion S; subst. split; [assumption|]. intros j Hj. now right.
Qed.

Theorem clock_exact l1 w l2 : Forall no_later l2 -> let k0 := cruns (l1 ++ [CLater w]) in let k := cruns (l1 ++ [CLater w] ++ l2) in
  (forall i, is_pending k i -> is_pending k0 i) /\
  match snd (run_first k) with
  | Some i => is_pending k i /\ due k i <= ck_now k /\ forall j, is_pending k j -> due k0 i <= due k0 j
  | None => (forall j, ~ is_pending k j) \/ exists i, is_pending k i /\ ck_now k < due k i /\ forall j, is_pending k j -> due k0 i <= due k0 j
  end.
Proof.
  intros NL k0 k.
  assert (I : StronglySorted (fun i j => due k0 i <= due k0 j) (ck_calls k) /\ incl (ck_calls k) (ck_calls k0)).
  { assert (E : k = fold_left crun l2 k0) by (unfold k, k0, cruns; now rewrite app_assoc, fold_left_app).
    assert (S0 : StronglySorted (fun i j => due k0 i <= due k0 j) (ck_calls k0)) by (unfold k0, cruns; rewrite fold_left_app; apply sort_sorted).
    assert (Q0 : queue_ok k0) by apply clock_queue. rewrite E. revert S0 Q0. generalize (fun i j : nat => due k0 i <= due k0 j). clear E k. generalize k0. clear k0.
    induction NL as [|s l Hs _ IH]; intros k R S Q; [split; [exact S|apply incl_refl]|]. cbn [fold_left]. destruct (step_keeps R k s Hs Q S) as [S' I'].
    destruct (IH _ R S' (step_queue k s Q)) as [S'' I'']. split; [exact S''|]. eapply incl_tran; eassumption. }
  destruct I as [S I]. destruct (clock_queue (l1 ++ [CLater w] ++ l2)) as [N Q]. fold k in N, Q. destruct (clock_queue (l1 ++ [CLater w])) as [_ Q0]. fold k0 in Q0.
  split; [intros i Hi; now apply Q0, I, Q|]. unfold run_first. destruct (ck_calls k) as [|i q] eqn:Eq.
  - left. intros j Hj. apply Q in Hj. destruct Hj.
  - assert (Hp : is_pending k i) by (apply Q; now left). pose proof Hp as (c & Ei & Ha). rewrite Ei. inversion S as [|? ? _ F]; subst.
    assert (Ed : due k i = getTime c) by (unfold due, time_in; now rewrite Ei).
    assert (L : forall j, is_pending k j -> due k0 i <= due k0 j) by (intros j Hj; apply Q in Hj; destruct Hj as [->|Hj]; [lia|]; rewrite Forall_forall in F; now apply F).
    destruct (getTime c <=? ck_now k) eqn:E; cbn [snd]; [split; [exact Hp|]; split; [lia|exact L]|]. right. exists i. split; [exact Hp|]. split; [lia|exact L].
Qed.

Lemma clock_none l2 : Forall no_later l2 -> forall j, ~ is_pending (cruns l2) j.
Proof.
  intros H j Hj. apply (clock_queue l2) in Hj. revert Hj. unfold cruns.
  assert (I : forall k, queue_ok k -> ck_calls k = [] -> Forall no_later l2 -> ck_calls (fold_left crun l2 k) = []).
  { clear. induction l2 as [|s l IH]; intros k Q E H; [exact E|]. inversion H; subst. cbn [fold_left]. apply IH; [now apply step_queue| |assumption].
    destruct (step_keeps (fun _ _ => True) k s ltac:(assumption) Q ltac:(rewrite E; constructor)) as [_ I]. rewrite E in I. destruct (ck_calls (crun k s)) as [|x t]; [reflexivity|]. destruct (I x). now left. }
  rewrite (I new_clock (clock_queue []) eq_refl H). intros [].
Qed.
