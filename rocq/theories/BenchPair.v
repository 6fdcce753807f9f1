(** * A benchmark script and the process that measures it
      (epsilon/scripts/benchmark.py: start, stop, BenchmarkProcess)

    The script runs in a child process and talks to the parent by two pipes.  Either
    process may run at any moment; the parent may be told of the bytes in any chunks;
    it may go away; the child may be killed. *)

From Coq Require Import NArith String List Bool Arith Lia.
From Verif Require Import Py PyStr.
Import ListNotations.
Open Scope list_scope.

Inductive kind := Start | Stop.
(** what a script does: something of its own, or a call to start() or stop() *)
Inductive action := Work (w : N) | Call (k : kind).
(** what can be seen: the script's own work; start() or stop() has been called and has
    written; the parent has taken its snapshot; the call has returned *)
Inductive event := Worked (w : N) | Called (k : kind) | Snapped (k : kind) | Returned (k : kind).

Inductive cstate := Doing (l : list action) | Waiting (k : kind) (l : list action) | Failed (e : exn) | Killed.

Record world := World { child : cstate; out : list N; inn : list N; alive : bool; trace : list event }.

(** benchmark.py:233-234 *)
Definition byte_of (k : kind) : N := match k with Start => 0 | Stop => 1 end.

(** What either process may do next. *)
Inductive step :=
| SChild                  (* the child goes on *)
| SInterrupt              (* a signal interrupts the read of the child *)
| SParent (n : nat)       (* the parent is told of up to n + 1 bytes *)
| SLeave                  (* the parent goes away *)
| SKill.                  (* the child is killed, by its timeout for instance *)

Section Pair.
  (** under Python 3 START and STOP are texts: os.write takes bytes only, and the
      bytes the parent is told of are numbers, equal to no text *)
  Variable py3 : bool.

  (** benchmark.py:532-544 and 548-561, up to the read and from the read on; os.write
      to a pipe without a reader raises OSError, os.read of a pipe without a writer
      gives nothing.  untilConcludes repeats a read that was interrupted. *)
  Definition child_step (w : world) : world :=
    match child w with
    | Doing [] | Failed _ | Killed => w
    | Doing (Work x :: l) => World (Doing l) (out w) (inn w) (alive w) (trace w ++ [Worked x])
    | Doing (Call k :: l) =>
        if py3 then World (Failed TypeError) (out w) (inn w) (alive w) (trace w)
        else if alive w then World (Waiting k l) (out w ++ [byte_of k]) (inn w) (alive w) (trace w ++ [Called k])
        else World (Failed OSError) (out w) (inn w) (alive w) (trace w)
    | Waiting k l =>
        match inn w with
        | b :: rest =>
            if (b =? byte_of k)%N then World (Doing l) (out w) rest (alive w) (trace w ++ [Returned k])
            else World (Failed RuntimeError) (out w) rest (alive w) (trace w)
        | [] => if alive w then w else World (Failed RuntimeError) (out w) (inn w) (alive w) (trace w)
        end
    end.

  (** benchmark.py:256-263, 269-275: one byte *)
  Definition parent_byte (w : world) (b : N) : world :=
    if negb py3 && (b =? byte_of Start)%N then World (child w) (out w) (inn w ++ [byte_of Start]) (alive w) (trace w ++ [Snapped Start])
    else if negb py3 && (b =? byte_of Stop)%N then World (child w) (out w) (inn w ++ [byte_of Stop]) (alive w) (trace w ++ [Snapped Stop])
    else World Killed (out w) (inn w) (alive w) (trace w).

  (** benchmark.py:266-277 *)
  Definition parent_step (n : nat) (w : world) : world :=
    if alive w then fold_left parent_byte (firstn (S n) (out w)) (World (child w) (skipn (S n) (out w)) (inn w) (alive w) (trace w)) else w.

  Definition go (w : world) (s : step) : world :=
    match s with
    | SChild => child_step w
    | SInterrupt => w
    | SParent n => parent_step n w
    | SLeave => World (child w) (out w) (inn w) false (trace w)
    | SKill => World Killed (out w) (inn w) (alive w) (trace w)
    end.
  Definition begin (l : list action) : world := World (Doing l) [] [] true [].
  Definition after (sched : list step) (l : list action) : world := fold_left go sched (begin l).
End Pair.

(** ** Specification: what is to be seen of a script *)
Definition seen (a : action) : list event := match a with Work x => [Worked x] | Call k => [Called k; Snapped k; Returned k] end.
Definition all_seen (l : list action) : list event := flat_map seen l.
Definition prefix {A} (a l : list A) : Prop := exists b, l = a ++ b.

(** ** Proofs *)

Lemma prefix_app {A} (a b : list A) : prefix a (a ++ b). Proof. now exists b. Qed.
Lemma all_seen_app a b : all_seen (a ++ b) = all_seen a ++ all_seen b. Proof. apply flat_map_app. Qed.

Definition inv (prog : list action) (w : world) : Prop :=
  match child w with
  | Doing l => exists d, prog = d ++ l /\ trace w = all_seen d /\ out w = [] /\ inn w = []
  | Waiting k l => exists d, prog = d ++ Call k :: l /\
      (trace w = all_seen d ++ [Called k] /\ out w = [byte_of k] /\ inn w = [] \/ trace w = all_seen d ++ [Called k; Snapped k] /\ out w = [] /\ inn w = [byte_of k])
  | _ => (exists d k l, prog = d ++ Call k :: l /\ trace w = all_seen d ++ [Called k] /\ out w = [byte_of k]) \/ (out w = [] /\ prefix (trace w) (all_seen prog))
  end /\ (forall e, child w = Failed e -> alive w = false).

Lemma inv_prefix prog w : inv prog w -> prefix (trace w) (all_seen prog).
Proof.
  intros [H _]. destruct (child w) as [l|k l|e|].
  - destruct H as (d & -> & -> & _). rewrite all_seen_app. apply prefix_app.
  - destruct H as (d & -> & [(-> & _)|(-> & _)]); rewrite all_seen_app; cbn [all_seen flat_map seen app].
    + exists (Snapped k :: Returned k :: all_seen l). now rewrite <- app_assoc.
    + exists (Returned k :: all_seen l). now rewrite <- app_assoc.
  - destruct H as [(d & k & l & -> & -> & _)|(_ & H)]; [|exact H]. rewrite all_seen_app. exists (Snapped k :: Returned k :: all_seen l). now rewrite <- app_assoc.
  - destruct H as [(d & k & l & -> & -> & _)|(_ & H)]; [|exact H]. rewrite all_seen_app. exists (Snapped k :: Returned k :: all_seen l). now rewrite <- app_assoc.
Qed.

(** what is left when the child stops for whatever reason *)
Lemma inv_dead prog w : inv prog w -> (exists d k l, prog = d ++ Call k :: l /\ trace w = all_seen d ++ [Called k] /\ out w = [byte_of k]) \/ (out w = [] /\ prefix (trace w) (all_seen prog)).
Proof.
  intros H. pose proof (inv_prefix prog w H) as P. destruct H as [H _]. destruct (child w) as [l|k l|e|]; auto.
  - destruct H as (d & _ & _ & O & _). auto.
  - destruct H as (d & E & [(T & O & _)|(_ & O & _)]); [left; now exists d, k, l|auto].
Qed.

Lemma inv_child prog w : inv prog w -> inv prog (child_step false w).
Proof.
  intros H. pose proof (inv_dead prog w H) as D. destruct H as [H N]. unfold child_step. destruct (child w) as [[|[x|k] l]|k l|e|] eqn:E.
  - split; [now rewrite E|now rewrite E].
  - destruct H as (d & -> & T & O & I). split; [|intros e0 H; discriminate H]. cbn. exists (d ++ [Work x]). rewrite <- app_assoc. split; [reflexivity|]. rewrite all_seen_app, T. auto.
  - destruct (alive w) eqn:A.
    + destruct H as (d & -> & T & O & I). split; [|intros e0 H; discriminate H]. cbn. exists d. split; [reflexivity|]. left. now rewrite T, O.
    + split; [exact D|reflexivity].
  - destruct H as (d & Ep & [(T & O & I)|(T & O & I)]); rewrite I.
    + destruct (alive w) eqn:A; [split; [rewrite E; exists d; split; [exact Ep|]; left; auto|rewrite E; intros e0 X; discriminate X]|].
      split; [exact D|reflexivity].
    + rewrite N.eqb_refl. split; [|intros e0 X; discriminate X]. cbn. exists (d ++ [Call k]). rewrite <- app_assoc. split; [exact Ep|]. rewrite all_seen_app, T, <- app_assoc. auto.
  - split; [now rewrite E|now rewrite E].
  - split; [now rewrite E|now rewrite E].
Qed.

Lemma parent_one k c i a t : parent_byte false (World c [] i a t) (byte_of k) = World c [] (i ++ [byte_of k]) a (t ++ [Snapped k]).
Proof. destruct k; reflexivity. Qed.

Lemma inv_parent prog n w : inv prog w -> inv prog (parent_step false n w).
Proof.
  intros H. pose proof H as H0. unfold parent_step. destruct (alive w) eqn:A; [|exact H]. destruct H as [H N].
  assert (Z : out w = [] -> inv prog (fold_left (parent_byte false) (firstn (S n) (out w)) (World (child w) (skipn (S n) (out w)) (inn w) true (trace w)))).
  { intros O. rewrite O. cbn [firstn skipn fold_left]. destruct w as [c o i a t]. cbn in *. subst. exact H0. }
  assert (L : forall k, out w = [byte_of k] -> fold_left (parent_byte false) (firstn (S n) (out w)) (World (child w) (skipn (S n) (out w)) (inn w) true (trace w)) = World (child w) [] (inn w ++ [byte_of k]) true (trace w ++ [Snapped k])).
  { intros k O. rewrite O. cbn [firstn skipn]. rewrite firstn_nil, skipn_nil. cbn [fold_left]. apply parent_one. }
  assert (Q : forall d k l, prog = d ++ Call k :: l -> prefix (all_seen d ++ [Called k; Snapped k]) (all_seen prog)).
  { intros d k l ->. rewrite all_seen_app. exists (Returned k :: all_seen l). now rewrite <- app_assoc. }
  destruct (child w) as [l|k l|e|] eqn:E.
  - apply Z. now destruct H as (d & _ & _ & O & _).
  - destruct H as (d & Ep & [(T & O & I)|(T & O & I)]); [|now apply Z]. rewrite (L k O). split; [|intros e0 X; discriminate X]. cbn. exists d. split; [exact Ep|]. right. rewrite T, I, <- app_assoc. auto.
  - destruct H as [(d & k & l & Ep & T & O)|(O & H)]; [|now apply Z]. specialize (N e eq_refl). congruence.
  - destruct H as [(d & k & l & Ep & T & O)|(O & H)]; [|now apply Z]. rewrite (L k O). split; [|intros e0 X; discriminate X]. cbn. right. split; [reflexivity|]. rewrite T, <- app_assoc. now apply (Q d k l).
Qed.

Lemma inv_go prog w s : inv prog w -> inv prog (go false w s).
Proof.
  intros H. destruct s as [| |n| |]; cbn [go]; [now apply inv_child|exact H|now apply inv_parent| |].
  - destruct H as [H N]. split; [exact H|reflexivity].
  - split; [|intros e X; discriminate X]. cbn. exact (inv_dead prog w H).
Qed.

Lemma inv_after prog sched : inv prog (after false sched prog).
Proof.
  unfold after. assert (B : inv prog (begin prog)) by (split; [exists []; auto|intros e X; discriminate X]). revert B. generalize (begin prog). induction sched as [|s sched IH]; intros w H; [exact H|]. cbn [fold_left]. apply IH. now apply inv_go.
Qed.

(** whatever has happened, while the parent is there and the child was not killed the
    script can be finished *)
Lemma finish_doing prog : forall l d, prog = d ++ l -> exists sched, fold_left (go false) sched (World (Doing l) [] [] true (all_seen d)) = World (Doing []) [] [] true (all_seen prog).
Proof.
  induction l as [|[x|k] l IH]; intros d E.
  - exists []. rewrite app_nil_r in E. now subst.
  - destruct (IH (d ++ [Work x])) as (s & Es); [now rewrite <- app_assoc|]. exists (SChild :: s). cbn [fold_left go child_step child]. rewrite all_seen_app in Es. exact Es.
  - destruct (IH (d ++ [Call k])) as (s & Es); [now rewrite <- app_assoc|]. exists (SChild :: SParent 0 :: SChild :: s). rewrite all_seen_app in Es.
    destruct k; cbn in *; rewrite <- !app_assoc; exact Es.
Qed.
Lemma finish prog w : inv prog w -> alive w = true -> child w <> Killed -> exists sched, fold_left (go false) sched w = World (Doing []) [] [] true (all_seen prog).
Proof.
  intros [H N] A K. destruct w as [c o i a t]. cbn in *. subst a. destruct c as [l|k l|e|].
  - destruct H as (d & E & -> & -> & ->). now apply finish_doing.
  - destruct H as (d & E & H). destruct (finish_doing prog l (d ++ [Call k])) as (s & Es); [now rewrite <- app_assoc|]. rewrite all_seen_app in Es. destruct H as [(-> & -> & ->)|(-> & -> & ->)].
    + exists (SParent 0 :: SChild :: s). destruct k; cbn in *; rewrite <- !app_assoc; exact Es.
    + exists (SChild :: s). destruct k; cbn in *; rewrite <- !app_assoc; exact Es.
  - specialize (N e eq_refl). discriminate N.
  - congruence.
Qed.

(** *** Under Python 3 *)
Definition inv3 (w : world) : Prop :=
  out w = [] /\ inn w = [] /\ (forall e, In e (trace w) -> exists x, e = Worked x) /\ match child w with Waiting _ _ => False | Failed e => e = TypeError | _ => True end.
Lemma inv3_go w s : inv3 w -> inv3 (go true w s).
Proof.
  intros (O & I & T & C). destruct s as [| |n| |]; cbn [go].
  - unfold child_step. destruct (child w) as [[|[x|k] l]|k l|e|] eqn:E; try (repeat split; auto; now rewrite E).
    + repeat split; auto. cbn. intros e H. apply in_app_iff in H as [H|[<-|[]]]; [auto|eauto].
    + contradiction.
  - repeat split; auto.
  - unfold parent_step. destruct (alive w); [|repeat split; auto]. rewrite O. cbn [firstn skipn fold_left]. repeat split; auto.
  - repeat split; auto.
  - repeat split; auto.
Qed.
Lemma inv3_after prog sched : inv3 (after true sched prog).
Proof.
  unfold after. assert (B : inv3 (begin prog)) by (repeat split; intros e []). revert B. generalize (begin prog). induction sched as [|s sched IH]; intros w H; [exact H|]. cbn [fold_left]. apply IH. now apply inv3_go.
Qed.

(** *** Where the work is *)
Lemma seen_works ws : all_seen (map Work ws) = map Worked ws.
Proof. induction ws as [|x ws IH]; [reflexivity|]. cbn. now f_equal. Qed.
Lemma between pre mid post : all_seen (map Work pre ++ Call Start :: map Work mid ++ Call Stop :: map Work post) =
  (map Worked pre ++ [Called Start]) ++ Snapped Start :: (Returned Start :: map Worked mid ++ [Called Stop]) ++ Snapped Stop :: Returned Stop :: map Worked post.
Proof. rewrite all_seen_app. cbn [all_seen flat_map]. fold (all_seen (map Work mid ++ Call Stop :: map Work post)). rewrite all_seen_app. cbn [all_seen flat_map]. fold (all_seen (map Work post)). rewrite !seen_works. cbn [seen app]. rewrite <- !app_assoc. reflexivity. Qed.

Lemma done_seen prog sched : child (after false sched prog) = Doing [] -> trace (after false sched prog) = all_seen prog.
Proof. intros E. destruct (inv_after prog sched) as [H _]. rewrite E in H. destruct H as (d & Ep & T & _). rewrite app_nil_r in Ep. now rewrite T, Ep. Qed.
