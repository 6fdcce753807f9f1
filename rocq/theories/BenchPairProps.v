(** * Property C136: start() and stop() of a benchmark script *)

From Coq Require Import NArith String List Bool Arith Lia.
From Verif Require Import Py PyStr BenchPair.
Import ListNotations.
Open Scope list_scope.

(** The claim, for scripts of any number of calls to start() and stop() between their
    own work, and every schedule of the two processes: what is seen is, in this order,
    the script's work, and for every call that it is called, that the snapshot is taken
    and that it returns; a call raises only if the parent has gone away; and the
    script can always be finished, unless it was killed or the parent has gone. *)
Definition C136_claim (py3 : bool) : Prop := forall prog sched, let w := after py3 sched prog in
  prefix (trace w) (all_seen prog) /\ (forall e, child w = Failed e -> alive w = false) /\
  (alive w = true -> child w <> Killed -> exists more, let w' := after py3 (sched ++ more) prog in child w' = Doing [] /\ trace w' = all_seen prog).
Definition C136_full : Prop := forall py3, C136_claim py3.

(** Under Python 3 no call ever returns, and no snapshot is ever taken. *)
Theorem C136_python3_refuted : ~ C136_full /\
  forall prog sched, let w := after true sched prog in
    (forall k, ~ In (Called k) (trace w) /\ ~ In (Snapped k) (trace w) /\ ~ In (Returned k) (trace w)) /\ (forall e, child w = Failed e -> e = TypeError).
Proof.
  split.
  - intros F. destruct (F true [Call Start] [SChild]) as (_ & H & _). specialize (H TypeError eq_refl). discriminate H.
  - intros prog sched w. destruct (inv3_after prog sched) as (_ & _ & T & C). fold w in T, C. split.
    + intros k. repeat split; intros H; apply T in H as [x H]; discriminate H.
    + intros e E. now rewrite E in C.
Qed.
Print Assumptions C136_python3_refuted.

(** Under Python 2 the claim holds. *)
Theorem C136_order_partial : C136_claim false.
Proof.
  intros prog sched w. pose proof (inv_after prog sched) as H. fold w in H. split; [now apply inv_prefix|]. split; [apply H|].
  intros A K. destruct (finish prog w H A K) as (more & E). exists more. cbn zeta. unfold after in *. rewrite fold_left_app. fold w. rewrite E. auto.
Qed.
Print Assumptions C136_order_partial.

(** So the two snapshots have between them exactly what the script did between the
    calls, whatever the schedule was. *)
Theorem C136_measured_partial : forall pre mid post sched,
  let w := after false sched (map Work pre ++ Call Start :: map Work mid ++ Call Stop :: map Work post) in
  child w = Doing [] ->
  trace w = (map Worked pre ++ [Called Start]) ++ Snapped Start :: (Returned Start :: map Worked mid ++ [Called Stop]) ++ Snapped Stop :: Returned Stop :: map Worked post.
Proof. intros pre mid post sched w E. rewrite <- between. exact (done_seen _ sched E). Qed.
Print Assumptions C136_measured_partial.

Example C136_nonvacuous :
  let prog := [Work 1; Call Start; Work 2; Call Stop]%N in
  after false [SChild; SParent 3; SChild; SInterrupt; SChild; SParent 0; SChild; SChild; SChild; SChild; SParent 1; SChild] prog = World (Doing []) [] [] true (all_seen prog) /\
  child (after false [SChild; SChild; SLeave; SChild] prog) = Failed RuntimeError /\ child (after false [SLeave; SChild; SChild] prog) = Failed OSError /\
  child (after false [SChild; SChild; SKill; SParent 0] prog) = Killed /\ trace (after false [SChild; SChild; SKill; SParent 0] prog) = [Worked 1; Called Start; Snapped Start]%N.
Proof. repeat split. Qed.
