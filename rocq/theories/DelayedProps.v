(** * Properties C70, C71, C72, C101: delayed calls, timeouts, the test clock *)

From Coq Require Import ZArith List Bool Arith Lia Permutation Sorted.
From Verif Require Import Py Delayed DelayedClock.
Import ListNotations.
Open Scope Z_scope.

(** ** C70 *)

(** Every history of reset, delay, cancel and looks of the reactor: each answers
    as [should] says, and the status, with the time reported, is the one of the
    specification. *)
Theorem C70_history : forall t es,
  shoulds (At t) es = (status_of (fst (happens (scheduled t) es)), snd (happens (scheduled t) es)).
Proof. exact call_history. Qed.
Print Assumptions C70_history.

(** The reactor has a pending call under a time not later than the one reported. *)
Theorem C70_in_time : forall t es, let h := fst (happens (scheduled t) es) in
  active (h_call h) = true -> exists k, h_key h = Some k /\ k <= getTime (h_call h).
Proof. exact call_in_time. Qed.
Print Assumptions C70_in_time.

(** In any state, an operation that raises changes nothing. *)
Theorem C70_raise_nothing : forall h e x, snd (happen h e) = Raised x -> fst (happen h e) = h.
Proof. exact raise_nothing. Qed.
Print Assumptions C70_raise_nothing.

Example C70_nonvacuous :
  snd (happens (scheduled 10) [EDelay 5; ETick 12; EDelay (-8); ETick 6; EReset 6 3; ETick 8; ETick 9; ETick 10; ECancel]) =
    [Done; Called false; Done; Called false; Done; Called false; Called true; Called false; Raised AlreadyCalled] /\
  active (h_call (fst (happens (scheduled 10) [EDelay 5; ETick 12; EDelay (-8)]))) = true /\
  getTime (h_call (fst (happens (scheduled 10) [EDelay 5; ETick 12; EDelay (-8)]))) = 7.
Proof. repeat split; vm_compute; reflexivity. Qed.

(** ** C71 *)

(** The pending calls are none or one, for the deadline the history sets; and
    timeoutConnection was called as often as a deadline had passed when the
    reactor looked. *)
Theorem C71_one_timeout : forall delay_ok t0 l,
  let m := mruns delay_ok l (new_mixin t0) in let w := wsteps delay_ok l (Wanted t0 None 0) in
  pending m = opt_list (w_deadline w) /\ m_timeOut m = w_timeOut w /\ m_fired m = w_fired w.
Proof. exact timeouts. Qed.
Print Assumptions C71_one_timeout.

(** Nothing is raised but the reactor's own refusal of a new delay. *)
Theorem C71_errors : forall delay_ok t0 l now s e, snd (mrun delay_ok now s (mruns delay_ok l (new_mixin t0))) = Raised e ->
  e = AssertionError /\ exists p, s = MSet (Some p) /\ delay_ok p = false.
Proof. exact timeout_errors. Qed.
Print Assumptions C71_errors.

Example C71_nonvacuous : let ok d := 0 <=? d in
  let m := mruns ok [(0, MSet (Some 10)); (4, MReset); (12, MTick); (13, MSet (Some 5)); (18, MTick); (19, MReset); (20, MSet (Some 7)); (21, MSet None); (22, MSet (Some 3))] (new_mixin None) in
  pending m = [25] /\ m_fired m = 1%nat /\ length (m_calls m) = 3%nat.
Proof. repeat split; vm_compute; reflexivity. Qed.

(** ** C72 *)

(** In every history, callLater returns a call that was not pending before, for
    its own time; it is added to the queue, and nothing else changes. *)
Theorem C72_own_call : forall l w, let k := cruns l in let k' := fst (callLater w k) in let i := snd (callLater w k) in
  is_pending k' i /\ due k' i = ck_now k + w /\ ~ is_pending k i /\ Permutation (ck_calls k') (i :: ck_calls k) /\
  forall j, is_pending k j -> is_pending k' j /\ due k' j = due k j.
Proof. exact clock_own. Qed.
Print Assumptions C72_own_call.

(** The queue holds exactly the pending calls, each once. *)
Theorem C72_pending : forall l, NoDup (ck_calls (cruns l)) /\ forall i, In i (ck_calls (cruns l)) <-> is_pending (cruns l) i.
Proof. exact clock_queue. Qed.
Print Assumptions C72_pending.

(** After every callLater, whatever came before, the queue is sorted. *)
Theorem C72_sorted : forall l w, let k := fst (callLater w (cruns l)) in StronglySorted (fun i j => due k i <= due k j) (ck_calls k).
Proof. exact clock_sorted. Qed.
Print Assumptions C72_sorted.

(** As long as no call's time is changed, it always is, calls for the same time
    in the order they were made. *)
Theorem C72_order : forall l, Forall no_change l -> StronglySorted (earlier (cruns l)) (ck_calls (cruns l)).
Proof. exact clock_lex. Qed.
Print Assumptions C72_order.

Example C72_nonvacuous : let l := [CLater 10; CLater 1; CLater 10; CLater 5; COp OCancel 3; CAdvance 1; CRun] in
  Forall no_change l /\ ck_calls (cruns l) = [0; 2]%nat /\ snd (callLater 3 (cruns l)) = 4%nat /\ ck_calls (fst (callLater 3 (cruns l))) = [4; 0; 2]%nat.
Proof. cbv zeta. split; [repeat constructor|]. repeat split; vm_compute; reflexivity. Qed.

(** ** C101 *)

Definition C101_full : Prop := forall l, let k := cruns l in
  match snd (run_first k) with
  | Some i => is_pending k i /\ due k i <= ck_now k /\ forall j, is_pending k j -> due k i <= due k j
  | None => forall j, is_pending k j -> ck_now k < due k j
  end.

(** The first call is put off behind the second, which is then not called when
    its time has come: nothing sorts the queue again. *)
Theorem C101_due_refuted : let k := cruns [CLater 10; CLater 20; COp (OReset 30) 0; CAdvance 25] in
  ck_calls k = [0; 1]%nat /\ due k 0 = 30 /\ due k 1 = 20 /\ ck_now k = 25 /\ is_pending k 1 /\ snd (run_first k) = None /\ ~ C101_full.
Proof.
  intros k. assert (P : is_pending k 1) by (eexists; split; reflexivity). repeat (split; [reflexivity || exact P|]).
  intros F. specialize (F [CLater 10; CLater 20; COp (OReset 30) 0; CAdvance 25] 1%nat P). vm_compute in F. discriminate F.
Qed.
Print Assumptions C101_due_refuted.

(** As long as no call's time is changed, the call run is the earliest of those
    due, and one is run if any is due. *)
Theorem C101_due_partial : forall l, Forall no_change l -> let k := cruns l in
  match snd (run_first k) with
  | Some i => is_pending k i /\ due k i <= ck_now k /\ forall j, is_pending k j -> j <> i -> earlier k i j
  | None => forall j, is_pending k j -> ck_now k < due k j
  end.
Proof. exact clock_runs. Qed.
Print Assumptions C101_due_partial.

(** With any changes: what counts is the order of the times the calls had when
    callLater was last called; the first of them in that order is run if it is due
    now, and if it is not none is.  Never is a call run before its time. *)
Theorem C101_exact_partial : forall l1 w l2, Forall no_later l2 -> let k0 := cruns (l1 ++ [CLater w]) in let k := cruns (l1 ++ [CLater w] ++ l2) in
  (forall i, is_pending k i -> is_pending k0 i) /\
  match snd (run_first k) with
  | Some i => is_pending k i /\ due k i <= ck_now k /\ forall j, is_pending k j -> due k0 i <= due k0 j
  | None => (forall j, ~ is_pending k j) \/ exists i, is_pending k i /\ ck_now k < due k i /\ forall j, is_pending k j -> due k0 i <= due k0 j
  end.
Proof. exact clock_exact. Qed.
Print Assumptions C101_exact_partial.

(** (every other history has no callLater, and so no call) *)
Theorem C101_none : forall l, Forall no_later l -> forall j, ~ is_pending (cruns l) j.
Proof. exact clock_none. Qed.
Print Assumptions C101_none.

Example C101_nonvacuous : (let l2 := [COp (OReset 30) 0; CAdvance 25; COp OCancel 0] in Forall no_later l2 /\ snd (run_first (cruns ([CLater 10] ++ [CLater 20] ++ l2))) = Some 1%nat) /\
  let l := [CLater 10; CLater 1; CLater 1; CAdvance 2] in Forall no_change l /\ snd (run_first (cruns l)) = Some 1%nat.
Proof. cbv zeta. split; split; [repeat constructor|vm_compute; reflexivity|repeat constructor|vm_compute; reflexivity]. Qed.
