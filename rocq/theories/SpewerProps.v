(** * C82, C109, C111: spewer.py *)

From Coq Require Import ZArith NArith String List Bool Lia.
From Verif Require Import Py PyStr Spewer.
Import ListNotations.
Open Scope nat_scope.

(** C82: stopService gives every signal the handler it had *)
Definition C82_full : Prop := forall exists_sig refused sigmap H S r run old, NoDup (keys sigmap) ->
  startService exists_sig refused sigmap (Service H old run) = (S, r) ->
  exists H', stopService exists_sig refused S = (Service H' None false, Ok tt) /\ forall s, H' s = H s.

(** false for a handler which was not set from Python: stopService raises TypeError *)
Theorem C82_foreign_refuted : exists H S, startService (fun _ => true) (fun _ => false) [(10%Z, Handler (Function 7))] (Service H None false) = (S, Ok tt) /\
  snd (stopService (fun _ => true) (fun _ => false) S) = Err TypeError /\ hs (fst (stopService (fun _ => true) (fun _ => false) S)) 10%Z <> H 10%Z /\ ~ C82_full.
Proof.
  exists (fun _ => Foreign). eexists. split; [reflexivity|]. split; [reflexivity|]. split; [discriminate|].
  intros F. destruct (F (fun _ => true) (fun _ => false) [(10%Z, Handler (Function 7))] (fun _ => Foreign) _ (Ok tt) false None ltac:(repeat constructor; cbn; tauto) eq_refl) as (H' & E & _). discriminate E.
Qed.
Print Assumptions C82_foreign_refuted.

(** True when the handlers replaced were set from Python, also when startService
    raised half way. *)
Theorem C82_restored_partial : forall exists_sig refused sigmap H r S, NoDup (keys sigmap) -> (forall s, In s (keys sigmap) -> H s <> Foreign) ->
  forall run old, startService exists_sig refused sigmap (Service H old run) = (S, r) ->
  exists H', stopService exists_sig refused S = (Service H' None false, Ok tt) /\ forall s, H' s = H s.
Proof. exact stop_restores. Qed.
Print Assumptions C82_restored_partial.

(** When a handler was not set from Python, exactly the signals before the first
    such one are restored: TypeError is raised there, the service goes on running
    and keeps its record. *)
Theorem C82_foreign : forall exists_sig refused pre s v post H S old run, NoDup (keys (pre ++ (s, v) :: post)) ->
  startService exists_sig refused (pre ++ (s, v) :: post) (Service H old run) = (S, Ok tt) ->
  (forall x, In x (keys pre) -> H x <> Foreign) -> H s = Foreign ->
  exists H', stopService exists_sig refused S = (Service H' (oldsigmap S) true, Err TypeError) /\
    forall x, (In x (keys pre) -> H' x = H x) /\ (~ In x (keys pre) -> H' x = hs S x).
Proof. exact stop_foreign. Qed.
Print Assumptions C82_foreign.

(** In between each signal has the handler of the map. *)
Theorem C82_set : forall exists_sig refused sigmap H S old run, NoDup (keys sigmap) -> startService exists_sig refused sigmap (Service H old run) = (S, Ok tt) ->
  forall s v, In (s, v) sigmap -> v = Handler (hs S s).
Proof. exact start_sets. Qed.
Print Assumptions C82_set.

(** a map whose second signal the system refuses: the first one is restored *)
Example C82_nonvacuous :
  let H := fun s => if (s =? 2)%Z then Function 1 else Default in
  let x := startService (fun s => (0 <? s)%Z) (fun s => (s =? 9)%Z) [(2%Z, Handler (Function 7)); (9%Z, Handler Ignore)] (Service H None false) in
  snd x = Err OSError /\ hs (fst x) 2%Z = Function 7 /\ hs (fst (stopService (fun s => (0 <? s)%Z) (fun s => (s =? 9)%Z) (fst x))) 2%Z = Function 1.
Proof. vm_compute. repeat split. Qed.

(** a foreign handler between two others: the first is restored, the last is not *)
Example C82_foreign_nonvacuous :
  let H := fun s => if (s =? 3)%Z then Foreign else Function 1 in
  let x := startService (fun _ => true) (fun _ => false) [(2%Z, Handler Ignore); (3%Z, Handler Ignore); (4%Z, Handler Ignore)] (Service H None false) in
  let y := stopService (fun _ => true) (fun _ => false) (fst x) in
  snd x = Ok tt /\ snd y = Err TypeError /\ hs (fst y) 2%Z = Function 1 /\ hs (fst y) 4%Z = Ignore.
Proof. vm_compute. repeat split. Qed.

(** C109: uninstall ends all tracing and raises nothing *)
Definition C109_full : Prop := forall t, uninstall t = (Tracer false false false, Ok tt).

Theorem C109_threads_refuted : let t := fst (install (Tracer false false false)) in
  snd (uninstall t) = Err AttributeError /\ in_threads (fst (uninstall t)) = true /\ ~ C109_full.
Proof. cbn. split; [reflexivity|]. split; [reflexivity|]. intros F. discriminate (F (Tracer true true true)). Qed.
Print Assumptions C109_threads_refuted.

(** True of this thread; toggle alternates, and raises at every second call. *)
Theorem C109_toggle_partial : forall n t, let t' := Nat.iter n (fun t => fst (toggle t)) t in
  let on := if Nat.even n then installed t else negb (installed t) in
  installed t' = on /\ (0 < n -> here t' = on) /\ (snd (toggle t') = if on then Err AttributeError else Ok tt).
Proof.
  intros n t. cbn zeta. pose proof toggled as T. induction n as [|n IH].
  - cbn. split; [reflexivity|]. split; [lia|]. apply T.
  - destruct IH as (A & _ & _). destruct (T (Nat.iter n (fun t => fst (toggle t)) t)) as (T1 & T2 & _).
    change (Nat.iter (S n) (fun t => fst (toggle t)) t) with (fst (toggle (Nat.iter n (fun t => fst (toggle t)) t))).
    destruct (T (fst (toggle (Nat.iter n (fun t => fst (toggle t)) t)))) as (_ & _ & T3). rewrite T3, T2, T1, A, Nat.even_succ, <- Nat.negb_even.
    destruct (Nat.even n); cbn [negb]; rewrite ?negb_involutive; auto.
Qed.
Print Assumptions C109_toggle_partial.

Example C109_nonvacuous : let t := Tracer false false false in
  fst (toggle t) = Tracer true true true /\ toggle (fst (toggle t)) = (Tracer false false true, Err AttributeError) /\ snd (toggle (fst (toggle (fst (toggle t))))) = Ok tt.
Proof. repeat split. Qed.

(** C111: extractArgs gives the parameters of the function and their values *)
Definition C111_full : Prop := forall c locals, NoDup (parameters c) -> keys (extractArgs c locals) = parameters c.

(** false for keyword-only parameters *)
Theorem C111_keyword_refuted : exists c locals, NoDup (parameters c) /\ keys (extractArgs c locals) <> parameters c /\ ~ C111_full.
Proof.
  assert (D : NoDup (parameters (Code [lit "a"] [lit "k"] None None []))) by (repeat constructor; cbn; intuition discriminate).
  exists (Code [lit "a"] [lit "k"] None None []), []. split; [exact D|]. split; [discriminate|]. intros F. discriminate (F _ [] D).
Qed.
Print Assumptions C111_keyword_refuted.

Theorem C111_parameters_partial : forall c locals, NoDup (parameters c) -> keyword_only c = [] ->
  keys (extractArgs c locals) = parameters c /\ forall p, In p (parameters c) -> dget (extractArgs c locals) p = Some (match dget locals p with Some v => v | None => 0%N end).
Proof. exact extract_params. Qed.
Print Assumptions C111_parameters_partial.

(** and for no function with keyword-only parameters *)
Theorem C111_exact_partial : forall c locals, NoDup (parameters c) -> (keys (extractArgs c locals) = parameters c <-> keyword_only c = []).
Proof. exact extract_exact. Qed.
Print Assumptions C111_exact_partial.

(** What it gives: the positional parameters, then as many of the others as there
    are starred parameters, the keyword-only ones first. *)
Theorem C111_given : forall c locals, NoDup (parameters c) ->
  let starred := opt_list (var_args c) ++ opt_list (var_kw c) in
  keys (extractArgs c locals) = positional c ++ firstn (length starred) (keyword_only c ++ starred).
Proof. exact extract_keys. Qed.
Print Assumptions C111_given.

Example C111_nonvacuous : extractArgs (Code [lit "a"; lit "b"] [] (Some (lit "args")) None [lit "local"]) [(lit "local", 9%N); (lit "b", 2%N); (lit "a", 1%N)] = [(lit "a", 1%N); (lit "b", 2%N); (lit "args", 0%N)].
Proof. reflexivity. Qed.
