(** * C110, C131: what a Tracer is told, and what Spewer prints *)

From Coq Require Import ZArith NArith List Bool Lia.
From Verif Require Import Py PyStr SpewerTrace.
Import ListNotations.
Open Scope nat_scope.

(** C110: what Spewer prints is indented by the number of calls in progress *)
Definition C110_full : Prop := forall l, printed true l = flat_map (wanted 0) l.

(** false: under Python 3 the first call made raises AttributeError out of the tracer,
    which ends the tracing before anything is printed *)
Theorem C110_python3_refuted : (forall f l, printed true (f :: l) = [] /\ tracing (spewed true (f :: l)) = false /\ (exists n, told (spewed true (f :: l)) = [(Own, (n, KCall))]) /\
  exists n, tell_to (spew true) no_other Own (0, []) n KCall = ((1, []), Err AttributeError)) /\ ~ C110_full.
Proof. split; [exact spew_python3|]. intros F. specialize (F [Frame 0 [] false]). discriminate F. Qed.
Print Assumptions C110_python3_refuted.

(** and false under Python 2 after an exception that ends a call: it is counted twice;
    nor need it end a call *)
Theorem C110_exception_refuted :
  (let l := [Frame 0 [SCall (Frame 1 [SException] false); SCall (Frame 2 [] false)] true] in printed false l <> flat_map (wanted 0) l) /\
  (let l := [Frame 0 [SException; SCall (Frame 1 [] false)] true] in printed false l <> flat_map (wanted 0) l).
Proof. split; discriminate. Qed.
Print Assumptions C110_exception_refuted.

(** True under Python 2 for programs which meet no exception. *)
Theorem C110_depth_partial : forall l, forallb no_exception l = true -> printed false l = flat_map (wanted 0) l.
Proof. exact printed_calm. Qed.
Print Assumptions C110_depth_partial.

(** For all programs under Python 2: each line is indented by the largest surplus of
    calls over returns and exceptions in any stretch of events that ends there. *)
Theorem C110_exact_partial : forall l, map Z.of_nat (printed false l) = indents [] (map snd (flat_map events l)).
Proof. exact printed_exact. Qed.
Print Assumptions C110_exact_partial.

Example C110_nonvacuous : let l := [Frame 0 [SLine; SCall (Frame 1 [] true); SCall (Frame 2 [SCall (Frame 1 [] false)] true)] false] in
  forallb no_exception l = true /\ printed false l = [1; 2; 2; 2; 3; 2] /\
  printed false [Frame 0 [SCall (Frame 1 [SException] false); SException; SCall (Frame 2 [] true)] true] = [1; 2; 2; 0; 1; 1; 0].
Proof. repeat split. Qed.

(** C131: a tracer whose method answers skip is told no more of that call *)
Definition C131_full : Prop := forall (m : N -> kind -> answer) l, NoDup (map (fun x => fst (snd x)) (calls (flat_map events l))) ->
  forall before n k after, told (run_all (fun (_ : unit) n k => (tt, m n k)) silent l (Interp tt true [])) = before ++ (Own, (n, k)) :: after -> m n k = ASkip ->
  forall x, In x after -> fst (snd x) <> n.

(** false of every method but trace_CALL: the next line is told *)
Theorem C131_later_refuted : ~ C131_full.
Proof.
  intros F. refine (F (fun n k => match k with KLine => ASkip | _ => ANone end) [Frame 7 [SLine; SLine] false] _ [(Own, (7%N, KCall))] 7%N KLine _ eq_refl eq_refl (Own, (7%N, KLine)) _ eq_refl).
  - repeat constructor; cbn; tauto.
  - now left.
Qed.
Print Assumptions C131_later_refuted.

(** Who is told: trace_CALL of every call; of the rest of a call the tracer itself, the
    function that trace_CALL returned, or nobody if it answered skip.  What the other
    methods answer, None or skip, makes no difference. *)
Theorem C131_told_partial : forall on_call later, (forall n e, on_call n <> ARaise e) -> forall l,
  told (run_all (method on_call later) silent l (Interp tt true [])) =
  flat_map (fun x => match snd x with
                     | KCall => [(Own, x)]
                     | _ => match on_call (fst x) with ANone => [(Own, x)] | AFunction j => [(Other j, x)] | _ => [] end
                     end) (flat_map events l).
Proof. intros on_call later H l. now rewrite (all_fixed on_call later H). Qed.
Print Assumptions C131_told_partial.

(** For any tracer, with any state and any answers, and any other functions: nothing is
    told that does not happen, in order; while nothing raises the tracer is told of
    every call; if tracing ends it is by an exception, after which nothing is told. *)
Theorem C131_any : forall S (m : S -> N -> kind -> S * answer) other l s, let i := run_all m other l (Interp s true []) in
  subseq (map snd (told i)) (flat_map events l) /\
  (tracing i = true -> filter is_call (told i) = map (fun x => (Own, x)) (filter (fun x => match snd x with KCall => true | _ => false end) (flat_map events l))) /\
  (tracing i = false -> exists before t n k s e, told i = before ++ [(t, (n, k))] /\ snd (tell_to m other t s n k) = Err e).
Proof.
  intros S m other l s i. split; [|split].
  - destruct (all_told m other l (Interp s true [])) as (t & E & H). subst i. now rewrite E.
  - intros H. subst i. now rewrite (all_calls m other l _ H).
  - intros H. apply (all_fine m other l (Interp s true [])); [intros D; discriminate D|exact H].
Qed.
Print Assumptions C131_any.

Example C131_nonvacuous :
  told (run_all (method (fun n => match n with 1%N => ASkip | 2%N => AFunction 5 | _ => ANone end) (fun _ _ => true)) silent
    [Frame 0 [SLine; SCall (Frame 1 [SLine; SCall (Frame 2 [SLine] true)] true)] true] (Interp tt true [])) =
  [(Own, (0%N, KCall)); (Own, (0%N, KLine)); (Own, (1%N, KCall)); (Own, (2%N, KCall)); (Other 5, (2%N, KLine)); (Other 5, (2%N, KReturn true)); (Own, (0%N, KReturn true))].
Proof. reflexivity. Qed.
