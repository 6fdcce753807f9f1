(** * epsilon/spewer.py: what a Tracer is told, and what Spewer prints

    A program is what it does while it is traced: calls, each with the lines it runs, the
    exceptions met in it (raised or passing through, caught or not) and the calls it
    makes.  The interpreter's side of sys.settrace is CPython's: the trace function of
    the thread is told of every call; what it returns is told of the rest of that call;
    None from it means that nothing is told of the rest of that call; None later on
    changes nothing; an exception ends all tracing of the thread and goes on into the
    program.  'opcode' events are not modelled: a frame sends none unless it is asked. *)

From Coq Require Import ZArith NArith List Bool Lia.
From Verif Require Import Py PyStr.
Import ListNotations.
Open Scope nat_scope.

(** what is told: [KReturn v] with v = false for the value None, which is also what is
    told when an exception ends the call *)
Inductive kind := KCall | KLine | KException | KReturn (value : bool).
Inductive frame := Frame (name : N) (inside : list step) (value : bool)
with step := SLine | SException | SCall (f : frame).

(** everything that happens, in order *)
Fixpoint events (f : frame) : list (N * kind) :=
  match f with Frame n l v => (n, KCall) :: flat_map (step_events n) l ++ [(n, KReturn v)] end
with step_events (n : N) (s : step) : list (N * kind) :=
  match s with SLine => [(n, KLine)] | SException => [(n, KException)] | SCall f => events f end.

Section FrameInd.
  Variable P : frame -> Prop.
  Variable Q : step -> Prop.
  Hypothesis HF : forall n l v, Forall Q l -> P (Frame n l v).
  Hypothesis HL : Q SLine.
  Hypothesis HE : Q SException.
  Hypothesis HC : forall f, P f -> Q (SCall f).
  Fixpoint frame_ind' (f : frame) : P f :=
    match f with Frame n l v => HF n l v ((fix go l := match l return Forall Q l with [] => Forall_nil _ | s :: t => Forall_cons s (step_ind' s) (go t) end) l) end
  with step_ind' (s : step) : Q s :=
    match s with SLine => HL | SException => HE | SCall f => HC f (frame_ind' f) end.
End FrameInd.

(** what one of the trace_ methods may do *)
Inductive answer := ANone | ASkip | AFunction (k : N) | ARaise (e : exn).
(** the functions that can be told: the tracer's own trace method, and others *)
Inductive tfun := Own | Other (k : N).

Section Trace.
  (** the trace_ methods of the tracer, and the other functions, with their state *)
  Context {S : Type} (method : S -> N -> kind -> S * answer) (other : N -> S -> N -> kind -> S * res (option tfun)).

  (** spewer.py:33-40: skip becomes None, None becomes the method itself *)
  Definition trace (s : S) (n : N) (k : kind) : S * res (option tfun) :=
    let (s', a) := method s n k in
    (s', match a with ASkip => Ok None | ANone => Ok (Some Own) | AFunction j => Ok (Some (Other j)) | ARaise e => Err e end).

  Definition tell_to (t : tfun) : S -> N -> kind -> S * res (option tfun) := match t with Own => trace | Other j => other j end.

  (** the interpreter: the state of the tracer, whether it still traces, and who has
      been told of what *)
  Record interp := Interp { state : S; tracing : bool; told : list (tfun * (N * kind)) }.

  (** one function is told; [after] is what its answer makes of the frame's own
      function *)
  Definition tell (t : tfun) (n : N) (k : kind) (after : option tfun -> option tfun) (i : interp) : option tfun * interp :=
    let (s', r) := tell_to t (state i) n k in
    match r with
    | Ok a => (after a, Interp s' true (told i ++ [(t, (n, k))]))
    | Err e => (None, Interp s' false (told i ++ [(t, (n, k))]))
    end.

  Definition keep (o a : option tfun) : option tfun := match a with Some t => Some t | None => o end.

  (** a call begins (CPython, trace_trampoline with PyTrace_CALL) *)
  Definition begin_call (n : N) (i : interp) : option tfun * interp := if tracing i then tell Own n KCall (fun a => a) i else (None, i).
  (** anything else (CPython, trace_trampoline) *)
  Definition tell_local (o : option tfun) (n : N) (k : kind) (i : interp) : option tfun * interp :=
    if tracing i then match o with Some t => tell t n k (keep o) i | None => (None, i) end else (None, i).

  Fixpoint run (f : frame) (i : interp) : interp :=
    match f with Frame n l v =>
      let (o, i) := begin_call n i in
      let (o, i) := (fix go (l : list step) (o : option tfun) (i : interp) : option tfun * interp :=
        match l with [] => (o, i) | s :: l => let (o, i) := run_step n s o i in go l o i end) l o i in
      snd (tell_local o n (KReturn v) i)
    end
  with run_step (n : N) (s : step) (o : option tfun) (i : interp) : option tfun * interp :=
    match s with SLine => tell_local o n KLine i | SException => tell_local o n KException i | SCall f => (o, run f i) end.

  Definition run_steps (n : N) := fix go (l : list step) (o : option tfun) (i : interp) : option tfun * interp :=
    match l with [] => (o, i) | s :: l => let (o, i) := run_step n s o i in go l o i end.
  Definition run_all (l : list frame) (i : interp) : interp := fold_left (fun i f => run f i) l i.

  Lemma run_eq n l v i : run (Frame n l v) i = let (o, i) := begin_call n i in let (o, i) := run_steps n l o i in snd (tell_local o n (KReturn v) i).
  Proof. reflexivity. Qed.

  (** *** After an exception nothing is told *)
  Lemma off_local o n k i : tracing i = false -> tell_local o n k i = (None, i).
  Proof. intros E. unfold tell_local. now rewrite E. Qed.
  Lemma off_frame f : forall i, tracing i = false -> run f i = i.
  Proof.
    apply (frame_ind' (fun f => forall i, tracing i = false -> run f i = i) (fun s => forall n o i, tracing i = false -> snd (run_step n s o i) = i)); intros.
    - rewrite run_eq. unfold begin_call. rewrite H0. cbn zeta.
      assert (K : forall o, snd (run_steps n l o i) = i).
      { induction H as [|s t Hs _ IH]; intros o; [reflexivity|]. cbn [run_steps]. specialize (Hs n o i H0). destruct (run_step n s o i) as [o1 i1]. cbn in Hs. subst i1. apply IH. }
      specialize (K None). destruct (run_steps n l None i) as [o1 i1]. cbn in K. subst i1. now rewrite off_local.
    - cbn [run_step]. now rewrite off_local.
    - cbn [run_step]. now rewrite off_local.
    - cbn [run_step snd]. now apply H.
  Qed.

  (** *** Everyone told is told of what happens; an exception is the last thing told *)

  (** [i'] comes from [i] by telling of some of [l], everyone answering without an
      exception, except perhaps the last one *)
  Inductive subseq {A} : list A -> list A -> Prop :=
  | sub_nil l : subseq [] l
  | sub_take x a l : subseq a l -> subseq (x :: a) (x :: l)
  | sub_skip x a l : subseq a l -> subseq a (x :: l).
  Lemma subseq_refl {A} (l : list A) : subseq l l.
  Proof. induction l; [constructor|now apply sub_take]. Qed.
  Lemma subseq_app {A} (a b l m : list A) : subseq a l -> subseq b m -> subseq (a ++ b) (l ++ m).
  Proof.
    induction 1 as [l|x a l H IH|x a l H IH]; intros Hb; cbn [app].
    - induction l as [|y l IHl]; [exact Hb|now apply sub_skip].
    - apply sub_take. auto.
    - apply sub_skip. auto.
  Qed.
  Lemma subseq_drop {A} (a : list A) x l : subseq (x :: a) l -> subseq a l.
  Proof. revert a x. induction l as [|y l IH]; intros a x H; inversion H; subst; [now apply sub_skip|]. apply sub_skip. now apply (IH a x). Qed.
  Lemma subseq_nil_app {A} (a m l : list A) : subseq a m -> subseq a (l ++ m).
  Proof. intros H. apply (subseq_app [] a l m); [constructor|exact H]. Qed.
  Lemma subseq_app_l {A} (a l m : list A) : subseq a l -> subseq a (l ++ m).
  Proof. intros H. rewrite <- (app_nil_r a). apply subseq_app; [exact H|constructor]. Qed.

  Lemma tell_told t n k after i : told (snd (tell t n k after i)) = told i ++ [(t, (n, k))].
  Proof. unfold tell. destruct (tell_to t (state i) n k) as [s' [a|e]]; reflexivity. Qed.
  Lemma local_told o n k i : exists l, told (snd (tell_local o n k i)) = told i ++ l /\ subseq (map snd l) [(n, k)].
  Proof.
    unfold tell_local. destruct (tracing i); [|exists []; cbn; rewrite app_nil_r; split; [reflexivity|constructor]].
    destruct o as [t|]; [|exists []; cbn; rewrite app_nil_r; split; [reflexivity|constructor]].
    exists [(t, (n, k))]. rewrite tell_told. split; [reflexivity|apply subseq_refl].
  Qed.

  Lemma run_told f : forall i, exists l, told (run f i) = told i ++ l /\ subseq (map snd l) (events f).
  Proof.
    apply (frame_ind' (fun f => forall i, exists l, told (run f i) = told i ++ l /\ subseq (map snd l) (events f))
      (fun s => forall n o i, exists l, told (snd (run_step n s o i)) = told i ++ l /\ subseq (map snd l) (step_events n s))).
    - intros n l v H i. rewrite run_eq.
      assert (B : exists a, told (snd (begin_call n i)) = told i ++ a /\ subseq (map snd a) [(n, KCall)]).
      { unfold begin_call. destruct (tracing i); [|exists []; cbn; rewrite app_nil_r; split; [reflexivity|constructor]].
        exists [(Own, (n, KCall))]. rewrite tell_told. split; [reflexivity|apply subseq_refl]. }
      destruct (begin_call n i) as [o i1]. destruct B as (a & Ea & Sa). cbn [snd] in Ea.
      assert (K : forall o i, exists b, told (snd (run_steps n l o i)) = told i ++ b /\ subseq (map snd b) (flat_map (step_events n) l)).
      { clear -H. induction H as [|s t Hs _ IH]; intros o i; [exists []; cbn; rewrite app_nil_r; split; [reflexivity|constructor]|].
        cbn [run_steps flat_map]. destruct (Hs n o i) as (x & Ex & Sx). destruct (run_step n s o i) as [o1 i1]. cbn [snd] in Ex. destruct (IH o1 i1) as (y & Ey & Sy).
        exists (x ++ y). rewrite Ey, Ex, app_assoc, map_app. split; [reflexivity|now apply subseq_app]. }
      destruct (K o i1) as (b & Eb & Sb). destruct (run_steps n l o i1) as [o2 i2]. cbn [snd] in Eb.
      destruct (local_told o2 n (KReturn v) i2) as (c & Ec & Sc). exists (a ++ b ++ c). rewrite Ec, Eb, Ea, !app_assoc. split; [reflexivity|].
      rewrite !map_app, <- app_assoc. cbn [events]. apply (subseq_app _ _ [(n, KCall)]); [exact Sa|]. now apply subseq_app.
    - intros n o i. apply local_told.
    - intros n o i. apply local_told.
    - intros g IH n o i. cbn [run_step snd step_events]. apply IH.
  Qed.

  Lemma all_told l : forall i, exists t, told (run_all l i) = told i ++ t /\ subseq (map snd t) (flat_map events l).
  Proof.
    induction l as [|f l IH]; intros i; [exists []; cbn; rewrite app_nil_r; split; [reflexivity|constructor]|].
    cbn [run_all fold_left flat_map]. destruct (run_told f i) as (a & Ea & Sa). destruct (IH (run f i)) as (b & Eb & Sb). exists (a ++ b).
    unfold run_all in Eb. rewrite Eb, Ea, app_assoc, map_app. split; [reflexivity|now apply subseq_app].
  Qed.

  (** *** tracing ends only by an exception *)
  Definition raised_last (i : interp) : Prop :=
    exists before t n k s e, told i = before ++ [(t, (n, k))] /\ snd (tell_to t s n k) = Err e.
  Definition fine (i : interp) : Prop := tracing i = false -> raised_last i.

  Lemma tell_fine t n k after i : fine (snd (tell t n k after i)).
  Proof.
    unfold tell, fine. destruct (tell_to t (state i) n k) as [s' [a|e]] eqn:E; cbn [snd tracing told]; [discriminate|].
    intros _. exists (told i), t, n, k, (state i), e. cbn. now rewrite E.
  Qed.
  Lemma local_fine o n k i : fine i -> fine (snd (tell_local o n k i)).
  Proof. intros H. unfold tell_local. destruct (tracing i) eqn:E; [|exact H]. destruct o; [apply tell_fine|exact H]. Qed.
  Lemma run_fine f : forall i, fine i -> fine (run f i).
  Proof.
    apply (frame_ind' (fun f => forall i, fine i -> fine (run f i)) (fun s => forall n o i, fine i -> fine (snd (run_step n s o i)))).
    - intros n l v H i Hi. rewrite run_eq.
      assert (B : fine (snd (begin_call n i))) by (unfold begin_call; destruct (tracing i); [apply tell_fine|exact Hi]).
      destruct (begin_call n i) as [o i1]. cbn [snd] in B.
      assert (K : forall o i, fine i -> fine (snd (run_steps n l o i))).
      { clear -H. induction H as [|s t Hs _ IH]; intros o i Hi; [exact Hi|]. cbn [run_steps]. specialize (Hs n o i Hi). destruct (run_step n s o i) as [o1 i1]. now apply IH. }
      specialize (K o i1 B). destruct (run_steps n l o i1) as [o2 i2]. now apply local_fine.
    - intros n o i. apply local_fine.
    - intros n o i. apply local_fine.
    - intros g IH n o i. apply IH.
  Qed.
  Lemma all_fine l : forall i, fine i -> fine (run_all l i).
  Proof. induction l as [|f l IH]; intros i Hi; [exact Hi|]. apply IH, run_fine, Hi. Qed.

  (** *** while it traces, all calls are told to the tracer itself *)
  Definition is_call (x : tfun * (N * kind)) : bool := match snd (snd x) with KCall => true | _ => false end.
  Definition calls (l : list (N * kind)) : list (tfun * (N * kind)) := map (fun x => (Own, x)) (filter (fun x => match snd x with KCall => true | _ => false end) l).

  Lemma calls_app a b : calls (a ++ b) = calls a ++ calls b.
  Proof. unfold calls. now rewrite filter_app, map_app. Qed.
  Lemma local_calls o n k i : k <> KCall -> filter is_call (told (snd (tell_local o n k i))) = filter is_call (told i).
  Proof.
    intros Hk. unfold tell_local. destruct (tracing i); [|reflexivity]. destruct o as [t|]; [|reflexivity]. rewrite tell_told, filter_app. cbn.
    destruct k; try contradiction; apply app_nil_r.
  Qed.
  Lemma local_on o n k i : tracing (snd (tell_local o n k i)) = true -> tracing i = true.
  Proof. unfold tell_local. destruct (tracing i) eqn:E; [reflexivity|cbn; congruence]. Qed.
  Lemma run_on f i : tracing (run f i) = true -> tracing i = true.
  Proof. destruct (tracing i) eqn:E; [reflexivity|]. rewrite off_frame by exact E. congruence. Qed.
  Lemma step_on n s o i : tracing (snd (run_step n s o i)) = true -> tracing i = true.
  Proof. destruct s; [apply local_on..|apply run_on]. Qed.
  Lemma steps_on n l : forall o i, tracing (snd (run_steps n l o i)) = true -> tracing i = true.
  Proof.
    induction l as [|s l IH]; intros o i; [auto|]. cbn [run_steps]. intros H. pose proof (step_on n s o i) as P. destruct (run_step n s o i) as [o1 i1]. cbn [snd] in P. apply P. now apply (IH o1 i1).
  Qed.

  Lemma run_calls f : forall i, tracing (run f i) = true -> filter is_call (told (run f i)) = filter is_call (told i) ++ calls (events f).
  Proof.
    apply (frame_ind' (fun f => forall i, tracing (run f i) = true -> filter is_call (told (run f i)) = filter is_call (told i) ++ calls (events f))
      (fun s => forall n o i, tracing (snd (run_step n s o i)) = true -> filter is_call (told (snd (run_step n s o i))) = filter is_call (told i) ++ calls (step_events n s))).
    - intros n l v H i. rewrite run_eq.
      assert (B : tracing (snd (begin_call n i)) = true -> told (snd (begin_call n i)) = told i ++ [(Own, (n, KCall))]).
      { unfold begin_call. destruct (tracing i) eqn:E; [intros _; apply tell_told|cbn; congruence]. }
      destruct (begin_call n i) as [o i1]. cbn [snd] in B.
      assert (K : forall o i, tracing (snd (run_steps n l o i)) = true -> filter is_call (told (snd (run_steps n l o i))) = filter is_call (told i) ++ calls (flat_map (step_events n) l)).
      { clear -H. induction H as [|s t Hs _ IH]; intros o i Hi; [cbn; now rewrite app_nil_r|]. cbn [run_steps] in *. cbn [flat_map]. specialize (Hs n o i).
        destruct (run_step n s o i) as [o1 i1]. cbn [snd] in Hs. rewrite (IH o1 i1 Hi), Hs, calls_app by now apply (steps_on _ _ _ _ Hi). now rewrite app_assoc. }
      specialize (K o i1). destruct (run_steps n l o i1) as [o2 i2] eqn:E2. cbn [snd] in K. intros Hi.
      pose proof (local_on _ _ _ _ Hi) as H2. specialize (K H2). assert (H1 : tracing i1 = true) by (apply (steps_on n l o i1); now rewrite E2).
      rewrite local_calls by discriminate. rewrite K, (B H1), filter_app. cbn [events]. change ((n, KCall) :: flat_map (step_events n) l ++ [(n, KReturn v)]) with ([(n, KCall)] ++ flat_map (step_events n) l ++ [(n, KReturn v)]). rewrite calls_app. rewrite calls_app. cbn. now rewrite app_nil_r, <- app_assoc.
    - intros n o i _. cbn [run_step]. rewrite local_calls by discriminate. cbn. now rewrite app_nil_r.
    - intros n o i _. cbn [run_step]. rewrite local_calls by discriminate. cbn. now rewrite app_nil_r.
    - intros g IH n o i. cbn [run_step snd step_events]. apply IH.
  Qed.
  Lemma all_on l : forall i, tracing (run_all l i) = true -> tracing i = true.
  Proof. induction l as [|f l IH]; intros i H; [exact H|]. apply (run_on f), IH, H. Qed.
  Lemma all_calls l : forall i, tracing (run_all l i) = true -> filter is_call (told (run_all l i)) = filter is_call (told i) ++ calls (flat_map events l).
  Proof.
    induction l as [|f l IH]; intros i H; [cbn; now rewrite app_nil_r|]. cbn [run_all fold_left flat_map] in *. change (fold_left (fun i f => run f i) l (run f i)) with (run_all l (run f i)) in *.
    rewrite (IH (run f i) H), run_calls, calls_app by now apply all_on in H. now rewrite app_assoc.
  Qed.
End Trace.

(** ** Who is told of what, when answers depend only on the call *)

Section Answers.
  Variable on_call : N -> answer.
  Variable later : N -> kind -> bool.   (* whether a method other than trace_CALL skips *)
  Hypothesis calm : forall n e, on_call n <> ARaise e.

  Definition method (s : unit) (n : N) (k : kind) : unit * answer :=
    (tt, match k with KCall => on_call n | _ => if later n k then ASkip else ANone end).
  Definition silent (j : N) (s : unit) (n : N) (k : kind) : unit * res (option tfun) := (tt, Ok None).

  Definition function_of (n : N) : option tfun := match on_call n with ANone => Some Own | ASkip => None | AFunction j => Some (Other j) | ARaise _ => None end.
  Definition listeners (x : N * kind) : list (tfun * (N * kind)) :=
    match snd x with
    | KCall => [(Own, x)]
    | _ => match on_call (fst x) with ANone => [(Own, x)] | AFunction j => [(Other j, x)] | _ => [] end
    end.

  Lemma begin_fixed n t : begin_call method silent n (Interp tt true t) = (function_of n, Interp tt true (t ++ [(Own, (n, KCall))])).
  Proof. unfold begin_call, tell, tell_to, trace, method, function_of. cbn [tracing state told]. pose proof (calm n). destruct (on_call n); try reflexivity. now destruct (H e). Qed.
  Lemma local_fixed n k t : k <> KCall -> tell_local method silent (function_of n) n k (Interp tt true t) = (function_of n, Interp tt true (t ++ listeners (n, k))).
  Proof.
    intros Hk. unfold tell_local, tell, listeners, function_of. cbn [tracing fst snd].
    destruct (on_call n) eqn:E.
    - cbn [tell_to]. unfold trace, method. cbn [state told]. destruct k; [contradiction|..]; destruct (later n _); reflexivity.
    - destruct k; [contradiction|..]; now rewrite app_nil_r.
    - cbn [tell_to]. unfold silent. cbn [state told keep]. destruct k; [contradiction|..]; reflexivity.
    - destruct (calm _ _ E).
  Qed.
  Lemma run_fixed f : forall t, run method silent f (Interp tt true t) = Interp tt true (t ++ flat_map listeners (events f)).
  Proof.
    apply (frame_ind' (fun f => forall t, run method silent f (Interp tt true t) = Interp tt true (t ++ flat_map listeners (events f)))
      (fun s => forall n t, run_step method silent n s (function_of n) (Interp tt true t) = (function_of n, Interp tt true (t ++ flat_map listeners (step_events n s))))).
    - intros n l v H t. rewrite run_eq, begin_fixed.
      assert (K : forall t, run_steps method silent n l (function_of n) (Interp tt true t) = (function_of n, Interp tt true (t ++ flat_map listeners (flat_map (step_events n) l)))).
      { induction H as [|s u Hs _ IH]; intros t'; [cbn; now rewrite app_nil_r|]. cbn [run_steps flat_map]. rewrite Hs, IH, flat_map_app, app_assoc. reflexivity. }
      rewrite K, local_fixed by discriminate. cbn [snd events flat_map]. rewrite flat_map_app. cbn [flat_map]. rewrite app_nil_r.
      change (listeners (n, KCall)) with [(Own, (n, KCall))]. now rewrite <- !app_assoc.
    - intros n t. cbn [run_step step_events flat_map]. rewrite app_nil_r. now apply local_fixed.
    - intros n t. cbn [run_step step_events flat_map]. rewrite app_nil_r. now apply local_fixed.
    - intros g IH n t. cbn [run_step step_events]. now rewrite IH.
  Qed.
  Lemma all_fixed l : forall t, run_all method silent l (Interp tt true t) = Interp tt true (t ++ flat_map listeners (flat_map events l)).
  Proof.
    induction l as [|f l IH]; intros t; [cbn; now rewrite app_nil_r|]. cbn [run_all fold_left flat_map]. rewrite run_fixed.
    change (run_all method silent l (Interp tt true (t ++ flat_map listeners (events f))) = Interp tt true (t ++ flat_map listeners (events f ++ flat_map events l))).
    now rewrite IH, flat_map_app, app_assoc.
  Qed.
End Answers.

(** ** A tracer that never skips *)

Section Quiet.
  Context {S : Type} (method : S -> N -> kind -> S * answer) (other : N -> S -> N -> kind -> S * res (option tfun)).
  Hypothesis quiet : forall s n k, snd (method s n k) = ANone.
  Definition after_event (s : S) (x : N * kind) : S := fst (method s (fst x) (snd x)).

  Lemma tell_quiet after s t n k : tell method other Own n k after (Interp s true t) = (after (Some Own), Interp (after_event s (n, k)) true (t ++ [(Own, (n, k))])).
  Proof. unfold tell, tell_to, trace, after_event. cbn [state told fst snd]. specialize (quiet s n k). destruct (method s n k) as [s' a]. cbn in *. now subst a. Qed.
  Lemma run_quiet f : forall s t, run method other f (Interp s true t) = Interp (fold_left after_event (events f) s) true (t ++ map (fun x => (Own, x)) (events f)).
  Proof.
    apply (frame_ind' (fun f => forall s t, run method other f (Interp s true t) = Interp (fold_left after_event (events f) s) true (t ++ map (fun x => (Own, x)) (events f)))
      (fun st => forall n s t, run_step method other n st (Some Own) (Interp s true t) = (Some Own, Interp (fold_left after_event (step_events n st) s) true (t ++ map (fun x => (Own, x)) (step_events n st))))).
    - intros n l v H s t. rewrite run_eq. unfold begin_call. cbn [tracing]. rewrite tell_quiet.
      assert (K : forall s t, run_steps method other n l (Some Own) (Interp s true t) = (Some Own, Interp (fold_left after_event (flat_map (step_events n) l) s) true (t ++ map (fun x => (Own, x)) (flat_map (step_events n) l)))).
      { induction H as [|x u Hs _ IH]; intros s' t'; [cbn; now rewrite app_nil_r|]. cbn [run_steps flat_map]. now rewrite Hs, IH, fold_left_app, map_app, app_assoc. }
      rewrite K. unfold tell_local. cbn [tracing]. rewrite tell_quiet. cbn [snd events fold_left map]. rewrite fold_left_app, map_app. cbn [fold_left map]. now rewrite <- !app_assoc.
    - intros n s t. cbn [run_step]. unfold tell_local. cbn [tracing]. now rewrite tell_quiet.
    - intros n s t. cbn [run_step]. unfold tell_local. cbn [tracing]. now rewrite tell_quiet.
    - intros g IH n s t. cbn [run_step step_events]. now rewrite IH.
  Qed.
  Lemma all_quiet l : forall s t, run_all method other l (Interp s true t) = Interp (fold_left after_event (flat_map events l) s) true (t ++ map (fun x => (Own, x)) (flat_map events l)).
  Proof.
    induction l as [|f l IH]; intros s t; [cbn; now rewrite app_nil_r|]. cbn [run_all fold_left flat_map]. rewrite run_quiet.
    change (fold_left (fun i f => run method other f i) l ?i) with (run_all method other l i). now rewrite IH, fold_left_app, map_app, app_assoc.
  Qed.
End Quiet.

(** ** Spewer *)

(** callDepth, and the indentation of each line printed *)
Definition spewer := (nat * list nat)%type.

(** spewer.py:75-108 (trace_LINE is inherited, 45-46).  Of what is printed only the
    indentation is modelled.  Under Python 3 [py3 = true] formatArgs (68-69) raises
    AttributeError because dictionaries have no iteritems, after callDepth has been
    changed and before anything is printed. *)
Definition spew (py3 : bool) (s : spewer) (n : N) (k : kind) : spewer * answer :=
  let (depth, out) := s in
  match k with
  | KCall => if py3 then ((S depth, out), ARaise AttributeError) else ((S depth, out ++ [S depth]), ANone)
  | KLine => (s, ANone)
  | KReturn v => ((Nat.max 0 (depth - 1), if v then out ++ [depth] else out), ANone)
  | KException => ((Nat.max 0 (depth - 1), out ++ [depth]), ANone)
  end.
Definition no_other (j : N) (s : spewer) (n : N) (k : kind) : spewer * res (option tfun) := (s, Ok None).
(** a Spewer installed before the program makes these calls *)
Definition spewed (py3 : bool) (l : list frame) : interp := run_all (spew py3) no_other l (Interp (0, []) true []).
Definition printed (py3 : bool) (l : list frame) : list nat := snd (state (spewed py3 l)).

(** *** What is wanted: the number of calls in progress *)
Fixpoint wanted (n : nat) (f : frame) : list nat :=
  match f with Frame _ l v => S n :: flat_map (wanted_step (S n)) l ++ (if v then [S n] else []) end
with wanted_step (n : nat) (s : step) : list nat :=
  match s with SLine => [] | SException => [n] | SCall f => wanted n f end.

Definition is_exception (k : kind) : bool := match k with KException => true | _ => false end.
Definition no_exception (f : frame) : bool := forallb (fun x => negb (is_exception (snd x))) (events f).

(** *** What there is: the largest surplus of calls over returns and exceptions in any
    stretch of events that ends here *)
Definition change (k : kind) : Z := match k with KCall => 1 | KLine => 0 | KException => -1 | KReturn _ => -1 end.
Definition balance (l : list kind) : Z := fold_right Z.add 0%Z (map change l).
Fixpoint suffixes {A} (l : list A) : list (list A) := match l with [] => [[]] | x :: t => (x :: t) :: suffixes t end.
Definition highest (l : list kind) : Z := fold_right Z.max 0%Z (map balance (suffixes l)).
Fixpoint indents (before l : list kind) : list Z :=
  match l with
  | [] => []
  | k :: t => match k with KCall => [(highest before + 1)%Z] | KLine => [] | KException => [highest before] | KReturn v => if v then [highest before] else [] end
              ++ indents (before ++ [k]) t
  end.

Lemma balance_app a b : balance (a ++ b) = (balance a + balance b)%Z.
Proof. unfold balance. rewrite map_app. induction a as [|x a IH]; cbn [map fold_right app]; [reflexivity|]. rewrite IH. lia. Qed.
Lemma highest_cons x l : highest (x :: l) = Z.max (balance (x :: l)) (highest l).
Proof. reflexivity. Qed.
Lemma highest_snoc l k : highest (l ++ [k]) = Z.max 0 (highest l + change k).
Proof.
  induction l as [|x l IH]; [unfold highest, balance; cbn; lia|]. cbn [app]. rewrite !highest_cons, IH.
  change (x :: l ++ [k]) with ((x :: l) ++ [k]). rewrite balance_app. replace (balance [k]) with (change k) by (unfold balance; cbn; lia).
  assert (0 <= highest l)%Z by (clear; induction l as [|y l IH]; [cbn; lia|rewrite highest_cons; lia]).
  assert (balance (x :: l) <= highest (x :: l))%Z by (rewrite highest_cons; lia). lia.
Qed.

Lemma spew_fold l : forall before (out : list nat), exists d, fst (fold_left (after_event (spew false)) l (Z.to_nat (highest before), out)) = d /\
  map Z.of_nat (snd (fold_left (after_event (spew false)) l (Z.to_nat (highest before), out))) = map Z.of_nat out ++ indents before (map snd l).
Proof.
  induction l as [|[n k] l IH]; intros before out; [eexists; split; [reflexivity|cbn; now rewrite app_nil_r]|].
  assert (P : (0 <= highest before)%Z) by (clear; induction before as [|y l IH]; [cbn; lia|rewrite highest_cons; lia]).
  pose proof (highest_snoc before k) as Hs.
  assert (E : exists more, after_event (spew false) (Z.to_nat (highest before), out) (n, k) = (Z.to_nat (highest (before ++ [k])), out ++ more) /\
    map Z.of_nat more = match k with KCall => [(highest before + 1)%Z] | KLine => [] | KException => [highest before] | KReturn v => if v then [highest before] else [] end).
  { unfold after_event. cbn [fst snd spew]. destruct k; cbn [change] in Hs; rewrite Hs; cbn [fst].
    - exists [S (Z.to_nat (highest before))]. split; [f_equal; lia|]. cbn. f_equal. lia.
    - exists []. rewrite app_nil_r. split; [f_equal; lia|reflexivity].
    - exists [Z.to_nat (highest before)]. split; [f_equal; lia|]. cbn. f_equal. lia.
    - destruct value; [exists [Z.to_nat (highest before)]|exists []]; rewrite ?app_nil_r; (split; [f_equal; lia|]); cbn; [f_equal; lia|reflexivity]. }
  destruct E as (more & E & M). cbn [fold_left]. rewrite E. destruct (IH (before ++ [k]) (out ++ more)) as (d & E1 & E2). exists d. split; [exact E1|].
  rewrite E2, map_app, M. cbn [map indents snd]. now rewrite <- app_assoc.
Qed.

Lemma spew_quiet s n k : snd (spew false s n k) = ANone.
Proof. destruct s, k; reflexivity. Qed.
Lemma printed_exact l : map Z.of_nat (printed false l) = indents [] (map snd (flat_map events l)).
Proof.
  unfold printed, spewed. rewrite (all_quiet _ _ spew_quiet). cbn [state]. destruct (spew_fold (flat_map events l) [] []) as (d & _ & E). exact E.
Qed.

Lemma spew_python3 f l : printed true (f :: l) = [] /\ tracing (spewed true (f :: l)) = false /\ (exists n, told (spewed true (f :: l)) = [(Own, (n, KCall))]) /\
  exists n, tell_to (spew true) no_other Own (0, []) n KCall = ((1, []), Err AttributeError).
Proof.
  unfold printed, spewed. destruct f as [n s v]. cbn [run_all fold_left].
  change (fold_left (fun i f => run (spew true) no_other f i) l ?i) with (run_all (spew true) no_other l i).
  set (i := @Interp spewer (1, []) false [(Own, (n, KCall))]).
  assert (E : run (spew true) no_other (Frame n s v) (Interp (0, []) true []) = i).
  { rewrite run_eq. change (begin_call (spew true) no_other n (Interp (0, []) true [])) with (@None tfun, i). cbv beta iota.
    pose proof (off_frame (spew true) no_other) as OF.
    assert (K : forall o, snd (run_steps (spew true) no_other n s o i) = i).
    { induction s as [|x s IH]; intros o; [reflexivity|]. cbn [run_steps]. destruct x; cbn [run_step]; [apply IH|apply IH|]. rewrite OF by reflexivity. apply IH. }
    specialize (K None). destruct (run_steps (spew true) no_other n s None i) as [o1 i1]. cbn in K. subst i1. reflexivity. }
  rewrite E. assert (F : run_all (spew true) no_other l i = i).
  { clear E. induction l as [|g l IH]; [reflexivity|]. cbn [run_all fold_left]. rewrite off_frame by reflexivity. exact IH. }
  rewrite F. repeat split; [now exists n|exists n; reflexivity].
Qed.

(** without exceptions the surplus is the number of calls in progress *)
Lemma spew_calm f : no_exception f = true -> forall d out, fold_left (after_event (spew false)) (events f) (d, out) = (d, out ++ wanted d f).
Proof.
  apply (frame_ind' (fun f => no_exception f = true -> forall d out, fold_left (after_event (spew false)) (events f) (d, out) = (d, out ++ wanted d f))
    (fun s => forall n, forallb (fun x => negb (is_exception (snd x))) (step_events n s) = true -> forall d out, fold_left (after_event (spew false)) (step_events n s) (d, out) = (d, out ++ wanted_step d s))).
  - intros n l v H Hq d out. unfold no_exception in Hq. cbn [events forallb] in Hq. rewrite forallb_app in Hq. apply andb_prop in Hq as [_ Hq]. apply andb_prop in Hq as [Hq _].
    cbn [events fold_left]. rewrite fold_left_app.
    assert (K : forall d out, fold_left (after_event (spew false)) (flat_map (step_events n) l) (d, out) = (d, out ++ flat_map (wanted_step d) l)).
    { clear -H Hq. induction H as [|s l Hs _ IH]; intros d out; [cbn; now rewrite app_nil_r|]. cbn [flat_map] in *. rewrite forallb_app in Hq. apply andb_prop in Hq as [H1 H2].
      now rewrite fold_left_app, (Hs n H1), (IH H2), app_assoc. }
    change (after_event (spew false) (d, out) (n, KCall)) with (S d, out ++ [S d]). rewrite K. unfold after_event. cbn [fold_left fst snd spew wanted].
    destruct v; cbn [fst]; rewrite <- ?app_assoc, ?app_nil_r; (f_equal; lia).
  - intros n _ d out. cbn. now rewrite app_nil_r.
  - intros n Hq. discriminate Hq.
  - intros g IH n Hq d out. now apply IH.
Qed.
Lemma printed_calm l : forallb no_exception l = true -> printed false l = flat_map (wanted 0) l.
Proof.
  intros H. unfold printed, spewed. rewrite (all_quiet _ _ spew_quiet). cbn [state].
  assert (K : forall out, fold_left (after_event (spew false)) (flat_map events l) (0, out) = (0, out ++ flat_map (wanted 0) l)).
  { induction l as [|f l IH]; intros out; [cbn; now rewrite app_nil_r|]. cbn [forallb flat_map] in *. apply andb_prop in H as [H1 H2]. now rewrite fold_left_app, spew_calm, IH, app_assoc. }
  now rewrite K.
Qed.
