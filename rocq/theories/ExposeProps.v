(** * Properties of epsilon/expose.py *)

From Coq Require Import NArith String List Bool Arith Lia.
From Verif Require Import Py Expose.
Import ListNotations.
Open Scope nat_scope.

(** Objects of the examples: 1, 2 and 3 are functions, 4 is a staticmethod. *)
Definition ex_world : world := fun n =>
  match n with
  | 1 => IsFunction (lit "a") | 2 => IsFunction (lit "b") | 3 => IsFunction (lit "a")
  | 4 => IsDescriptor | _ => IsPlain
  end.
Definition ex_calls : list call :=
  [ {| c_exposer := 0; c_key := None; c_fun := 1 |};
    {| c_exposer := 0; c_key := Some (KStr (lit "a")); c_fun := 2 |};
    {| c_exposer := 1; c_key := Some (KOther 7); c_fun := 4 |};
    {| c_exposer := 1; c_key := None; c_fun := 4 |} ].
(** class Base has a = 1 and b = 2; class Sub(Base) has a = 3 *)
Definition ex_base : cdict := [(lit "a", 1); (lit "b", 2)].
Definition ex_sub : cdict := [(lit "a", 3)].

Lemma ex_mro_wf : mro_wf [ex_sub; ex_base] /\ mro_wf [ex_base].
Proof.
  assert (H : NoDup (keys ex_base)).
  { cbn. constructor; [intros [H|[]]; discriminate|constructor; [intros []|constructor]]. }
  assert (H' : NoDup (keys ex_sub)) by (cbn; constructor; [intros []|constructor]).
  split; unfold mro_wf; auto.
Qed.

(** C20.  After any history of [expose] calls on any exposers, what [get]
    returns is bound to the object, was exposed under that key with that very
    exposer, and is what normal attribute lookup on the class finds under some
    name. *)
Theorem C20_get_sound : forall w cs mro obj i k f o, mro_wf mro ->
  get w (do_calls w fresh cs i) mro obj k = Ok (Bound f o) ->
  o = obj /\ In f (exposed_by w cs i k) /\ exists name, lookup mro name = Some f.
Proof. exact get_sound. Qed.
Print Assumptions C20_get_sound.

(** The only failures are MethodNotExposed and, for an exposed attribute
    without [__get__], AttributeError. *)
Theorem C20_get_errors : forall w cs mro obj i k e, mro_wf mro ->
  get w (do_calls w fresh cs i) mro obj k = Err e ->
  e = MethodNotExposed
  \/ (e = AttributeError /\ exists f name, In f (exposed_by w cs i k)
        /\ lookup mro name = Some f /\ w f = IsPlain).
Proof. exact get_errors. Qed.
Print Assumptions C20_get_errors.

(** If no class of the MRO has an attribute exposed under the key,
    MethodNotExposed is raised. *)
Theorem C20_get_absent : forall w cs mro obj i k, mro_wf mro ->
  (forall c name f, In c mro -> dget c name = Some f -> ~ In f (exposed_by w cs i k)) ->
  get w (do_calls w fresh cs i) mro obj k = Err MethodNotExposed.
Proof. exact get_absent. Qed.
Print Assumptions C20_get_absent.

Example C20_nonvacuous :
  mro_wf [ex_base]
  /\ get ex_world (do_calls ex_world fresh ex_calls 0) [ex_base] 9 (KStr (lit "a"))
     = Ok (Bound 1 9)
  /\ get ex_world (do_calls ex_world fresh ex_calls 0) [ex_base] 9 (KStr (lit "b"))
     = Err MethodNotExposed
  /\ get ex_world (do_calls ex_world fresh ex_calls 1) [ex_base] 9 (KOther 7)
     = Err MethodNotExposed.
Proof. split; [apply ex_mro_wf|]. repeat split. Qed.

(** C21.  The full claim is false: the search stops at the first exposed
    function it meets and gives up if that one is overridden, although another
    function exposed under the same key is visible. *)
Definition C21_full : Prop := forall w cs mro obj i k name f, mro_wf mro ->
  In f (exposed_by w cs i k) -> lookup mro name = Some f -> w f <> IsPlain ->
  exists g, get w (do_calls w fresh cs i) mro obj k = Ok (Bound g obj).

Theorem C21_complete_refuted :
  (exists w cs mro obj i k name f, mro_wf mro /\ In f (exposed_by w cs i k)
     /\ lookup mro name = Some f /\ (forall g, In g (exposed_by w cs i k) -> w g <> IsPlain)
     /\ get w (do_calls w fresh cs i) mro obj k = Err MethodNotExposed)
  /\ ~ C21_full.
Proof.
  assert (A : exists w cs mro obj i k name f, mro_wf mro /\ In f (exposed_by w cs i k)
     /\ lookup mro name = Some f /\ (forall g, In g (exposed_by w cs i k) -> w g <> IsPlain)
     /\ get w (do_calls w fresh cs i) mro obj k = Err MethodNotExposed).
  { exists ex_world, ex_calls, [ex_sub; ex_base], 9, 0, (KStr (lit "a")), (lit "b"), 2.
    split; [apply ex_mro_wf|]. split; [cbn; auto|]. split; [reflexivity|].
    split; [|reflexivity].
    intros g Hg. cbn in Hg. destruct Hg as [<-|[<-|[]]]; discriminate. }
  split; [exact A|]. intros F.
  destruct A as (w & cs & mro & obj & i & k & name & f & H1 & H2 & H3 & H4 & H5).
  destruct (F w cs mro obj i k name f H1 H2 H3 (H4 f H2)) as [g Hg]. congruence.
Qed.
Print Assumptions C21_complete_refuted.

(** What holds: if no function exposed under this key is overridden in the
    hierarchy, a visible one is found.  Missing: hierarchies in which some
    function exposed under the key is overridden. *)
Theorem C21_complete_partial : forall w cs mro obj i k name f, mro_wf mro ->
  In f (exposed_by w cs i k) -> lookup mro name = Some f ->
  (forall pre n g, In g (exposed_by w cs i k) -> occurs mro pre n g -> ~ hidden pre n) ->
  (forall g, In g (exposed_by w cs i k) -> w g <> IsPlain) ->
  exists g n, get w (do_calls w fresh cs i) mro obj k = Ok (Bound g obj)
    /\ In g (exposed_by w cs i k) /\ lookup mro n = Some g.
Proof. exact get_complete. Qed.
Print Assumptions C21_complete_partial.

(** Exactly, for all hierarchies: the first attribute met (class by class, in the
    order of definition) that was exposed under the key decides; if a class
    before its own has an attribute of that name the answer is
    MethodNotExposed. *)
Theorem C21_first : forall w cs obj i k pre c post a name f b,
  (forall d n g, In d pre -> In (n, g) d -> ~ In g (exposed_by w cs i k)) ->
  (forall n g, In (n, g) a -> ~ In g (exposed_by w cs i k)) ->
  NoDup (keys c) -> c = a ++ (name, f) :: b -> In f (exposed_by w cs i k) ->
  (hidden pre name -> get w (do_calls w fresh cs i) (pre ++ c :: post) obj k = Err MethodNotExposed) /\
  (~ hidden pre name -> get w (do_calls w fresh cs i) (pre ++ c :: post) obj k
     = match w f with IsPlain => Err AttributeError | _ => Ok (Bound f obj) end).
Proof. exact get_first. Qed.
Print Assumptions C21_first.

Example C21_nonvacuous :
  mro_wf [ex_base] /\ In 2 (exposed_by ex_world ex_calls 0 (KStr (lit "a")))
  /\ lookup [ex_base] (lit "b") = Some 2
  /\ (forall pre n g, occurs [ex_base] pre n g -> ~ hidden pre n).
Proof.
  split; [apply ex_mro_wf|]. split; [cbn; auto|]. split; [reflexivity|].
  intros pre n g (c & post & E & _) (x & Hx & _).
  destruct pre as [|p pre]; [destruct Hx|]. inversion E as [[E1 E2]].
  destruct pre; discriminate.
Qed.

(** C22.  One call of [expose] leaves unchanged what every other exposer, and
    the same exposer under every other key, answers. *)
Theorem C22_independent : forall w s c mro obj j k,
  j <> c_exposer c \/ call_key w c <> Some k ->
  get w (snd (do_call w s c) j) mro obj k = get w (s j) mro obj k.
Proof. exact do_call_other. Qed.
Print Assumptions C22_independent.

(** So an answer depends only on the calls made with that exposer and key. *)
Theorem C22_own_calls : forall w cs mro obj i k,
  get w (do_calls w fresh cs i) mro obj k
  = get w (do_calls w fresh
             (filter (fun c => Nat.eqb (c_exposer c) i && eqb (call_key w c) (Some k)) cs) i)
        mro obj k.
Proof. exact get_own_calls. Qed.
Print Assumptions C22_own_calls.

(** The decorated object is returned; only a non-function without a key raises
    NameRequired, and then nothing has changed. *)
Theorem C22_decorator_result : forall w s c,
  fst (do_call w s c) = match call_key w c with
                        | Some _ => Ok (c_fun c) | None => Err NameRequired end
  /\ (call_key w c = None -> forall j, snd (do_call w s c) j = s j).
Proof. exact do_call_result. Qed.
Print Assumptions C22_decorator_result.

Example C22_nonvacuous :
  call_key ex_world {| c_exposer := 1; c_key := None; c_fun := 4 |} = None
  /\ fst (do_call ex_world fresh {| c_exposer := 0; c_key := None; c_fun := 1 |}) = Ok 1
  /\ get ex_world (do_calls ex_world fresh ex_calls 1) [[(lit "s", 4)]] 5 (KOther 7)
     = Ok (Bound 4 5)
  /\ exposed_by ex_world ex_calls 0 (KStr (lit "a")) = [1; 2].
Proof. repeat split. Qed.
