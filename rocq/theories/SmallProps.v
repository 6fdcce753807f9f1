(** * Properties of required attributes, remembered attributes and hotfix.require:
      C29, C30, C32 *)

From Coq Require Import NArith String List Bool.
From Verif Require Import Py PyStr Small.
Import ListNotations.
Open Scope nat_scope.

(** ** C29 *)

(** After any history of gets, sets and deletes on any instances, reading a
    required attribute gives the last value set on that instance (the value it
    had before the history if none), or AttributeError; deleting raises
    AttributeError; neither changes anything. *)
Theorem C29_required_attribute : forall descs, own_names descs -> forall ops i a h,
  din descs a = true ->
  let h' := snd (run descs h ops) in
  fst (step descs h' (OGet i a))
    = match last_set i a ops (dget (h i) a) with
      | Some v => Ok (Some v)
      | None => Err AttributeError
      end
  /\ snd (step descs h' (OGet i a)) = h'
  /\ fst (step descs h' (ODel i a)) = Err AttributeError
  /\ snd (step descs h' (ODel i a)) = h'.
Proof. exact @required_history. Qed.
Print Assumptions C29_required_attribute.

(** Operations on other instances leave an instance as it is. *)
Theorem C29_isolated : forall descs ops h i,
  Forall (fun o => op_inst o <> i) ops -> snd (run descs h ops) i = h i.
Proof. exact @required_isolated. Qed.
Print Assumptions C29_isolated.

Example C29_nonvacuous :
  let descs := [(lit "x", lit "x"); (lit "y", lit "y")] in
  own_names descs
  /\ fst (run descs (fun _ => [])
       [OGet 0 (lit "x"); OSet 0 (lit "x") 5; OSet 0 (lit "x") 6; OSet 1 (lit "y") 7;
        OGet 0 (lit "x"); OGet 1 (lit "x"); ODel 0 (lit "x"); OGet 0 (lit "x")])
     = [Err AttributeError; Ok None; Ok None; Ok None; Ok (Some 6); Err AttributeError;
        Err AttributeError; Ok (Some 6)].
Proof.
  split; [|reflexivity]. intros a n. cbn [dget].
  destruct (eqb_spec a (lit "x")); [now intros E; inversion E; subst|].
  destruct (eqb_spec a (lit "y")); [now intros E; inversion E; subst|discriminate].
Qed.

(** ** C30 *)

(** The full claim: after one access that returned, every later access (with
    other accesses and assignments of other attributes in between) returns the
    same value and does not call the creation function. *)
Definition C30_full : Prop :=
  forall create rems, create_safe create rems ->
  forall a r, dget rems a = Some r -> prefixb PREFIX a = false ->
  forall i s ops v c s1, dget (rs_heap s i) a = None -> Forall (safe_op rems) ops ->
  rstep create rems s (RGet i a) = (Ok v, s1, c) ->
  fst (fst (rstep create rems (snd (rrun create rems s1 ops)) (RGet i a))) = Ok v
  /\ snd (rstep create rems (snd (rrun create rems s1 ops)) (RGet i a)) = false.

Definition fresh : rstate := {| rs_heap := fun _ => []; rs_calls := 0 |}.

(** a creation function that returns None the first time, then numbers *)
Definition none_first (f k : nat) (d : rdict) : res rvalue * rdict :=
  (Ok (match k with 0 => None | S _ => Some k end), d).
(** creation functions returning their own identity *)
Definition ident (f k : nat) (d : rdict) : res rvalue * rdict := (Ok (Some f), d).

Lemma none_first_safe rems : create_safe none_first rems.
Proof. intros f k d n _. reflexivity. Qed.

(** False in two ways.  A value of None is not remembered: the function is
    called again and the attribute changes.  And two remembered attributes of
    a class made from functions with the same [__name__] (two lambdas, say)
    share one value. *)
Theorem C30_once_refuted :
  (exists create rems s1, create_safe create rems
     /\ rstep create rems fresh (RGet 0 (lit "x")) = (Ok None, s1, true)
     /\ exists s2, rstep create rems s1 (RGet 0 (lit "x")) = (Ok (Some 1), s2, true))
  /\ (exists create rems s1, create_safe create rems
     /\ rstep create rems fresh (RGet 0 (lit "x")) = (Ok (Some 1), s1, true)
     /\ fst (fst (rstep create rems fresh (RGet 0 (lit "y")))) = Ok (Some 2)
     /\ rstep create rems s1 (RGet 0 (lit "y")) = (Ok (Some 1), s1, false))
  /\ ~ C30_full.
Proof.
  split; [|split].
  - exists none_first, [(lit "x", {| r_name := lit "x"; r_fun := 1 |})]. eexists.
    split; [apply none_first_safe|]. split; [reflexivity|]. eexists. reflexivity.
  - exists ident, [(lit "x", {| r_name := lit "<lambda>"; r_fun := 1 |});
                   (lit "y", {| r_name := lit "<lambda>"; r_fun := 2 |})]. eexists.
    split; [intros f k d n _; reflexivity|]. repeat split.
  - intros H.
    destruct (H none_first [(lit "x", {| r_name := lit "x"; r_fun := 1 |})]
                (none_first_safe _) (lit "x") {| r_name := lit "x"; r_fun := 1 |}
                eq_refl eq_refl 0 fresh [] None true
                {| rs_heap := rset (fun _ => []) 0 [(lit "_remembered_x", None)]; rs_calls := 1 |})
      as [H1 _]; try reflexivity; [constructor|discriminate].
Qed.
Print Assumptions C30_once_refuted.

(** What holds: with distinct function names, a value other than None is
    created once per instance and returned by every later access, over any
    history of accesses and assignments of other attributes, whatever the
    creation functions do. *)
Theorem C30_once_partial : forall create rems,
  names_distinct rems -> create_safe create rems ->
  forall a r, dget rems a = Some r -> prefixb PREFIX a = false ->
  forall i s ops v c s1, dget (rs_heap s i) a = None -> Forall (safe_op rems) ops ->
  rstep create rems s (RGet i a) = (Ok (Some v), s1, c) ->
  fst (fst (rstep create rems (snd (rrun create rems s1 ops)) (RGet i a))) = Ok (Some v)
  /\ snd (rstep create rems (snd (rrun create rems s1 ops)) (RGet i a)) = false.
Proof. exact @remembered_once. Qed.
Print Assumptions C30_once_partial.

(** Exactly, with no condition on the names and the values: after any history of
    accesses and assignments on any instances, an access gives the first value
    other than None that an access of an attribute made from a function of that
    name gave on the instance, and changes nothing; if there was none, it calls
    the creation function of this attribute and gives what that gives.  (What is
    missing from the full claim: None is created again, and functions of the
    same name share.) *)
Theorem C30_exact_partial : forall create rems, create_safe create rems ->
  (forall a r, dget rems a = Some r -> prefixb PREFIX a = false) ->
  forall ops out s, Forall (safe_op rems) ops ->
  rrun create rems fresh ops = (out, s) ->
  forall i a r, dget rems a = Some r ->
  match kept rems i (r_name r) (combine ops out) with
  | Some v => rstep create rems s (RGet i a) = (Ok (Some v), s, false)
  | None => fst (fst (rstep create rems s (RGet i a)))
            = fst (create (r_fun r) (ncalls (combine ops out)) (rs_heap s i))
            /\ snd (rstep create rems s (RGet i a)) = true
  end.
Proof. exact @remembered_exact. Qed.
Print Assumptions C30_exact_partial.

(** a history with None and with a shared name: the second access of [x] calls
    the function again, and [y] then gives the value made for [x] *)
Example C30_exact_nonvacuous :
  let rems := [(lit "x", {| r_name := lit "<lambda>"; r_fun := 1 |});
               (lit "y", {| r_name := lit "<lambda>"; r_fun := 2 |})] in
  let ops := [RGet 0 (lit "x"); RSet 0 (lit "z") (Some 9); RGet 0 (lit "x"); RGet 1 (lit "y")] in
  create_safe none_first rems
  /\ Forall (safe_op rems) ops
  /\ kept rems 0 (lit "<lambda>") (combine ops (fst (rrun none_first rems fresh ops))) = Some 1
  /\ fst (rrun none_first rems fresh (ops ++ [RGet 0 (lit "y")]))
     = [(Ok None, true); (Ok None, false); (Ok (Some 1), true); (Ok (Some 2), true);
        (Ok (Some 1), false)].
Proof.
  split; [apply none_first_safe|]. split; [repeat constructor|]. split; reflexivity.
Qed.

(** The first access on an instance calls the creation function and returns
    what it returns (or raises what it raises). *)
Theorem C30_first_access : forall create rems a r i s, dget rems a = Some r ->
  rs_heap s i = [] ->
  fst (fst (rstep create rems s (RGet i a))) = fst (create (r_fun r) (rs_calls s) [])
  /\ snd (rstep create rems s (RGet i a)) = true.
Proof. exact @remembered_first. Qed.
Print Assumptions C30_first_access.

Example C30_nonvacuous :
  let rems := [(lit "x", {| r_name := lit "x"; r_fun := 1 |});
               (lit "y", {| r_name := lit "y"; r_fun := 2 |})] in
  create_safe ident rems /\ names_distinct rems
  /\ map fst (fst (rrun ident rems fresh
        [RGet 0 (lit "x"); RGet 0 (lit "y"); RGet 0 (lit "x"); RGet 1 (lit "x")]))
     = [Ok (Some 1); Ok (Some 2); Ok (Some 1); Ok (Some 1)]
  /\ map snd (fst (rrun ident rems fresh
        [RGet 0 (lit "x"); RGet 0 (lit "y"); RGet 0 (lit "x"); RGet 1 (lit "x")]))
     = [true; true; false; true].
Proof.
  split; [intros f k d n _; reflexivity|]. split; [|split; reflexivity].
  intros a b ra rb. cbn [dget].
  destruct (eqb_spec a (lit "x")), (eqb_spec b (lit "x")); subst; auto;
    [destruct (eqb_spec b (lit "y"))|destruct (eqb_spec a (lit "y"))|
     destruct (eqb_spec a (lit "y")), (eqb_spec b (lit "y"))];
    subst; intros E1 E2 E3; try congruence;
    inversion E1; inversion E2; subst; discriminate.
Qed.

(** ** C32 *)

(** In any sequence of calls the installer of a fix runs to completion at most
    once (whatever the environment answers at each call). *)
Theorem C32_installed_once : forall p calls inst, completed p (fst (requires inst calls)) <= 1.
Proof. exact @completed_once. Qed.
Print Assumptions C32_installed_once.

(** Once recorded, a fix is not even started again. *)
Theorem C32_recorded_not_started : forall p calls inst, memb p inst = true ->
  started p (fst (requires inst calls)) = 0 /\ completed p (fst (requires inst calls)) = 0.
Proof. exact @recorded_quiet. Qed.
Print Assumptions C32_recorded_not_started.

(** A fix is recorded exactly when some call for it returned without raising;
    in particular one whose detection or installation raised is not. *)
Theorem C32_recorded : forall p calls inst,
  memb p (snd (requires inst calls)) = true <->
  memb p inst = true \/
  exists k env, nth_error calls k = Some (env, p)
    /\ option_map fst (nth_error (fst (requires inst calls)) k) = Some (Ok tt).
Proof. exact @recorded_iff. Qed.
Print Assumptions C32_recorded.

(** the fixes there are *)
Definition the_fixes : list str :=
  [lit "filepath_copyTo"; lit "timeoutmixin_calllater"; lit "delayedcall_seconds"; lit "deferredgenerator_tfailure";
   lit "proto_helpers_stringtransport"; lit "internet_task_Clock"; lit "trial_assertwarns"; lit "plugin_package_paths";
   lit "loopbackasync_reentrancy"].

(** Unknown names raise NoSuchHotfix, run nothing and record nothing. *)
Theorem C32_unknown : forall env inst pn fn,
  memb (pn, fn) inst = false -> pn <> lit "twisted" \/ ~ In fn the_fixes ->
  require env inst pn fn = (Err NoSuchHotfix, inst, []).
Proof. exact @unknown_raises. Qed.
Print Assumptions C32_unknown.

(** A known fix that is not recorded is installed if and only if its detection says so;
    what detection and installation raise is what the caller gets, and then the fix is not
    recorded. *)
Theorem C32_known : forall env inst fn, memb (lit "twisted", fn) inst = false -> In fn the_fixes ->
  require env inst (lit "twisted") fn =
    match detect env fn with
    | Err e => (Err e, inst, [])
    | Ok false => (Ok tt, (lit "twisted", fn) :: inst, [])
    | Ok true => (install env fn, match install env fn with Ok _ => (lit "twisted", fn) :: inst | Err _ => inst end, [(lit "twisted", fn)])
    end.
Proof. exact @known_runs. Qed.
Print Assumptions C32_known.

Theorem C32_only_known : forall calls pn fn,
  memb (pn, fn) (snd (requires [] calls)) = true -> pn = lit "twisted" /\ In fn the_fixes.
Proof. exact @only_known_recorded. Qed.
Print Assumptions C32_only_known.

Definition env_of (need : bool) (ok : bool) : henv :=
  {| detect := fun _ => Ok need; install := fun _ => if ok then Ok tt else Err ValueError |}.

Example C32_nonvacuous :
  let f := (lit "twisted", lit "internet_task_Clock") in
  requires [] [(env_of true false, f); (env_of true true, f); (env_of true true, f);
               (env_of true true, (lit "twisted", lit "nosuch"))]
  = ([(Err ValueError, [f]); (Ok tt, [f]); (Ok tt, []); (Err NoSuchHotfix, [])], [f]).
Proof. reflexivity. Qed.
