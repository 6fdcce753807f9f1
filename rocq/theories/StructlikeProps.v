(** * Properties of epsilon/structlike.py *)

From Coq Require Import NArith String List Arith Lia Permutation Sorted.
From Verif Require Import Py PyStr Structlike.
Import ListNotations.

(** C03.  A record constructor binds its arguments as a Python call does: when
    the call is acceptable ([call_ok]: not too many positionals, nothing given
    twice (the instance counts as the argument [self]), nothing missing, nothing unknown) the instance has exactly the
    declared attributes, each with the selected value; otherwise, and also when
    the class has duplicate names, TypeError is raised. *)
Theorem C03_init_binds : forall (V : Type) names defaults (args : list V) kw,
  NoDup names -> wf_dict kw -> call_ok names defaults args kw ->
  exists attrs, struct_init names defaults args kw = Ok attrs
    /\ keys attrs = names
    /\ forall i n, nth_error names i = Some n ->
         dget attrs n = selected names defaults args kw i n.
Proof. exact @struct_init_ok. Qed.
Print Assumptions C03_init_binds.

Theorem C03_init_rejects : forall (V : Type) names defaults (args : list V) kw,
  wf_dict kw -> ~ (NoDup names /\ call_ok names defaults args kw) ->
  struct_init names defaults args kw = Err TypeError.
Proof. exact @struct_init_err. Qed.
Print Assumptions C03_init_rejects.

(** names x, y, z; default for z; one positional, y by keyword *)
Example C03_nonvacuous :
  call_ok [lit "x"; lit "y"; lit "z"] [30] [10] [(lit "y", 20)]
  /\ struct_init [lit "x"; lit "y"; lit "z"] [30] [10] [(lit "y", 20)]
     = Ok [(lit "x", 10); (lit "y", 20); (lit "z", 30)].
Proof.
  split; [|reflexivity]. constructor.
  - cbn; lia.
  - intros i n Hi Hl. cbn in Hl. assert (i = 0) by lia. subst.
    cbn in Hi. inversion Hi; subst. cbn. intros [H|[]]; discriminate.
  - intros [|[|[|[|i]]]] n Hi; cbn in Hi; inversion Hi; subst; cbn; discriminate.
  - cbn. intros n [<-|[]]. auto.
  - cbn. intros [H|[]]. discriminate.
Qed.

Example C03_reject_nonvacuous :
  struct_init [lit "x"; lit "y"] [] [10; 20] [(lit "y", 20)] = Err TypeError
  /\ struct_init [lit "x"; lit "y"] [] [10] [] = Err TypeError
  /\ struct_init [lit "x"] [] [10; 11] [] = Err TypeError
  /\ struct_init [lit "x"] [5] [] [(lit "q", 1)] = Err TypeError
  /\ struct_init [lit "self"] [] [] [(lit "self", 1)] = Err TypeError
  /\ struct_init [lit "self"] [] [1] [] = Ok [(lit "self", 1)].
Proof. repeat split. Qed.

(** C04.  [record(names, **defaults)] succeeds exactly when the defaults are
    given for a duplicate-free suffix of the names and for nothing else
    ([defaults_fit]); the class then has those names in order, and those
    defaults. *)
Theorem C04_record_with_names : forall (V : Type) s (kw : dict str V) out,
  wf_dict kw ->
  (record_def [s] kw = Ok (split_ws s, out) <-> defaults_fit (split_ws s) kw out)
  /\ ((forall o, ~ defaults_fit (split_ws s) kw o) <-> record_def [s] kw = Err TypeError).
Proof. exact @record_def_string. Qed.
Print Assumptions C04_record_with_names.

(** Without a positional argument the attributes are the names of the
    defaults, in increasing order, and every one has its default. *)
Theorem C04_record_defaults_only : forall (V : Type) (kw : dict str V),
  wf_dict kw -> kw <> [] ->
  exists names out, record_def [] kw = Ok (names, out)
    /\ Permutation (keys kw) names
    /\ StronglySorted (fun a b => str_ltb a b = true) names
    /\ map Some out = map (dget kw) names.
Proof. exact @record_def_kw. Qed.
Print Assumptions C04_record_defaults_only.

Theorem C04_record_nothing : forall V, record_def (V:=V) [] [] = Err TypeError.
Proof. exact @record_def_nothing. Qed.
Print Assumptions C04_record_nothing.

Theorem C04_record_two_positionals : forall V a b l (kw : dict str V),
  record_def (a :: b :: l) kw = Err TypeError.
Proof. exact @record_def_too_many. Qed.
Print Assumptions C04_record_two_positionals.

(** The names of a record definition are the words of the string. *)
Theorem C04_names_are_words : forall (ws : list str),
  Forall (fun w => w <> [] /\ Forall (fun c => is_space c = false) w) ws ->
  split_ws (join (lit " ") ws) = ws.
Proof. exact (fun ws => split_ws_join is_space 32%N ws eq_refl). Qed.
Print Assumptions C04_names_are_words.

Example C04_nonvacuous :
  defaults_fit (split_ws (lit "a b  c")) [(lit "c", 3); (lit "b", 2)] [2; 3]
  /\ record_def [lit "a b  c"] [(lit "c", 3); (lit "b", 2)]
     = Ok ([lit "a"; lit "b"; lit "c"], [2; 3])
  /\ record_def [lit "a b c"] [(lit "a", 1); (lit "c", 3)] = Err TypeError
  /\ record_def [] [(lit "q", 1); (lit "b", 3)] = Ok ([lit "b"; lit "q"], [3; 1]).
Proof.
  split; [|repeat split].
  exists [lit "a"], [lit "b"; lit "c"]. split; [reflexivity|]. split; [|split; [|split]].
  - cbn. intros n [<-|[]] [H|[H|[]]]; discriminate.
  - repeat constructor; cbn; intuition discriminate.
  - cbn. intuition.
  - reflexivity.
Qed.

(** C05.  On every finite heap of records, cyclic or not, [repr] gives a result
    (for every fuel above the number of objects, hence without bound on the
    shape), the one described by [Renders]: a record already being rendered is
    rendered as [Name(...)], and nothing else is abbreviated. *)
Theorem C05_repr_terminates : forall (h : heap) i, closed_heap h -> i < length h ->
  exists r, (forall fuel, length h < fuel -> repr_top h fuel i = Some r)
    /\ Renders h [] (VRef i) r.
Proof. exact repr_top_renders. Qed.
Print Assumptions C05_repr_terminates.

(** the description determines the text *)
Theorem C05_renders_functional : forall (h : heap) p v r, Renders h p v r ->
  forall r', Renders h p v r' -> r = r'.
Proof. exact renders_functional. Qed.
Print Assumptions C05_renders_functional.

(** two records pointing at each other through lists, one attribute's repr
    raising inside an object which catches it *)
Definition C05_heap : heap :=
  [ {| o_class := lit "A"; o_names := [lit "x"; lit "y"];
       o_attrs := [(lit "x", VTry (VList [VRef 1; VAtom (Err ValueError)]) (lit "?"));
                   (lit "y", VList [VRef 1; VRef 0])] |};
    {| o_class := lit "B"; o_names := [lit "p"; lit "q"];
       o_attrs := [(lit "p", VRef 0)] |} ].

Example C05_nonvacuous :
  closed_heap C05_heap
  /\ repr_top C05_heap 3 0 = Some (Ok (lit "A(x=?, y=[B(p=A(...), q=None), A(...)])")).
Proof.
  split; [|reflexivity].
  intros o Ho n v. cbn in Ho.
  destruct Ho as [<-|[<-|[]]]; cbn [o_attrs dget]; intros E;
    repeat match type of E with
      | (if ?b then _ else _) = _ => destruct b
      end; inversion E; subst; repeat constructor.
Qed.

(** C06.  Whatever a record's repr does (return, raise, at any depth), the set
    of records being rendered is afterwards exactly what it was. *)
Theorem C06_guard_restored : forall (h : heap) fuel i act,
  snd (repr_obj h fuel i act) = act.
Proof. exact repr_obj_active. Qed.
Print Assumptions C06_guard_restored.

(** Consequently a second rendering of the same record in the same context,
    after one that raised, is the same as the first. *)
Example C06_nonvacuous :
  let h := [ {| o_class := lit "A"; o_names := [lit "x"];
                o_attrs := [(lit "x", VAtom (Err ValueError))] |} ] in
  repr_obj h 2 0 [] = (Some (Err ValueError), [])
  /\ repr_obj h 2 0 (snd (repr_obj h 2 0 [])) = (Some (Err ValueError), []).
Proof. repeat split. Qed.
