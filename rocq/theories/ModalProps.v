(** * Properties of modal classes: C26, C27, C28, C85 *)

From Coq Require Import NArith String List Bool.
From Verif Require Import Py Modal.
Import ListNotations.
Open Scope nat_scope.

(** ** A concrete class hierarchy *)

(** [Modal] itself (modal.py:118-134) *)
Definition src_Modal : dict str attr :=
  [(lit "modeAttribute", AVal (VStr (lit "mode")));
   (lit "initialMode", AVal (VStr (lit "nil")));
   (lit "nil", AMode [(lit "__module__", MOther 0);
                      (lit "__enter__", MFun 1); (lit "__exit__", MFun 2)]);
   (lit "transitionTo", AVal (VObj 3))].

(** a subclass with two modes, starting in the mode [first] *)
Definition src_Door (first : str) : dict str attr :=
  [(lit "initialMode", AVal (VStr first));
   (lit "open", AMode [(lit "__module__", MOther 0);
                       (lit "__enter__", MFun 11); (lit "__exit__", MFun 12);
                       (lit "push", MFun 13)]);
   (lit "shut", AMode [(lit "__enter__", MFun 21); (lit "__exit__", MFun 22)])].

(** a subclass with one mode only, which starts in the inherited mode *)
Definition src_Lamp : dict str attr :=
  [(lit "on", AMode [(lit "__enter__", MFun 31); (lit "__exit__", MFun 32)])].

Definition get_ok {A} (d : A) (r : res A) : A := match r with Ok x => x | Err _ => d end.
Definition d_Modal : cdict := get_ok [] (build [] src_Modal).
Definition d_sub (s : dict str attr) : cdict := get_ok [] (build [PyCls [] d_Modal] s).
Definition srcs_of (s : dict str attr) := [s; src_Modal].
Definition mro_of (s : dict str attr) := [d_sub s; d_Modal].

Ltac nodup :=
  unfold wf_dict, keys; cbn;
  repeat first [apply NoDup_nil | apply NoDup_cons; [cbn; intuition discriminate|]].
Ltac modes_nodup :=
  repeat first [apply Forall_nil | apply Forall_cons; [cbn; first [exact I | nodup]|]].

Lemma class_Modal : class_of (lit "mode") src_Modal d_Modal.
Proof.
  split; [nodup|]. split; [modes_nodup|].
  left. exists []. split; reflexivity.
Qed.

Lemma class_Door first : class_of (lit "mode") (src_Door first) (d_sub (src_Door first)).
Proof.
  split; [nodup|]. split; [modes_nodup|].
  left. exists [PyCls [] d_Modal]. split; reflexivity.
Qed.

Lemma class_Lamp : class_of (lit "mode") src_Lamp (d_sub src_Lamp).
Proof.
  split; [nodup|]. split; [modes_nodup|].
  left. exists [PyCls [] d_Modal]. split; reflexivity.
Qed.

Lemma classes_Door first :
  Forall2 (class_of (lit "mode")) (srcs_of (src_Door first)) (mro_of (src_Door first)).
Proof. apply Forall2_cons; [apply class_Door|]. apply Forall2_cons; [apply class_Modal|constructor]. Qed.

Lemma classes_Lamp : Forall2 (class_of (lit "mode")) (srcs_of src_Lamp) (mro_of src_Lamp).
Proof. apply Forall2_cons; [apply class_Lamp|]. apply Forall2_cons; [apply class_Modal|constructor]. Qed.

(** ** C26: dispatch on the current mode *)

(** The full claim: a method defined by some mode of the class of the instance
    (its own modes and those it inherits) is looked up in the mode class the
    instance's class shows under the current mode's name. *)
Definition C26_full : Prop :=
  forall fuel ma srcs mro inst n m,
  Forall2 (class_of ma) srcs mro ->
  n <> lit "mode" -> n <> lit "initialMode" -> dget inst n = None ->
  (exists attrs, owner srcs n = Some attrs /\ mode_defines attrs n = true) ->
  getattr fuel mro inst ma = Ok (VStr m) ->
  getattr (S fuel) mro inst n
  = match src_lookup srcs m with
    | Some (AMode d) => match dget d n with
                        | Some (MFun i) => Ok (VBound i)
                        | Some (MOther _) => Err TypeError
                        | None => Err AttributeError
                        end
    | _ => Err AttributeError
    end.

(** It is false: a subclass whose modes define a method hides that method's
    implementations in the inherited modes.  Here the inherited initial mode
    [nil] defines [__exit__], yet the attribute is missing, so that the very
    first [transitionTo] of an instance raises AttributeError. *)
Theorem C26_inherited_modes_refuted :
  (exists srcs mro d i,
     Forall2 (class_of (lit "mode")) srcs mro
     /\ getattr 2 mro [] (lit "mode") = Ok (VStr (lit "nil"))
     /\ src_lookup srcs (lit "nil") = Some (AMode d) /\ dget d (lit "__exit__") = Some (MFun i)
     /\ getattr 3 mro [] (lit "__exit__") = Err AttributeError
     /\ forall behave m, transitionTo behave 3 mro [] m = (Err AttributeError, [], []))
  /\ ~ C26_full.
Proof.
  split.
  - exists (srcs_of src_Lamp), (mro_of src_Lamp). do 2 eexists.
    split; [apply classes_Lamp|]. repeat split.
  - intros H.
    specialize (H 2 (lit "mode") (srcs_of src_Lamp) (mro_of src_Lamp) [] (lit "__exit__") (lit "nil")
                  classes_Lamp).
    discriminate H; try discriminate; try reflexivity.
    exists src_Lamp. split; reflexivity.
Qed.
Print Assumptions C26_inherited_modes_refuted.

(** What holds: the implementation is the one of the current mode's class in
    the body of the first class of the MRO which binds the method; without
    such a mode, or without the method in it, AttributeError.  Missing from
    the full claim: modes inherited from a further class. *)
Theorem C26_dispatch_partial : forall fuel ma srcs mro inst n attrs m,
  Forall2 (class_of ma) srcs mro ->
  n <> lit "mode" -> n <> lit "initialMode" -> dget inst n = None ->
  owner srcs n = Some attrs -> mode_defines attrs n = true ->
  getattr fuel mro inst ma = Ok (VStr m) ->
  getattr (S fuel) mro inst n
  = match dget attrs m with
    | Some (AMode d) => match dget d n with
                        | Some (MFun i) => Ok (VBound i)
                        | Some (MOther _) => Err TypeError
                        | None => Err AttributeError
                        end
    | _ => Err AttributeError
    end.
Proof. exact @dispatch. Qed.
Print Assumptions C26_dispatch_partial.

(** An instance without a mode has no modal methods. *)
Theorem C26_no_mode : forall fuel ma srcs mro inst n attrs e,
  Forall2 (class_of ma) srcs mro ->
  n <> lit "mode" -> n <> lit "initialMode" -> dget inst n = None ->
  owner srcs n = Some attrs -> mode_defines attrs n = true ->
  getattr fuel mro inst ma = Err e -> getattr (S fuel) mro inst n = Err e.
Proof. exact @dispatch_no_mode. Qed.
Print Assumptions C26_no_mode.

(** Changing the mode of one instance changes no attribute of another. *)
Theorem C26_instances : forall fuel mro h i j m n, j <> i ->
  getattr fuel mro (set_mode h i m j) n = getattr fuel mro (h j) n.
Proof. exact @set_mode_other. Qed.
Print Assumptions C26_instances.

Example C26_nonvacuous :
  let mro := mro_of (src_Door (lit "open")) in
  Forall2 (class_of (lit "mode")) (srcs_of (src_Door (lit "open"))) mro
  /\ owner (srcs_of (src_Door (lit "open"))) (lit "push") = Some (src_Door (lit "open"))
  /\ mode_defines (src_Door (lit "open")) (lit "push") = true
  /\ getattr 1 mro [] (lit "mode") = Ok (VStr (lit "open"))
  /\ getattr 2 mro [] (lit "push") = Ok (VBound 13)
  /\ getattr 2 mro [(lit "mode", VStr (lit "shut"))] (lit "push") = Err AttributeError.
Proof. cbv zeta. split; [apply classes_Door|]. repeat split. Qed.

(** ** C27: enter and exit calls *)

(** Along any sequence of transitions through modes which define both methods
    (with methods that return and leave the mode alone), the calls are exactly
    exit of the first mode, enter of the second, exit of the second, and so
    on, and the instance ends in the last mode. *)
Theorem C27_alternation : forall behave fuel srcs mro,
  Forall2 (class_of (lit "mode")) srcs mro ->
  forall ae ax,
  owner srcs (lit "__enter__") = Some ae -> mode_defines ae (lit "__enter__") = true ->
  owner srcs (lit "__exit__") = Some ax -> mode_defines ax (lit "__exit__") = true ->
  forall inst m ms ev,
  in_mode fuel mro inst m -> chain_calls behave fuel mro ae ax m ms ev ->
  exists inst', transitions behave (S (S fuel)) mro inst ms = (Ok tt, inst', ev)
    /\ in_mode fuel mro inst' (last ms m).
Proof. exact @transitions_ok. Qed.
Print Assumptions C27_alternation.

Definition quiet (i : nat) (inst : dict str value) : res unit * dict str value := (Ok tt, inst).

Example C27_nonvacuous :
  let s := src_Door (lit "shut") in
  in_mode 0 (mro_of s) [] (lit "shut")
  /\ owner (srcs_of s) (lit "__enter__") = Some s /\ mode_defines s (lit "__enter__") = true
  /\ owner (srcs_of s) (lit "__exit__") = Some s /\ mode_defines s (lit "__exit__") = true
  /\ chain_calls quiet 0 (mro_of s) s s (lit "shut") [lit "open"; lit "open"; lit "shut"]
       [22; 11; 12; 11; 12; 21]
  /\ snd (transitions quiet 2 (mro_of s) [] [lit "open"; lit "open"; lit "shut"])
     = [22; 11; 12; 11; 12; 21].
Proof.
  cbv zeta. split; [repeat split|]. do 4 (split; [reflexivity|]). split; [|reflexivity].
  repeat apply CC_cons; try reflexivity; try (intros ? ? ?; split; [reflexivity|assumption]).
  apply CC_nil.
Qed.

(** ** C28: a transition that raises *)

Definition C28_full : Prop :=
  forall behave fuel ma srcs mro inst m e inst' ev,
  Forall2 (class_of ma) srcs mro ->
  (forall i inst0 k, snd (behave i inst0) = inst0 \/ fst (behave i inst0) = Ok k) ->
  transitionTo behave fuel mro inst m = (Err e, inst', ev) ->
  getattr fuel mro inst' (lit "mode") = getattr fuel mro inst (lit "mode").

(** False: a transition to a mode which does not exist raises and leaves the
    instance in that mode, in which no modal method exists, so that every
    later transition raises as well. *)
Theorem C28_atomic_refuted :
  (exists srcs mro inst',
     Forall2 (class_of (lit "mode")) srcs mro
     /\ getattr 2 mro [] (lit "mode") = Ok (VStr (lit "shut"))
     /\ transitionTo quiet 2 mro [] (lit "nosuch") = (Err AttributeError, inst', [22])
     /\ getattr 2 mro inst' (lit "mode") = Ok (VStr (lit "nosuch"))
     /\ forall m, transitionTo quiet 2 mro inst' m = (Err AttributeError, inst', []))
  /\ ~ C28_full.
Proof.
  split.
  - exists (srcs_of (src_Door (lit "shut"))), (mro_of (src_Door (lit "shut"))). eexists.
    split; [apply classes_Door|]. repeat split.
  - intros H.
    specialize (H quiet 2 (lit "mode") _ _ [] (lit "nosuch") AttributeError
                  [(lit "mode", VStr (lit "nosuch"))] [22] (classes_Door (lit "shut"))).
    discriminate H; auto.
Qed.
Print Assumptions C28_atomic_refuted.

(** What holds: when [__exit__] is missing in the current mode, or raises, the
    mode is not assigned: the instance is what [__exit__] left. *)
Theorem C28_exit_failure_partial : forall behave fuel srcs mro,
  Forall2 (class_of (lit "mode")) srcs mro ->
  forall ax, owner srcs (lit "__exit__") = Some ax -> mode_defines ax (lit "__exit__") = true ->
  forall inst m m', in_mode fuel mro inst m ->
  (forall e, impl_in ax m (lit "__exit__") = Err e ->
     transitionTo behave (S (S fuel)) mro inst m' = (Err e, inst, []))
  /\ (forall x e inst1,
      impl_in ax m (lit "__exit__") = Ok (VBound x) -> behave x inst = (Err e, inst1) ->
      transitionTo behave (S (S fuel)) mro inst m' = (Err e, inst1, [x])).
Proof. exact @exit_fails. Qed.
Print Assumptions C28_exit_failure_partial.

(** And exactly what happens when the new mode does not define [__enter__]. *)
Theorem C28_enter_missing_partial : forall behave fuel srcs mro,
  Forall2 (class_of (lit "mode")) srcs mro ->
  forall ae ax,
  owner srcs (lit "__enter__") = Some ae -> mode_defines ae (lit "__enter__") = true ->
  owner srcs (lit "__exit__") = Some ax -> mode_defines ax (lit "__exit__") = true ->
  forall inst m m' x inst1 e,
  in_mode fuel mro inst m ->
  impl_in ax m (lit "__exit__") = Ok (VBound x) -> behave x inst = (Ok tt, inst1) ->
  in_mode fuel mro inst1 m ->
  impl_in ae m' (lit "__enter__") = Err e ->
  transitionTo behave (S (S fuel)) mro inst m' = (Err e, dset inst1 (lit "mode") (VStr m'), [x]).
Proof. exact @enter_missing. Qed.
Print Assumptions C28_enter_missing_partial.

Definition failing (i : nat) (inst : dict str value) : res unit * dict str value :=
  (if Nat.eqb i 22 then Err ValueError else Ok tt, inst).

Example C28_nonvacuous :
  let s := src_Door (lit "shut") in
  in_mode 0 (mro_of s) [] (lit "shut")
  /\ impl_in s (lit "shut") (lit "__exit__") = Ok (VBound 22)
  /\ transitionTo failing 2 (mro_of s) [] (lit "open") = (Err ValueError, [], [22])
  /\ impl_in s (lit "ajar") (lit "__enter__") = Err AttributeError.
Proof. repeat split. Qed.

(** ** C85: the first mode of an instance *)

(** The full claim: a new instance is in the initial mode, whatever attribute
    the class says holds the mode. *)
Definition C85_full : Prop :=
  forall fuel ma bases a d im rest,
  class_of ma a d ->
  required (lit "modeAttribute") bases a = Ok ma ->
  build bases a = Ok d -> required (lit "initialMode") bases a = Ok im ->
  mode_defines a ma = false -> dget a ma = None ->
  getattr (S fuel) (d :: rest) [] ma = Ok (VStr im).

Definition src_Custom : dict str attr :=
  [(lit "modeAttribute", AVal (VStr (lit "state")));
   (lit "initialMode", AVal (VStr (lit "a")));
   (lit "a", AMode [(lit "go", MFun 1)])].

(** False: the initial mode is always stored in the attribute called [mode];
    with another mode attribute a new instance has no modal methods. *)
Theorem C85_initial_mode_refuted :
  (exists a d, build [] a = Ok d
     /\ required (lit "modeAttribute") [] a = Ok (lit "state")
     /\ required (lit "initialMode") [] a = Ok (lit "a")
     /\ dget a (lit "a") = Some (AMode [(lit "go", MFun 1)])
     /\ getattr 2 [d] [] (lit "state") = Err AttributeError
     /\ getattr 2 [d] [] (lit "go") = Err AttributeError)
  /\ ~ C85_full.
Proof.
  split.
  - exists src_Custom. eexists. repeat split.
  - intros H.
    specialize (H 0 (lit "state") [] src_Custom (get_ok [] (build [] src_Custom)) (lit "a") []).
    discriminate H; try reflexivity.
    split; [nodup|]. split; [modes_nodup|].
    left. exists []. split; reflexivity.
Qed.
Print Assumptions C85_initial_mode_refuted.

(** With the attribute called [mode], a new instance is in the initial mode of
    its class, own or inherited. *)
Theorem C85_initial_mode_partial : forall fuel rest mro a im bases d,
  class_of (lit "mode") a d ->
  required (lit "modeAttribute") bases a = Ok (lit "mode") ->
  build bases a = Ok d -> required (lit "initialMode") bases a = Ok im ->
  mode_defines a (lit "mode") = false -> dget a (lit "mode") = None ->
  mro = d :: rest ->
  getattr (S fuel) mro [] (lit "mode") = Ok (VStr im).
Proof. exact @mode_initial. Qed.
Print Assumptions C85_initial_mode_partial.

Example C85_nonvacuous :
  class_of (lit "mode") src_Lamp (d_sub src_Lamp)
  /\ required (lit "modeAttribute") [PyCls [] d_Modal] src_Lamp = Ok (lit "mode")
  /\ required (lit "initialMode") [PyCls [] d_Modal] src_Lamp = Ok (lit "nil")
  /\ build [PyCls [] d_Modal] src_Lamp = Ok (d_sub src_Lamp)
  /\ mode_defines src_Lamp (lit "mode") = false.
Proof. split; [apply class_Lamp|]. repeat split. Qed.
