(** * C162: what else is in the body of a modal class.  Theorems only; model,
    specification and proofs in ModalAttrs.v. *)

From Coq Require Import NArith String List Bool Arith Lia.
From Verif Require Import Py Modal ModalAttrs ModalProps.
Import ListNotations.
Open Scope nat_scope.

(** [d] is the class made from the body [a] *)
Definition made (bases : list pycls) (a : dict str attr) (d : cdict) (ma im : str) : Prop :=
  NoDup (keys a) /\ Forall (fun kv => match snd kv with AMode m => NoDup (keys m) | _ => True end) a /\
  required (lit "modeAttribute") bases a = Ok ma /\ required (lit "initialMode") bases a = Ok im /\ build bases a = Ok d.

(** The full claim: what the body binds to anything but a mode is found on the class
    and on its instances. *)
Definition C162_full : Prop :=
  forall bases a d ma im rest n v, made bases a d ma im -> python_modes a -> n <> lit "initialMode" -> dget a n = Some (AVal v) ->
    class_getattr (d :: rest) n = Ok v /\ forall fuel, getattr (S fuel) (d :: rest) [] n = Ok v.

(** a class with a docstring (the object 5), an attribute and a mode, written as Python
    hands it to the metaclass *)
Definition src_Doc : dict str attr :=
  [(lit "__module__", AVal (VStr (lit "m"))); (lit "__doc__", AVal (VObj 5)); (lit "size", AVal (VObj 6));
   (lit "initialMode", AVal (VStr (lit "on"))); (lit "modeAttribute", AVal (VStr (lit "mode")));
   (lit "on", AMode [(lit "__module__", MOther 0); (lit "push", MFun 1); (lit "__doc__", MOther 7)])].

Lemma made_Doc : exists d, made [] src_Doc d (lit "mode") (lit "on") /\ python_modes src_Doc.
Proof.
  exists (get_ok [] (build [] src_Doc)). split.
  - split; [nodup|]. split; [modes_nodup|]. repeat split.
  - intros k m H. unfold src_Doc in H. cbn [dget] in H.
    repeat match type of H with (if ?b then _ else _) = _ => destruct b end; try discriminate H. injection H as <-. now exists 7.
Qed.

(** False of every modal class with a mode in its body: its docstring is replaced by a
    modal method, since the modes have docstrings; reading it raises, from the class and
    from every instance. *)
Theorem C162_docstring_refuted :
  (forall bases a d ma im rest k m, made bases a d ma im -> python_modes a -> dget a k = Some (AMode m) ->
     class_getattr (d :: rest) (lit "__doc__") = Err AttributeError /\
     forall fuel inst, dget inst (lit "__doc__") = None -> exists e, getattr fuel (d :: rest) inst (lit "__doc__") = Err e)
  /\ ~ C162_full.
Proof.
  assert (H : forall bases a d ma im rest k m, made bases a d ma im -> python_modes a -> dget a k = Some (AMode m) ->
     class_getattr (d :: rest) (lit "__doc__") = Err AttributeError /\
     forall fuel inst, dget inst (lit "__doc__") = None -> exists e, getattr fuel (d :: rest) inst (lit "__doc__") = Err e).
  { intros bases a d ma im rest k m (H1 & H2 & H3 & H4 & H5) Hp Hk. exact (doc _ rest H1 H2 H3 H4 H5 _ Hp Hk). }
  split; [exact H|]. intros F. destruct made_Doc as (d & Hd & Hp).
  destruct (F _ _ _ _ _ [] (lit "__doc__") (VObj 5) Hd Hp ltac:(discriminate) eq_refl) as [A _].
  destruct (H _ _ _ _ _ [] (lit "on") _ Hd Hp eq_refl) as [B _]. congruence.
Qed.
Print Assumptions C162_docstring_refuted.

(** Kept is exactly what no mode of the body binds too ... *)
Theorem C162_kept_partial : forall bases a d ma im rest n v,
  made bases a d ma im -> n <> lit "initialMode" -> dget a n = Some (AVal v) -> mode_defines a n = false ->
  class_getattr (d :: rest) n = Ok v /\ forall fuel inst, dget inst n = None -> getattr (S fuel) (d :: rest) inst n = Ok v.
Proof. intros bases a d ma im rest n v (H1 & H2 & H3 & H4 & H5). exact (kept _ rest H1 H2 H3 H4 H5 (n := n) (v := v)). Qed.
Print Assumptions C162_kept_partial.

(** ... and everything else is gone: the class has no such attribute, and the instances
    have only what a mode binds. *)
Theorem C162_replaced_partial : forall bases a d ma im rest n,
  made bases a d ma im -> n <> lit "initialMode" -> mode_defines a n = true ->
  class_getattr (d :: rest) n = Err AttributeError /\
  forall fuel inst x, dget inst n = None -> getattr fuel (d :: rest) inst n = Ok x ->
    exists i k m, x = VBound i /\ dget a k = Some (AMode m) /\ dget m n = Some (MFun i).
Proof. intros bases a d ma im rest n (H1 & H2 & H3 & H4 & H5). exact (replaced _ rest H1 H2 H3 H4 H5 (n := n)). Qed.
Print Assumptions C162_replaced_partial.

Example C162_nonvacuous :
  exists d, made [] src_Doc d (lit "mode") (lit "on") /\ python_modes src_Doc
  /\ dget src_Doc (lit "size") = Some (AVal (VObj 6)) /\ mode_defines src_Doc (lit "size") = false
  /\ class_getattr [d] (lit "size") = Ok (VObj 6)
  /\ dget src_Doc (lit "__doc__") = Some (AVal (VObj 5)) /\ mode_defines src_Doc (lit "__doc__") = true
  /\ getattr 3 [d] [] (lit "__doc__") = Err TypeError.
Proof.
  exists (get_ok [] (build [] src_Doc)). destruct made_Doc as (d & Hd & Hp). split; [|split; [exact Hp|]; repeat split].
  split; [nodup|]. split; [modes_nodup|]. repeat split.
Qed.

(** C85.  If the mode attribute is called anything else than [mode] and nobody else sets
    it, the instances have no mode: reading it raises AttributeError, and so does every
    method the modes define, on a new instance and whatever is stored under other names
    (transitionTo sets [mode] only). *)
Theorem C85_other_partial : forall bases a d ma im rest n inst, made bases a d ma im ->
  ma <> lit "mode" -> ma <> lit "initialMode" -> mode_defines a ma = false -> dget a ma = None -> lookup rest ma = None ->
  n <> lit "initialMode" -> mode_defines a n = true -> dget inst n = None -> dget inst ma = None ->
  forall fuel, getattr (S fuel) (d :: rest) inst ma = Err AttributeError /\ getattr (S (S fuel)) (d :: rest) inst n = Err AttributeError.
Proof. intros bases a d ma im rest n inst (H1 & H2 & H3 & H4 & H5). exact (other_attribute _ _ _ H1 H2 H3 H4 H5). Qed.
Print Assumptions C85_other_partial.

Example C85_other_nonvacuous :
  exists d, made [] src_Custom d (lit "state") (lit "a") /\ mode_defines src_Custom (lit "state") = false /\
  dget src_Custom (lit "state") = None /\ mode_defines src_Custom (lit "go") = true /\
  getattr 2 [d] [(lit "mode", VStr (lit "a"))] (lit "go") = Err AttributeError.
Proof.
  exists (get_ok [] (build [] src_Custom)). split; [|repeat split]. split; [nodup|]. split; [modes_nodup|]. repeat split.
Qed.
