(** * Properties C174 and C175: what a modal class needs, and where it is found *)

From Coq Require Import NArith String List Bool Arith.
From Verif Require Import Py PyStr Modal ModalMro.
Import ListNotations.
Open Scope nat_scope.

(** ** C174 *)

(** [defined n v bases a]: the body [a] or some ancestor binds [n] to [v].  If
    what is so bound are strings, the class is made when both names are bound
    somewhere, and TypeError is raised when one is bound nowhere. *)
Theorem C174_made : forall bases attrs,
  (forall n v, In n [lit "modeAttribute"; lit "initialMode"] -> defined n v bases attrs -> exists s, v = KVal (VStr s)) ->
  ((exists d, build bases attrs = Ok d) /\ forall n, In n [lit "modeAttribute"; lit "initialMode"] -> exists v, defined n v bases attrs) \/
  (build bases attrs = Err TypeError /\ exists n, In n [lit "modeAttribute"; lit "initialMode"] /\ forall v, ~ defined n v bases attrs).
Proof. exact made_iff. Qed.
Print Assumptions C174_made.

Definition src_A : dict str attr :=
  [(lit "modeAttribute", AVal (VStr (lit "x"))); (lit "initialMode", AVal (VStr (lit "on")));
   (lit "on", AMode [(lit "go", MFun 1)])].
Definition dict_of (bases : list cls) (a : dict str attr) : cdict :=
  match build (map erase bases) a with Ok d => d | Err _ => [] end.
Definition class_A : cls := Cls 1 (dict_of [] src_A) [].

(** a subclass with an empty body can be made; a class of its own lacking the
    initial mode cannot *)
Example C174_nonvacuous :
  (exists d, build [erase class_A] [] = Ok d) /\
  (forall n v, In n [lit "modeAttribute"; lit "initialMode"] -> defined n v [erase class_A] [] -> exists s, v = KVal (VStr s)) /\
  build [] [(lit "modeAttribute", AVal (VStr (lit "x")))] = Err TypeError.
Proof.
  split; [eexists; reflexivity|]. split; [|reflexivity].
  intros n v [<-|[<-|[]]] [(a & H & _)|(b & [<-|[]] & B)]; try discriminate;
    (inversion B as [? ? H Hx|? ? c Hc ? Hx]; subst; [vm_compute in H; injection H as <-; eexists; reflexivity|destruct Hc]).
Qed.

(** ** C175 *)

(** The full claim: the attribute that the methods of a class look at is what
    [modeAttribute] on the class says, and the mode its instances start in what
    [initialMode] says.  The namespace is that of a class statement; no mode has
    a method of these names. *)
Definition C175_full : Prop := forall i bs a d ma im m,
  wf_dict a -> Forall (fun kv => match snd kv with AMode m => wf_dict m | _ => True end) a ->
  mode_defines a (lit "modeAttribute") = false -> mode_defines a (lit "initialMode") = false ->
  build (map erase bs) a = Ok d -> mro (Cls i d bs) = Some m ->
  required (lit "modeAttribute") (map erase bs) a = Ok ma -> required (lit "initialMode") (map erase bs) a = Ok im ->
  class_attr (lit "modeAttribute") (Cls i d bs) = Some (KVal (VStr ma)) /\
  class_attr (lit "initialMode") (Cls i d bs) = Some (KVal (VStr im)).

(** [B] and [C] extend [A]; [C] has another mode attribute; [D] extends both *)
Definition class_B : cls := Cls 2 (dict_of [class_A] []) [class_A].
Definition class_C : cls := Cls 3 (dict_of [class_A] [(lit "modeAttribute", AVal (VStr (lit "y")))]) [class_A].
Definition src_D : dict str attr := [(lit "off", AMode [(lit "stop", MFun 2)])].
Definition class_D : cls := Cls 4 (dict_of [class_B; class_C] src_D) [class_B; class_C].

(** False: Python finds [C]'s mode attribute, [y], but the methods of [D] look
    at [A]'s, [x]. *)
Theorem C175_diamond_refuted :
  option_map (map fst) (mro class_D) = Some [4; 2; 3; 1] /\
  class_attr (lit "modeAttribute") class_D = Some (KVal (VStr (lit "y"))) /\
  class_attr (lit "stop") class_D = Some (KModal [(lit "off", MFun 2)] (lit "x")) /\
  ~ C175_full.
Proof.
  split; [vm_compute; reflexivity|]. split; [vm_compute; reflexivity|]. split; [vm_compute; reflexivity|]. intros F.
  destruct (F 4 [class_B; class_C] src_D (dict_of [class_B; class_C] src_D) (lit "x") (lit "on")
              (match mro class_D with Some m => m | None => [] end)) as [F1 _].
  - repeat constructor. intros [].
  - repeat constructor. intros [].
  - reflexivity.
  - reflexivity.
  - vm_compute. reflexivity.
  - vm_compute. reflexivity.
  - vm_compute. reflexivity.
  - vm_compute. reflexivity.
  - vm_compute in F1. discriminate.
Qed.
Print Assumptions C175_diamond_refuted.

(** What holds: the mode attribute, if no class is an ancestor in two ways (in
    particular with one base each, or with mixins), ... *)
Theorem C175_attribute_partial : forall i bs a d ma,
  wf_dict a -> Forall (fun kv => match snd kv with AMode m => wf_dict m | _ => True end) a ->
  mode_defines a (lit "modeAttribute") = false -> build (map erase bs) a = Ok d ->
  required (lit "modeAttribute") (map erase bs) a = Ok ma -> tree (Cls i d bs) ->
  class_attr (lit "modeAttribute") (Cls i d bs) = Some (KVal (VStr ma)).
Proof. exact mode_attribute. Qed.
Print Assumptions C175_attribute_partial.

(** ... or if the body of the class names it; ... *)
Theorem C175_own_partial : forall i bs a d ma m,
  wf_dict a -> Forall (fun kv => match snd kv with AMode m => wf_dict m | _ => True end) a ->
  mode_defines a (lit "modeAttribute") = false -> build (map erase bs) a = Ok d ->
  dget a (lit "modeAttribute") = Some (AVal (VStr ma)) -> mro (Cls i d bs) = Some m ->
  class_attr (lit "modeAttribute") (Cls i d bs) = Some (KVal (VStr ma)).
Proof. exact mode_attribute_own. Qed.
Print Assumptions C175_own_partial.

(** ... and the initial mode, always. *)
Theorem C175_initial_partial : forall i bs a d ma im m,
  wf_dict a -> Forall (fun kv => match snd kv with AMode m => wf_dict m | _ => True end) a ->
  mode_defines a (lit "initialMode") = false -> build (map erase bs) a = Ok d ->
  required (lit "modeAttribute") (map erase bs) a = Ok ma -> required (lit "initialMode") (map erase bs) a = Ok im ->
  mro (Cls i d bs) = Some m -> class_attr (lit "initialMode") (Cls i d bs) = Some (KVal (VStr im)).
Proof. exact initial_mode. Qed.
Print Assumptions C175_initial_partial.

(** the MRO of such a class is the class and its ancestors, depth first *)
Theorem C175_mro_partial : forall c, tree c -> mro c = Some (family c).
Proof. exact mro_tree. Qed.
Print Assumptions C175_mro_partial.

(** [E] extends [B] and a mixin *)
Definition class_M : cls := Cls 7 [(lit "help", KVal (VStr (lit "?")))] [].
Definition class_E : cls := Cls 5 (dict_of [class_M; class_B] src_D) [class_M; class_B].
Example C175_nonvacuous : tree class_E /\ build (map erase [class_M; class_B]) src_D = Ok (dict_of [class_M; class_B] src_D) /\
  required (lit "modeAttribute") (map erase [class_M; class_B]) src_D = Ok (lit "x") /\
  class_attr (lit "initialMode") class_E = Some (KVal (VStr (lit "on"))) /\
  option_map (map fst) (mro class_E) = Some [5; 7; 2; 1].
Proof.
  split; [unfold tree; cbn; repeat constructor; cbn; intuition discriminate|]. repeat split; vm_compute; reflexivity.
Qed.
