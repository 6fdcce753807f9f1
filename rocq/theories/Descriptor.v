(** * epsilon/descriptor.py: [attribute]

    Classes are lists of dictionaries (the method resolution order), with
    Python's rules for finding an attribute of an object and of a class.  The
    functions given by the user are any functions of the argument list and of
    the state.  Not modelled: [__getattr__], [__slots__], metaclasses of the
    classes that hold the attributes. *)

From Coq Require Import NArith String List Bool Arith Lia.
From Verif Require Import Py PyStr Small.
Import ListNotations.
Open Scope nat_scope.

(** what is passed to functions: an object, the descriptor itself, a value *)
Inductive arg := AObj (i : nat) | ASelf | AVal (v : value).

(** instance dictionaries *)
Definition hp := heap.
Definition func := list arg -> hp -> hp * res value.

(** an entry of a class dictionary: a plain function becomes a bound method when
    found through an instance, a staticmethod does not *)
Inductive member := Plain (f : func) | Static (f : func).

(** descriptor.py:74-93: the functions of [attribute] itself, called with the
    wrong number of arguments they raise TypeError *)
Definition default (n : nat) : func := fun args h => (h, if length args =? n then Err AttributeError else Err TypeError).

Definition GET : str := lit "get".
Definition SET : str := lit "set".
Definition DELETE : str := lit "delete".

(** descriptor.py:12-20 [_MetaAttribute.__new__]: the loop over the names *)
Definition meta_new (d : dict str func) : dict str member :=
  map (fun p : str * func => (fst p, if existsb (eqb (fst p)) [GET; SET; DELETE] then Static (snd p) else Plain (snd p))) d.

(** descriptor.py:22-93: the class [attribute], made by the same metaclass *)
Definition attribute_class : dict str member :=
  meta_new [(SET, default 2); (GET, default 1); (DELETE, default 1)].

(** the class of the descriptor: its own dictionary, then that of [attribute] *)
Definition find_member (c : dict str member) (n : str) : option member :=
  match dget c n with Some m => Some m | None => dget attribute_class n end.

(** [self.name(args)] where [self] is the descriptor *)
Definition method (c : dict str member) (n : str) (args : list arg) (h : hp) : hp * res value :=
  match find_member c n with
  | Some (Static f) => f args h
  | Some (Plain f) => f (ASelf :: args) h
  | None => (h, Err AttributeError)
  end.

(** what an attribute access gives: a value or the descriptor *)
Inductive got := GotVal (v : value) | GotSelf.

(** descriptor.py:54-60 [__get__] *)
Definition dget_ (c : dict str member) (oself : option nat) (h : hp) : hp * res got :=
  match oself with
  | None => (h, Ok GotSelf)
  | Some i => match method c GET [AObj i] h with (h', Ok v) => (h', Ok (GotVal v)) | (h', Err e) => (h', Err e) end
  end.
(** descriptor.py:62-66 [__set__] *)
Definition dset_ (c : dict str member) (i : nat) (v : value) (h : hp) : hp * res unit :=
  match method c SET [AObj i; AVal v] h with (h', Ok _) => (h', Ok tt) | (h', Err e) => (h', Err e) end.
(** descriptor.py:68-72 [__delete__] *)
Definition ddelete_ (c : dict str member) (i : nat) (h : hp) : hp * res unit :=
  match method c DELETE [AObj i] h with (h', Ok _) => (h', Ok tt) | (h', Err e) => (h', Err e) end.

(** the attributes of a class: descriptors made by [class name(attribute):], or
    plain values *)
Inductive cattr := CAttr (c : dict str member) | CVal (v : value).
Definition mro := list (dict str cattr).

Fixpoint class_lookup (m : mro) (a : str) : option cattr :=
  match m with
  | [] => None
  | d :: t => match dget d a with Some x => Some x | None => class_lookup t a end
  end.

(** Python's [object.__getattribute__], [__setattr__], [__delattr__] and
    [type.__getattribute__]: a descriptor with [__set__] comes before the
    instance dictionary *)
Definition getattr (m : mro) (i : nat) (a : str) (h : hp) : hp * res got :=
  match class_lookup m a with
  | Some (CAttr c) => dget_ c (Some i) h
  | x => (h, match dget (h i) a, x with
             | Some v, _ => Ok (GotVal v)
             | None, Some (CVal v) => Ok (GotVal v)
             | None, _ => Err AttributeError
             end)
  end.
Definition setattr (m : mro) (i : nat) (a : str) (v : value) (h : hp) : hp * res unit :=
  match class_lookup m a with
  | Some (CAttr c) => dset_ c i v h
  | _ => (hset h i (dset (h i) a v), Ok tt)
  end.
Definition delattr (m : mro) (i : nat) (a : str) (h : hp) : hp * res unit :=
  match class_lookup m a with
  | Some (CAttr c) => ddelete_ c i h
  | _ => if din (h i) a then (hset h i (ddel (h i) a), Ok tt) else (h, Err AttributeError)
  end.
Definition class_getattr (m : mro) (a : str) (h : hp) : hp * res got :=
  match class_lookup m a with
  | Some (CAttr c) => dget_ c None h
  | Some (CVal v) => (h, Ok (GotVal v))
  | None => (h, Err AttributeError)
  end.

(** descriptor.py:134-144 [requiredAttribute] *)
Definition ra_get_fn (n : str) : func := fun args h =>
  match args with [AObj i] => (h, ra_get n (h i)) | _ => (h, Err TypeError) end.
Definition ra_set_fn (n : str) : func := fun args h =>
  match args with [AObj i; AVal v] => (hset h i (ra_set n (h i) v), Ok 0) | _ => (h, Err TypeError) end.
Definition requiredAttribute (n : str) : dict str member := meta_new [(GET, ra_get_fn n); (SET, ra_set_fn n)].

(** ** Specification *)

(** [given m a fs]: the first class of [m] that has [a] has it from
    [class a(attribute): ...] with the functions [fs] *)
Definition given (m : mro) (a : str) (fs : dict str func) : Prop :=
  exists before d after, m = before ++ d :: after /\ Forall (fun d => dget d a = None) before /\ dget d a = Some (CAttr (meta_new fs)).

(** what calling the function for [n] with [args] does; AttributeError and no
    effect without one *)
Definition calls_ (fs : dict str func) (n : str) (args : list arg) (h : hp) : hp * res value :=
  match dget fs n with Some f => f args h | None => (h, Err AttributeError) end.

(** ** Proofs *)

Lemma given_lookup m a fs : given m a fs -> class_lookup m a = Some (CAttr (meta_new fs)).
Proof.
  intros (b & d & t & -> & Hb & Hd). induction Hb as [|x b Hx Hb IH]; cbn [app class_lookup]; [now rewrite Hd|].
  now rewrite Hx.
Qed.

Lemma dget_meta fs n : dget (meta_new fs) n =
  match dget fs n with
  | Some f => Some (if existsb (eqb n) [GET; SET; DELETE] then Static f else Plain f)
  | None => None
  end.
Proof.
  induction fs as [|[k f] fs IH]; [reflexivity|]. cbn [meta_new map dget fst snd].
  destruct (eqb_spec n k) as [->|Hk]; [reflexivity|exact IH].
Qed.

Lemma method_calls fs n args h : In n [GET; SET; DELETE] -> length args = (if eqb n SET then 2 else 1) ->
  method (meta_new fs) n args h = calls_ fs n args h.
Proof.
  intros Hn Hl. unfold method, find_member, calls_. rewrite dget_meta.
  assert (He : existsb (eqb n) [GET; SET; DELETE] = true).
  { apply existsb_exists. exists n. split; [exact Hn|apply eqb_refl]. }
  rewrite He. destruct (dget fs n) as [f|]; [reflexivity|].
  destruct Hn as [<-|[<-|[<-|[]]]]; cbn in Hl.
  - change (dget attribute_class GET) with (Some (Static (default 1))). cbv iota beta. unfold default. now rewrite Hl.
  - change (dget attribute_class SET) with (Some (Static (default 2))). cbv iota beta. unfold default. now rewrite Hl.
  - change (dget attribute_class DELETE) with (Some (Static (default 1))). cbv iota beta. unfold default. now rewrite Hl.
Qed.

Lemma attribute_get m a fs i h : given m a fs ->
  getattr m i a h = (fst (calls_ fs GET [AObj i] h), match snd (calls_ fs GET [AObj i] h) with Ok v => Ok (GotVal v) | Err e => Err e end) /\
  class_getattr m a h = (h, Ok GotSelf).
Proof.
  intros Hg. unfold getattr, class_getattr. rewrite (given_lookup m a fs Hg). split; [|reflexivity].
  cbn [dget_]. rewrite method_calls; [|now left|reflexivity]. now destruct (calls_ fs GET [AObj i] h) as [h' [v|e]].
Qed.

Lemma attribute_set m a fs i v h : given m a fs ->
  setattr m i a v h = (fst (calls_ fs SET [AObj i; AVal v] h), match snd (calls_ fs SET [AObj i; AVal v] h) with Ok _ => Ok tt | Err e => Err e end).
Proof.
  intros Hg. unfold setattr. rewrite (given_lookup m a fs Hg). unfold dset_.
  rewrite method_calls; [|right; now left|reflexivity]. now destruct (calls_ fs SET [AObj i; AVal v] h) as [h' [w|e]].
Qed.

Lemma attribute_delete m a fs i h : given m a fs ->
  delattr m i a h = (fst (calls_ fs DELETE [AObj i] h), match snd (calls_ fs DELETE [AObj i] h) with Ok _ => Ok tt | Err e => Err e end).
Proof.
  intros Hg. unfold delattr. rewrite (given_lookup m a fs Hg). unfold ddelete_.
  rewrite method_calls; [|right; right; now left|reflexivity]. now destruct (calls_ fs DELETE [AObj i] h) as [h' [w|e]].
Qed.

(** the model of requiredAttribute in Small.v is this one *)
Definition required_mro (descs : dict str str) : mro := [map (fun p : str * str => (fst p, CAttr (requiredAttribute (snd p)))) descs].

Lemma required_lookup descs a : class_lookup (required_mro descs) a = match dget descs a with Some n => Some (CAttr (requiredAttribute n)) | None => None end.
Proof.
  cbn [class_lookup required_mro].
  assert (E : dget (map (fun p : str * str => (fst p, CAttr (requiredAttribute (snd p)))) descs) a =
              match dget descs a with Some n => Some (CAttr (requiredAttribute n)) | None => None end).
  { induction descs as [|[k n] t IH]; [reflexivity|]. cbn [map dget fst snd]. destruct (eqb_spec a k); [reflexivity|exact IH]. }
  rewrite E. now destruct (dget descs a).
Qed.

Lemma required_same descs i a v h :
  step descs h (OGet i a) = (match snd (getattr (required_mro descs) i a h) with Ok (GotVal v) => Ok (Some v) | Ok GotSelf => Ok None | Err e => Err e end,
                             fst (getattr (required_mro descs) i a h)) /\
  step descs h (OSet i a v) = (match snd (setattr (required_mro descs) i a v h) with Ok _ => Ok None | Err e => Err e end,
                               fst (setattr (required_mro descs) i a v h)) /\
  step descs h (ODel i a) = (match snd (delattr (required_mro descs) i a h) with Ok _ => Ok None | Err e => Err e end,
                             fst (delattr (required_mro descs) i a h)).
Proof.
  unfold getattr, setattr, delattr. rewrite required_lookup. cbn [step]. destruct (dget descs a) as [n|].
  - split; [|split].
    + cbn [dget_]. change (method (requiredAttribute n) GET [AObj i] h) with (h, ra_get n (h i)). now destruct (ra_get n (h i)).
    + reflexivity.
    + reflexivity.
  - split; [|split]; [now destruct (dget (h i) a)|reflexivity|]. now destruct (din (h i) a).
Qed.
