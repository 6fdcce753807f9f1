(** * C117: one-use descriptors (epsilon/descriptor.py) *)

From Coq Require Import NArith String List Bool Arith Lia.
From Verif Require Import Py PyStr Small Descriptor.
Import ListNotations.
Open Scope nat_scope.

(** Reading, assigning and deleting an attribute made by
    [class a(attribute): ...] calls the function given for it with the object
    (and the value), whatever the instance holds under that name; without a
    function it raises AttributeError and changes nothing. *)
Theorem C117_get : forall m a fs i h, given m a fs ->
  match dget fs (lit "get") with
  | None => getattr m i a h = (h, Err AttributeError)
  | Some f => fst (getattr m i a h) = fst (f [AObj i] h) /\
              snd (getattr m i a h) = match snd (f [AObj i] h) with Ok v => Ok (GotVal v) | Err e => Err e end
  end.
Proof.
  intros m a fs i h Hg. rewrite (proj1 (attribute_get m a fs i h Hg)). unfold calls_, GET. destruct (dget fs (lit "get")); split; reflexivity.
Qed.
Print Assumptions C117_get.

Theorem C117_set : forall m a fs i v h, given m a fs ->
  match dget fs (lit "set") with
  | None => setattr m i a v h = (h, Err AttributeError)
  | Some f => fst (setattr m i a v h) = fst (f [AObj i; AVal v] h) /\
              snd (setattr m i a v h) = match snd (f [AObj i; AVal v] h) with Ok _ => Ok tt | Err e => Err e end
  end.
Proof.
  intros m a fs i v h Hg. rewrite (attribute_set m a fs i v h Hg). unfold calls_, SET. destruct (dget fs (lit "set")); split; reflexivity.
Qed.
Print Assumptions C117_set.

Theorem C117_delete : forall m a fs i h, given m a fs ->
  match dget fs (lit "delete") with
  | None => delattr m i a h = (h, Err AttributeError)
  | Some f => fst (delattr m i a h) = fst (f [AObj i] h) /\
              snd (delattr m i a h) = match snd (f [AObj i] h) with Ok _ => Ok tt | Err e => Err e end
  end.
Proof.
  intros m a fs i h Hg. rewrite (attribute_delete m a fs i h Hg). unfold calls_, DELETE. destruct (dget fs (lit "delete")); split; reflexivity.
Qed.
Print Assumptions C117_delete.

(** On the class the attribute is the descriptor. *)
Theorem C117_class : forall m a fs h, given m a fs -> class_getattr m a h = (h, Ok GotSelf).
Proof. intros m a fs h Hg. exact (proj2 (attribute_get m a fs 0 h Hg)). Qed.
Print Assumptions C117_class.

(** The attributes of C29 are such descriptors. *)
Theorem C117_required : forall descs i a v h,
  let m := [map (fun p : str * str => (fst p, CAttr (meta_new [(lit "get", ra_get_fn (snd p)); (lit "set", ra_set_fn (snd p))]))) descs] in
  step descs h (OGet i a) = (match snd (getattr m i a h) with Ok (GotVal v) => Ok (Some v) | Ok GotSelf => Ok None | Err e => Err e end, fst (getattr m i a h)) /\
  step descs h (OSet i a v) = (match snd (setattr m i a v h) with Ok _ => Ok None | Err e => Err e end, fst (setattr m i a v h)) /\
  step descs h (ODel i a) = (match snd (delattr m i a h) with Ok _ => Ok None | Err e => Err e end, fst (delattr m i a h)).
Proof. intros descs i a v h. exact (required_same descs i a v h). Qed.
Print Assumptions C117_required.

(** the counter of the docstring: reading counts up, assigning adds *)
Definition cnt : str := lit "dynCount".
Definition dyn_get : func := fun args h =>
  match args with
  | [AObj i] => let n := match dget (h i) cnt with Some n => S n | None => 1 end in (hset h i (dset (h i) cnt n), Ok n)
  | _ => (h, Err TypeError)
  end.
Definition dyn_set : func := fun args h =>
  match args with
  | [AObj i; AVal v] => (hset h i (dset (h i) cnt ((match dget (h i) cnt with Some n => n | None => 0 end) + v)), Ok 0)
  | _ => (h, Err TypeError)
  end.
Definition dynamo : mro := [[(cnt, CVal 0)]; [(lit "dynamic", CAttr (meta_new [(lit "get", dyn_get); (lit "set", dyn_set)]))]].

Example C117_nonvacuous : given dynamo (lit "dynamic") [(lit "get", dyn_get); (lit "set", dyn_set)] /\
  exists h1 h2 h3 h4, getattr dynamo 7 (lit "dynamic") (fun _ => [(lit "dynamic", 55)]) = (h1, Ok (GotVal 1)) /\
    getattr dynamo 7 (lit "dynamic") h1 = (h2, Ok (GotVal 2)) /\ setattr dynamo 7 (lit "dynamic") 6 h2 = (h3, Ok tt) /\
    getattr dynamo 7 (lit "dynamic") h3 = (h4, Ok (GotVal 9)) /\ delattr dynamo 7 (lit "dynamic") h4 = (h4, Err AttributeError).
Proof.
  split.
  - exists [[(cnt, CVal 0)]]. do 2 eexists. split; [reflexivity|]. split; [repeat constructor|reflexivity].
  - do 4 eexists. repeat split; reflexivity.
Qed.
