(** * Shared Python vocabulary

    Exceptions as values, results, code-point strings, insertion-ordered
    dictionaries.  This file models builtins of CPython 3, not code of the
    repository; every other file builds on it. *)

From Coq Require Import List Bool Arith NArith ZArith Lia String Ascii.
From Coq Require Import Permutation.
Import ListNotations.

Set Implicit Arguments.

(** ** Exceptions and results *)

(** The exception classes the modelled code raises or lets escape.  Messages
    are not modelled. *)
Inductive exn : Type :=
| TypeError
| ValueError
| IndexError
| KeyError
| AttributeError
| AssertionError
| RuntimeError
| NotImplementedErr
| OverflowError
| UnicodeError
| MethodNotExposed
| NameRequired
| RouteNotConnected
| UnauthorizedLogin
| UnhandledCredentials
| NoSuchHotfix
| InsecurePath
| OSError
| MalformedJuiceBox
| IncompatibleVersions
| AlreadyCalled
| AlreadyCancelled
| LookupError
| OtherExn (code : N).

Definition exn_eq_dec : forall a b : exn, {a = b} + {a <> b}.
Proof. decide equality; apply N.eq_dec. Defined.

(** A Python call either returns a value or raises. *)
Inductive res (A : Type) : Type :=
| Ok (a : A)
| Err (e : exn).
Arguments Ok {A} a.
Arguments Err {A} e.

Definition rbind {A B} (r : res A) (f : A -> res B) : res B :=
  match r with Ok a => f a | Err e => Err e end.

Declare Scope py_scope.
Delimit Scope py_scope with py.
Notation "x <- e ;; k" := (rbind e (fun x => k))
  (at level 61, e at next level, right associativity) : py_scope.
Notation "' p <- e ;; k" := (rbind e (fun p => k))
  (at level 61, p pattern, e at next level, right associativity) : py_scope.

Definition rmap {A B} (f : A -> B) (r : res A) : res B :=
  match r with Ok a => Ok (f a) | Err e => Err e end.

Definition is_ok {A} (r : res A) : Prop := exists a, r = Ok a.

(** [mapM f l]: a list comprehension whose element expression may raise. *)
Fixpoint mapM {A B} (f : A -> res B) (l : list A) : res (list B) :=
  match l with
  | [] => Ok []
  | x :: t => match f x with
              | Err e => Err e
              | Ok y => match mapM f t with
                        | Err e => Err e
                        | Ok ys => Ok (y :: ys)
                        end
              end
  end.

(** ** Boolean equality with a specification *)

Class EqB (A : Type) := {
  eqb : A -> A -> bool;
  eqb_spec : forall x y, reflect (x = y) (eqb x y)
}.

Lemma eqb_refl {A} `{EqB A} (x : A) : eqb x x = true.
Proof. destruct (eqb_spec x x); congruence. Qed.

Lemma eqb_eq {A} `{EqB A} (x y : A) : eqb x y = true <-> x = y.
Proof. destruct (eqb_spec x y); split; congruence. Qed.

Lemma eqb_neq {A} `{EqB A} (x y : A) : eqb x y = false <-> x <> y.
Proof. destruct (eqb_spec x y); split; congruence. Qed.

Lemma eqb_sym {A} `{EqB A} (x y : A) : eqb x y = eqb y x.
Proof. destruct (eqb_spec x y), (eqb_spec y x); congruence. Qed.

Definition eqdec {A} `{EqB A} (x y : A) : {x = y} + {x <> y}.
Proof. destruct (eqb_spec x y); [left|right]; assumption. Defined.

#[global] Instance EqB_N : EqB N := {| eqb := N.eqb; eqb_spec := N.eqb_spec |}.
#[global] Instance EqB_nat : EqB nat :=
  {| eqb := Nat.eqb; eqb_spec := Nat.eqb_spec |}.
#[global] Instance EqB_Z : EqB Z := {| eqb := Z.eqb; eqb_spec := Z.eqb_spec |}.
#[global] Instance EqB_bool : EqB bool :=
  {| eqb := Bool.eqb; eqb_spec := Bool.eqb_spec |}.

Fixpoint list_eqb {A} `{EqB A} (l m : list A) : bool :=
  match l, m with
  | [], [] => true
  | x :: l', y :: m' => eqb x y && list_eqb l' m'
  | _, _ => false
  end.

Lemma list_eqb_spec {A} `{EqB A} (l m : list A) : reflect (l = m) (list_eqb l m).
Proof.
  revert m; induction l as [|x l IH]; intros [|y m]; simpl; try (constructor; congruence).
  destruct (eqb_spec x y) as [->|Hn]; simpl.
  - destruct (IH m) as [->|Hn]; constructor; congruence.
  - constructor; congruence.
Qed.

#[global] Instance EqB_list {A} `{EqB A} : EqB (list A) :=
  {| eqb := list_eqb; eqb_spec := list_eqb_spec |}.

Definition option_eqb {A} `{EqB A} (a b : option A) : bool :=
  match a, b with
  | None, None => true
  | Some x, Some y => eqb x y
  | _, _ => false
  end.

Lemma option_eqb_spec {A} `{EqB A} (a b : option A) :
  reflect (a = b) (option_eqb a b).
Proof.
  destruct a, b; simpl; try (constructor; congruence).
  destruct (eqb_spec a a0); constructor; congruence.
Qed.

#[global] Instance EqB_option {A} `{EqB A} : EqB (option A) :=
  {| eqb := option_eqb; eqb_spec := option_eqb_spec |}.

Definition prod_eqb {A B} `{EqB A} `{EqB B} (a b : A * B) : bool :=
  eqb (fst a) (fst b) && eqb (snd a) (snd b).

Lemma prod_eqb_spec {A B} `{EqB A} `{EqB B} (a b : A * B) :
  reflect (a = b) (prod_eqb a b).
Proof.
  destruct a as [a1 a2], b as [b1 b2]; unfold prod_eqb; simpl.
  destruct (eqb_spec a1 b1), (eqb_spec a2 b2); constructor; congruence.
Qed.

#[global] Instance EqB_prod {A B} `{EqB A} `{EqB B} : EqB (A * B) :=
  {| eqb := prod_eqb; eqb_spec := prod_eqb_spec |}.

(** ** Strings *)

(** [str] and [bytes] objects are lists of code points / octets. *)
Definition str := list N.

(** A literal of the Python source. *)
Definition lit (s : string) : str := map N_of_ascii (list_ascii_of_string s).
Arguments lit s%string.

(** ** Membership *)

Fixpoint memb {A} `{EqB A} (x : A) (l : list A) : bool :=
  match l with
  | [] => false
  | y :: t => eqb x y || memb x t
  end.

Lemma memb_In {A} `{EqB A} (x : A) l : memb x l = true <-> In x l.
Proof.
  induction l as [|y t IH]; simpl; [split; [discriminate|tauto]|].
  rewrite orb_true_iff, IH, eqb_eq.
  intuition.
Qed.

Lemma memb_not_In {A} `{EqB A} (x : A) l : memb x l = false <-> ~ In x l.
Proof.
  rewrite <- memb_In. destruct (memb x l); split; congruence.
Qed.

(** ** Dictionaries

    A Python dict remembers insertion order: an association list whose keys
    are distinct.  Assigning to an existing key keeps its position. *)

Section Dict.
  Context {K V : Type} `{EqB K}.

  Definition dict := list (K * V).

  Fixpoint dget (d : dict) (k : K) : option V :=
    match d with
    | [] => None
    | (k', v) :: t => if eqb k k' then Some v else dget t k
    end.

  (** [k in d] *)
  Definition din (d : dict) (k : K) : bool :=
    match dget d k with Some _ => true | None => false end.

  (** [d[k] = v] *)
  Fixpoint dset (d : dict) (k : K) (v : V) : dict :=
    match d with
    | [] => [(k, v)]
    | (k', v') :: t => if eqb k k' then (k', v) :: t else (k', v') :: dset t k v
    end.

  (** [del d[k]], when [k] is present; the identity otherwise *)
  Fixpoint ddel (d : dict) (k : K) : dict :=
    match d with
    | [] => []
    | (k', v') :: t => if eqb k k' then t else (k', v') :: ddel t k
    end.

  Definition keys (d : dict) : list K := map fst d.
  Definition values (d : dict) : list V := map snd d.

  Definition wf_dict (d : dict) : Prop := NoDup (keys d).

  Lemma dget_In (d : dict) k v : dget d k = Some v -> In (k, v) d.
  Proof.
    induction d as [|[k' v'] t IH]; simpl; [discriminate|].
    destruct (eqb_spec k k') as [->|Hn]; intros E.
    - left; congruence.
    - right; auto.
  Qed.

  Lemma dget_Some_keys (d : dict) k v : dget d k = Some v -> In k (keys d).
  Proof. intros E; apply in_map_iff; exists (k, v); split; auto using dget_In. Qed.

  Lemma dget_None (d : dict) k : dget d k = None <-> ~ In k (keys d).
  Proof.
    induction d as [|[k' v'] t IH]; simpl; [tauto|].
    destruct (eqb_spec k k') as [->|Hn].
    - split; [discriminate|]. intros Hc; exfalso; apply Hc; auto.
    - rewrite IH. intuition congruence.
  Qed.

  Lemma din_keys (d : dict) k : din d k = true <-> In k (keys d).
  Proof.
    unfold din. destruct (dget d k) eqn:E.
    - split; auto. intros _; eauto using dget_Some_keys.
    - apply dget_None in E. split; [discriminate|tauto].
  Qed.

  Lemma din_false (d : dict) k : din d k = false <-> ~ In k (keys d).
  Proof. rewrite <- din_keys. destruct (din d k); split; congruence. Qed.

  Lemma In_dget (d : dict) k v : wf_dict d -> In (k, v) d -> dget d k = Some v.
  Proof.
    unfold wf_dict. induction d as [|[k' v'] t IH]; simpl; [tauto|].
    intros Hnd Hin. inversion Hnd as [|? ? Hni Hnd']; subst.
    destruct Hin as [E|Hin].
    - inversion E; subst. now rewrite eqb_refl.
    - destruct (eqb_spec k k') as [->|Hn]; auto.
      exfalso; apply Hni. apply in_map_iff. exists (k', v); auto.
  Qed.

  Lemma dget_dset_eq (d : dict) k v : dget (dset d k v) k = Some v.
  Proof.
    induction d as [|[k' v'] t IH]; simpl.
    - now rewrite eqb_refl.
    - destruct (eqb_spec k k') as [->|Hn]; simpl.
      + now rewrite eqb_refl.
      + apply eqb_neq in Hn. now rewrite Hn.
  Qed.

  Lemma dget_dset_neq (d : dict) k k' v : k' <> k -> dget (dset d k v) k' = dget d k'.
  Proof.
    intros Hn. induction d as [|[k1 v1] t IH]; simpl.
    - apply eqb_neq in Hn. now rewrite Hn.
    - destruct (eqb_spec k k1) as [->|Hn1]; simpl.
      + apply eqb_neq in Hn. now rewrite Hn.
      + destruct (eqb k' k1); auto.
  Qed.

  Lemma dget_dset (d : dict) k k' v :
    dget (dset d k v) k' = if eqb k' k then Some v else dget d k'.
  Proof.
    destruct (eqb_spec k' k) as [->|Hn].
    - apply dget_dset_eq.
    - now apply dget_dset_neq.
  Qed.

  Lemma keys_dset_in (d : dict) k v : In k (keys d) -> keys (dset d k v) = keys d.
  Proof.
    induction d as [|[k' v'] t IH]; simpl; [tauto|].
    intros Hin. destruct (eqb_spec k k') as [->|Hn]; simpl; auto.
    f_equal. apply IH. destruct Hin; congruence.
  Qed.

  Lemma keys_dset_new (d : dict) k v :
    ~ In k (keys d) -> dset d k v = d ++ [(k, v)].
  Proof.
    induction d as [|[k' v'] t IH]; simpl; auto.
    intros Hni. destruct (eqb_spec k k') as [->|Hn]; [tauto|].
    f_equal. apply IH. tauto.
  Qed.

  Lemma keys_dset (d : dict) k v k' :
    In k' (keys (dset d k v)) <-> k' = k \/ In k' (keys d).
  Proof.
    destruct (in_dec eqdec k (keys d)) as [Hi|Hi].
    - rewrite keys_dset_in by auto. intuition congruence.
    - rewrite keys_dset_new by auto. unfold keys. rewrite map_app, in_app_iff.
      simpl. intuition.
  Qed.

  Lemma wf_dset (d : dict) k v : wf_dict d -> wf_dict (dset d k v).
  Proof.
    unfold wf_dict. intros Hw.
    destruct (in_dec eqdec k (keys d)) as [Hi|Hi].
    - now rewrite keys_dset_in.
    - rewrite keys_dset_new by auto. unfold keys. rewrite map_app. simpl.
      apply Permutation_NoDup with (k :: map fst d).
      + apply Permutation_cons_append.
      + constructor; auto.
  Qed.

  Lemma keys_ddel_subset (d : dict) k k' : In k' (keys (ddel d k)) -> In k' (keys d).
  Proof.
    induction d as [|[k1 v1] t IH]; simpl; auto.
    destruct (eqb k k1); simpl; intuition.
  Qed.

  Lemma wf_ddel (d : dict) k : wf_dict d -> wf_dict (ddel d k).
  Proof.
    unfold wf_dict. induction d as [|[k1 v1] t IH]; simpl; auto.
    intros Hw; inversion Hw; subst. destruct (eqb k k1); simpl; auto.
    constructor; auto. intros Hin; apply keys_ddel_subset in Hin; auto.
  Qed.

  Lemma dget_ddel_neq (d : dict) k k' : k' <> k -> dget (ddel d k) k' = dget d k'.
  Proof.
    intros Hn. induction d as [|[k1 v1] t IH]; simpl; auto.
    destruct (eqb_spec k k1) as [->|Hn1]; simpl.
    - apply eqb_neq in Hn. now rewrite Hn.
    - destruct (eqb k' k1); auto.
  Qed.

  Lemma dget_ddel_eq (d : dict) k : wf_dict d -> dget (ddel d k) k = None.
  Proof.
    unfold wf_dict. induction d as [|[k1 v1] t IH]; simpl; auto.
    intros Hw; inversion Hw; subst.
    destruct (eqb_spec k k1) as [->|Hn1]; simpl.
    - now apply dget_None.
    - apply eqb_neq in Hn1. rewrite Hn1. auto.
  Qed.

  Lemma dget_ddel (d : dict) k k' : wf_dict d ->
    dget (ddel d k) k' = if eqb k' k then None else dget d k'.
  Proof.
    intros Hw. destruct (eqb_spec k' k) as [->|Hn].
    - now apply dget_ddel_eq.
    - now apply dget_ddel_neq.
  Qed.

  Lemma ddel_absent (d : dict) k : ~ In k (keys d) -> ddel d k = d.
  Proof.
    induction d as [|[k1 v1] t IH]; simpl; auto.
    intros Hni. destruct (eqb_spec k k1) as [->|Hn]; [tauto|].
    f_equal; auto.
  Qed.

  Lemma keys_ddel (d : dict) k k' : wf_dict d ->
    In k' (keys (ddel d k)) <-> k' <> k /\ In k' (keys d).
  Proof.
    intros Hw. rewrite <- !din_keys. unfold din. rewrite dget_ddel by auto.
    destruct (eqb_spec k' k); intuition congruence.
  Qed.

  (** [d.update(e)] *)
  Definition dupdate (d e : dict) : dict :=
    fold_left (fun acc p => dset acc (fst p) (snd p)) e d.

  Lemma wf_dupdate (e d : dict) : wf_dict d -> wf_dict (dupdate d e).
  Proof.
    unfold dupdate. revert d. induction e as [|[k v] t IH]; simpl; auto using wf_dset.
  Qed.

  Lemma dget_app (d e : dict) k :
    dget (d ++ e) k = match dget d k with Some v => Some v | None => dget e k end.
  Proof.
    induction d as [|[k1 v1] t IH]; simpl; auto. destruct (eqb k k1); auto.
  Qed.
End Dict.

Arguments dict : clear implicits.

(** Two dictionaries are equal in Python ([==]) when they hold the same
    bindings, whatever their insertion order. *)
Definition dict_eq {K V} `{EqB K} (d e : dict K V) : Prop :=
  forall k, dget d k = dget e k.

(** ** Unicode whitespace and ASCII classes used by several parts *)

(** [str.isspace]: the whitespace code points of CPython's unicodedata
    (PyUnicode_IsWhitespace, Objects/unicodetype_db.h). *)
Definition is_space (c : N) : bool :=
  (((9 <=? c) && (c <=? 13)) || ((28 <=? c) && (c <=? 32)) || (c =? 133)
  || (c =? 160) || (c =? 5760) || ((8192 <=? c) && (c <=? 8202))
  || (c =? 8232) || (c =? 8233) || (c =? 8239) || (c =? 8287) || (c =? 12288))%N.

(** ASCII whitespace as used by [bytes.split] and [bytes.strip]. *)
Definition is_space_b (c : N) : bool :=
  (((9 <=? c) && (c <=? 13)) || (c =? 32))%N.

Definition is_digit (c : N) : bool := ((48 <=? c) && (c <=? 57))%N.
Definition is_upper (c : N) : bool := ((65 <=? c) && (c <=? 90))%N.
Definition is_lower (c : N) : bool := ((97 <=? c) && (c <=? 122))%N.

Definition ascii_lower (c : N) : N := if is_upper c then (c + 32)%N else c.
Definition ascii_upper (c : N) : N := if is_lower c then (c - 32)%N else c.

Create HintDb dict.
#[global] Hint Resolve wf_dset wf_ddel wf_dupdate dget_ddel_eq : dict.
#[global] Hint Resolve dget_Some_keys : dict.
