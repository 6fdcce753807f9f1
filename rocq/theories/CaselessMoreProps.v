(** * C169 and C170: Caseless with other objects, and as the key of a sort *)

From Coq Require Import List Bool Arith NArith ZArith String Lia Permutation.
From Coq Require Import List.
From Verif Require Import Py PyStr PySearch Caseless CaselessProps CaselessMore.
Import ListNotations.
Open Scope nat_scope.

(** ** C169: compared with any object *)

(** [==] and [!=] with any object, and looking in any list, never raise *)
Definition C169_full (ulower : str -> str) : Prop :=
  (forall a b, is_cl a || is_cl b = true -> exists v, m_eq ulower a b = Ok v /\ m_ne ulower a b = Ok (negb v)) /\
  (forall s l, exists v, m_in ulower (Cl (RStr s)) l = Ok v).

(** They raise for None, on either side, for every Caseless; and so does looking in a list
    in which None is before what is looked for. *)
Theorem C169_none_refuted : forall ulower, let none := Raw (ROther 0) in
  (forall r, m_eq ulower (Cl r) none = Err AttributeError /\ m_eq ulower none (Cl r) = Err AttributeError /\ m_ne ulower (Cl r) none = Err AttributeError) /\
  (forall s l, m_in ulower (Cl (RStr s)) (none :: l) = Err AttributeError) /\ ~ C169_full ulower.
Proof.
  intros ulower none. unfold none. split.
  - intros r. destruct r; repeat split; reflexivity.
  - split; [reflexivity|]. intros [_ F]. destruct (F [] [Raw (ROther 0)]) as [v E]. discriminate E.
Qed.
Print Assumptions C169_none_refuted.

(** Exactly: they raise AttributeError if one of the two is neither text nor bytes;
    otherwise they are equal if both are text, or both bytes, and the same in lower
    case. *)
Theorem C169_equal_partial : forall ulower a b, is_cl a || is_cl b = true ->
  (stringy (inside a) /\ stringy (inside b) ->
     exists v, m_eq ulower a b = Ok v /\ m_ne ulower a b = Ok (negb v) /\ (v = true <-> alike ulower (inside a) (inside b))) /\
  (~ (stringy (inside a) /\ stringy (inside b)) -> m_eq ulower a b = Err AttributeError /\ m_ne ulower a b = Err AttributeError /\ m_lt ulower a b = Err AttributeError) /\
  m_eq ulower a b = m_eq ulower b a.
Proof.
  intros ulower a b H. split; [intros [A B]; now apply eq_ok|]. split; [now apply eq_err|apply eq_sym_m].
Qed.
Print Assumptions C169_equal_partial.

(** Text and bytes are unequal but have no order. *)
Theorem C169_order_partial : forall ulower a b, is_cl a || is_cl b = true -> stringy (inside a) -> stringy (inside b) ->
  ((exists v, m_lt ulower a b = Ok v) <-> same_kind (inside a) (inside b)) /\ (~ same_kind (inside a) (inside b) -> m_lt ulower a b = Err TypeError).
Proof. exact lt_exact. Qed.
Print Assumptions C169_order_partial.

(** Looking in a list: found if an item is equal and all before it are text or bytes; not
    found if all are and none is equal; otherwise AttributeError. *)
Theorem C169_list_partial : forall ulower r l, stringy r ->
  (m_in ulower (Cl r) l = Ok true <-> exists l1 y l2, l = l1 ++ y :: l2 /\ Forall (fun o => stringy (inside o)) l1 /\ alike ulower r (inside y)) /\
  (m_in ulower (Cl r) l = Ok false <-> Forall (fun o => stringy (inside o) /\ ~ alike ulower r (inside o)) l) /\
  (m_in ulower (Cl r) l = Ok true \/ m_in ulower (Cl r) l = Ok false \/ m_in ulower (Cl r) l = Err AttributeError).
Proof. exact in_exact. Qed.
Print Assumptions C169_list_partial.

(** Looking in a Caseless: bytes in text, and text in bytes, raise TypeError. *)
Theorem C169_contains_partial : forall ulower self sub, stringy self ->
  (~ stringy (inside sub) -> m_contains ulower self sub = Err AttributeError) /\
  (stringy (inside sub) -> ~ same_kind self (inside sub) -> m_contains ulower self sub = Err TypeError) /\
  (forall s v, self = RStr s -> inside sub = RStr (cased v) -> m_contains ulower self sub = Ok (c_contains ulower s v)) /\
  (forall s t, self = RBytes s -> inside sub = RBytes t -> m_contains ulower self sub = Ok (c_contains (map ascii_lower) s (Plain t))).
Proof. exact contains_exact. Qed.
Print Assumptions C169_contains_partial.

(** startswith of a tuple: of strings of its kind, whether one of them is a prefix; if one
    is no string at all, AttributeError, even after one that is a prefix. *)
Theorem C169_tuple_partial : forall ulower self l, stringy self ->
  (~ Forall (fun o => stringy (inside o)) l -> m_startswith ulower self l = Err AttributeError) /\
  (Forall (fun o => same_kind self (inside o)) l -> exists b, m_startswith ulower self l = Ok b /\ (b = true <-> exists o, In o l /\ m_startswith ulower self [o] = Ok true)).
Proof. exact startswith_exact. Qed.
Print Assumptions C169_tuple_partial.

(** For text this is C23's comparison. *)
Theorem C169_text : forall ulower a b, 
  let obj v := match v with Plain s => Raw (RStr s) | Caseless s => Cl (RStr s) end in
  m_eq ulower (obj a) (obj b) = Ok (py_eq ulower a b) /\ m_ne ulower (obj a) (obj b) = Ok (py_ne ulower a b) /\ m_lt ulower (obj a) (obj b) = Ok (py_lt ulower a b).
Proof. intros ulower [a|a] [b|b]; repeat split; reflexivity. Qed.
Print Assumptions C169_text.

Example C169_nonvacuous :
  m_eq ex_lower (Cl (RStr (lit "Spam"))) (Raw (RStr (lit "sPAM"))) = Ok true /\ m_eq ex_lower (Cl (RStr (lit "Spam"))) (Raw (RBytes (lit "spam"))) = Ok false /\
  m_lt ex_lower (Cl (RStr (lit "Spam"))) (Raw (RBytes (lit "spam"))) = Err TypeError /\
  m_in ex_lower (Cl (RStr (lit "Spam"))) [Raw (RBytes (lit "spam")); Raw (RStr (lit "SPAM")); Raw (ROther 0)] = Ok true /\
  m_in ex_lower (Cl (RStr (lit "Spam"))) [Raw (ROther 0); Raw (RStr (lit "SPAM"))] = Err AttributeError /\
  m_startswith ex_lower (RStr (lit "Spam")) [Raw (RStr (lit "x")); Cl (RStr (lit "sp"))] = Ok true /\
  m_startswith ex_lower (RStr (lit "Spam")) [Cl (RStr (lit "sp")); Raw (ROther 1)] = Err AttributeError /\
  m_contains ex_lower (RBytes (lit "Eggs and SPAM")) (Raw (RBytes (lit "Spam"))) = Ok true.
Proof. repeat split. Qed.

(** ** C170: sorted(l, key=Caseless) *)

(** The result has the strings of the list, none before one that is smaller in lower case,
    and those that differ in case only in the order they had; it is the only list with
    these properties. *)
Theorem C170_sorted : forall lower l,
  Permutation l (sorted_key lower l) /\ ordered lower (sorted_key lower l) /\
  (forall k, filter (fun s => eqb (lower s) k) (sorted_key lower l) = filter (fun s => eqb (lower s) k) l) /\
  forall l', ordered lower l' -> (forall k, filter (fun s => eqb (lower s) k) l' = filter (fun s => eqb (lower s) k) l) -> l' = sorted_key lower l.
Proof.
  intros lower l. split; [apply sort_perm|]. split; [apply sort_ordered|]. split; [intros k; apply sort_group|].
  intros l' O G. apply (sort_unique lower); [exact O|apply sort_ordered|]. intros k. rewrite sort_group. apply G.
Qed.
Print Assumptions C170_sorted.

(** The case of the strings does not matter to where they go. *)
Theorem C170_case : forall lower l l', map lower l = map lower l' -> map lower (sorted_key lower l) = map lower (sorted_key lower l').
Proof. intros lower l l' H. now rewrite !sort_lower, H. Qed.
Print Assumptions C170_case.

(** A list sorted so stays as it is. *)
Theorem C170_again : forall lower l, sorted_key lower (sorted_key lower l) = sorted_key lower l.
Proof. intros lower l. apply (sort_unique lower); [apply sort_ordered..|]. intros k. apply sort_group. Qed.
Print Assumptions C170_again.

(** the example of the documentation, and two that differ in case only *)
Example C170_nonvacuous : sorted_key ex_lower [lit "FOO"; lit "bar"] = [lit "bar"; lit "FOO"] /\
  sorted_key ex_lower [lit "Foo"; lit "bar"; lit "foo"; lit "BAR"; lit "FOO"] = [lit "bar"; lit "BAR"; lit "Foo"; lit "foo"; lit "FOO"].
Proof. split; reflexivity. Qed.
