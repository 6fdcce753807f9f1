(** * Properties of epsilon/caseless.py *)

From Coq Require Import List Bool Arith NArith ZArith String Lia.
From Coq Require Import List.
From Verif Require Import Py PyStr PySearch Caseless.
Import ListNotations.
Open Scope nat_scope.

(** a stand-in for [str.lower] (exact for ASCII text) used by the examples *)
Definition ex_lower : str -> str := map ascii_lower.
(** a stand-in for [hash] which separates the strings of the examples *)
Definition ex_hash (s : str) : Z := fold_left (fun a c => (a * 1114112 + Z.of_N c)%Z) s 0%Z.

(** C23.  As soon as one operand is a Caseless, the six comparisons are those
    of the lower-cased strings. *)
Theorem C23_comparisons : forall lower a b, is_caseless a || is_caseless b = true ->
  py_eq lower a b = eqb (lower (cased a)) (lower (cased b))
  /\ py_ne lower a b = negb (eqb (lower (cased a)) (lower (cased b)))
  /\ py_lt lower a b = str_ltb (lower (cased a)) (lower (cased b))
  /\ py_gt lower a b = str_ltb (lower (cased b)) (lower (cased a))
  /\ py_le lower a b = negb (str_ltb (lower (cased b)) (lower (cased a)))
  /\ py_ge lower a b = negb (str_ltb (lower (cased a)) (lower (cased b))).
Proof. exact compare_spec. Qed.
Print Assumptions C23_comparisons.

(** Exactly one of [<], [==], [>] holds. *)
Theorem C23_trichotomy : forall lower a b, is_caseless a || is_caseless b = true ->
  (py_lt lower a b = true /\ py_eq lower a b = false /\ py_gt lower a b = false)
  \/ (py_lt lower a b = false /\ py_eq lower a b = true /\ py_gt lower a b = false)
  \/ (py_lt lower a b = false /\ py_eq lower a b = false /\ py_gt lower a b = true).
Proof. exact trichotomy. Qed.
Print Assumptions C23_trichotomy.

Theorem C23_derived : forall lower a b, is_caseless a || is_caseless b = true ->
  py_le lower a b = py_lt lower a b || py_eq lower a b
  /\ py_ge lower a b = py_gt lower a b || py_eq lower a b
  /\ py_ne lower a b = negb (py_eq lower a b).
Proof. exact le_iff. Qed.
Print Assumptions C23_derived.

Theorem C23_lt_transitive : forall lower a b c,
  is_caseless a = true -> is_caseless b = true -> is_caseless c = true ->
  py_lt lower a b = true -> py_lt lower b c = true -> py_lt lower a c = true.
Proof. exact lt_trans. Qed.
Print Assumptions C23_lt_transitive.

Theorem C23_eq_equivalence : forall lower,
  (forall s, py_eq lower (Caseless s) (Caseless s) = true)
  /\ (forall a b, py_eq lower a b = py_eq lower b a)
  /\ (forall s t u, py_eq lower (Caseless s) (Caseless t) = true ->
        py_eq lower (Caseless t) (Caseless u) = true ->
        py_eq lower (Caseless s) (Caseless u) = true).
Proof. exact eq_equivalence. Qed.
Print Assumptions C23_eq_equivalence.

(** Equal Caseless values have equal hashes. *)
Theorem C23_hash : forall lower hash a b, is_caseless a = true -> is_caseless b = true ->
  py_eq lower a b = true -> py_hash lower hash a = py_hash lower hash b.
Proof. exact eq_hash. Qed.
Print Assumptions C23_hash.

(** Caseless(v), for a plain string as well as for another Caseless [v], compares and
    hashes by the lower-case form of the text of [v], on either side of a comparison. *)
Theorem C23_made : forall lower hash v b,
  py_eq lower (mk v) b = eqb (lower (cased v)) (lower (cased b))
  /\ py_eq lower b (mk v) = eqb (lower (cased b)) (lower (cased v))
  /\ py_ne lower (mk v) b = negb (eqb (lower (cased v)) (lower (cased b)))
  /\ py_lt lower (mk v) b = str_ltb (lower (cased v)) (lower (cased b))
  /\ py_lt lower b (mk v) = str_ltb (lower (cased b)) (lower (cased v))
  /\ py_le lower (mk v) b = negb (str_ltb (lower (cased b)) (lower (cased v)))
  /\ py_le lower b (mk v) = negb (str_ltb (lower (cased v)) (lower (cased b)))
  /\ py_hash lower hash (mk v) = hash (lower (cased v)).
Proof.
  intros lower hash v b. assert (M : is_caseless (mk v) = true) by (now destruct v). assert (C : cased (mk v) = cased v) by (now destruct v).
  destruct (compare_spec lower (mk v) b) as (A1 & A2 & A3 & _ & A5 & _); [now rewrite M|].
  destruct (compare_spec lower b (mk v)) as (B1 & _ & B3 & _ & B5 & _); [now rewrite M, orb_true_r|].
  rewrite C in *. repeat (split; [assumption|]). destruct v; reflexivity.
Qed.
Print Assumptions C23_made.

Example C23_nonvacuous :
  py_eq ex_lower (Caseless (lit "Spam")) (mk (Caseless (lit "sPAM"))) = true
  /\ py_lt ex_lower (Caseless (lit "bar")) (Plain (lit "FOO")) = true
  /\ py_lt ex_lower (Plain (lit "FOO")) (Caseless (lit "bar")) = false
  /\ py_lt ex_lower (Plain (lit "FOO")) (Plain (lit "bar")) = true.
Proof. repeat split. Qed.

(** C24.  The full claim is false: a Caseless equals the plain string it was
    made from, but whenever [hash] separates that string from its lower-case
    form, their hashes differ. *)
Definition C24_full (lower : str -> str) (hash : str -> Z) : Prop :=
  forall s t, py_eq lower (Caseless s) (Plain t) = true ->
  py_hash lower hash (Caseless s) = py_hash lower hash (Plain t).

Theorem C24_plain_hash_refuted : forall lower hash t,
  lower (lower t) = lower t -> hash (lower t) <> hash t ->
  (py_eq lower (Caseless t) (Plain t) = true
   /\ py_hash lower hash (Caseless t) <> py_hash lower hash (Plain t))
  /\ ~ C24_full lower hash.
Proof.
  intros lower hash t Hi Hh.
  destruct (plain_hash_differs lower hash t Hi Hh) as [A B].
  split; [auto|]. intros F. exact (B (F t t A)).
Qed.
Print Assumptions C24_plain_hash_refuted.

(** What holds: the hashes agree if the plain string is lower case.  Missing:
    plain strings with upper-case characters. *)
Theorem C24_plain_hash_partial : forall lower hash s t,
  lower t = t -> py_eq lower (Caseless s) (Plain t) = true ->
  py_hash lower hash (Caseless s) = py_hash lower hash (Plain t).
Proof. exact plain_hash. Qed.
Print Assumptions C24_plain_hash_partial.

(** Exactly: the hashes of an equal Caseless and plain string are the same if and only
    if the hash does not tell the plain string from its lower-case form. *)
Theorem C24_exact_partial : forall lower hash s t,
  py_eq lower (Caseless s) (Plain t) = true ->
  (py_hash lower hash (Caseless s) = py_hash lower hash (Plain t) <-> hash t = hash (lower t)).
Proof.
  intros lower hash s t H. cbn [py_eq] in H. apply (proj1 (eqb_eq _ _)) in H. unfold low in H. cbn [cased] in H. cbn [py_hash]. unfold low. cbn [cased].
  rewrite H. split; intros E; symmetry; exact E.
Qed.
Print Assumptions C24_exact_partial.

Example C24_nonvacuous :
  ex_lower (ex_lower (lit "Foo")) = ex_lower (lit "Foo")
  /\ ex_hash (ex_lower (lit "Foo")) <> ex_hash (lit "Foo")
  /\ ex_lower (lit "foo") = lit "foo"
  /\ py_eq ex_lower (Caseless (lit "FOO")) (Plain (lit "foo")) = true.
Proof. repeat split. discriminate. Qed.

(** C25.  For every lower-casing that works character by character: [find]
    gives the least position, inside the window, where the needle matches up to
    case, and -1 exactly if there is none; [index] raises ValueError instead of
    answering -1. *)
Theorem C25_find : forall lc s v w, let lower := map lc in
  (forall p, c_find lower s v w = Z.of_nat p ->
     match_at lower s (cased v) w p /\ forall q, q < p -> ~ match_at lower s (cased v) w q)
  /\ (c_find lower s v w = (-1)%Z <-> forall q, ~ match_at lower s (cased v) w q)
  /\ (c_find lower s v w = (-1)%Z \/ exists p, c_find lower s v w = Z.of_nat p)
  /\ c_index lower s v w = (if (c_find lower s v w =? -1)%Z then Err ValueError
                            else Ok (c_find lower s v w)).
Proof. exact find_correct. Qed.
Print Assumptions C25_find.

(** [rfind] and [rindex]: the greatest such position. *)
Theorem C25_rfind : forall lc s v w, let lower := map lc in
  (forall p, c_rfind lower s v w = Z.of_nat p ->
     match_at lower s (cased v) w p /\ forall q, p < q -> ~ match_at lower s (cased v) w q)
  /\ (c_rfind lower s v w = (-1)%Z <-> forall q, ~ match_at lower s (cased v) w q)
  /\ (c_rfind lower s v w = (-1)%Z \/ exists p, c_rfind lower s v w = Z.of_nat p)
  /\ c_rindex lower s v w = (if (c_rfind lower s v w =? -1)%Z then Err ValueError
                             else Ok (c_rfind lower s v w)).
Proof. exact rfind_correct. Qed.
Print Assumptions C25_rfind.

Theorem C25_startswith : forall lc s p w, let lower := map lc in
  c_startswith lower s p w = true
  <-> exists n, In n (needles p) /\ match_at lower s n w (lo (length s) w).
Proof. exact starts_correct. Qed.
Print Assumptions C25_startswith.

Theorem C25_endswith : forall lc s p w, let lower := map lc in
  c_endswith lower s p w = true
  <-> exists n q, In n (needles p) /\ q + length n = hi (length s) w
        /\ match_at lower s n w q.
Proof. exact ends_correct. Qed.
Print Assumptions C25_endswith.

Theorem C25_contains : forall lc s v, let lower := map lc in
  c_contains lower s v = true <-> exists p, match_at lower s (cased v) (None, None) p.
Proof. exact contains_correct. Qed.
Print Assumptions C25_contains.

(** [count]: the greatest number of non-overlapping matches in the window (of
    positions, for an empty needle). *)
Theorem C25_count : forall lc s v w, let lower := map lc in
  (exists ps, spaced (Nat.max 1 (length (cased v))) 0 ps
      /\ Forall (match_at lower s (cased v) w) ps /\ length ps = c_count lower s v w)
  /\ forall ps, spaced (Nat.max 1 (length (cased v))) 0 ps ->
       Forall (match_at lower s (cased v) w) ps -> length ps <= c_count lower s v w.
Proof. exact count_correct. Qed.
Print Assumptions C25_count.

(** For every lower-casing at all, changing the case of either operand changes
    no answer. *)
Theorem C25_case_invariant : forall lower s s' v v' w,
  lower s = lower s' -> lower (cased v) = lower (cased v') ->
  c_contains lower s v = c_contains lower s' v'
  /\ c_startswith lower s (One v) w = c_startswith lower s' (One v') w
  /\ c_endswith lower s (One v) w = c_endswith lower s' (One v') w
  /\ c_count lower s v w = c_count lower s' v' w
  /\ c_find lower s v w = c_find lower s' v' w
  /\ c_index lower s v w = c_index lower s' v' w
  /\ c_rfind lower s v w = c_rfind lower s' v' w
  /\ c_rindex lower s v w = c_rindex lower s' v' w.
Proof. exact search_invariant. Qed.
Print Assumptions C25_case_invariant.

(** A lower-casing that changes lengths (as that of U+0130 does) yields
    positions which are wrong in the original string. *)
Theorem C25_needs_charwise : exists lower s v p,
  (forall t u, lower (t ++ u) = lower t ++ lower u)
  /\ c_find lower s v (None, None) = Z.of_nat p
  /\ ~ match_at lower s (cased v) (None, None) p.
Proof.
  exists (flat_map (fun c => if (c =? 0x130)%N then [0x69; 0x307]%N else [c])),
         [0x130; 0x78]%N, (Plain [0x78]%N), 2.
  split; [intros t u; apply flat_map_app|]. split; [reflexivity|].
  intros (_ & _ & H). discriminate H.
Qed.
Print Assumptions C25_needs_charwise.

Example C25_nonvacuous :
  c_find ex_lower (lit "Eggs and SPAM and spam") (Plain (lit "Spam")) (None, None) = 9%Z
  /\ c_rfind ex_lower (lit "Eggs and SPAM and spam") (Caseless (lit "Spam")) (None, Some (-1)%Z) = 9%Z
  /\ c_find ex_lower (lit "abc") (Plain []) (Some 4%Z, None) = (-1)%Z
  /\ c_count ex_lower (lit "aAaAa") (Plain (lit "aa")) (None, None) = 2
  /\ c_count ex_lower (lit "abc") (Plain []) (None, None) = 4
  /\ c_startswith ex_lower (lit "Text/Plain") (Many [Plain (lit "image/"); Plain (lit "text/")]) (None, None) = true
  /\ c_endswith ex_lower (lit "Text/Plain") (One (Plain (lit "PLAIN"))) (Some 5%Z, None) = true
  /\ c_endswith ex_lower (lit "Text/Plain") (One (Plain (lit "PLAIN"))) (Some 6%Z, None) = false
  /\ c_contains ex_lower (lit "Text/Plain") (Plain (lit "T/P")) = true.
Proof. repeat split. Qed.
