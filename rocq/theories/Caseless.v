(** * epsilon/caseless.py: Caseless *)

From Coq Require Import List Bool Arith NArith ZArith String Lia.
From Coq Require Import List.
From Verif Require Import Py PyStr PySearch.
Import ListNotations.
Open Scope nat_scope.

Set Implicit Arguments.

(** An operand: a plain string, or a Caseless wrapping one.  Operands without
    a [lower] method (AttributeError) are not modelled. *)
Inductive val := Plain (s : str) | Caseless (cased : str).

(** caseless.py:40-43 [Caseless.__init__]: a Caseless argument is unwrapped *)
Definition mk (v : val) : val :=
  match v with Plain s => Caseless s | Caseless s => Caseless s end.

Definition cased (v : val) : str := match v with Plain s => s | Caseless s => s end.

(** the needle of a search; [startswith] and [endswith] also take a tuple *)
Inductive affix := One (v : val) | Many (vs : list val).

Section Ops.
  (** [str.lower] and [hash] of strings are parameters. *)
  Variable lower : str -> str.
  Variable hash : str -> Z.

  (** caseless.py:72-73 [lower], and [str.lower] on a plain string *)
  Definition low (v : val) : str := lower (cased v).

  (** caseless.py:93-94 [__eq__].  For a plain left operand Python tries
      [str.__eq__], which does not know Caseless, then the right operand's
      [__eq__] with the arguments exchanged. *)
  Definition py_eq (a b : val) : bool :=
    match a, b with
    | Plain s, Plain t => eqb s t
    | Caseless _, _ => eqb (low a) (low b)
    | Plain _, Caseless _ => eqb (low b) (low a)
    end.

  (** caseless.py:96-97 [__ne__] *)
  Definition py_ne (a b : val) : bool :=
    match a, b with
    | Plain s, Plain t => negb (eqb s t)
    | Caseless _, _ => negb (eqb (low a) (low b))
    | Plain _, Caseless _ => negb (eqb (low b) (low a))
    end.

  (** the comparisons of strings *)
  Definition s_lt (a b : str) := str_ltb a b.
  Definition s_le (a b : str) := negb (str_ltb b a).
  Definition s_gt (a b : str) := str_ltb b a.
  Definition s_ge (a b : str) := negb (str_ltb a b).

  (** caseless.py:99-100 [__lt__]; reflected, [__gt__] of the right operand *)
  Definition py_lt (a b : val) : bool :=
    match a, b with
    | Plain s, Plain t => s_lt s t
    | Caseless _, _ => s_lt (low a) (low b)
    | Plain _, Caseless _ => s_gt (low b) (low a)
    end.

  (** caseless.py:102-103 [__le__] *)
  Definition py_le (a b : val) : bool :=
    match a, b with
    | Plain s, Plain t => s_le s t
    | Caseless _, _ => s_le (low a) (low b)
    | Plain _, Caseless _ => s_ge (low b) (low a)
    end.

  (** caseless.py:105-106 [__gt__] *)
  Definition py_gt (a b : val) : bool :=
    match a, b with
    | Plain s, Plain t => s_gt s t
    | Caseless _, _ => s_gt (low a) (low b)
    | Plain _, Caseless _ => s_lt (low b) (low a)
    end.

  (** caseless.py:108-109 [__ge__] *)
  Definition py_ge (a b : val) : bool :=
    match a, b with
    | Plain s, Plain t => s_ge s t
    | Caseless _, _ => s_ge (low a) (low b)
    | Plain _, Caseless _ => s_le (low b) (low a)
    end.

  (** caseless.py:111-112 [__hash__] *)
  Definition py_hash (v : val) : Z :=
    match v with Plain s => hash s | Caseless s => hash (lower s) end.

  (** The methods below are of [Caseless(s)]; [lower s] is [self.lower()]. *)

  (** caseless.py:115-116 [__contains__] *)
  Definition c_contains (s : str) (sub : val) : bool := containsb (low sub) (lower s).

  (** caseless.py:119-124 [startswith] *)
  Definition c_startswith (s : str) (p : affix) (w : window) : bool :=
    match p with
    | One v => starts_in (low v) (lower s) w
    | Many vs => existsb (fun v => starts_in (low v) (lower s) w) vs
    end.

  (** caseless.py:127-132 [endswith] *)
  Definition c_endswith (s : str) (p : affix) (w : window) : bool :=
    match p with
    | One v => ends_in (low v) (lower s) w
    | Many vs => existsb (fun v => ends_in (low v) (lower s) w) vs
    end.

  (** caseless.py:135-136 [count] *)
  Definition c_count (s : str) (sub : val) (w : window) : nat :=
    count_in (low sub) (lower s) w.

  Definition or_minus1 (o : option nat) : Z :=
    match o with Some p => Z.of_nat p | None => (-1)%Z end.
  Definition or_error (o : option nat) : res Z :=
    match o with Some p => Ok (Z.of_nat p) | None => Err ValueError end.

  (** caseless.py:139-140 [find], 143-144 [index], 147-148 [rfind],
      151-152 [rindex] *)
  Definition c_find (s : str) (sub : val) (w : window) : Z :=
    or_minus1 (find_in (low sub) (lower s) w).
  Definition c_index (s : str) (sub : val) (w : window) : res Z :=
    or_error (find_in (low sub) (lower s) w).
  Definition c_rfind (s : str) (sub : val) (w : window) : Z :=
    or_minus1 (rfind_in (low sub) (lower s) w).
  Definition c_rindex (s : str) (sub : val) (w : window) : res Z :=
    or_error (rfind_in (low sub) (lower s) w).

  (** ** Comparison *)

  Definition is_caseless (v : val) : bool :=
    match v with Caseless _ => true | Plain _ => false end.

  Lemma compare_spec a b : is_caseless a || is_caseless b = true ->
    py_eq a b = eqb (lower (cased a)) (lower (cased b))
    /\ py_ne a b = negb (eqb (lower (cased a)) (lower (cased b)))
    /\ py_lt a b = str_ltb (lower (cased a)) (lower (cased b))
    /\ py_gt a b = str_ltb (lower (cased b)) (lower (cased a))
    /\ py_le a b = negb (str_ltb (lower (cased b)) (lower (cased a)))
    /\ py_ge a b = negb (str_ltb (lower (cased a)) (lower (cased b))).
  Proof.
    destruct a as [s|s], b as [t|t]; cbn [is_caseless orb]; try discriminate; intros _;
      unfold py_eq, py_ne, py_lt, py_gt, py_le, py_ge, low, s_lt, s_gt, s_le, s_ge;
      cbn [cased]; try rewrite (eqb_sym (lower t) (lower s)); auto 10.
  Qed.

  (** exactly one of less, equal, greater *)
  Lemma trichotomy a b : is_caseless a || is_caseless b = true ->
    (py_lt a b = true /\ py_eq a b = false /\ py_gt a b = false)
    \/ (py_lt a b = false /\ py_eq a b = true /\ py_gt a b = false)
    \/ (py_lt a b = false /\ py_eq a b = false /\ py_gt a b = true).
  Proof.
    intros H. destruct (compare_spec _ _ H) as (-> & _ & -> & -> & _ & _).
    destruct (str_trichotomy (lower (cased a)) (lower (cased b)))
      as [(A & B & C)|[(A & B & C)|(A & B & C)]]; rewrite A, C.
    - left. repeat split. now apply eqb_neq.
    - right; left. rewrite B. repeat split. apply eqb_refl.
    - right; right. repeat split. now apply eqb_neq.
  Qed.

  Lemma le_iff a b : is_caseless a || is_caseless b = true ->
    py_le a b = py_lt a b || py_eq a b /\ py_ge a b = py_gt a b || py_eq a b
    /\ py_ne a b = negb (py_eq a b).
  Proof.
    intros H. destruct (trichotomy _ _ H) as [T|[T|T]]; destruct T as (T1 & T2 & T3);
      rewrite T1, T2, T3; destruct (compare_spec _ _ H) as (E1 & E2 & E3 & E4 & E5 & E6);
      rewrite E2, E5, E6, <- E1, <- E3, <- E4, T1, T2, T3; auto.
  Qed.

  Lemma lt_trans a b c : is_caseless a = true -> is_caseless b = true -> is_caseless c = true ->
    py_lt a b = true -> py_lt b c = true -> py_lt a c = true.
  Proof.
    destruct a, b, c; try discriminate. intros _ _ _. cbn [py_lt]. unfold s_lt.
    apply str_ltb_trans.
  Qed.

  Lemma eq_equivalence :
    (forall s, py_eq (Caseless s) (Caseless s) = true)
    /\ (forall a b, py_eq a b = py_eq b a)
    /\ (forall s t u, py_eq (Caseless s) (Caseless t) = true ->
          py_eq (Caseless t) (Caseless u) = true -> py_eq (Caseless s) (Caseless u) = true).
  Proof.
    repeat split.
    - intros s. cbn [py_eq]. apply eqb_refl.
    - intros [s|s] [t|t]; cbn [py_eq]; try reflexivity; apply eqb_sym.
    - intros s t u. cbn [py_eq]. rewrite !eqb_eq. congruence.
  Qed.

  Lemma eq_hash a b : is_caseless a = true -> is_caseless b = true ->
    py_eq a b = true -> py_hash a = py_hash b.
  Proof.
    destruct a as [s|s], b as [t|t]; try discriminate. intros _ _.
    cbn [py_eq py_hash low cased].
    destruct (eqb_spec (low (Caseless s)) (low (Caseless t))) as [E|]; [|discriminate].
    unfold low in E. cbn [cased] in E. congruence.
  Qed.

  (** against a plain string *)
  Lemma plain_hash s t : lower t = t -> py_eq (Caseless s) (Plain t) = true ->
    py_hash (Caseless s) = py_hash (Plain t).
  Proof.
    intros Hl. cbn [py_eq py_hash].
    destruct (eqb_spec (low (Caseless s)) (low (Plain t))) as [E|]; [|discriminate].
    unfold low in E. cbn [cased] in E. congruence.
  Qed.

  Lemma plain_hash_differs t : lower (lower t) = lower t -> hash (lower t) <> hash t ->
    py_eq (Caseless t) (Plain t) = true /\ py_hash (Caseless t) <> py_hash (Plain t).
  Proof.
    intros Hi Hh. cbn [py_eq py_hash]. split; [apply eqb_refl|auto].
  Qed.
End Ops.

(** ** Searching *)

(** changing the case of either operand changes nothing *)
Lemma search_invariant lower s s' v v' w :
  lower s = lower s' -> lower (cased v) = lower (cased v') ->
  c_contains lower s v = c_contains lower s' v'
  /\ c_startswith lower s (One v) w = c_startswith lower s' (One v') w
  /\ c_endswith lower s (One v) w = c_endswith lower s' (One v') w
  /\ c_count lower s v w = c_count lower s' v' w
  /\ c_find lower s v w = c_find lower s' v' w
  /\ c_index lower s v w = c_index lower s' v' w
  /\ c_rfind lower s v w = c_rfind lower s' v' w
  /\ c_rindex lower s v w = c_rindex lower s' v' w.
Proof.
  intros H1 H2.
  unfold c_contains, c_startswith, c_endswith, c_count, c_find, c_index, c_rfind, c_rindex, low.
  rewrite H1, H2. repeat split; reflexivity.
Qed.

(** [needle] is found in [s] at [p] up to case, inside the window *)
Definition match_at (lower : str -> str) (s needle : str) (w : window) (p : nat) : Prop :=
  lo (length s) w <= p /\ p + length needle <= hi (length s) w
  /\ lower (firstn (length needle) (skipn p s)) = lower needle.

Section CharWise.
  Variable lc : N -> N.
  Let lower : str -> str := map lc.

  Lemma occ_match s n w p : occ (lower n) (lower s) w p <-> match_at lower s n w p.
  Proof.
    unfold occ, match_at, sub_at, lower. rewrite !map_length.
    rewrite skipn_map, firstn_map. tauto.
  Qed.

  Lemma find_correct s v w :
    (forall p, c_find lower s v w = Z.of_nat p ->
       match_at lower s (cased v) w p /\ forall q, q < p -> ~ match_at lower s (cased v) w q)
    /\ (c_find lower s v w = (-1)%Z <-> forall q, ~ match_at lower s (cased v) w q)
    /\ (c_find lower s v w = (-1)%Z \/ exists p, c_find lower s v w = Z.of_nat p)
    /\ c_index lower s v w = (if (c_find lower s v w =? -1)%Z then Err ValueError
                              else Ok (c_find lower s v w)).
  Proof.
    unfold c_find, c_index, low.
    pose proof (find_in_spec (lower (cased v)) (lower s) w) as H.
    destruct (find_in (lower (cased v)) (lower s) w) as [q|]; cbn [or_minus1 or_error].
    - destruct H as [H1 H2]. apply occ_match in H1.
      split; [|split; [split|split]].
      + intros p E. apply Nat2Z.inj in E. subst. split; [exact H1|].
        intros r Hr Hm. apply occ_match in Hm. now apply (H2 r).
      + intros; lia.
      + intros Hn. exfalso. now apply (Hn q).
      + right. eauto.
      + destruct (Z.eqb_spec (Z.of_nat q) (-1)); [lia|auto].
    - split; [intros; lia|]. split; [|auto]. split; [|auto].
      intros _ q Hm. apply occ_match in Hm. now apply (H q).
  Qed.

  Lemma rfind_correct s v w :
    (forall p, c_rfind lower s v w = Z.of_nat p ->
       match_at lower s (cased v) w p /\ forall q, p < q -> ~ match_at lower s (cased v) w q)
    /\ (c_rfind lower s v w = (-1)%Z <-> forall q, ~ match_at lower s (cased v) w q)
    /\ (c_rfind lower s v w = (-1)%Z \/ exists p, c_rfind lower s v w = Z.of_nat p)
    /\ c_rindex lower s v w = (if (c_rfind lower s v w =? -1)%Z then Err ValueError
                               else Ok (c_rfind lower s v w)).
  Proof.
    unfold c_rfind, c_rindex, low.
    pose proof (rfind_in_spec (lower (cased v)) (lower s) w) as H.
    destruct (rfind_in (lower (cased v)) (lower s) w) as [q|]; cbn [or_minus1 or_error].
    - destruct H as [H1 H2]. apply occ_match in H1.
      split; [|split; [split|split]].
      + intros p E. apply Nat2Z.inj in E. subst. split; [exact H1|].
        intros r Hr Hm. apply occ_match in Hm. now apply (H2 r).
      + intros; lia.
      + intros Hn. exfalso. now apply (Hn q).
      + right. eauto.
      + destruct (Z.eqb_spec (Z.of_nat q) (-1)); [lia|auto].
    - split; [intros; lia|]. split; [|auto]. split; [|auto].
      intros _ q Hm. apply occ_match in Hm. now apply (H q).
  Qed.

  (** one needle, or any of a tuple of needles *)
  Definition needles (p : affix) : list str :=
    match p with One v => [cased v] | Many vs => map cased vs end.

  Lemma starts_correct s p w :
    c_startswith lower s p w = true
    <-> exists n, In n (needles p) /\ match_at lower s n w (lo (length s) w).
  Proof.
    assert (G : forall v, starts_in (low lower v) (lower s) w = true
                <-> match_at lower s (cased v) w (lo (length s) w)).
    { intros v. rewrite starts_in_spec. unfold low. rewrite occ_match.
      unfold lower at 2. now rewrite map_length. }
    destruct p as [v|vs]; cbn [c_startswith needles].
    - rewrite G. split.
      + intros H. exists (cased v). cbn. auto.
      + intros (n & [<-|[]] & H). exact H.
    - rewrite existsb_exists. split.
      + intros (v & Hv & H). exists (cased v). split; [now apply in_map|]. now apply G.
      + intros (n & Hn & H). apply in_map_iff in Hn. destruct Hn as (v & <- & Hv).
        exists v. split; auto. now apply G.
  Qed.

  Lemma ends_correct s p w :
    c_endswith lower s p w = true
    <-> exists n q, In n (needles p) /\ q + length n = hi (length s) w
          /\ match_at lower s n w q.
  Proof.
    assert (G : forall v, ends_in (low lower v) (lower s) w = true
                <-> exists q, q + length (cased v) = hi (length s) w
                              /\ match_at lower s (cased v) w q).
    { intros v. rewrite ends_in_spec. unfold low.
      assert (E1 : length (lower (cased v)) = length (cased v)) by apply map_length.
      assert (E2 : length (lower s) = length s) by apply map_length.
      rewrite E1, E2. split; intros (q & A & B); exists q; (split; [auto|]); now apply occ_match. }
    destruct p as [v|vs]; cbn [c_endswith needles].
    - rewrite G. split.
      + intros (q & H1 & H2). exists (cased v), q. cbn. auto.
      + intros (n & q & [<-|[]] & H). eauto.
    - rewrite existsb_exists. split.
      + intros (v & Hv & H). apply G in H. destruct H as (q & H1 & H2).
        exists (cased v), q. split; [now apply in_map|]. auto.
      + intros (n & q & Hn & H). apply in_map_iff in Hn. destruct Hn as (v & <- & Hv).
        exists v. split; auto. apply G. eauto.
  Qed.

  Lemma contains_correct s v :
    c_contains lower s v = true
    <-> exists p, match_at lower s (cased v) (None, None) p.
  Proof.
    unfold c_contains, low. rewrite containsb_spec. split.
    - intros (a & b & E). exists (length a). apply occ_match. unfold occ.
      unfold lo, hi. cbn [fst snd clamp_start clamp_end].
      split; [lia|]. rewrite E. split; [rewrite !app_length; lia|].
      unfold sub_at. rewrite skipn_app, Nat.sub_diag, skipn_all. cbn [app skipn].
      rewrite firstn_app, Nat.sub_diag, firstn_all. cbn. apply app_nil_r.
    - intros (p & H). apply occ_match in H. destruct H as (_ & _ & H). unfold sub_at in H.
      exists (firstn p (lower s)), (skipn (length (lower (cased v))) (skipn p (lower s))).
      rewrite <- H at 1. rewrite app_assoc, <- app_assoc, firstn_skipn, firstn_skipn. reflexivity.
  Qed.

  Lemma count_correct s v w :
    (exists ps, spaced (Nat.max 1 (length (cased v))) 0 ps
        /\ Forall (match_at lower s (cased v) w) ps /\ length ps = c_count lower s v w)
    /\ forall ps, spaced (Nat.max 1 (length (cased v))) 0 ps ->
         Forall (match_at lower s (cased v) w) ps -> length ps <= c_count lower s v w.
  Proof.
    unfold c_count, low.
    destruct (count_in_spec (lower (cased v)) (lower s) w) as [(ps & A & B & C) D].
    assert (E1 : length (lower (cased v)) = length (cased v)) by apply map_length.
    rewrite E1 in *. split.
    - exists ps. repeat split; auto. eapply Forall_impl; [|exact B].
      intros q. apply occ_match.
    - intros ps' Hs Hf. apply D; auto. eapply Forall_impl; [|exact Hf].
      intros q. apply occ_match.
  Qed.
End CharWise.
