(** * epsilon/caseless.py: other operands than strings, lists, and sorting *)

From Coq Require Import List Bool Arith NArith ZArith String Lia Permutation.
From Coq Require Import List.
From Verif Require Import Py PyStr PySearch Caseless.
Import ListNotations.
Open Scope nat_scope.
Open Scope py_scope.

(** ** Text, bytes and other objects *)

(** an object that is not a Caseless: text, bytes, or an object without a [lower] method
    which is equal to itself only, like None or a number *)
Inductive raw := RStr (s : str) | RBytes (s : str) | ROther (id : nat).
(** caseless.py:40-43 [Caseless.__init__] takes any of them, and keeps it as [cased] *)
Inductive obj := Raw (r : raw) | Cl (r : raw).

Definition inside (o : obj) : raw := match o with Raw r => r | Cl r => r end.

(** the comparisons of objects that are not Caseless; there is no order of text and bytes *)
Definition raw_eq (a b : raw) : bool :=
  match a, b with
  | RStr s, RStr t => eqb s t
  | RBytes s, RBytes t => eqb s t
  | ROther i, ROther j => Nat.eqb i j
  | _, _ => false
  end.
Definition raw_lt (a b : raw) : res bool :=
  match a, b with
  | RStr s, RStr t => Ok (str_ltb s t)
  | RBytes s, RBytes t => Ok (str_ltb s t)
  | _, _ => Err TypeError
  end.
(** [a in b] *)
Definition raw_in (a b : raw) : res bool :=
  match a, b with
  | RStr s, RStr t => Ok (containsb s t)
  | RBytes s, RBytes t => Ok (containsb s t)
  | _, _ => Err TypeError
  end.
(** [b.startswith(a)] for one prefix *)
Definition raw_starts (a b : raw) : res bool :=
  match a, b with
  | RStr s, RStr t => Ok (starts_in s t (None, None))
  | RBytes s, RBytes t => Ok (starts_in s t (None, None))
  | _, _ => Err TypeError
  end.

Section Ops.
  (** [str.lower]; that of bytes changes ASCII letters only *)
  Variable ulower : str -> str.

  (** caseless.py:72-73 [lower], and [lower] of what is not a Caseless *)
  Definition m_lower (o : obj) : res raw :=
    match inside o with
    | RStr s => Ok (RStr (ulower s))
    | RBytes s => Ok (RBytes (map ascii_lower s))
    | ROther _ => Err AttributeError
    end.

  (** caseless.py:93-94 [__eq__]; reflected if the left operand is not a Caseless *)
  Definition m_eq (a b : obj) : res bool :=
    match a, b with
    | Raw x, Raw y => Ok (raw_eq x y)
    | Cl _, _ => x <- m_lower a ;; y <- m_lower b ;; Ok (raw_eq x y)
    | Raw _, Cl _ => x <- m_lower b ;; y <- m_lower a ;; Ok (raw_eq x y)
    end.
  (** caseless.py:96-97 [__ne__] *)
  Definition m_ne (a b : obj) : res bool :=
    match a, b with
    | Raw x, Raw y => Ok (negb (raw_eq x y))
    | Cl _, _ => x <- m_lower a ;; y <- m_lower b ;; Ok (negb (raw_eq x y))
    | Raw _, Cl _ => x <- m_lower b ;; y <- m_lower a ;; Ok (negb (raw_eq x y))
    end.
  (** caseless.py:99-100 [__lt__]; reflected, 105-106 [__gt__] of the right operand *)
  Definition m_lt (a b : obj) : res bool :=
    match a, b with
    | Raw x, Raw y => raw_lt x y
    | Cl _, _ => x <- m_lower a ;; y <- m_lower b ;; raw_lt x y
    | Raw _, Cl _ => x <- m_lower b ;; y <- m_lower a ;; raw_lt y x
    end.
  (** caseless.py:115-116 [__contains__] *)
  Definition m_contains (self : raw) (sub : obj) : res bool :=
    x <- m_lower sub ;; y <- m_lower (Cl self) ;; raw_in x y.

  (** [str.startswith] of a tuple: one after the other, up to the first that is one *)
  Fixpoint any_starts (l : list raw) (s : raw) : res bool :=
    match l with
    | [] => Ok false
    | p :: l => b <- raw_starts p s ;; if b : bool then Ok true else any_starts l s
    end.
  (** caseless.py:119-124 [startswith] of a tuple: all of them are lowered first *)
  Definition m_startswith (self : raw) (l : list obj) : res bool :=
    ps <- mapM m_lower l ;; s <- m_lower (Cl self) ;; any_starts ps s.

  (** Python's [x in list]: compares with one item after the other. (An item that is [x]
      itself is not compared; here [x] is an object of its own.) *)
  Fixpoint m_in (x : obj) (l : list obj) : res bool :=
    match l with
    | [] => Ok false
    | y :: l => b <- m_eq y x ;; if b : bool then Ok true else m_in x l
    end.

  (** *** Specification *)

  (** text or bytes *)
  Definition stringy (r : raw) : Prop := match r with ROther _ => False | _ => True end.
  (** the same up to case, and both text or both bytes *)
  Definition alike (a b : raw) : Prop :=
    match a, b with
    | RStr s, RStr t => ulower s = ulower t
    | RBytes s, RBytes t => map ascii_lower s = map ascii_lower t
    | _, _ => False
    end.
  Definition same_kind (a b : raw) : Prop :=
    match a, b with RStr _, RStr _ => True | RBytes _, RBytes _ => True | _, _ => False end.

  Definition is_cl (o : obj) : bool := match o with Cl _ => true | Raw _ => false end.

  (** *** Proofs *)

  Lemma stringy_dec r : {stringy r} + {exists i, r = ROther i}.
  Proof. destruct r; [left; exact I|left; exact I|right; eauto]. Qed.

  Lemma eq_ok a b : is_cl a || is_cl b = true -> stringy (inside a) -> stringy (inside b) ->
    exists v, m_eq a b = Ok v /\ m_ne a b = Ok (negb v) /\ (v = true <-> alike (inside a) (inside b)).
  Proof.
    destruct a as [x|x], b as [y|y]; cbn [is_cl orb]; try discriminate; intros _ Hx Hy; destruct x as [x|x|x], y as [y|y|y];
      try contradiction; unfold m_eq, m_ne, m_lower; cbn [inside rbind raw_eq alike]; eexists; (split; [reflexivity|]); (split; [reflexivity|]);
      try rewrite eqb_eq; split; intros H; try discriminate H; try contradiction; auto.
  Qed.

  Lemma eq_err a b : is_cl a || is_cl b = true -> ~ (stringy (inside a) /\ stringy (inside b)) -> m_eq a b = Err AttributeError /\ m_ne a b = Err AttributeError /\ m_lt a b = Err AttributeError.
  Proof.
    destruct a as [x|x], b as [y|y]; cbn [is_cl orb]; try discriminate; intros _ H; destruct x as [x|x|x], y as [y|y|y];
      cbn [inside stringy] in H; try (exfalso; tauto); repeat split; reflexivity.
  Qed.

  Lemma lt_exact a b : is_cl a || is_cl b = true -> stringy (inside a) -> stringy (inside b) ->
    ((exists v, m_lt a b = Ok v) <-> same_kind (inside a) (inside b)) /\ (~ same_kind (inside a) (inside b) -> m_lt a b = Err TypeError).
  Proof.
    destruct a as [x|x], b as [y|y]; cbn [is_cl orb]; try discriminate; intros _ Hx Hy; destruct x as [x|x|x], y as [y|y|y];
      try contradiction; unfold m_lt, m_lower; cbn [inside rbind raw_lt same_kind]; (split; [split; [intros [v Hv]; discriminate Hv || exact I|intros K; try contradiction; eauto]|intros K; try reflexivity; exfalso; tauto]).
  Qed.

  Lemma eq_sym_m a b : m_eq a b = m_eq b a.
  Proof.
    assert (E : forall (x y : str), eqb x y = eqb y x) by (intros x y; destruct (eqb_spec x y), (eqb_spec y x); congruence).
    destruct a as [[x|x|x]|[x|x|x]], b as [[y|y|y]|[y|y|y]]; unfold m_eq, m_lower; cbn [inside rbind raw_eq]; try reflexivity; try (now rewrite E); now rewrite Nat.eqb_sym.
  Qed.

  Lemma in_exact r l : stringy r ->
    (m_in (Cl r) l = Ok true <-> exists l1 y l2, l = l1 ++ y :: l2 /\ Forall (fun o => stringy (inside o)) l1 /\ alike r (inside y)) /\
    (m_in (Cl r) l = Ok false <-> Forall (fun o => stringy (inside o) /\ ~ alike r (inside o)) l) /\
    (m_in (Cl r) l = Ok true \/ m_in (Cl r) l = Ok false \/ m_in (Cl r) l = Err AttributeError).
  Proof.
    intros Hr. assert (Sy : forall a b, alike a b -> alike b a) by (intros [a|a|a] [b|b|b]; cbn; congruence || tauto).
    assert (St : forall a b, alike a b -> stringy b) by (intros [a|a|a] [b|b|b]; cbn; tauto).
    induction l as [|y l (IH1 & IH2 & IH3)]; cbn [m_in].
    - split; [split; [discriminate|intros ([|] & ? & ? & E & _); discriminate E]|]. split; [split; constructor|auto].
    - destruct (stringy_dec (inside y)) as [Hy|[i Hi]].
      + destruct (eq_ok y (Cl r)) as (v & Ev & _ & Hv); [destruct y; reflexivity|exact Hy|exact Hr|]. rewrite Ev. cbn [rbind inside] in *. destruct v.
        * assert (A : alike r (inside y)) by (apply Sy, Hv; reflexivity). split; [|split; [split; [discriminate|]|auto]].
          -- split; [|reflexivity]. intros _. exists [], y, l. repeat split; auto.
          -- intros F. inversion F as [|? ? [_ N] _]; subst. contradiction.
        * assert (A : ~ alike r (inside y)) by (intros A; apply Sy, Hv in A; discriminate). split; [|split; [|exact IH3]].
          -- rewrite IH1. split.
             ++ intros (l1 & z & l2 & -> & F & Z). exists (y :: l1), z, l2. repeat split; auto.
             ++ intros ([|x l1] & z & l2 & E & F & Z); injection E as -> ->; [contradiction|]. exists l1, z, l2. inversion F; subst. repeat split; auto.
          -- rewrite IH2. split; [intros F; constructor; auto|intros F; now inversion F].
      + destruct (eq_err y (Cl r)) as (Ev & _); [destruct y; reflexivity|intros [C _]; rewrite Hi in C; exact C|]. rewrite Ev. cbn [rbind]. split; [|split; [|auto]].
        * split; [discriminate|]. intros ([|x l1] & z & l2 & E & F & Z); injection E as -> ->; [apply St in Z; rewrite Hi in Z; contradiction|].
          inversion F as [|? ? C _]; subst. rewrite Hi in C. contradiction.
        * split; [discriminate|]. intros F. inversion F as [|? ? [C _] _]; subst. rewrite Hi in C. contradiction.
  Qed.

  Lemma contains_exact self sub : stringy self ->
    (~ stringy (inside sub) -> m_contains self sub = Err AttributeError) /\
    (stringy (inside sub) -> ~ same_kind self (inside sub) -> m_contains self sub = Err TypeError) /\
    (forall s v, self = RStr s -> inside sub = RStr (cased v) -> m_contains self sub = Ok (c_contains ulower s v)) /\
    (forall s t, self = RBytes s -> inside sub = RBytes t -> m_contains self sub = Ok (c_contains (map ascii_lower) s (Plain t))).
  Proof.
    intros Hs. unfold m_contains, m_lower. cbn [inside]. repeat split.
    - destruct (inside sub); cbn [stringy]; tauto || (intros; reflexivity).
    - destruct (inside sub), self; cbn [stringy same_kind rbind raw_in]; try tauto; intros; exfalso; auto.
    - intros s v -> E. rewrite E. reflexivity.
    - intros s t -> E. rewrite E. reflexivity.
  Qed.

  (** the first prefix that matches or is of another kind decides *)
  Lemma any_starts_true l s : any_starts l s = Ok true <->
    exists l1 p l2, l = l1 ++ p :: l2 /\ Forall (fun q => raw_starts q s = Ok false) l1 /\ raw_starts p s = Ok true.
  Proof.
    induction l as [|q l IH]; cbn [any_starts]; [split; [discriminate|intros ([|] & ? & ? & E & _); discriminate E]|]. destruct (raw_starts q s) as [[|]|e] eqn:E; cbn [rbind].
    - split; [|reflexivity]. intros _. exists [], q, l. auto.
    - rewrite IH. split.
      + intros (l1 & p & l2 & -> & F & P). exists (q :: l1), p, l2. auto.
      + intros ([|x l1] & p & l2 & E' & F & P); injection E' as -> ->; [congruence|]. inversion F; subst. exists l1, p, l2. auto.
    - split; [discriminate|]. intros ([|x l1] & p & l2 & E' & F & P); injection E' as -> ->; [congruence|]. inversion F; subst. congruence.
  Qed.

  Lemma mapM_all l : (exists ps, mapM m_lower l = Ok ps) <-> Forall (fun o => stringy (inside o)) l.
  Proof.
    induction l as [|o l IH]; cbn [mapM]; [split; eauto|]. unfold m_lower at 1. split.
    - intros [ps E]. constructor; [|apply IH]; destruct (inside o); cbn [rbind stringy] in *; try discriminate; auto; destruct (mapM m_lower l); cbn [rbind] in E; try discriminate; eauto.
    - intros F. inversion F as [|? ? A B]; subst. apply IH in B. destruct B as [ps ->]. destruct (inside o); cbn [rbind]; [eauto|eauto|contradiction].
  Qed.

  Lemma mapM_kind l ps s : mapM m_lower l = Ok ps -> Forall (fun o => same_kind s (inside o)) l -> exists b, any_starts ps (match s with RStr t => RStr (ulower t) | RBytes t => RBytes (map ascii_lower t) | o => o end) = Ok b /\
    (b = true <-> exists o, In o l /\ raw_starts (match inside o with RStr t => RStr (ulower t) | RBytes t => RBytes (map ascii_lower t) | x => x end) (match s with RStr t => RStr (ulower t) | RBytes t => RBytes (map ascii_lower t) | o => o end) = Ok true).
  Proof.
    revert ps. induction l as [|o l IH]; intros ps E F; cbn [mapM] in E.
    - injection E as <-. exists false. split; [reflexivity|]. split; [discriminate|]. intros (o & [] & _).
    - inversion F as [|? ? A B]; subst. unfold m_lower at 1 in E. destruct (mapM m_lower l) as [ps'|] eqn:El; [|destruct (inside o); discriminate].
      destruct (IH ps' eq_refl B) as (b & Eb & Hb). destruct s as [s|s|s], (inside o) as [t|t|t] eqn:Eo; try contradiction; cbn [rbind] in E; injection E as <-; cbn [any_starts raw_starts rbind];
        (destruct (starts_in _ _ (None, None)) eqn:S; [exists true; split; [reflexivity|split; [intros _; exists o; split; [now left|]; rewrite Eo; cbn [raw_starts]; now rewrite S|reflexivity]]|]);
        exists b; (split; [exact Eb|]); rewrite Hb; (split; [intros (o' & I' & X); exists o'; split; [now right|exact X]|intros (o' & [<-|I'] & X); [rewrite Eo in X; cbn [raw_starts] in X; congruence|exists o'; auto]]).
  Qed.

  Lemma startswith_exact self l : stringy self ->
    (~ Forall (fun o => stringy (inside o)) l -> m_startswith self l = Err AttributeError) /\
    (Forall (fun o => same_kind self (inside o)) l -> exists b, m_startswith self l = Ok b /\ (b = true <-> exists o, In o l /\ m_startswith self [o] = Ok true)).
  Proof.
    intros Hs. split.
    - intros N. unfold m_startswith. destruct (mapM m_lower l) as [ps|e] eqn:E.
      + exfalso. apply N, mapM_all. eauto.
      + cbn [rbind]. f_equal. clear N. revert e E. induction l as [|o l IH]; cbn [mapM]; intros e E; [discriminate|]. unfold m_lower at 1 in E.
        destruct (inside o); cbn [rbind] in E; try (destruct (mapM m_lower l); cbn [rbind] in E; [discriminate|injection E as <-; now apply IH]). congruence.
    - intros F. assert (G : Forall (fun o => stringy (inside o)) l).
      { eapply Forall_impl; [|exact F]. intros o. destruct self, (inside o); cbn; tauto. }
      apply mapM_all in G. destruct G as [ps E]. destruct (mapM_kind l ps self E F) as (b & Eb & Hb). exists b. unfold m_startswith at 1. rewrite E. unfold m_lower. cbn [inside rbind].
      destruct self as [s|s|s]; try contradiction; (split; [exact Eb|]); rewrite Hb; rewrite Forall_forall in F; split; intros (o & Io & X); exists o; (split; [exact Io|]); specialize (F o Io);
        unfold m_startswith, mapM, m_lower in *; cbn [inside rbind any_starts] in *; destruct (inside o) as [t|t|t]; try contradiction; cbn [rbind any_starts] in *;
        destruct (raw_starts _ _) as [[|]|]; cbn [rbind] in *; congruence.
  Qed.
End Ops.

(** ** Sorting *)

Section Sort.
  Variable lower : str -> str.

  (** Python's [sorted(l, key=Caseless)]: stable, with [<] of the keys. Here by insertion;
      any stable sort gives the same ([sort_unique]). *)
  Fixpoint insert_key (x : str) (l : list str) : list str :=
    match l with
    | [] => [x]
    | y :: t => if py_lt lower (Caseless y) (Caseless x) then y :: insert_key x t else x :: l
    end.
  Definition sorted_key (l : list str) : list str := fold_right insert_key [] l.

  (** *** Specification *)

  (** no string is before one that is smaller in lower case *)
  Inductive ordered : list str -> Prop :=
  | ord_nil : ordered []
  | ord_cons x l : (forall y, In y l -> str_ltb (lower y) (lower x) = false) -> ordered l -> ordered (x :: l).
  (** those of one lower-case form, in order *)
  Definition group (k : str) (l : list str) : list str := filter (fun s => eqb (lower s) k) l.

  (** *** Proofs *)

  Lemma insert_in x l y : In y (insert_key x l) <-> y = x \/ In y l.
  Proof.
    induction l as [|z l IH]; cbn [insert_key]; [cbn; intuition congruence|]. destruct (py_lt lower (Caseless z) (Caseless x)); cbn [In]; [rewrite IH|]; intuition congruence.
  Qed.

  Lemma insert_perm x l : Permutation (x :: l) (insert_key x l).
  Proof.
    induction l as [|z l IH]; cbn [insert_key]; [reflexivity|]. destruct (py_lt lower (Caseless z) (Caseless x)); [|reflexivity].
    apply perm_trans with (z :: x :: l); [apply perm_swap|]. now apply perm_skip.
  Qed.

  Lemma sort_perm l : Permutation l (sorted_key l).
  Proof. induction l as [|x l IH]; [reflexivity|]. cbn [sorted_key fold_right]. fold (sorted_key l). apply perm_trans with (x :: sorted_key l); [now apply perm_skip|apply insert_perm]. Qed.

  Lemma insert_ordered x l : ordered l -> ordered (insert_key x l).
  Proof.
    induction 1 as [|z l H O IH]; cbn [insert_key]; [constructor; [intros ? []|constructor]|].
    destruct (py_lt lower (Caseless z) (Caseless x)) eqn:E; cbn [py_lt low cased] in E; unfold s_lt, low in E; cbn [cased] in E.
    - constructor; [|exact IH]. intros y Hy. apply insert_in in Hy. destruct Hy as [->|Hy]; [|auto].
      destruct (str_trichotomy (lower x) (lower z)) as [(?&?&?)|[(?&?&?)|(?&?&?)]]; congruence.
    - constructor; [|constructor; assumption]. intros y [<-|Hy]; [exact E|]. specialize (H y Hy).
      destruct (str_ltb (lower y) (lower x)) eqn:Y; [|reflexivity]. exfalso.
      destruct (str_trichotomy (lower z) (lower x)) as [(A&B&C)|[(A&B&C)|(A&B&C)]]; [congruence|congruence|].
      rewrite (str_ltb_trans _ _ _ Y C) in H. discriminate.
  Qed.

  Lemma sort_ordered l : ordered (sorted_key l).
  Proof. induction l as [|x l IH]; cbn; [constructor|now apply insert_ordered]. Qed.

  Lemma insert_group k x l : ordered l -> group k (insert_key x l) = group k (x :: l).
  Proof.
    induction 1 as [|z l H O IH]; cbn [insert_key]; [reflexivity|]. destruct (py_lt lower (Caseless z) (Caseless x)) eqn:E; [|reflexivity].
    cbn [py_lt] in E. unfold s_lt, low in E. cbn [cased] in E.
    change (group k (z :: insert_key x l)) with (if eqb (lower z) k then z :: group k (insert_key x l) else group k (insert_key x l)). rewrite IH.
    unfold group. cbn [filter]. destruct (eqb_spec (lower z) k) as [Ez|], (eqb_spec (lower x) k) as [Ek|]; try reflexivity.
    rewrite Ez, Ek, str_ltb_irrefl in E. discriminate.
  Qed.

  Lemma sort_group k l : group k (sorted_key l) = group k l.
  Proof.
    induction l as [|x l IH]; [reflexivity|]. cbn [sorted_key fold_right]. fold (sorted_key l). rewrite insert_group by apply sort_ordered.
    unfold group in *. cbn [filter]. now rewrite IH.
  Qed.

  Lemma group_in x l : In x l <-> In x (group (lower x) l).
  Proof. unfold group. rewrite filter_In, eqb_eq. tauto. Qed.

  Lemma sort_unique l1 : forall l2, ordered l1 -> ordered l2 -> (forall k, group k l1 = group k l2) -> l1 = l2.
  Proof.
    induction l1 as [|a l1 IH]; intros l2 O1 O2 G.
    - destruct l2 as [|b l2]; [reflexivity|]. exfalso. specialize (G (lower b)). unfold group in G. cbn [filter] in G. rewrite eqb_refl in G. discriminate.
    - destruct l2 as [|b l2]; [exfalso; specialize (G (lower a)); unfold group in G; cbn [filter] in G; rewrite eqb_refl in G; discriminate|].
      assert (K : lower a = lower b).
      { assert (I1 : In b (a :: l1)) by (apply (proj2 (group_in b _)); rewrite G; apply (proj1 (group_in b _)); now left).
        assert (I2 : In a (b :: l2)) by (apply (proj2 (group_in a _)); rewrite <- G; apply (proj1 (group_in a _)); now left).
        inversion O1 as [|? ? H1 _]; subst. inversion O2 as [|? ? H2 _]; subst.
        destruct I1 as [<-|I1]; [reflexivity|]. destruct I2 as [<-|I2]; [reflexivity|]. specialize (H1 b I1). specialize (H2 a I2).
        destruct (str_trichotomy (lower a) (lower b)) as [(?&?&?)|[(?&?&?)|(?&?&?)]]; congruence. }
      assert (E : a = b) by (pose proof (G (lower a)) as E; unfold group in E; cbn [filter] in E; rewrite K, !eqb_refl in E; now injection E as E _).
      subst b. f_equal. inversion O1; subst. inversion O2; subst. apply IH; [assumption..|]. intros k. specialize (G k). unfold group in *. cbn [filter] in G.
      destruct (eqb (lower a) k); [now injection G|exact G].
  Qed.

  Lemma sort_lower l : map lower (sorted_key l) = sorted_str (map lower l).
  Proof.
    induction l as [|x l IH]; [reflexivity|]. cbn [sorted_key fold_right map sorted_str]. fold (sorted_key l). fold (sorted_str (map lower l)). rewrite <- IH. clear IH.
    induction (sorted_key l) as [|y t IHt]; [reflexivity|]. cbn [insert_key map insert_str]. cbn [py_lt]. unfold s_lt, low. cbn [cased].
    destruct (str_ltb (lower y) (lower x)); cbn [map]; [now f_equal|reflexivity].
  Qed.
End Sort.
