(** * String operations of CPython used by several parts

    Models of builtins ([str.split], comparison, [sorted], [str.join],
    substring search), with their specifications. *)

From Coq Require Import List Bool Arith NArith ZArith Lia.
From Coq Require Import Permutation Sorting.Sorted.
From Verif Require Import Py.
Import ListNotations.

(** ** join *)

Fixpoint join (sep : str) (l : list str) : str :=
  match l with
  | [] => []
  | [x] => x
  | x :: t => x ++ sep ++ join sep t
  end.

(** ** Lexicographic comparison by code point *)

Fixpoint str_ltb (a b : str) : bool :=
  match a, b with
  | _, [] => false
  | [], _ :: _ => true
  | x :: a', y :: b' => if (x <? y)%N then true
                        else if (x =? y)%N then str_ltb a' b' else false
  end.

Definition str_leb (a b : str) : bool := negb (str_ltb b a).

Lemma str_ltb_irrefl a : str_ltb a a = false.
Proof.
  induction a as [|x a IH]; cbn; auto.
  rewrite N.ltb_irrefl, N.eqb_refl. auto.
Qed.

Lemma str_ltb_trans a : forall b c,
  str_ltb a b = true -> str_ltb b c = true -> str_ltb a c = true.
Proof.
  induction a as [|x a IH]; intros [|y b] [|z c]; cbn; try discriminate; auto.
  destruct (N.ltb_spec x y), (N.ltb_spec y z), (N.ltb_spec x z),
    (N.eqb_spec x y), (N.eqb_spec y z), (N.eqb_spec x z); subst; try lia;
    try discriminate; eauto.
Qed.

Lemma str_trichotomy a : forall b,
  (str_ltb a b = true /\ a <> b /\ str_ltb b a = false)
  \/ (str_ltb a b = false /\ a = b /\ str_ltb b a = false)
  \/ (str_ltb a b = false /\ a <> b /\ str_ltb b a = true).
Proof.
  induction a as [|x a IH]; intros [|y b]; cbn.
  - right; left; auto.
  - left; repeat split; congruence.
  - right; right; repeat split; congruence.
  - destruct (N.ltb_spec x y), (N.ltb_spec y x), (N.eqb_spec x y), (N.eqb_spec y x);
      subst; try lia; try congruence.
    + left; repeat split; congruence.
    + right; right; repeat split; congruence.
    + destruct (IH b) as [(?&?&?)|[(?&?&?)|(?&?&?)]].
      * left; repeat split; congruence.
      * right; left; repeat split; congruence.
      * right; right; repeat split; congruence.
Qed.

(** ** sorted, on strings *)

Fixpoint insert_str (x : str) (l : list str) : list str :=
  match l with
  | [] => [x]
  | y :: t => if str_ltb y x then y :: insert_str x t else x :: l
  end.

Definition sorted_str (l : list str) : list str := fold_right insert_str [] l.

Lemma insert_str_perm x l : Permutation (x :: l) (insert_str x l).
Proof.
  induction l as [|y t IH]; cbn; auto.
  destruct (str_ltb y x); auto.
  apply perm_trans with (y :: x :: t); [apply perm_swap|auto].
Qed.

Lemma sorted_str_perm l : Permutation l (sorted_str l).
Proof.
  induction l as [|x t IH]; cbn; auto.
  apply perm_trans with (x :: sorted_str t); auto using insert_str_perm.
Qed.

Lemma insert_str_sorted x l :
  Sorted (fun a b => str_ltb b a = false) l ->
  Sorted (fun a b => str_ltb b a = false) (insert_str x l).
Proof.
  induction l as [|y t IH]; cbn; intros Hs; auto.
  inversion Hs; subst. destruct (str_ltb y x) eqn:E.
  - constructor; auto. destruct t as [|z t]; cbn.
    + constructor. destruct (str_trichotomy x y) as [(?&?&?)|[(?&?&?)|(?&?&?)]]; congruence.
    + inversion H2; subst. destruct (str_ltb z x); constructor; auto.
      destruct (str_trichotomy x y) as [(?&?&?)|[(?&?&?)|(?&?&?)]]; congruence.
  - constructor; auto.
Qed.

Lemma sorted_str_sorted l : Sorted (fun a b => str_ltb b a = false) (sorted_str l).
Proof. induction l; cbn; auto using insert_str_sorted. Qed.

(** ** str.split() with no argument *)

(** runs of non-whitespace; [cur] is the (reversed) run being collected *)
Fixpoint split_ws_aux (sp : N -> bool) (cur : str) (s : str) : list str :=
  match s with
  | [] => match cur with [] => [] | _ => [rev cur] end
  | c :: t => if sp c
              then match cur with
                   | [] => split_ws_aux sp [] t
                   | _ => rev cur :: split_ws_aux sp [] t
                   end
              else split_ws_aux sp (c :: cur) t
  end.

Definition split_ws (s : str) : list str := split_ws_aux is_space [] s.

Definition no_space (sp : N -> bool) (w : str) : Prop := Forall (fun c => sp c = false) w.

Lemma split_ws_aux_words sp s : forall cur, no_space sp cur ->
  Forall (fun w => w <> [] /\ no_space sp w) (split_ws_aux sp cur s).
Proof.
  induction s as [|c t IH]; intros cur Hc; cbn.
  - destruct cur as [|x cur]; constructor; auto. split.
    + intros E. apply (f_equal (@length N)) in E. rewrite rev_length in E. discriminate.
    + apply Forall_rev. exact Hc.
  - destruct (sp c) eqn:E.
    + destruct cur as [|x cur]; [apply IH; constructor|].
      constructor; [|apply IH; constructor]. split.
      * intros E'. apply (f_equal (@length N)) in E'. rewrite rev_length in E'. discriminate.
      * apply Forall_rev. exact Hc.
    + apply IH. constructor; auto.
Qed.

(** every word of a whitespace split is non-empty and has no whitespace *)
Lemma split_ws_words s : Forall (fun w => w <> [] /\ no_space is_space w) (split_ws s).
Proof. apply split_ws_aux_words. constructor. Qed.

Lemma split_ws_aux_word sp w : forall cur rest, no_space sp w ->
  split_ws_aux sp cur (w ++ rest) = split_ws_aux sp (rev w ++ cur) rest.
Proof.
  induction w as [|c w IH]; intros cur rest Hw; cbn; auto.
  inversion Hw; subst. rewrite H1. rewrite IH by auto. now rewrite <- app_assoc.
Qed.

Lemma split_ws_aux_sep sp seps : forall rest,
  Forall (fun c => sp c = true) seps ->
  split_ws_aux sp [] (seps ++ rest) = split_ws_aux sp [] rest.
Proof.
  induction seps as [|c t IH]; intros rest Hs; cbn; auto.
  inversion Hs; subst. rewrite H1. auto.
Qed.

(** splitting words joined by one whitespace character gives the words back *)
Lemma split_ws_join sp c (l : list str) : sp c = true ->
  Forall (fun w => w <> [] /\ no_space sp w) l ->
  split_ws_aux sp [] (join [c] l) = l.
Proof.
  intros Hc. induction l as [|w l IH]; intros Hl; cbn [join]; auto.
  inversion Hl as [|? ? [Hw1 Hw2] Hl']; subst.
  assert (Hne : forall r, rev w ++ r <> []).
  { intros r E. apply app_eq_nil in E. destruct E as [E _].
    apply (f_equal (@length N)) in E. rewrite rev_length in E.
    destruct w; [congruence|discriminate]. }
  destruct l as [|w2 l2].
  - rewrite <- (app_nil_r w) at 1. rewrite split_ws_aux_word by auto.
    cbn. specialize (Hne []). rewrite app_nil_r in *.
    destruct (rev w) eqn:E; [congruence|]. rewrite <- E, rev_involutive. reflexivity.
  - rewrite split_ws_aux_word by auto. rewrite app_nil_r. cbn [app split_ws_aux].
    rewrite Hc. specialize (Hne []). rewrite app_nil_r in Hne.
    destruct (rev w) eqn:E; [congruence|]. rewrite <- E, rev_involutive.
    f_equal. apply IH; auto.
Qed.

(** ** Prefixes and substring search *)

Fixpoint prefixb (p s : str) : bool :=
  match p, s with
  | [], _ => true
  | _ :: _, [] => false
  | x :: p', y :: s' => N.eqb x y && prefixb p' s'
  end.

Lemma prefixb_spec p : forall s, prefixb p s = true <-> exists t, s = p ++ t.
Proof.
  induction p as [|x p IH]; intros [|y s]; cbn.
  - split; auto. exists []; auto.
  - split; auto. exists (y :: s); auto.
  - split; [discriminate|]. intros [t E]; discriminate.
  - rewrite andb_true_iff, N.eqb_eq, IH. split.
    + intros [-> [t ->]]. exists t; auto.
    + intros [t E]. inversion E; subst. split; auto. exists t; auto.
Qed.

Lemma prefixb_app p t : prefixb p (p ++ t) = true.
Proof. apply prefixb_spec. eauto. Qed.

Definition suffixb (p s : str) : bool := prefixb (rev p) (rev s).

Lemma suffixb_spec p s : suffixb p s = true <-> exists t, s = t ++ p.
Proof.
  unfold suffixb. rewrite prefixb_spec. split; intros [t E].
  - exists (rev t). rewrite <- (rev_involutive s), E, rev_app_distr, rev_involutive. auto.
  - exists (rev t). rewrite E, rev_app_distr. auto.
Qed.

(** the first position at which [p] occurs in [s] ([s.find(p)]) *)
Fixpoint find (p s : str) : option nat :=
  if prefixb p s then Some O
  else match s with
       | [] => None
       | _ :: t => option_map S (find p t)
       end.

Definition occurs_at (p s : str) (i : nat) : Prop :=
  exists a b, s = a ++ p ++ b /\ length a = i.

Lemma occurs_at_cons p x s i : occurs_at p s i -> occurs_at p (x :: s) (S i).
Proof. intros (a & b & E & Hl). exists (x :: a), b. split; cbn; congruence. Qed.

Lemma find_spec p s :
  match find p s with
  | Some i => occurs_at p s i /\ forall j, (j < i)%nat -> ~ occurs_at p s j
  | None => forall j, ~ occurs_at p s j
  end.
Proof.
  induction s as [|x s IH]; cbn [find].
  - destruct (prefixb p []) eqn:E.
    + apply prefixb_spec in E as [t E]. split; [|intros; lia].
      exists [], t. auto.
    + intros j (a & b & Es & Hl). symmetry in Es.
      apply app_eq_nil in Es as [-> Es]. cbn in Es.
      assert (prefixb p [] = true) by (apply prefixb_spec; eauto). congruence.
  - destruct (prefixb p (x :: s)) eqn:E.
    + apply prefixb_spec in E as [t E]. split; [|intros; lia].
      exists [], t. auto.
    + assert (H0 : ~ occurs_at p (x :: s) 0).
      { intros (a & b & Es & Hl). destruct a; [|discriminate]. cbn in Es.
        assert (prefixb p (x :: s) = true) by (apply prefixb_spec; eauto). congruence. }
      assert (HS : forall j, occurs_at p (x :: s) (S j) -> occurs_at p s j).
      { intros j (a & b & Es & Hl). destruct a as [|y a]; [discriminate|].
        cbn in Es, Hl. inversion Es; inversion Hl; subst. exists a, b. auto. }
      destruct (find p s) as [i|]; cbn [option_map].
      * destruct IH as [IH1 IH2]. split; [now apply occurs_at_cons|].
        intros [|j] Hj; auto. intros Ho. apply (IH2 j); [lia|auto].
      * intros [|j]; auto. intros Ho. apply (IH j); auto.
Qed.

(** [p in s] *)
Definition containsb (p s : str) : bool :=
  match find p s with Some _ => true | None => false end.

Lemma containsb_spec p s : containsb p s = true <-> exists a b, s = a ++ p ++ b.
Proof.
  unfold containsb. pose proof (find_spec p s) as Hf.
  destruct (find p s) as [i|].
  - split; auto. intros _. destruct Hf as [(a & b & E & _) _]. eauto.
  - split; [discriminate|]. intros (a & b & E). exfalso.
    apply (Hf (length a)). exists a, b. auto.
Qed.

Lemma containsb_false p s : containsb p s = false <-> forall a b, s <> a ++ p ++ b.
Proof.
  split.
  - intros H a b E. assert (containsb p s = true) by (apply containsb_spec; eauto).
    congruence.
  - intros H. destruct (containsb p s) eqn:E; auto.
    apply containsb_spec in E as (a & b & E). exfalso. eapply H; eauto.
Qed.
