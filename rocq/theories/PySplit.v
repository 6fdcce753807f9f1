(** * [str.split(sep)] and when it undoes [sep.join] *)

From Coq Require Import List Bool Arith NArith Lia.
From Verif Require Import Py PyStr.
Import ListNotations.
Open Scope nat_scope.

(** One piece at a time; the fuel is the number of pieces allowed. *)
Fixpoint split_fuel (n : nat) (sep s : str) : list str :=
  match n with
  | O => [s]
  | S n => match find sep s with
           | None => [s]
           | Some i => firstn i s :: split_fuel n sep (skipn (i + length sep) s)
           end
  end.

(** [s.split(sep)] for a separator that is not empty.  There are at most
    [length s] separators, so the fuel is enough (see [split_fuel_enough]). *)
Definition split (sep s : str) : list str := split_fuel (length s) sep s.

Lemma find_at p s i : find p s = Some i ->
  s = firstn i s ++ p ++ skipn (i + length p) s /\ length (firstn i s) = i.
Proof.
  intros H. pose proof (find_spec p s) as Hf. rewrite H in Hf. destruct Hf as [(a & b & E & Hl) _].
  subst s i. rewrite firstn_app, Nat.sub_diag, firstn_all. cbn [firstn]. rewrite app_nil_r.
  split; [|auto]. rewrite skipn_app, skipn_all2 by lia. cbn [app].
  replace (length a + length p - length a) with (length p) by lia.
  rewrite skipn_app, skipn_all, Nat.sub_diag. reflexivity.
Qed.

Lemma split_fuel_enough sep : sep <> [] -> forall n m s, length s <= n -> n <= m ->
  split_fuel m sep s = split_fuel n sep s.
Proof.
  intros Hne. induction n as [|n IH]; intros m s Hs Hm.
  - destruct s; [|cbn in Hs; lia]. destruct m; [reflexivity|]. cbn [split_fuel find].
    destruct sep; [congruence|]. reflexivity.
  - destruct m as [|m]; [lia|]. cbn [split_fuel]. destruct (find sep s) as [i|] eqn:E; [|reflexivity].
    f_equal. apply IH; [|lia]. destruct (find_at _ _ _ E) as [E1 E2].
    apply (f_equal (@length N)) in E1. rewrite !app_length, E2 in E1.
    destruct sep; [congruence|]. cbn [length] in *. rewrite skipn_length in *. lia.
Qed.

(** the two cases of [split] *)
Lemma split_None sep s : find sep s = None -> split sep s = [s].
Proof. unfold split. intros H. destruct (length s); cbn [split_fuel]; [reflexivity|now rewrite H]. Qed.

Lemma split_Some sep s i : sep <> [] -> find sep s = Some i ->
  split sep s = firstn i s :: split sep (skipn (i + length sep) s).
Proof.
  unfold split. intros Hne H. destruct (find_at _ _ _ H) as [E1 E2].
  apply (f_equal (@length N)) in E1. rewrite !app_length, E2 in E1.
  destruct (length s) as [|n] eqn:El; [destruct sep; [congruence|]; cbn in E1; lia|].
  cbn [split_fuel]. rewrite H. f_equal.
  apply split_fuel_enough; auto. destruct sep; [congruence|]. cbn [length] in *. lia.
Qed.

(** joining the pieces gives the text back, whatever the separator *)
Theorem join_split sep : sep <> [] -> forall n s, length s <= n -> join sep (split sep s) = s /\ split sep s <> [].
Proof.
  intros Hne. induction n as [|n IH]; intros s Hs.
  - destruct s; [|cbn in Hs; lia]. split; [reflexivity|discriminate].
  - destruct (find sep s) as [i|] eqn:E; [|rewrite split_None by exact E; split; [reflexivity|discriminate]].
    rewrite (split_Some _ _ _ Hne E). destruct (find_at _ _ _ E) as [E1 E2].
    destruct (IH (skipn (i + length sep) s)) as [H1 H2].
    { apply (f_equal (@length N)) in E1. rewrite !app_length, E2 in E1.
      destruct sep; [congruence|]. cbn [length] in *. lia. }
    split; [|discriminate]. destruct (split sep (skipn (i + length sep) s)); [congruence|].
    cbn [join]. cbn [join] in H1. rewrite H1. symmetry. exact E1.
Qed.

(** A separator whose occurrences cannot overlap: no proper part at its
    beginning is also at its end. *)
Definition no_overlap (sep : str) : Prop :=
  sep <> [] /\ forall a b c, sep = a ++ b -> sep = b ++ c -> b = [] \/ b = sep.

Lemma find_first sep x t : no_overlap sep -> containsb sep x = false ->
  find sep (x ++ sep ++ t) = Some (length x).
Proof.
  intros [Hne Hov] Hx. pose proof (find_spec sep (x ++ sep ++ t)) as Hf.
  destruct (find sep (x ++ sep ++ t)) as [i|] eqn:E.
  - destruct Hf as [(a & b & E1 & E2) Hmin].
    destruct (lt_eq_lt_dec i (length x)) as [[Hlt| ->]|Hgt]; [|reflexivity|].
    + (* an occurrence that starts inside x *)
      exfalso. assert (Hx2 : x = a ++ skipn i x).
      { rewrite <- (firstn_skipn i x) at 1. f_equal.
        apply (f_equal (firstn i)) in E1. rewrite !firstn_app in E1.
        replace (i - length x) with 0 in E1 by lia. replace (i - length a) with 0 in E1 by lia.
        cbn [firstn] in E1. rewrite !app_nil_r in E1. rewrite E1. apply firstn_all2. lia. }
      set (u := skipn i x) in *. rewrite Hx2, <- app_assoc in E1. apply app_inv_head in E1.
      (* u ++ sep ++ t = sep ++ b, u not empty and sep not within u *)
      assert (Hu : u <> []).
      { intros Hu. rewrite Hu, app_nil_r in Hx2. subst a. lia. }
      destruct (le_lt_dec (length sep) (length u)) as [Hl|Hl].
      * apply containsb_false with (a := a) (b := skipn (length sep) u) in Hx. apply Hx.
        rewrite Hx2 at 1. f_equal. rewrite <- (firstn_skipn (length sep) u) at 1. f_equal.
        apply (f_equal (firstn (length sep))) in E1. rewrite !firstn_app in E1.
        replace (length sep - length u) with 0 in E1 by lia. rewrite Nat.sub_diag, firstn_all in E1.
        cbn [firstn] in E1. rewrite !app_nil_r in E1. exact E1.
      * set (v := skipn (length u) sep).
        assert (Es : sep = u ++ v).
        { unfold v. rewrite <- (firstn_skipn (length u) sep) at 1. f_equal.
          apply (f_equal (firstn (length u))) in E1. rewrite !firstn_app in E1.
          rewrite Nat.sub_diag, firstn_all in E1. replace (length u - length sep) with 0 in E1 by lia.
          cbn [firstn] in E1. rewrite !app_nil_r in E1. symmetry. exact E1. }
        assert (E3 : sep ++ t = v ++ b).
        { apply (app_inv_head u). rewrite E1. rewrite Es at 1. now rewrite <- app_assoc. }
        assert (Hlv : length v < length sep).
        { rewrite Es, app_length. destruct u; [congruence|]. cbn. lia. }
        assert (Es2 : sep = v ++ skipn (length v) sep).
        { rewrite <- (firstn_skipn (length v) sep) at 1. f_equal.
          apply (f_equal (firstn (length v))) in E3. rewrite !firstn_app in E3.
          rewrite Nat.sub_diag, firstn_all in E3. replace (length v - length sep) with 0 in E3 by lia.
          cbn [firstn] in E3. rewrite !app_nil_r in E3. exact E3. }
        destruct (Hov _ _ _ Es Es2) as [Hv|Hv].
        -- rewrite Hv in Es. rewrite app_nil_r in Es. rewrite Es in Hl. lia.
        -- rewrite Hv in Hlv. lia.
    + exfalso. apply (Hmin (length x) Hgt). exists x, t. auto.
  - exfalso. apply (Hf (length x)). exists x, t. auto.
Qed.

Theorem split_join sep : no_overlap sep -> forall l, l <> [] ->
  Forall (fun x => containsb sep x = false) l -> split sep (join sep l) = l.
Proof.
  intros Ho. induction l as [|x l IH]; intros Hn HF; [congruence|]. inversion HF; subst.
  destruct l as [|y l].
  - cbn [join]. apply split_None. unfold containsb in H1. destruct (find sep x); congruence.
  - change (join sep (x :: y :: l)) with (x ++ sep ++ join sep (y :: l)).
    rewrite (split_Some _ _ _ (proj1 Ho) (find_first sep x _ Ho H1)).
    rewrite firstn_app, Nat.sub_diag, firstn_all. cbn [firstn]. rewrite app_nil_r. f_equal.
    rewrite skipn_app, skipn_all2 by lia. cbn [app].
    replace (length x + length sep - length x) with (length sep) by lia.
    rewrite skipn_app, skipn_all, Nat.sub_diag. cbn [app skipn]. apply IH; auto. discriminate.
Qed.

(** and no other separator has this property *)
Theorem split_join_only sep : sep <> [] ->
  (forall l, l <> [] -> Forall (fun x => containsb sep x = false) l -> split sep (join sep l) = l) ->
  no_overlap sep.
Proof.
  intros Hne H. split; [exact Hne|]. intros a b c E1 E2.
  destruct b as [|b0 b']; [auto|]. right. set (b := b0 :: b') in *.
  destruct a as [|a0 a']; [exact (eq_sym E1)|]. exfalso. set (a := a0 :: a') in *.
  (* a ++ sep = a ++ b ++ c = sep ++ c *)
  assert (Ha : containsb sep a = false).
  { apply containsb_false. intros x y E. apply (f_equal (@length N)) in E.
    rewrite !app_length in E. apply (f_equal (@length N)) in E1. rewrite app_length in E1.
    assert (length b > 0) by (cbn; lia). lia. }
  assert (Hz : containsb sep [] = false).
  { apply containsb_false. intros x y E. symmetry in E. apply app_eq_nil in E as [_ E].
    apply app_eq_nil in E as [E _]. congruence. }
  specialize (H [a; []] ltac:(discriminate) ltac:(auto)). cbn [join] in H. rewrite app_nil_r in H.
  assert (E : a ++ sep = sep ++ c) by (rewrite E2 at 1; rewrite app_assoc, <- E1; reflexivity).
  assert (Hf : find sep (a ++ sep) = Some 0).
  { rewrite E. pose proof (find_spec sep (sep ++ c)) as Hf. destruct (find sep (sep ++ c)) as [i|].
    - destruct Hf as [_ Hm]. destruct i; [reflexivity|]. exfalso. apply (Hm 0); [lia|]. exists [], c. auto.
    - exfalso. apply (Hf 0). exists [], c. auto. }
  rewrite (split_Some _ _ _ Hne Hf) in H. cbn [firstn] in H. discriminate.
Qed.

(** a decision procedure, to check separators by computation *)
Definition no_overlapb (sep : str) : bool :=
  negb (eqb sep []) &&
  forallb (fun i => negb (eqb (skipn i sep) (firstn (length sep - i) sep))) (seq 1 (length sep - 1)).

Lemma no_overlapb_spec sep : no_overlapb sep = true -> no_overlap sep.
Proof.
  unfold no_overlapb. rewrite andb_true_iff, negb_true_iff. intros [H1 H2].
  split; [destruct sep; [discriminate|discriminate]|]. intros a b c E1 E2.
  destruct b as [|b0 b']; [auto|]. right. set (b := b0 :: b') in *.
  destruct a as [|a0 a']; [exact (eq_sym E1)|]. exfalso. set (a := a0 :: a') in *.
  rewrite forallb_forall in H2. specialize (H2 (length a)).
  assert (Hl : length sep = length a + length b) by (rewrite E1 at 1; apply app_length).
  assert (Hin : In (length a) (seq 1 (length sep - 1))) by (apply in_seq; assert (length b > 0) by (cbn; lia); assert (length a > 0) by (cbn; lia); lia).
  specialize (H2 Hin). rewrite negb_true_iff in H2. apply eqb_neq in H2. apply H2.
  replace (length sep - length a) with (length b) by lia.
  rewrite E1 at 1. rewrite skipn_app, skipn_all, Nat.sub_diag. cbn [app skipn].
  rewrite E2. rewrite firstn_app, Nat.sub_diag, firstn_all. cbn [firstn]. now rewrite app_nil_r.
Qed.
