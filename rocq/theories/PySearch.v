(** * Searching in strings: CPython's find, rfind, count, startswith, endswith

    Models of builtins (Objects/unicodeobject.c and Objects/stringlib), with
    specifications in terms of occurrences. *)

From Coq Require Import List Bool Arith NArith ZArith Lia.
From Verif Require Import Py PyStr.
Import ListNotations.
Open Scope nat_scope.

Set Implicit Arguments.

(** ADJUST_INDICES: optional start and end, negative ones counted from the
    end, clamped (the start is clamped only from below) *)
Definition clamp_end (len : nat) (e : option Z) : nat :=
  match e with
  | None => len
  | Some v => if (Z.of_nat len <? v)%Z then len
              else if (v <? 0)%Z then Z.to_nat (v + Z.of_nat len) else Z.to_nat v
  end.

Definition clamp_start (len : nat) (s : option Z) : nat :=
  match s with
  | None => 0
  | Some v => if (v <? 0)%Z then Z.to_nat (v + Z.of_nat len) else Z.to_nat v
  end.

Definition window := (option Z * option Z)%type.
Definition lo (len : nat) (w : window) : nat := clamp_start len (fst w).
Definition hi (len : nat) (w : window) : nat := clamp_end len (snd w).

(** first of the positions p, p+1, ..., p+k-1 at which [sub] occurs *)
Fixpoint search_first (sub s : str) (p k : nat) : option nat :=
  match k with
  | O => None
  | S k' => if prefixb sub (skipn p s) then Some p else search_first sub s (S p) k'
  end.

(** last of them *)
Fixpoint search_last (sub s : str) (p k : nat) : option nat :=
  match k with
  | O => None
  | S k' => if prefixb sub (skipn (p + k') s) then Some (p + k') else search_last sub s p k'
  end.

(** number of candidate positions in the window *)
Definition candidates (n st en : nat) : nat := (S en) - (st + n).

(** [s.find(sub, start, end)] as an option *)
Definition find_in (sub s : str) (w : window) : option nat :=
  search_first sub s (lo (length s) w) (candidates (length sub) (lo (length s) w) (hi (length s) w)).

Definition rfind_in (sub s : str) (w : window) : option nat :=
  search_last sub s (lo (length s) w) (candidates (length sub) (lo (length s) w) (hi (length s) w)).

(** scanning left to right, skipping past each occurrence *)
Fixpoint count_from (sub s : str) (skip p k : nat) : nat :=
  match k with
  | O => 0
  | S k' =>
      match skip with
      | S m => count_from sub s m (S p) k'
      | O => if prefixb sub (skipn p s)
             then S (count_from sub s (length sub - 1) (S p) k')
             else count_from sub s 0 (S p) k'
      end
  end.

(** [s.count(sub, start, end)] *)
Definition count_in (sub s : str) (w : window) : nat :=
  let st := lo (length s) w in
  let en := hi (length s) w in
  match sub with
  | [] => candidates 0 st en
  | _ => count_from sub s 0 st (candidates (length sub) st en)
  end.

(** [s.startswith(sub, start, end)] and [endswith]: tailmatch *)
Definition starts_in (sub s : str) (w : window) : bool :=
  let st := lo (length s) w in
  let en := hi (length s) w in
  (st + length sub <=? en) && prefixb sub (skipn st s).

Definition ends_in (sub s : str) (w : window) : bool :=
  let st := lo (length s) w in
  let en := hi (length s) w in
  (st + length sub <=? en) && prefixb sub (skipn (en - length sub) s).

(** ** Specification *)

(** the [n] characters at position [p] *)
Definition sub_at (s : str) (p n : nat) : str := firstn n (skipn p s).

Lemma prefixb_sub_at sub s p :
  prefixb sub (skipn p s) = true <-> sub_at s p (length sub) = sub.
Proof.
  unfold sub_at. rewrite prefixb_spec. split.
  - intros [t ->]. rewrite firstn_app, Nat.sub_diag, firstn_all. cbn. apply app_nil_r.
  - intros E. exists (skipn (length sub) (skipn p s)). rewrite <- E at 1.
    symmetry. apply firstn_skipn.
Qed.

Lemma prefixb_false sub s p :
  prefixb sub (skipn p s) = false <-> sub_at s p (length sub) <> sub.
Proof.
  rewrite <- prefixb_sub_at. destruct (prefixb sub (skipn p s)); split; congruence.
Qed.

(** [sub] occurs at [p], inside the window *)
Definition occ (sub s : str) (w : window) (p : nat) : Prop :=
  lo (length s) w <= p /\ p + length sub <= hi (length s) w /\ sub_at s p (length sub) = sub.

Lemma search_first_spec sub s : forall k p,
  match search_first sub s p k with
  | Some q => p <= q < p + k /\ sub_at s q (length sub) = sub
              /\ forall r, p <= r < q -> sub_at s r (length sub) <> sub
  | None => forall r, p <= r < p + k -> sub_at s r (length sub) <> sub
  end.
Proof.
  induction k as [|k IH]; intros p; cbn [search_first].
  - intros r Hr. lia.
  - destruct (prefixb sub (skipn p s)) eqn:E.
    + apply prefixb_sub_at in E. repeat split; auto; try lia.
    + apply prefixb_false in E. specialize (IH (S p)).
      destruct (search_first sub s (S p) k) as [q|].
      * destruct IH as (I1 & I2 & I3). repeat split; auto; try lia.
        intros r Hr. destruct (Nat.eq_dec r p) as [->|]; auto. apply I3. lia.
      * intros r Hr. destruct (Nat.eq_dec r p) as [->|]; auto. apply IH. lia.
Qed.

Lemma search_last_spec sub s p : forall k,
  match search_last sub s p k with
  | Some q => p <= q < p + k /\ sub_at s q (length sub) = sub
              /\ forall r, q < r < p + k -> sub_at s r (length sub) <> sub
  | None => forall r, p <= r < p + k -> sub_at s r (length sub) <> sub
  end.
Proof.
  induction k as [|k IH]; cbn [search_last].
  - intros r Hr. lia.
  - destruct (prefixb sub (skipn (p + k) s)) eqn:E.
    + apply prefixb_sub_at in E. repeat split; auto; try lia.
    + apply prefixb_false in E.
      destruct (search_last sub s p k) as [q|].
      * destruct IH as (I1 & I2 & I3). repeat split; auto; try lia.
        intros r Hr. destruct (Nat.eq_dec r (p + k)) as [->|]; auto. apply I3. lia.
      * intros r Hr. destruct (Nat.eq_dec r (p + k)) as [->|]; auto. apply IH. lia.
Qed.

Theorem find_in_spec sub s w :
  match find_in sub s w with
  | Some q => occ sub s w q /\ forall r, r < q -> ~ occ sub s w r
  | None => forall r, ~ occ sub s w r
  end.
Proof.
  unfold find_in, occ, candidates.
  set (st := lo (length s) w). set (en := hi (length s) w).
  pose proof (search_first_spec sub s (S en - (st + length sub)) st) as H.
  destruct (search_first sub s st (S en - (st + length sub))) as [q|].
  - destruct H as (H1 & H2 & H3). split; [repeat split; auto; lia|].
    intros r Hr (A & B & C). revert C. apply H3. lia.
  - intros r (A & B & C). revert C. apply H. lia.
Qed.

Theorem rfind_in_spec sub s w :
  match rfind_in sub s w with
  | Some q => occ sub s w q /\ forall r, q < r -> ~ occ sub s w r
  | None => forall r, ~ occ sub s w r
  end.
Proof.
  unfold rfind_in, occ, candidates.
  set (st := lo (length s) w). set (en := hi (length s) w).
  pose proof (search_last_spec sub s st (S en - (st + length sub))) as H.
  destruct (search_last sub s st (S en - (st + length sub))) as [q|].
  - destruct H as (H1 & H2 & H3). split; [repeat split; auto; lia|].
    intros r Hr (A & B & C). revert C. apply H3. lia.
  - intros r (A & B & C). revert C. apply H. lia.
Qed.

Theorem starts_in_spec sub s w :
  starts_in sub s w = true <-> occ sub s w (lo (length s) w).
Proof.
  unfold starts_in, occ. rewrite andb_true_iff, Nat.leb_le, prefixb_sub_at.
  intuition lia.
Qed.

Theorem ends_in_spec sub s w :
  ends_in sub s w = true <->
  exists p, p + length sub = hi (length s) w /\ occ sub s w p.
Proof.
  unfold ends_in, occ. rewrite andb_true_iff, Nat.leb_le, prefixb_sub_at. split.
  - intros [H1 H2]. exists (hi (length s) w - length sub). repeat split; auto; lia.
  - intros (p & E & H1 & H2 & H3).
    replace (hi (length s) w - length sub) with p by lia. split; [lia|auto].
Qed.

(** increasing positions from [from] on, at least [g] apart *)
Fixpoint spaced (g from : nat) (ps : list nat) : Prop :=
  match ps with
  | [] => True
  | p :: t => from <= p /\ spaced g (p + g) t
  end.

Lemma spaced_mono g ps : forall a b, a <= b -> spaced g b ps -> spaced g a ps.
Proof. destruct ps as [|p t]; cbn; auto. intros a b H [H1 H2]. split; [lia|auto]. Qed.

Lemma count_from_spec sub s : sub <> [] -> forall k skip p,
  (exists ps, spaced (length sub) (p + skip) ps
     /\ Forall (fun q => q < p + k /\ sub_at s q (length sub) = sub) ps
     /\ length ps = count_from sub s skip p k)
  /\ (forall ps, spaced (length sub) (p + skip) ps ->
        Forall (fun q => q < p + k /\ sub_at s q (length sub) = sub) ps ->
        length ps <= count_from sub s skip p k).
Proof.
  intros Hne. assert (Hl : 1 <= length sub) by (destruct sub; [congruence|cbn; lia]).
  induction k as [|k IH]; intros skip p; cbn [count_from].
  - split.
    + exists []. cbn. auto.
    + intros [|q t] Hs Hf; [auto|]. inversion Hf; subst. cbn in Hs. lia.
  - assert (Hk : p + S k = S p + k) by lia.
    destruct skip as [|m].
    + destruct (prefixb sub (skipn p s)) eqn:E.
      * apply prefixb_sub_at in E.
        destruct (IH (length sub - 1) (S p)) as [(ps & A & B & C) D].
        replace (S p + (length sub - 1)) with (p + length sub) in * by lia.
        split.
        -- exists (p :: ps). cbn [spaced length]. rewrite Hk.
           split; [split; [lia|auto]|]. split; [|now rewrite C].
           constructor; auto. split; [lia|auto].
        -- intros [|q t] Hs Hf; cbn [length]; [lia|]. inversion Hf as [|? ? [Hq Hq'] Ht]; subst.
           cbn [spaced] in Hs. apply le_n_S. apply D.
           ++ apply spaced_mono with (q + length sub); [lia|tauto].
           ++ now rewrite <- Hk.
      * apply prefixb_false in E.
        destruct (IH 0 (S p)) as [(ps & A & B & C) D]. split.
        -- exists ps. rewrite Hk. repeat split; auto. apply spaced_mono with (S p + 0); [lia|auto].
        -- intros ps' Hs Hf. apply D; [|now rewrite <- Hk].
           destruct ps' as [|q t]; auto. inversion Hf as [|? ? [Hq Hq'] Ht]; subst.
           cbn [spaced] in *. destruct Hs as [Hs1 Hs2]. split; auto.
           destruct (Nat.eq_dec q p) as [->|]; [congruence|lia].
    + destruct (IH m (S p)) as [(ps & A & B & C) D].
      replace (p + S m) with (S p + m) by lia. rewrite Hk. split; [exists ps; auto|auto].
Qed.

Lemma spaced_seq p k : spaced 1 p (seq p k).
Proof.
  revert p. induction k as [|k IH]; intros p; cbn [seq spaced]; auto. split; auto.
  replace (p + 1) with (S p) by lia. apply IH.
Qed.

Lemma spaced_bound ps : forall p k, spaced 1 p ps -> Forall (fun q => q < p + k) ps ->
  length ps <= k.
Proof.
  induction ps as [|q t IH]; intros p k Hs Hf; cbn [length]; [lia|].
  inversion Hf; subst. destruct Hs as [H Hs].
  destruct k as [|k]; [lia|]. apply le_n_S.
  apply (IH (S p)).
  - apply spaced_mono with (q + 1); [lia|auto].
  - eapply Forall_impl; [|eassumption]. cbn. intros; lia.
Qed.

Lemma sub_at_nil s p : sub_at s p 0 = [].
Proof. reflexivity. Qed.

(** [count] is the largest number of non-overlapping occurrences in the window
    (for an empty needle: of positions) *)
Theorem count_in_spec sub s w :
  (exists ps, spaced (Nat.max 1 (length sub)) 0 ps /\ Forall (occ sub s w) ps
              /\ length ps = count_in sub s w)
  /\ forall ps, spaced (Nat.max 1 (length sub)) 0 ps -> Forall (occ sub s w) ps ->
       length ps <= count_in sub s w.
Proof.
  unfold count_in, candidates.
  set (st := lo (length s) w). set (en := hi (length s) w).
  destruct sub as [|c sub'].
  - cbn [length]. replace (Nat.max 1 0) with 1 by reflexivity. split.
    + exists (seq st (S en - (st + 0))). split; [|split].
      * apply spaced_mono with st; [lia|apply spaced_seq].
      * apply Forall_forall. intros q Hq. apply in_seq in Hq. unfold occ. fold st en.
        cbn [length]. repeat split; lia.
      * apply seq_length.
    + intros ps Hs Hf. apply spaced_bound with st.
      * destruct ps as [|q t]; auto. inversion Hf as [|? ? Hq Ht]; subst. unfold occ in Hq.
        fold st in Hq. cbn [spaced] in *. split; [lia|tauto].
      * eapply Forall_impl; [|eassumption]. intros q Hq. unfold occ in Hq. fold st en in Hq.
        cbn [length] in Hq. lia.
  - set (sub := c :: sub') in *. assert (Hne : sub <> []) by discriminate.
    assert (Hl : Nat.max 1 (length sub) = length sub) by (cbn; lia). rewrite Hl.
    destruct (count_from_spec s Hne (S en - (st + length sub)) 0 st)
      as [(ps & A & B & C) D].
    split.
    + exists ps. split; [apply spaced_mono with (st + 0); [lia|auto]|]. split; auto.
      clear C D. rewrite Nat.add_0_r in A.
      assert (G : forall l f, spaced (length sub) f l -> st <= f ->
        Forall (fun q => q < st + (S en - (st + length sub)) /\ sub_at s q (length sub) = sub) l ->
        Forall (occ sub s w) l).
      { induction l as [|q t IH]; intros f Hs Hf Hl'; constructor; inversion Hl'; subst.
        - destruct Hs. unfold occ. fold st en. repeat split; try tauto; lia.
        - destruct Hs. apply (IH (q + length sub)); auto. lia. }
      eapply G; eauto.
    + intros ps' Hs Hf. apply D.
      * rewrite Nat.add_0_r. destruct ps' as [|q t]; auto. inversion Hf as [|? ? Hq Ht]; subst.
        unfold occ in Hq. fold st in Hq. cbn [spaced] in *. split; [lia|tauto].
      * eapply Forall_impl; [|eassumption]. intros q (H1 & H2 & H3). fold st in H1.
        fold en in H2. split; [lia|auto].
Qed.
