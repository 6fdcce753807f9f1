(** * epsilon/view.py: SlicedView *)

From Coq Require Import List ZArith Lia Bool.
From Verif Require Import Py.
Import ListNotations.
Open Scope Z_scope.

(** ** Builtins used by SlicedView *)

(** A slice object; [None] for an omitted member. *)
Record slice := Slice { sl_start : option Z; sl_stop : option Z; sl_step : option Z }.

(** One bound of [slice.indices] (CPython Objects/sliceobject.c,
    _PySlice_GetLongIndices): [dflt] when omitted, otherwise normalized and
    clamped to [lower, upper]. *)
Definition adjust (dflt lower upper len : Z) (x : option Z) : Z :=
  match x with
  | None => dflt
  | Some v =>
      if v <? 0 then
        if v + len <? lower then lower else v + len
      else if upper <? v then upper else v
  end.

(** [slice.indices(len)] *)
Definition slice_indices (b : slice) (len : Z) : res (Z * Z * Z) :=
  let step := match sl_step b with None => 1 | Some s => s end in
  if step =? 0 then Err ValueError
  else
    let neg := step <? 0 in
    let lower := if neg then -1 else 0 in
    let upper := if neg then len - 1 else len in
    let start := adjust (if neg then upper else lower) lower upper len (sl_start b) in
    let stop := adjust (if neg then lower else upper) lower upper len (sl_stop b) in
    Ok (start, stop, step).

(** [len(range(start, stop, step))] (Objects/rangeobject.c,
    compute_range_length), for a non-zero step *)
Definition range_len (start stop step : Z) : Z :=
  if 0 <? step then
    if start <? stop then 1 + (stop - 1 - start) / step else 0
  else
    if stop <? start then 1 + (start - 1 - stop) / (- step) else 0.

(** [range(start, stop, step)[i]] (rangeobject.c, compute_range_item) *)
Definition range_item (start stop step i : Z) : res Z :=
  let n := range_len start stop step in
  let i' := if i <? 0 then i + n else i in
  if (i' <? 0) || (n <=? i') then Err IndexError else Ok (start + i' * step).

(** Indexing a list or tuple with an integer. *)
Definition list_index {A} (l : list A) (i : Z) : res A :=
  let i' := if i <? 0 then i + Z.of_nat (length l) else i in
  if i' <? 0 then Err IndexError
  else match nth_error l (Z.to_nat i') with
       | Some x => Ok x
       | None => Err IndexError
       end.

(** ** SlicedView *)

(** A sequence is a plain sequence or a SlicedView on a sequence
    (view.py:26-28, [SlicedView.__init__]). *)
Inductive seq (A : Type) :=
| SList (l : list A)
| SView (s : seq A) (bounds : slice).
Arguments SList {A} l.
Arguments SView {A} s bounds.

(** [len]: of a list, or [SlicedView.__len__] (view.py:51-55) through
    [_getIndices] (view.py:31-34). *)
Fixpoint slen {A} (s : seq A) : res Z :=
  match s with
  | SList l => Ok (Z.of_nat (length l))
  | SView s' b =>
      rbind (slen s') (fun n =>
      rbind (slice_indices b n) (fun t =>
      let '(start, stop, step) := t in
      Ok (range_len start stop step)))
  end.

(** [s[i]] for an integer [i]: of a list, or [SlicedView.__getitem__]
    (view.py:37-48, the integer branch). *)
Fixpoint sget {A} (s : seq A) (i : Z) : res A :=
  match s with
  | SList l => list_index l i
  | SView s' b =>
      rbind (slen s') (fun n =>
      rbind (slice_indices b n) (fun t =>
      let '(start, stop, step) := t in
      rbind (range_item start stop step i) (fun j =>
      sget s' j)))
  end.

(** [s[b]] for a slice [b] of a SlicedView [s] (view.py:46-47). *)
Definition sget_slice {A} (s : seq A) (b : slice) : seq A := SView s b.

(** Iterating an object that only has [__getitem__]: Python calls it with 0,
    1, 2, ... until IndexError.  [fuel] bounds the number of elements; running
    out of it is an error value. *)
Fixpoint iter_from {A} (fuel : nat) (s : seq A) (i : Z) : res (list A) :=
  match fuel with
  | O => Err (OtherExn 0)
  | S f => match sget s i with
           | Ok x => rbind (iter_from f s (i + 1)) (fun t => Ok (x :: t))
           | Err IndexError => Ok []
           | Err e => Err e
           end
  end.

(** ** Specification: Python's list slicing, stated with list operations only *)

(** every [k]-th element, starting with the first; [n] counts down *)
Fixpoint every_from {A} (k n : nat) (l : list A) : list A :=
  match l with
  | [] => []
  | x :: t => match n with
              | O => x :: every_from k (k - 1) t
              | S n' => every_from k n' t
              end
  end.

Definition every {A} (k : nat) (l : list A) : list A := every_from k 0 l.

(** a bound counted from the end when negative, clamped to [0, n] *)
Definition clamp_bound (n : nat) (dflt : nat) (x : option Z) : nat :=
  match x with
  | None => dflt
  | Some v => let v' := if v <? 0 then v + Z.of_nat n else v in
              Z.to_nat (Z.max 0 (Z.min (Z.of_nat n) v'))
  end.

(** the mirror image of a bound, for slices running backwards *)
Definition mirror (n : nat) (x : option Z) : option Z :=
  match x with
  | None => None
  | Some v => let v' := if v <? 0 then v + Z.of_nat n else v in
              Some (Z.max 0 (Z.of_nat n - 1 - v'))
  end.

(** [l[i:j:k]] with [k] positive: every [k]-th element between the bounds *)
Definition slice_fwd {A} (l : list A) (i j : option Z) (k : nat) : list A :=
  let n := length l in
  let lo := clamp_bound n 0 i in
  let hi := clamp_bound n n j in
  every k (firstn (hi - lo) (skipn lo l)).

(** [l[b]]: a negative step slices the reversed list with mirrored bounds *)
Definition list_slice {A} (l : list A) (b : slice) : res (list A) :=
  let step := match sl_step b with None => 1 | Some s => s end in
  if step =? 0 then Err ValueError
  else if 0 <? step then Ok (slice_fwd l (sl_start b) (sl_stop b) (Z.to_nat step))
  else Ok (slice_fwd (rev l) (mirror (length l) (sl_start b))
             (mirror (length l) (sl_stop b)) (Z.to_nat (- step))).

(** The list a (nested) view stands for. *)
Fixpoint denote {A} (s : seq A) : res (list A) :=
  match s with
  | SList l => Ok l
  | SView s' b => rbind (denote s') (fun l => list_slice l b)
  end.

(** ** Proofs *)

Lemma every_from_length {A} k (l : list A) : (0 < k)%nat -> forall n,
  Z.of_nat (length (every_from k n l)) =
  if Z.of_nat n <? Z.of_nat (length l)
  then 1 + (Z.of_nat (length l) - 1 - Z.of_nat n) / Z.of_nat k else 0.
Proof.
  intros Hk. induction l as [|x t IH]; intros n; cbn [every_from length].
  - destruct (Z.ltb_spec (Z.of_nat n) (Z.of_nat 0)); simpl; lia.
  - destruct n as [|n'].
    + cbn [length]. rewrite Nat2Z.inj_succ, IH.
      replace (Z.of_nat 0 <? Z.of_nat (S (length t))) with true
        by (symmetry; apply Z.ltb_lt; lia).
      destruct (Z.ltb_spec (Z.of_nat (k - 1)) (Z.of_nat (length t))) as [Hlt|Hge].
      * replace (Z.of_nat (S (length t)) - 1 - Z.of_nat 0)
          with ((Z.of_nat (length t) - 1 - Z.of_nat (k - 1)) + 1 * Z.of_nat k) by lia.
        rewrite Z.div_add by lia. lia.
      * rewrite Z.div_small by lia. lia.
    + rewrite IH.
      destruct (Z.ltb_spec (Z.of_nat n') (Z.of_nat (length t)));
      destruct (Z.ltb_spec (Z.of_nat (S n')) (Z.of_nat (S (length t)))); try lia.
      f_equal. f_equal. lia.
Qed.

Lemma every_from_nth {A} k (l : list A) : (0 < k)%nat -> forall n i,
  nth_error (every_from k n l) i = nth_error l (n + i * k).
Proof.
  intros Hk. induction l as [|x t IH]; intros n i; cbn [every_from].
  - destruct i, (n + _)%nat; reflexivity.
  - destruct n as [|n'].
    + destruct i as [|i']; [reflexivity|].
      cbn [nth_error]. rewrite IH.
      replace (0 + S i' * k)%nat with (S (k - 1 + i' * k)) by lia. reflexivity.
    + rewrite IH. reflexivity.
Qed.

Lemma nth_error_skipn' {A} (l : list A) : forall k i,
  nth_error (skipn k l) i = nth_error l (k + i).
Proof.
  induction l as [|x t IH]; intros [|k] i; cbn; auto.
  destruct i; reflexivity.
Qed.

Lemma nth_error_firstn' {A} (l : list A) : forall k i, (i < k)%nat ->
  nth_error (firstn k l) i = nth_error l i.
Proof.
  induction l as [|x t IH]; intros [|k] [|i] Hi; cbn; auto; try lia.
  apply IH; lia.
Qed.

Lemma nth_error_rev' {A} (l : list A) i : (i < length l)%nat ->
  nth_error (rev l) i = nth_error l (length l - 1 - i).
Proof.
  intros Hi. destruct l as [|d t]; [cbn in Hi; lia|].
  set (l := d :: t) in *.
  rewrite (nth_error_nth' (rev l) d) by (rewrite rev_length; auto).
  rewrite rev_nth by auto.
  rewrite (nth_error_nth' l d) by lia.
  f_equal. f_equal. lia.
Qed.

Lemma clamp_bound_le n d x : (d <= n)%nat -> (clamp_bound n d x <= n)%nat.
Proof. unfold clamp_bound. destruct x; lia. Qed.

(** the length of a forward slice *)
Lemma slice_fwd_length {A} (l : list A) i j k : (0 < k)%nat ->
  Z.of_nat (length (slice_fwd l i j k)) =
  range_len (Z.of_nat (clamp_bound (length l) 0 i))
            (Z.of_nat (clamp_bound (length l) (length l) j)) (Z.of_nat k).
Proof.
  intros Hk. unfold slice_fwd, every, range_len.
  set (lo := clamp_bound _ _ i). set (hi := clamp_bound _ _ j).
  assert (Hlo : (lo <= length l)%nat).
  { unfold lo, clamp_bound. destruct i; lia. }
  assert (Hhi : (hi <= length l)%nat).
  { unfold hi, clamp_bound. destruct j; lia. }
  rewrite every_from_length by auto.
  rewrite firstn_length, skipn_length.
  replace (0 <? Z.of_nat k) with true by (symmetry; apply Z.ltb_lt; lia).
  replace (Nat.min (hi - lo) (length l - lo)) with (hi - lo)%nat by lia.
  destruct (Z.ltb_spec (Z.of_nat 0) (Z.of_nat (hi - lo)));
  destruct (Z.ltb_spec (Z.of_nat lo) (Z.of_nat hi)); try lia.
  f_equal. f_equal. lia.
Qed.

Lemma range_len_nonneg a b s : 0 <= range_len a b s.
Proof.
  unfold range_len.
  destruct (Z.ltb_spec 0 s); [destruct (Z.ltb_spec a b)|destruct (Z.ltb_spec b a)]; try lia.
  - pose proof (Z.div_pos (b - 1 - a) s). lia.
  - destruct (Z.eq_dec s 0) as [->|]; [rewrite Zdiv_0_r; lia|].
    pose proof (Z.div_pos (a - 1 - b) (- s)). lia.
Qed.

Lemma range_len_lt a b s n : 0 <= n < range_len a b s -> 0 < s -> a + n * s < b.
Proof.
  unfold range_len. intros Hn Hs.
  replace (0 <? s) with true in Hn by (symmetry; apply Z.ltb_lt; lia).
  destruct (Z.ltb_spec a b); [|lia].
  assert (n <= (b - 1 - a) / s) by lia.
  assert (s * ((b - 1 - a) / s) <= b - 1 - a) by (apply Z.mul_div_le; lia).
  nia.
Qed.

(** the elements of a forward slice *)
Lemma slice_fwd_nth {A} (l : list A) i j k n : (0 < k)%nat ->
  (n < length (slice_fwd l i j k))%nat ->
  nth_error (slice_fwd l i j k) n =
  nth_error l (clamp_bound (length l) 0 i + n * k).
Proof.
  intros Hk Hn.
  assert (HnZ : 0 <= Z.of_nat n <
    range_len (Z.of_nat (clamp_bound (length l) 0 i))
              (Z.of_nat (clamp_bound (length l) (length l) j)) (Z.of_nat k)).
  { rewrite <- slice_fwd_length by auto. lia. }
  apply range_len_lt in HnZ; [|lia].
  unfold slice_fwd, every.
  rewrite every_from_nth by auto.
  rewrite nth_error_firstn' by lia.
  rewrite nth_error_skipn'. f_equal; lia.
Qed.

(** [slice.indices] for a positive step gives the clamped bounds *)
Lemma adjust_fwd_start n x :
  adjust 0 0 (Z.of_nat n) (Z.of_nat n) x = Z.of_nat (clamp_bound n 0 x).
Proof.
  unfold adjust, clamp_bound. destruct x as [v|]; [|reflexivity].
  destruct (Z.ltb_spec v 0).
  - destruct (Z.ltb_spec (v + Z.of_nat n) 0); lia.
  - destruct (Z.ltb_spec (Z.of_nat n) v); lia.
Qed.

Lemma adjust_fwd_stop n x :
  adjust (Z.of_nat n) 0 (Z.of_nat n) (Z.of_nat n) x = Z.of_nat (clamp_bound n n x).
Proof.
  unfold adjust, clamp_bound. destruct x as [v|]; [|reflexivity].
  destruct (Z.ltb_spec v 0).
  - destruct (Z.ltb_spec (v + Z.of_nat n) 0); lia.
  - destruct (Z.ltb_spec (Z.of_nat n) v); lia.
Qed.

(** for a negative step they are the mirror images *)
Lemma adjust_bwd_start n x :
  adjust (Z.of_nat n - 1) (-1) (Z.of_nat n - 1) (Z.of_nat n) x =
  Z.of_nat n - 1 - Z.of_nat (clamp_bound n 0 (mirror n x)).
Proof.
  unfold adjust, clamp_bound, mirror. destruct x as [v|]; [|simpl; lia].
  destruct (Z.ltb_spec v 0).
  - destruct (Z.ltb_spec (v + Z.of_nat n) (-1));
    destruct (Z.ltb_spec (Z.max 0 (Z.of_nat n - 1 - (v + Z.of_nat n))) 0); lia.
  - destruct (Z.ltb_spec (Z.of_nat n - 1) v);
    destruct (Z.ltb_spec (Z.max 0 (Z.of_nat n - 1 - v)) 0); lia.
Qed.

Lemma adjust_bwd_stop n x :
  adjust (-1) (-1) (Z.of_nat n - 1) (Z.of_nat n) x =
  Z.of_nat n - 1 - Z.of_nat (clamp_bound n n (mirror n x)).
Proof.
  unfold adjust, clamp_bound, mirror. destruct x as [v|]; [|simpl; lia].
  destruct (Z.ltb_spec v 0).
  - destruct (Z.ltb_spec (v + Z.of_nat n) (-1));
    destruct (Z.ltb_spec (Z.max 0 (Z.of_nat n - 1 - (v + Z.of_nat n))) 0); lia.
  - destruct (Z.ltb_spec (Z.of_nat n - 1) v);
    destruct (Z.ltb_spec (Z.max 0 (Z.of_nat n - 1 - v)) 0); lia.
Qed.

Lemma range_len_mirror n a b s : 0 < s ->
  range_len (n - 1 - a) (n - 1 - b) (- s) = range_len a b s.
Proof.
  intros Hs. unfold range_len.
  replace (0 <? - s) with false by (symmetry; apply Z.ltb_ge; lia).
  replace (0 <? s) with true by (symmetry; apply Z.ltb_lt; lia).
  destruct (Z.ltb_spec (n - 1 - b) (n - 1 - a)); destruct (Z.ltb_spec a b); try lia.
  rewrite Z.opp_involutive. f_equal. f_equal. lia.
Qed.

(** What one layer of SlicedView does, in terms of the slice specification. *)
Lemma layer_correct {A} (l m : list A) (b : slice) :
  list_slice l b = Ok m ->
  exists start stop step,
    slice_indices b (Z.of_nat (length l)) = Ok (start, stop, step)
    /\ range_len start stop step = Z.of_nat (length m)
    /\ forall n, (n < length m)%nat ->
         0 <= start + Z.of_nat n * step
         /\ nth_error l (Z.to_nat (start + Z.of_nat n * step)) = nth_error m n.
Proof.
  unfold list_slice, slice_indices.
  set (step := match sl_step b with None => 1 | Some s => s end).
  destruct (Z.eqb_spec step 0) as [|Hnz]; [discriminate|].
  destruct (Z.ltb_spec 0 step) as [Hpos|Hneg].
  - intros E; inversion E; subst m; clear E.
    replace (step <? 0) with false by (symmetry; apply Z.ltb_ge; lia).
    assert (Hk : (0 < Z.to_nat step)%nat) by lia.
    eexists _, _, step. split; [reflexivity|].
    rewrite adjust_fwd_start, adjust_fwd_stop.
    split.
    + rewrite slice_fwd_length by auto. rewrite Z2Nat.id by lia. reflexivity.
    + intros n Hn. split; [nia|].
      rewrite slice_fwd_nth by auto.
      f_equal. rewrite Z2Nat.inj_add by nia.
      rewrite Nat2Z.id, Z2Nat.inj_mul by nia. rewrite Nat2Z.id. reflexivity.
  - intros E; inversion E; subst m; clear E.
    replace (step <? 0) with true by (symmetry; apply Z.ltb_lt; lia).
    assert (Hk : (0 < Z.to_nat (- step))%nat) by lia.
    eexists _, _, step. split; [reflexivity|].
    rewrite adjust_bwd_start, adjust_bwd_stop.
    split.
    + rewrite slice_fwd_length by auto. rewrite rev_length.
      rewrite Z2Nat.id by lia.
      rewrite <- (range_len_mirror (Z.of_nat (length l)) _ _ (- step)) by lia.
      rewrite Z.opp_involutive. reflexivity.
    + intros n Hn.
      pose proof Hn as HnZ. apply Nat2Z.inj_lt in HnZ.
      rewrite slice_fwd_length, rev_length, Z2Nat.id in HnZ by lia.
      assert (Hb : 0 <= Z.of_nat n <
        range_len (Z.of_nat (clamp_bound (length l) 0 (mirror (length l) (sl_start b))))
          (Z.of_nat (clamp_bound (length l) (length l) (mirror (length l) (sl_stop b))))
          (- step)) by lia.
      apply range_len_lt in Hb; [|lia].
      assert (Hc : (clamp_bound (length l) (length l) (mirror (length l) (sl_stop b))
                    <= length l)%nat).
      { apply clamp_bound_le; lia. }
      split; [lia|].
      rewrite slice_fwd_nth by auto.
      rewrite rev_length.
      rewrite nth_error_rev' by nia.
      f_equal. nia.
Qed.

Lemma layer_error {A} (l : list A) (b : slice) e :
  list_slice l b = Err e ->
  e = ValueError /\ slice_indices b (Z.of_nat (length l)) = Err ValueError.
Proof.
  unfold list_slice, slice_indices.
  destruct (Z.eqb_spec (match sl_step b with None => 1 | Some s => s end) 0).
  - intros E; inversion E; auto.
  - destruct (0 <? _); discriminate.
Qed.

(** the view is the list it stands for *)
Theorem view_refines_list {A} (s : seq A) (l : list A) :
  denote s = Ok l ->
  slen s = Ok (Z.of_nat (length l)) /\ forall i, sget s i = list_index l i.
Proof.
  revert l. induction s as [l0|s IH b]; intros l Hd; simpl in Hd.
  - inversion Hd; subst. split; reflexivity.
  - destruct (denote s) as [l0|] eqn:Hs; [|discriminate]. simpl in Hd.
    destruct (IH l0 eq_refl) as [Hlen Hget].
    destruct (layer_correct _ _ _ Hd) as (start & stop & step & Hi & Hl & Hn).
    simpl. rewrite Hlen. simpl. rewrite Hi. simpl. rewrite Hl.
    split; [reflexivity|].
    intros i. unfold range_item, list_index at 1. rewrite Hl.
    set (i' := if i <? 0 then i + Z.of_nat (length l) else i).
    destruct (Z.ltb_spec i' 0) as [|Hi0]; [reflexivity|].
    cbn [orb].
    destruct (Z.leb_spec (Z.of_nat (length l)) i') as [Hge|Hlt].
    + cbn [rbind]. assert (Hno : nth_error l (Z.to_nat i') = None)
        by (apply nth_error_None; lia).
      rewrite Hno. reflexivity.
    + cbn [rbind]. rewrite Hget. unfold list_index.
      destruct (Hn (Z.to_nat i')) as [Hpos Hnth]; [lia|].
      rewrite Z2Nat.id in Hpos, Hnth by lia.
      replace (start + i' * step <? 0) with false
        by (symmetry; apply Z.ltb_ge; lia).
      replace (start + i' * step <? 0) with false
        by (symmetry; apply Z.ltb_ge; lia).
      now rewrite Hnth.
Qed.

(** a zero step anywhere raises ValueError on use *)
Theorem view_refines_error {A} (s : seq A) e :
  denote s = Err e ->
  e = ValueError /\ slen s = Err ValueError /\ forall i, sget s i = Err ValueError.
Proof.
  revert e. induction s as [l0|s IH b]; intros e Hd; simpl in Hd; [discriminate|].
  destruct (denote s) as [l0|e0] eqn:Hs; simpl in Hd.
  - destruct (layer_error _ _ _ Hd) as [-> Hi].
    destruct (view_refines_list s l0 Hs) as [Hlen _].
    simpl. rewrite Hlen. simpl. rewrite Hi. auto.
  - inversion Hd; subst. destruct (IH e eq_refl) as (-> & Hlen & Hget).
    simpl. rewrite Hlen. auto.
Qed.

Lemma iter_from_list {A} (s : seq A) (l : list A) : denote s = Ok l ->
  forall fuel k, (length l < fuel + k)%nat -> (k <= length l)%nat ->
  iter_from fuel s (Z.of_nat k) = Ok (skipn k l).
Proof.
  intros Hd. destruct (view_refines_list s l Hd) as [_ Hget].
  induction fuel as [|f IH]; intros k Hf Hk; [lia|].
  cbn [iter_from]. rewrite Hget. unfold list_index.
  replace (Z.of_nat k <? 0) with false by (symmetry; apply Z.ltb_ge; lia).
  replace (Z.of_nat k <? 0) with false by (symmetry; apply Z.ltb_ge; lia).
  rewrite Nat2Z.id.
  destruct (nth_error l k) eqn:E.
  - assert (k < length l)%nat by (apply nth_error_Some; congruence).
    replace (Z.of_nat k + 1) with (Z.of_nat (S k)) by lia.
    rewrite IH by lia. cbn [rbind]. f_equal.
    clear -E. revert k E. induction l as [|x t IHl]; intros [|k] E; try discriminate.
    + cbn in *. congruence.
    + cbn [skipn nth_error] in *. rewrite <- (IHl k E). reflexivity.
  - apply nth_error_None in E. assert (k = length l) by lia. subst.
    now rewrite skipn_all.
Qed.

Theorem view_iterates {A} (s : seq A) (l : list A) fuel :
  denote s = Ok l -> (length l < fuel)%nat -> iter_from fuel s 0 = Ok l.
Proof.
  intros Hd Hf. apply (iter_from_list s l Hd fuel 0); lia.
Qed.

Lemma view_over_list {A} (l m : list A) (b : slice) :
  list_slice l b = Ok m ->
  slen (SView (SList l) b) = Ok (Z.of_nat (length m))
  /\ (forall i, sget (SView (SList l) b) i = list_index m i)
  /\ (forall fuel, (length m < fuel)%nat ->
        iter_from fuel (SView (SList l) b) 0 = Ok m).
Proof.
  intros H. destruct (view_refines_list (SView (SList l) b) m H) as [H1 H2].
  repeat split; auto. intros fuel Hf. now apply view_iterates.
Qed.

Lemma view_zero_step {A} (l : list A) (b : slice) :
  (list_slice l b = Err ValueError <-> sl_step b = Some 0)
  /\ (sl_step b = Some 0 ->
      slen (SView (SList l) b) = Err ValueError
      /\ forall i, sget (SView (SList l) b) i = Err ValueError).
Proof.
  assert (Hiff : list_slice l b = Err ValueError <-> sl_step b = Some 0).
  { unfold list_slice. destruct (sl_step b) as [s|].
    - destruct (Z.eqb_spec s 0) as [->|Hn]; [tauto|].
      destruct (0 <? s); split; intros E; try discriminate; congruence.
    - simpl. split; discriminate. }
  split; auto. intros Hz. apply Hiff in Hz.
  destruct (view_refines_error (SView (SList l) b) ValueError Hz) as (_ & H1 & H2).
  auto.
Qed.

Lemma every_1 {A} (l : list A) : every 1 l = l.
Proof. unfold every. induction l; cbn; f_equal; auto. Qed.

Lemma list_slice_sanity {A} (l : list A) :
  list_slice l (Slice None None None) = Ok l
  /\ list_slice l (Slice None None (Some (-1))) = Ok (rev l)
  /\ (forall i j, 0 <= i <= j -> j <= Z.of_nat (length l) ->
       list_slice l (Slice (Some i) (Some j) None)
       = Ok (firstn (Z.to_nat (j - i)) (skipn (Z.to_nat i) l))).
Proof.
  unfold list_slice, slice_fwd; cbn [sl_step sl_start sl_stop mirror].
  repeat split.
  - cbn [Z.eqb Z.ltb Z.compare clamp_bound]. rewrite skipn_O, Nat.sub_0_r, firstn_all.
    change (Z.to_nat 1) with 1%nat. now rewrite every_1.
  - cbn [Z.eqb Z.ltb Z.compare Z.opp clamp_bound]. rewrite skipn_O, Nat.sub_0_r.
    rewrite firstn_all. change (Z.to_nat 1) with 1%nat. now rewrite every_1.
  - intros i j Hij Hj. cbn [Z.eqb Z.ltb Z.compare].
    change (Z.to_nat 1) with 1%nat. rewrite every_1. f_equal.
    unfold clamp_bound.
    replace (i <? 0) with false by (symmetry; apply Z.ltb_ge; lia).
    replace (j <? 0) with false by (symmetry; apply Z.ltb_ge; lia).
    f_equal; [lia|]. f_equal. lia.
Qed.

Lemma view_index_error_iff {A} (s : seq A) (l : list A) (i : Z) :
  denote s = Ok l ->
  (sget s i = Err IndexError <->
   (i < - Z.of_nat (length l) \/ Z.of_nat (length l) <= i)).
Proof.
  intros Hd. destruct (view_refines_list s l Hd) as [_ ->].
  unfold list_index.
  set (i' := if i <? 0 then i + Z.of_nat (length l) else i).
  assert (Hi' : (i < 0 /\ i' = i + Z.of_nat (length l)) \/ (0 <= i /\ i' = i)).
  { unfold i'. destruct (Z.ltb_spec i 0); auto. }
  clearbody i'.
  destruct (Z.ltb_spec i' 0) as [H|H].
  - split; auto. intros _. lia.
  - destruct (nth_error l (Z.to_nat i')) eqn:E.
    + assert (Z.to_nat i' < length l)%nat by (apply nth_error_Some; congruence).
      split; [discriminate|]. lia.
    + apply nth_error_None in E. split; auto. intros _. lia.
Qed.

Lemma denote_chain {A} (bs : list slice) : forall (s : seq A),
  denote (fold_left (@sget_slice A) bs s)
  = fold_left (fun acc b => rbind acc (fun x => list_slice x b)) bs (denote s).
Proof.
  induction bs as [|b bs IH]; intros s; cbn [fold_left]; auto.
  rewrite IH. reflexivity.
Qed.

Lemma view_chain {A} (l m : list A) (bs : list slice) :
  fold_left (fun acc b => rbind acc (fun x => list_slice x b)) bs (Ok l) = Ok m ->
  let v := fold_left (@sget_slice A) bs (SList l) in
  slen v = Ok (Z.of_nat (length m))
  /\ (forall i, sget v i = list_index m i)
  /\ (forall fuel, (length m < fuel)%nat -> iter_from fuel v 0 = Ok m).
Proof.
  intros H v. assert (Hd : denote v = Ok m).
  { unfold v. rewrite denote_chain. exact H. }
  destruct (view_refines_list v m Hd) as [H1 H2].
  repeat split; auto. intros fuel Hf. now apply view_iterates.
Qed.
