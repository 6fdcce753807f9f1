(** * Properties of epsilon/view.py *)

From Coq Require Import List ZArith.
From Verif Require Import Py View.
Import ListNotations.
Open Scope Z_scope.

(** C01: a view over a list behaves like the list Python's slicing gives
    ([list_slice], stated with [rev], [skipn], [firstn] and "every k-th
    element"), for its length, every integer index and iteration. *)
Theorem C01_view_is_sliced_list :
  forall (A : Type) (l m : list A) (b : slice),
    list_slice l b = Ok m ->
    slen (SView (SList l) b) = Ok (Z.of_nat (length m))
    /\ (forall i, sget (SView (SList l) b) i = list_index m i)
    /\ (forall fuel, (length m < fuel)%nat ->
          iter_from fuel (SView (SList l) b) 0 = Ok m).
Proof. exact @view_over_list. Qed.
Print Assumptions C01_view_is_sliced_list.

(** slicing fails only for a zero step; then using the view raises ValueError *)
Theorem C01_view_zero_step :
  forall (A : Type) (l : list A) (b : slice),
    (list_slice l b = Err ValueError <-> sl_step b = Some 0)
    /\ (sl_step b = Some 0 ->
        slen (SView (SList l) b) = Err ValueError
        /\ forall i, sget (SView (SList l) b) i = Err ValueError).
Proof. exact @view_zero_step. Qed.
Print Assumptions C01_view_zero_step.

(** [list_slice] is determined by indices: with a step s <> 0 the k-th element
    of the result is the element start + k*s of the list; a sanity check of the
    specification itself, on all lists. *)
Theorem C01_spec_full_slice :
  forall (A : Type) (l : list A),
    list_slice l (Slice None None None) = Ok l
    /\ list_slice l (Slice None None (Some (-1))) = Ok (rev l)
    /\ (forall i j, 0 <= i <= j -> j <= Z.of_nat (length l) ->
         list_slice l (Slice (Some i) (Some j) None)
         = Ok (firstn (Z.to_nat (j - i)) (skipn (Z.to_nat i) l))).
Proof. exact @list_slice_sanity. Qed.
Print Assumptions C01_spec_full_slice.

(** indexing raises IndexError exactly outside [-len, len) *)
Theorem C01_index_error_iff :
  forall (A : Type) (s : seq A) (l : list A) (i : Z),
    denote s = Ok l ->
    (sget s i = Err IndexError <->
     (i < - Z.of_nat (length l) \/ Z.of_nat (length l) <= i)).
Proof. exact @view_index_error_iff. Qed.
Print Assumptions C01_index_error_iff.

Example C01_nonvacuous :
  list_slice [10; 11; 12; 13; 14; 15; 16] (Slice (Some (-2)) None (Some (-2)))
    = Ok [15; 13; 11]
  /\ sget (SView (SList [10; 11; 12; 13; 14; 15; 16])
            (Slice (Some (-2)) None (Some (-2)))) (-1) = Ok 11.
Proof. vm_compute. split; reflexivity. Qed.

(** C02: a chain of slices of any length. *)
Theorem C02_nested_views :
  forall (A : Type) (l m : list A) (bs : list slice),
    fold_left (fun acc b => rbind acc (fun x => list_slice x b)) bs (Ok l) = Ok m ->
    let v := fold_left (@sget_slice A) bs (SList l) in
    slen v = Ok (Z.of_nat (length m))
    /\ (forall i, sget v i = list_index m i)
    /\ (forall fuel, (length m < fuel)%nat -> iter_from fuel v 0 = Ok m).
Proof. exact @view_chain. Qed.
Print Assumptions C02_nested_views.

Example C02_nonvacuous :
  let bs := [Slice (Some 1) None None; Slice None None (Some (-1));
             Slice None (Some 3) (Some 2)] in
  fold_left (fun acc b => rbind acc (fun x => list_slice x b)) bs
    (Ok [1; 2; 3; 4; 5]) = Ok [5; 3]
  /\ sget (fold_left (@sget_slice Z) bs (SList [1; 2; 3; 4; 5])) 1 = Ok 3.
Proof. vm_compute. split; reflexivity. Qed.
