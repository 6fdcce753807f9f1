(** * Property C148: the version of a package *)

From Coq Require Import NArith ZArith String List Bool Arith Lia.
From Verif Require Import Py PyStr PySplit PyNum PyInt Version.
Import ListNotations.
Open Scope list_scope.

(** The claim: every version of one, two or three numbers, with anything behind it that
    cannot be taken for a part of the last, gives the version of those numbers (0 for
    those that are not there). *)
Definition C148_full : Prop := forall p x y z rest, no_digit rest -> no_digit (tl rest) ->
  asTwistedVersion p (dec x ++ rest) = Ok (Version p (Z.of_N x) 0 0) /\
  asTwistedVersion p (dec x ++ lit "." ++ dec y ++ rest) = Ok (Version p (Z.of_N x) (Z.of_N y) 0) /\
  asTwistedVersion p (dec x ++ lit "." ++ dec y ++ lit "." ++ dec z ++ rest) = Ok (Version p (Z.of_N x) (Z.of_N y) (Z.of_N z)).

(** False of every version of fewer than three numbers: "0.8" raises TypeError, and
    then epsilon cannot be imported. *)
Theorem C148_short_refuted : ~ C148_full /\ forall p x y,
  (exists e, asTwistedVersion p (dec x) = Err e) /\ (exists e, asTwistedVersion p (dec x ++ lit "." ++ dec y) = Err e) /\
  asTwistedVersion p (lit "0.8") = Err TypeError /\ asTwistedVersion p (lit "0.8.dev1") = Err ValueError.
Proof.
  assert (S : forall p s v, asTwistedVersion p s = Ok v -> (exists a b c, s = a ++ 46%N :: b ++ 46%N :: c)).
  { intros p s v H. apply version_ok in H as (x & y & z & rest & _ & _ & _ & _ & -> & _). exists x, y, (z ++ rest). reflexivity. }
  assert (D : forall x, ~ In 46%N (dec x)) by (intros x H; pose proof (all_digits_In _ _ (dec_digits x) H) as F; discriminate F).
  split.
  - intros F. destruct (F [] 0%N 0%N 0%N [] I I) as [G _]. vm_compute in G. discriminate.
  - intros p x y. split; [|split; [|split; vm_compute; reflexivity]].
    + destruct (asTwistedVersion p (dec x)) as [v|e] eqn:E; [|eauto]. exfalso. apply S in E as (a & b & c & E). apply (D x). rewrite E. apply in_or_app. right. now left.
    + destruct (asTwistedVersion p (dec x ++ lit "." ++ dec y)) as [v|e] eqn:E; [|eauto]. exfalso. apply S in E as (a & b & c & E).
      apply (f_equal (fun s => count_occ N.eq_dec s 46%N)) in E. rewrite !count_occ_app in E. cbn [count_occ] in E. rewrite count_occ_app in E. cbn [count_occ lit] in E.
      pose proof (proj1 (count_occ_not_In N.eq_dec (dec x) 46%N) (D x)) as X. pose proof (proj1 (count_occ_not_In N.eq_dec (dec y) 46%N) (D y)) as Y.
      rewrite X, Y in E. change (count_occ N.eq_dec (lit ".") 46%N) with 1%nat in E. destruct (N.eq_dec 46 46); [lia|congruence].
Qed.
Print Assumptions C148_short_refuted.

(** What holds: a version is given exactly for the texts that begin with three numbers
    with dots between them, and it is that of these; all others raise ValueError or
    TypeError. *)
Theorem C148_three_partial : forall p s,
  (forall v, asTwistedVersion p s = Ok v <->
     exists x y z rest, number x /\ number y /\ number z /\ no_digit rest /\ s = x ++ lit "." ++ y ++ lit "." ++ z ++ rest /\
       v = Version p (Z.of_N (dec_val x)) (Z.of_N (dec_val y)) (Z.of_N (dec_val z))) /\
  (forall e, asTwistedVersion p s = Err e -> e = ValueError \/ e = TypeError).
Proof. intros p s. split; [intros v; exact (version_ok p s v)|intros e; exact (version_err p s e)]. Qed.
Print Assumptions C148_three_partial.

(** and written in the usual way *)
Theorem C148_written_partial : forall p x y z rest, no_digit rest ->
  asTwistedVersion p (dec x ++ lit "." ++ dec y ++ lit "." ++ dec z ++ rest) = Ok (Version p (Z.of_N x) (Z.of_N y) (Z.of_N z)).
Proof.
  intros p x y z rest H. apply version_ok. exists (dec x), (dec y), (dec z), rest.
  do 3 (split; [split; [apply dec_nonempty|apply dec_digits]|]). split; [exact H|]. split; [reflexivity|]. now rewrite !dec_val_dec.
Qed.
Print Assumptions C148_written_partial.

Example C148_nonvacuous : asTwistedVersion (lit "epsilon") (lit "0.7.10.dev3+g12") = Ok (Version (lit "epsilon") 0 7 10).
Proof. vm_compute. reflexivity. Qed.
