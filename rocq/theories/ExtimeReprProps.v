(** * C156: Time.__repr__ *)

From Coq Require Import ZArith NArith String List Bool Lia.
From Verif Require Import Py PyStr Cal PyTime Extime ExtimeRepr.
Import ListNotations.
Open Scope Z_scope.

(** C156: the text is a Python expression which gives back the time *)
Definition C156_full : Prop := forall t, 0 <= t_us t < MAXT -> exists args, time_repr t = expression args /\ evaluate args = Ok t.

(** false of periods: their length is not in the text *)
Theorem C156_period_refuted : time_repr (T 0 DAY) = lit "extime.Time.fromDatetime(datetime.datetime(1, 1, 1, 0, 0))" /\
  time_repr (T 0 DAY) = time_repr (T 0 1) /\ ~ C156_full.
Proof.
  split; [vm_compute; reflexivity|]. split; [vm_compute; reflexivity|]. intros F. destruct (F (T 0 DAY)) as (args & E & V); [split; vm_compute; congruence|].
  pose proof (repr_evaluates (T 0 DAY) args (conj (Z.le_refl 0) eq_refl) E) as W. rewrite V in W. discriminate W.
Qed.
Print Assumptions C156_period_refuted.

(** It is such an expression of numbers, of only one list of them, and gives the
    first moment of the period, which compares equal. *)
Theorem C156_evaluates_partial : forall t, 0 <= t_us t < MAXT ->
  exists args, time_repr t = expression args /\ (forall args', time_repr t = expression args' -> args' = args) /\
    exists u, evaluate args = Ok u /\ time_eq u t = true /\ t_res u = 1.
Proof.
  intros t H. exists (shown (fields_of (t_us t))). split; [apply repr_expression|]. split; [intros a E; rewrite repr_expression in E; symmetry; now apply expression_inj|].
  exists (T (t_us t) 1). split; [now apply evaluate_shown|]. split; [apply Z.eqb_refl|reflexivity].
Qed.
Print Assumptions C156_evaluates_partial.

(** exactly moments come back as they were *)
Theorem C156_exact_partial : forall t args, 0 <= t_us t < MAXT -> time_repr t = expression args -> (evaluate args = Ok t <-> t_res t = 1).
Proof.
  intros [u r] args H E. rewrite (repr_evaluates _ _ H E). cbn [t_us t_res]. split; [now intros [= ->]|now intros ->].
Qed.
Print Assumptions C156_exact_partial.

(** Two times have the same text exactly if they compare equal. *)
Theorem C156_same : forall t u, 0 <= t_us t < MAXT -> 0 <= t_us u < MAXT -> (time_repr t = time_repr u <-> time_eq t u = true).
Proof. intros t u Ht Hu. unfold time_eq. rewrite Z.eqb_eq. now apply repr_same. Qed.
Print Assumptions C156_same.

Example C156_nonvacuous :
  let t := T (63243627300000001) 1 in
  0 <= t_us t < MAXT /\ time_repr t = lit "extime.Time.fromDatetime(datetime.datetime(2005, 2, 10, 10, 15, 0, 1))" /\
  time_repr (T 63243627316000000 1) = lit "extime.Time.fromDatetime(datetime.datetime(2005, 2, 10, 10, 15, 16))".
Proof. vm_compute. repeat split; congruence. Qed.
