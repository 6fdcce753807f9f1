(** * epsilon/extime.py: Time.__repr__ *)

From Coq Require Import ZArith NArith String List Bool Arith Lia.
From Verif Require Import Py PyStr PySplit PyNum PyInt Cal PyTime Extime.
Import ListNotations.
Open Scope Z_scope.

(** datetime.__repr__ of CPython without a tzinfo: seconds and microseconds are
    left out when they end the list with zeros.  Simplification: [fold] is 0. *)
Definition shown (f : fields) : list Z :=
  [d_year (f_date f); d_month (f_date f); d_day (f_date f); f_hour f; f_min f] ++
  (if f_us f =? 0 then if f_sec f =? 0 then [] else [f_sec f] else [f_sec f; f_us f]).
Definition datetime_repr (us : Z) : str :=
  lit "datetime.datetime(" ++ join (lit ", ") (map zdec (shown (fields_of us))) ++ lit ")".

(** extime.py:949-950 *)
Definition time_repr (t : time) : str := lit "extime.Time.fromDatetime(" ++ datetime_repr (t_us t) ++ lit ")".

(** ** Specification *)

(** the text of the Python expression extime.Time.fromDatetime(datetime.datetime(a, b, ...)) *)
Definition expression (args : list Z) : str :=
  lit "extime.Time.fromDatetime(datetime.datetime(" ++ join (lit ", ") (map zdec args) ++ lit "))".

(** what it gives: year, month and day are required, the others are 0 *)
Definition evaluate (args : list Z) : res time :=
  match args with
  | y :: m :: d :: rest =>
      let get i := nth i rest 0 in
      if (4 <? length rest)%nat then Err TypeError
      else u <- datetime (F (D y m d) (get 0%nat) (get 1%nat) (get 2%nat) (get 3%nat)) ;; fromDatetime (Dt u None)
  | _ => Err TypeError
  end.

(** ** Proofs *)

Lemma repr_expression t : time_repr t = expression (shown (fields_of (t_us t))).
Proof.
  unfold time_repr, datetime_repr, expression. generalize (join (lit ", ") (map zdec (shown (fields_of (t_us t))))). intros s. cbn [lit app].
  repeat (rewrite <- app_assoc; cbn [app]). reflexivity.
Qed.

Lemma evaluate_shown us : 0 <= us < MAXT -> evaluate (shown (fields_of us)) = Ok (T us 1).
Proof.
  intros H. destruct (datetime_fields us H) as (V & E). unfold shown. set (f := fields_of us) in *.
  assert (Ef : f = F (D (d_year (f_date f)) (d_month (f_date f)) (d_day (f_date f))) (f_hour f) (f_min f) (f_sec f) (f_us f)) by (destruct f as [[] ]; reflexivity).
  assert (R : forall s u, s = f_sec f -> u = f_us f -> datetime (F (D (d_year (f_date f)) (d_month (f_date f)) (d_day (f_date f))) (f_hour f) (f_min f) s u) = Ok us) by (intros s u -> ->; rewrite <- Ef; exact E).
  destruct (Z.eqb_spec (f_us f) 0) as [U|U]; [destruct (Z.eqb_spec (f_sec f) 0) as [S|S]|]; cbn; rewrite R by auto; reflexivity.
Qed.

Lemma zdec_inj a b : zdec a = zdec b -> a = b.
Proof. intros E. assert (X : Ok a = Ok b) by (rewrite <- !py_int_zdec; now rewrite E). now injection X. Qed.

Lemma zdecs_inj l : forall l', map zdec l = map zdec l' -> l = l'.
Proof. induction l as [|a l IH]; intros [|b l'] E; try discriminate E; [reflexivity|]. cbn in E. injection E as E1 E2. f_equal; [now apply zdec_inj|auto]. Qed.

Lemma zdec_no_comma z : ~ In 44%N (zdec z).
Proof.
  destruct (zdec_shape z) as (c & t & -> & Hc & Ht). intros [E|Hi].
  - destruct Hc as [->|Hc]; [discriminate E|subst c; discriminate Hc].
  - unfold all_digits in Ht. rewrite forallb_forall in Ht. discriminate (Ht _ Hi).
Qed.

Lemma expression_inj a b : expression a = expression b -> a = b.
Proof.
  unfold expression. intros E. apply app_inv_head in E. apply app_inv_tail in E. apply zdecs_inj.
  assert (O : no_overlap (lit ", ")) by (apply no_overlapb_spec; reflexivity).
  assert (N0 : forall l, Forall (fun x => containsb (lit ", ") x = false) (map zdec l)).
  { intros l. apply Forall_forall. intros x Hx. apply in_map_iff in Hx as (z & <- & _). apply containsb_false. intros p q Eq. apply (zdec_no_comma z). rewrite Eq. apply in_or_app. right. left. reflexivity. }
  assert (NE : forall l, map zdec l <> [] -> join (lit ", ") (map zdec l) <> []).
  { intros [|z l] H; [now destruct H|]. cbn [map]. destruct (zdec_shape z) as (c & t & -> & _). destruct (map zdec l); discriminate. }
  destruct a as [|x a].
  - destruct b as [|y b]; [reflexivity|]. exfalso. apply (NE (y :: b)); [discriminate|]. symmetry. exact E.
  - destruct b as [|y b]; [exfalso; apply (NE (x :: a)); [discriminate|exact E]|].
    rewrite <- (split_join (lit ", ") O (map zdec (x :: a)) ltac:(discriminate) (N0 _)), <- (split_join (lit ", ") O (map zdec (y :: b)) ltac:(discriminate) (N0 _)). now rewrite E.
Qed.

Theorem repr_evaluates t args : 0 <= t_us t < MAXT -> time_repr t = expression args -> evaluate args = Ok (T (t_us t) 1).
Proof. intros H E. rewrite repr_expression in E. apply expression_inj in E. subst args. now apply evaluate_shown. Qed.

Theorem repr_same t u : 0 <= t_us t < MAXT -> 0 <= t_us u < MAXT -> (time_repr t = time_repr u <-> t_us t = t_us u).
Proof.
  intros Ht Hu. split; [|intros E; unfold time_repr; now rewrite E]. intros E. rewrite (repr_expression u) in E.
  assert (X : Ok (T (t_us t) 1) = Ok (T (t_us u) 1)) by (rewrite <- (repr_evaluates t _ Ht E); apply evaluate_shown; exact Hu). now injection X.
Qed.
