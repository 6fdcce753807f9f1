(** * epsilon/__init__.py: asTwistedVersion *)

From Coq Require Import NArith ZArith String List Bool Arith Lia ZifyBool.
From Verif Require Import Py PyStr PySplit PyNum PyInt.
Import ListNotations.
Open Scope list_scope.

(** versions.Version of Twisted *)
Record version := Version { package : str; major : Z; minor : Z; micro : Z }.
(** its constructor: the name and three numbers must be given, and what else it takes
    is not *)
Definition Version_ (package : str) (numbers : list Z) : res version :=
  match numbers with
  | [a; b; c] => Ok (Version package a b c)
  | _ => Err TypeError
  end.

(** re.match(r"[0-9.]*", s).group() *)
Fixpoint numbers_and_dots (s : str) : str :=
  match s with
  | c :: s' => if is_digit c || (c =? 46)%N then c :: numbers_and_dots s' else []
  | [] => []
  end.

(** __init__.py:4-9; int is applied to all before Version is called *)
Definition asTwistedVersion (packageName versionString : str) : res version :=
  rbind (mapM py_int (firstn 3 (split (lit ".") (numbers_and_dots versionString)))) (Version_ packageName).

(** ** Specification *)

(** a number as it is written: digits, at least one *)
Definition number (s : str) : Prop := s <> [] /\ all_digits s = true.
(** what may come after the third number *)
Definition no_digit (s : str) : Prop := match s with c :: _ => is_digit c = false | [] => True end.

(** ** Proofs *)

Lemma digits_int s : number s -> py_int s = Ok (Z.of_N (dec_val s)).
Proof.
  intros [Hne Hd]. unfold py_int.
  assert (Ha : Forall (fun c => (c < 127)%N) s) by (apply Forall_forall; intros c Hc; apply (digit_not_space c); eapply all_digits_In; eauto).
  rewrite map_to_ascii by exact Ha. destruct s as [|c t]; [congruence|].
  assert (Hall : forall x, In x (c :: t) -> is_space_b x = false) by (intros x Hx; apply (digit_not_space x); eapply all_digits_In; eauto).
  rewrite strip_none; [|apply Hall; now left|apply Hall, last_In].
  assert (Hc : is_digit c = true) by (eapply all_digits_In; [exact Hd|now left]).
  replace (c =? 45)%N with false by (unfold is_digit in Hc; lia). replace (c =? 43)%N with false by (unfold is_digit in Hc; lia).
  rewrite digits_us_digits; [reflexivity|exact Hd|now left].
Qed.
Lemma no_int : py_int [] = Err ValueError.
Proof. reflexivity. Qed.

Lemma dot_free s : all_digits s = true -> containsb (lit ".") s = false.
Proof.
  intros H. apply containsb_false. intros x y E. assert (In 46%N s) by (rewrite E; apply in_or_app; right; now left).
  pose proof (all_digits_In s 46 H H0) as F. discriminate F.
Qed.
Lemma dot_no_overlap : no_overlap (lit ".").
Proof. apply no_overlapb_spec. reflexivity. Qed.
Lemma split_digits parts : parts <> [] -> Forall (fun x => all_digits x = true) parts -> split (lit ".") (join (lit ".") parts) = parts.
Proof. intros Hne H. apply (split_join _ dot_no_overlap); [exact Hne|]. eapply Forall_impl; [|exact H]. intros x; apply dot_free. Qed.

Lemma run_parts s : exists parts rest, parts <> [] /\ Forall (fun x => all_digits x = true) parts /\ numbers_and_dots s = join (lit ".") parts /\ s = join (lit ".") parts ++ rest /\
  match rest with c :: _ => is_digit c = false /\ c <> 46%N | [] => True end.
Proof.
  induction s as [|c s IH]; [exists [[]], []; split; [discriminate|split; [repeat constructor|auto]]|]. cbn [numbers_and_dots].
  destruct IH as (parts & rest & Hne & Hd & E & Es & Hr). destruct (is_digit c) eqn:Ec; cbn [orb].
  - destruct parts as [|x parts]; [congruence|]. exists ((c :: x) :: parts), rest. split; [discriminate|]. inversion Hd; subst. split; [constructor; [|assumption]|].
    + cbn [all_digits forallb] in *. now rewrite Ec.
    + rewrite E. assert (J : c :: join (lit ".") (x :: parts) = join (lit ".") ((c :: x) :: parts)) by (destruct parts; reflexivity). rewrite <- J. cbn [app]. split; [reflexivity|]. split; [f_equal; assumption|exact Hr].
  - destruct (N.eqb_spec c 46) as [->|Hc].
    + exists ([] :: parts), rest. split; [discriminate|]. split; [constructor; [reflexivity|exact Hd]|]. assert (J : 46%N :: join (lit ".") parts = join (lit ".") ([] :: parts)) by (destruct parts; [congruence|reflexivity]).
      rewrite E, <- J. split; [reflexivity|]. split; [cbn [app]; f_equal; exact Es|exact Hr].
    + exists [[]], (c :: s). split; [discriminate|]. split; [repeat constructor|]. split; [reflexivity|]. split; [reflexivity|split; [exact Ec|exact Hc]].
Qed.

Lemma version_ok p s v : asTwistedVersion p s = Ok v <->
  exists x y z rest, number x /\ number y /\ number z /\ no_digit rest /\ s = x ++ lit "." ++ y ++ lit "." ++ z ++ rest /\
    v = Version p (Z.of_N (dec_val x)) (Z.of_N (dec_val y)) (Z.of_N (dec_val z)).
Proof.
  unfold asTwistedVersion. split.
  - destruct (run_parts s) as (parts & rest & Hne & Hd & E & Es & Hr). rewrite E, (split_digits parts Hne Hd).
    destruct parts as [|x [|y [|z more]]]; try congruence; cbn [firstn].
    1,2: intros H; exfalso; revert H; cbn [mapM]; destruct (py_int x); [|discriminate]; try (destruct (py_int y); [|discriminate]); cbn; discriminate.
    inversion Hd as [|? ? Hx Hd1]; subst. inversion Hd1 as [|? ? Hy Hd2]; subst. inversion Hd2 as [|? ? Hz Hd3]; subst.
    assert (D : forall w, all_digits w = true -> (number w /\ py_int w = Ok (Z.of_N (dec_val w))) \/ py_int w = Err ValueError).
    { intros w Hw. destruct w as [|c w]; [right; reflexivity|left]. assert (number (c :: w)) by (split; [discriminate|exact Hw]). split; [assumption|now apply digits_int]. }
    cbn [mapM]. destruct (D x Hx) as [[Nx ->]| ->]; cbn [rbind]; [|discriminate]. destruct (D y Hy) as [[Ny ->]| ->]; cbn [rbind]; [|discriminate]. destruct (D z Hz) as [[Nz ->]| ->]; cbn [rbind Version_]; [|discriminate].
    intros H. injection H as <-. exists x, y, z, ((match more with [] => [] | _ => lit "." ++ join (lit ".") more end) ++ rest).
    do 3 (split; [assumption|]). split.
    + destruct more; cbn [app]; [destruct rest; [exact I|apply Hr]|reflexivity].
    + split; [|reflexivity]. destruct more as [|m more]; cbn [join app]; rewrite <- !app_assoc; reflexivity.
  - intros (x & y & z & rest & Nx & Ny & Nz & Hr & -> & ->).
    destruct (run_parts rest) as (parts & rest' & Hne & Hd & E & Es & Hr').
    assert (R : forall w u, all_digits w = true -> numbers_and_dots (w ++ u) = w ++ numbers_and_dots u).
    { intros w u. induction w as [|c w IH]; intros Hw; [reflexivity|]. cbn [app numbers_and_dots]. cbn [all_digits forallb] in Hw. apply andb_prop in Hw as [-> Hw]. cbn [orb]. f_equal. now apply IH. }
    assert (Dt : forall u, numbers_and_dots (lit "." ++ u) = lit "." ++ numbers_and_dots u) by reflexivity.
    rewrite R by apply Nx. rewrite Dt, R by apply Ny. rewrite Dt, R by apply Nz. rewrite E.
    assert (P : exists more, z ++ join (lit ".") parts = join (lit ".") (z :: more) /\ Forall (fun x => all_digits x = true) more).
    { destruct parts as [|w parts]; [congruence|]. assert (w = []). { destruct w as [|c w]; [reflexivity|]. exfalso. inversion Hd as [|? ? Hw _]; subst. cbn [all_digits forallb] in Hw. apply andb_prop in Hw as [Hc _].
        unfold no_digit in Hr. destruct parts; cbn in Hr; congruence. }
      subst w. inversion Hd; subst. exists parts. split; [|assumption]. destruct parts; cbn [join app]; [apply app_nil_r|reflexivity]. }
    destruct P as (more & -> & Hm).
    assert (J : x ++ lit "." ++ y ++ lit "." ++ join (lit ".") (z :: more) = join (lit ".") (x :: y :: z :: more)) by reflexivity.
    rewrite J, split_digits; [|discriminate|repeat constructor; try apply Nx; try apply Ny; try apply Nz; exact Hm]. cbn [firstn mapM]. rewrite !digits_int by assumption. reflexivity.
Qed.
Lemma version_err p s e : asTwistedVersion p s = Err e -> e = ValueError \/ e = TypeError.
Proof.
  unfold asTwistedVersion. destruct (run_parts s) as (parts & rest & Hne & Hd & E & Es & Hr). rewrite E, (split_digits parts Hne Hd).
  assert (G : forall l, Forall (fun x => all_digits x = true) l -> (exists r, mapM py_int l = Ok r) \/ mapM py_int l = Err ValueError).
  { induction 1 as [|x l Hx Hl IH]; [left; now exists []|]. cbn [mapM]. destruct x as [|c x]; [right; reflexivity|]. rewrite digits_int by (split; [discriminate|exact Hx]). cbn [rbind].
    destruct IH as [[r ->]| ->]; cbn [rbind]; [left; eauto|now right]. }
  assert (F3 : Forall (fun x => all_digits x = true) (firstn 3 parts)) by (apply Forall_forall; intros x Hx; rewrite Forall_forall in Hd; apply Hd; rewrite <- (firstn_skipn 3 parts); apply in_or_app; now left).
  destruct (G _ F3) as [[r ->]| ->]; cbn [rbind]; [|intros H; injection H as <-; now left].
  unfold Version_. destruct r as [|? [|? [|? [|? ?]]]]; intros H; try discriminate; injection H as <-; now right.
Qed.
