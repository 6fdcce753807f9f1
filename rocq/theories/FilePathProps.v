(** * C73, C74, C102: names of files never lead out of a directory *)

From Coq Require Import NArith String List Bool Arith Lia.
From Verif Require Import Py PyStr PySplit FilePath.
Import ListNotations.
Open Scope list_scope.

(** ** C73 *)

Theorem C73_child : forall cwd n cs p, absolute n cs ->
  child cwd (render n cs) p = Err InsecurePath \/ child cwd (render n cs) p = Ok (render n cs) \/
  exists c, name c /\ child cwd (render n cs) p = Ok (render n (cs ++ [c])).
Proof. exact child_safe. Qed.
Print Assumptions C73_child.

(** what is accepted is the place the text leads to *)
Theorem C73_target : forall cwd n cs p r, absolute n cs -> child cwd (render n cs) p = Ok r ->
  prefixb (lit "/") p = false /\ r = render n (resolve cs (pieces p)).
Proof. exact child_target. Qed.
Print Assumptions C73_target.

(** every name is accepted *)
Theorem C73_names : forall cwd n cs c, absolute n cs -> name c -> child cwd (render n cs) c = Ok (render n (cs ++ [c])).
Proof. exact child_name. Qed.
Print Assumptions C73_names.

Definition home : list str := [lit "home"; lit "user"].
Lemma home_abs : absolute 1 home.
Proof. split; [now left|]. repeat constructor; try discriminate; intros H; repeat (destruct H as [H|H]; [discriminate H|]); exact H. Qed.

Example C73_nonvacuous :
  absolute 1 home /\ render 1 home = lit "/home/user" /\
  child (lit "/") (render 1 home) (lit "../etc") = Err InsecurePath /\
  child (lit "/") (render 1 home) (lit "..") = Err InsecurePath /\
  child (lit "/") (render 1 home) (lit "/etc") = Err InsecurePath /\
  child (lit "/") (render 1 home) (lit "a/..") = Ok (lit "/home/user") /\
  child (lit "/") (render 1 home) (lit "./..a//") = Ok (lit "/home/user/..a").
Proof. split; [exact home_abs|]. repeat split. Qed.

(** ** C74 *)

Definition C74_full : Prop := forall cwd n cs p r, absolute n cs -> preauthChild cwd (render n cs) p = Ok r ->
  exists rest, r = render n (cs ++ rest).

(** a neighbour whose name begins with the name of the directory is accepted *)
Theorem C74_preauth_refuted :
  preauthChild (lit "/") (lit "/foo") (lit "../foobar") = Ok (lit "/foobar") /\ ~ C74_full.
Proof.
  split; [reflexivity|]. intros F. assert (Ha : absolute 1 [lit "foo"]).
  { split; [now left|]. repeat constructor; try discriminate. intros H; repeat (destruct H as [H|H]; [discriminate H|]); exact H. }
  destruct (F (lit "/") 1%nat [lit "foo"] (lit "../foobar") (lit "/foobar") Ha eq_refl) as (rest & E). unfold render in E. destruct rest; discriminate E.
Qed.
Print Assumptions C74_preauth_refuted.

(** What is returned is the place the text leads to, and that is at or below
    the directory, or at or below a neighbour whose name begins with the name
    of the directory, or, from '/', a path beginning with '//'.  Missing: the
    last two are not below the directory. *)
Theorem C74_preauth_partial : forall cwd n cs p r, absolute n cs -> preauthChild cwd (render n cs) p = Ok r ->
  let m := fst (target n cs p) in let ds := snd (target n cs p) in
  r = render m ds /\
  ((m = n /\ exists rest, ds = cs ++ rest) \/
   (m = n /\ exists l c s rest, cs = l ++ [c] /\ s <> [] /\ ds = l ++ (c ++ s) :: rest) \/
   (n = 1%nat /\ cs = [] /\ m = 2%nat)).
Proof. exact preauth_result. Qed.
Print Assumptions C74_preauth_partial.

(** everything else is refused with InsecurePath *)
Theorem C74_refuses_partial : forall cwd n cs p, absolute n cs ->
  let m := fst (target n cs p) in let ds := snd (target n cs p) in
  preauthChild cwd (render n cs) p = Err InsecurePath <->
  ~ ((m = n /\ exists rest, ds = cs ++ rest) \/
     (m = n /\ exists l c s rest, cs = l ++ [c] /\ s <> [] /\ ds = l ++ (c ++ s) :: rest) \/
     (n = 1%nat /\ cs = [] /\ m = 2%nat)).
Proof. exact preauth_refuses. Qed.
Print Assumptions C74_refuses_partial.

(** a relative path without '..' stays below the directory, and is accepted *)
Theorem C74_down_partial : forall cwd n cs p, absolute n cs -> prefixb (lit "/") p = false -> ~ In (lit "..") (pieces p) ->
  exists rest, preauthChild cwd (render n cs) p = Ok (render n (cs ++ rest)).
Proof. exact preauth_down. Qed.
Print Assumptions C74_down_partial.

Example C74_nonvacuous :
  absolute 1 home /\
  preauthChild (lit "/") (render 1 home) (lit "a/b/./c") = Ok (lit "/home/user/a/b/c") /\
  prefixb slash (lit "a/b/./c") = false /\ ~ In (lit "..") (pieces (lit "a/b/./c")) /\
  preauthChild (lit "/") (render 1 home) (lit "a/../../x") = Err InsecurePath /\
  preauthChild (lit "/") (render 1 home) (lit "/etc/passwd") = Err InsecurePath.
Proof.
  split; [exact home_abs|]. repeat split. vm_compute. intros H. repeat (destruct H as [H|H]; [discriminate H|]). exact H.
Qed.

(** ** C102 *)

Theorem C102_parent : forall cwd n l c, absolute n (l ++ [c]) ->
  parent cwd (render n (l ++ [c])) = render n l /\ basename (render n (l ++ [c])) = c /\
  child cwd (parent cwd (render n (l ++ [c]))) (basename (render n (l ++ [c]))) = Ok (render n (l ++ [c])).
Proof.
  intros cwd n l c Ha. pose proof (parent_render cwd n l c Ha) as E1. pose proof (proj1 (base_render n l c Ha)) as E2. split; [exact E1|]. split; [exact E2|].
  rewrite E1, E2. destruct Ha as [Hn Ha]. apply Forall_app in Ha. destruct Ha as [Hl Hc]. inversion Hc; subst. apply child_name; [now split|assumption].
Qed.
Print Assumptions C102_parent.

Theorem C102_root : forall cwd n, absolute n [] -> parent cwd (render n []) = render n [] /\ basename (render n []) = [].
Proof. intros cwd n [[->| ->] _]; split; reflexivity. Qed.
Print Assumptions C102_root.

(** a temporary sibling is in the same directory, under another name *)
Theorem C102_sibling : forall cwd rnd n l c, absolute n (l ++ [c]) -> name rnd ->
  temporarySibling cwd rnd (render n (l ++ [c])) = Ok (render n (l ++ [rnd ++ c])) /\ rnd ++ c <> c /\ absolute n (l ++ [rnd ++ c]).
Proof.
  intros cwd rnd n l c Ha Hr. split; [now apply temporary_sibling|]. split.
  - intros E. destruct Hr as (Hr & _). apply Hr. apply (app_inv_tail c rnd []). exact E.
  - destruct Ha as [Hn Ha]. split; [exact Hn|]. apply Forall_app in Ha. destruct Ha as [Hl Hc]. inversion Hc; subst. apply Forall_app. split; [exact Hl|]. constructor; [now apply name_app|constructor].
Qed.
Print Assumptions C102_sibling.

Example C102_nonvacuous :
  absolute 1 ([lit "home"] ++ [lit "user"]) /\ name (lit "4Zq_") /\
  temporarySibling (lit "/") (lit "4Zq_") (lit "/home/user") = Ok (lit "/home/4Zq_user") /\
  parent (lit "/") (lit "/home/user") = lit "/home".
Proof.
  split; [exact home_abs|]. split; [|split; reflexivity]. repeat split; try discriminate. intros H; repeat (destruct H as [H|H]; [discriminate H|]); exact H.
Qed.
