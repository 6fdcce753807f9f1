(** * Property C135: globChildren *)

From Coq Require Import NArith String List Bool Arith Lia.
From Verif Require Import Py PyStr PySplit FilePath FileTree FileTreeMore FileMake FileGlob FileTreeProps.
Import ListNotations.
Open Scope list_scope.

(** The claim: for a pattern that is one name, the result holds exactly the children
    of the directory whose names match the pattern, those beginning with a dot only
    if the pattern does. *)
Definition C135_full : Prop := forall in_set cwd f n (p : loc) (pattern : str), okfs f -> absolute n p -> dget f p = Some EDir -> pattern <> [] -> ~ In 47%N pattern ->
  forall q, In q (globChildren in_set cwd f (render n p) pattern) <->
    exists c, q = render n (p ++ [c]) /\ dget f (p ++ [c]) <> None /\ fnmatch in_set pattern c = true /\ (hidden c = true -> hidden pattern = true).

(** It is false where the path of the directory itself has '*', '?' or '[' in it: the
    path is taken for a pattern as well.  In an empty directory "/[a]" the children
    are those of "/a". *)
Definition bracketed : str := lit "[a]".
Definition gdisk : fs := dset disk [bracketed] EDir.
Definition some_set (stuff : str) (c : N) : bool := existsb (N.eqb c) stuff.

Lemma bracketed_name : name bracketed.
Proof. repeat split; try discriminate; intros H; repeat (destruct H as [H|H]; [discriminate H|]); exact H. Qed.
Lemma gdisk_ok : okfs gdisk.
Proof. apply (ok_dset disk [bracketed] EDir); try apply disk_ok; auto; [constructor; [exact bracketed_name|constructor]]. Qed.

Theorem C135_glob_refuted : ~ C135_full /\ globChildren some_set [] gdisk (lit "/[a]") (lit "*") = [lit "/a/b"; lit "/a/c"] /\ names gdisk [bracketed] = [].
Proof.
  assert (G : globChildren some_set [] gdisk (lit "/[a]") (lit "*") = [lit "/a/b"; lit "/a/c"]) by (vm_compute; reflexivity).
  split; [|split; [exact G|vm_compute; reflexivity]]. intros F.
  specialize (F some_set [] gdisk 1%nat [bracketed] (lit "*") gdisk_ok (abs_1 _ bracketed_name) eq_refl ltac:(discriminate)).
  change (render 1 [bracketed]) with (lit "/[a]") in F. rewrite G in F.
  assert (X : In (lit "/a/b") [lit "/a/b"; lit "/a/c"]) by now left. apply F in X as (c & E & _); [|vm_compute; intuition discriminate]. discriminate E.
Qed.
Print Assumptions C135_glob_refuted.

(** Nor for the pattern ".." (or "."), which is no child's name: the parent itself is in
    the result. *)
Theorem C135_dots_refuted : globChildren some_set [] disk (lit "/a") (lit "..") = [lit "/"] /\ globChildren some_set [] disk (lit "/a") (lit ".") = [lit "/a"].
Proof. split; vm_compute; reflexivity. Qed.
Print Assumptions C135_dots_refuted.

(** Otherwise it holds, and nothing is in the result twice. *)
Theorem C135_glob_partial : forall in_set cwd f n (p : loc) (pattern : str), okfs f -> absolute n p -> has_magic (render n p) = false -> dget f p = Some EDir -> ~ In 47%N pattern ->
  has_magic pattern = true \/ name pattern ->
  NoDup (globChildren in_set cwd f (render n p) pattern) /\
  forall q, In q (globChildren in_set cwd f (render n p) pattern) <->
    exists c, q = render n (p ++ [c]) /\ dget f (p ++ [c]) <> None /\ fnmatch in_set pattern c = true /\ (hidden c = true -> hidden pattern = true).
Proof. intros in_set cwd f n p pattern. exact (glob_children in_set cwd f n p pattern). Qed.
Print Assumptions C135_glob_partial.

(** Exactly what is in the result, whatever the path, and for patterns of several names:
    every place whose names fit, one by one, those of the path and of the pattern. *)
Theorem C135_segments : forall in_set cwd f n (p : loc) (segs : list str), okfs f -> absolute n p -> Forall name segs -> segs <> [] ->
  NoDup (globChildren in_set cwd f (render n p) (join slash segs)) /\
  forall q, In q (globChildren in_set cwd f (render n p) (join slash segs)) <->
    exists cs, q = render n cs /\ dget f cs <> None /\
      Forall2 (fun seg c => fnmatch in_set seg c = true /\ (hidden c = true -> hidden seg = true)) (p ++ segs) cs.
Proof.
  intros in_set cwd f n p segs Hf Ha Hs Hne. destruct (glob_segs in_set cwd f n p segs Hf Ha Hs Hne) as [H1 H2]. split; [exact H1|]. intros q. rewrite H2. unfold fits.
  split; intros (cs & E & H3 & H4); exists cs; auto.
Qed.
Print Assumptions C135_segments.

(** What it is to match: a pattern without '*', '?' and '[' matches itself alone; "*.x"
    for instance matches the names that end with ".x". *)
Theorem C135_plain : forall in_set (pattern s : str), has_magic pattern = false -> fnmatch in_set pattern s = true <-> s = pattern.
Proof. intros in_set pattern s. exact (plain_match in_set pattern s). Qed.
Print Assumptions C135_plain.

Theorem C135_star : forall in_set (pre post s : str), has_magic pre = false -> has_magic post = false ->
  fnmatch in_set (pre ++ lit "*" ++ post) s = true <-> exists m, s = pre ++ m ++ post.
Proof. intros in_set pre post s. exact (star_match in_set pre post s). Qed.
Print Assumptions C135_star.

Theorem C135_any : forall in_set (pre post s : str), has_magic pre = false -> has_magic post = false ->
  fnmatch in_set (pre ++ lit "?" ++ post) s = true <-> exists c, s = pre ++ [c] ++ post.
Proof. intros in_set pre post s. exact (any_match in_set pre post s). Qed.
Print Assumptions C135_any.

Example C135_segments_nonvacuous : globChildren some_set [] gdisk (lit "/") (join slash [lit "[a]"; lit "?"]) = [lit "/a/b"; lit "/a/c"] /\
  globChildren some_set [] gdisk (lit "/") (join slash [lit "*"; lit "b"]) = [lit "/a/b"].
Proof. split; vm_compute; reflexivity. Qed.

Example C135_nonvacuous :
  okfs disk /\ absolute 1 [a_] /\ has_magic (lit "/a") = false /\ has_magic (lit "[bx]*") = true /\
  globChildren some_set [] disk (lit "/a") (lit "[bx]*") = [lit "/a/b"] /\ globChildren some_set [] disk (lit "/a") (lit "?") = [lit "/a/b"; lit "/a/c"] /\
  globChildren some_set [] disk (lit "/") (lit "n") = [lit "/n"] /\ globChildren some_set [] disk (lit "/a") (lit "n") = [] /\
  globChildren some_set [] (dset disk [a_; lit ".h"] EDir) (lit "/a") (lit "*") = [lit "/a/b"; lit "/a/c"] /\
  globChildren some_set [] (dset disk [a_; lit ".h"] EDir) (lit "/a") (lit ".*") = [lit "/a/.h"].
Proof. split; [exact disk_ok|]. split; [apply abs_1, short_name; auto|]. repeat split; vm_compute; reflexivity. Qed.
