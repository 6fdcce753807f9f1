(** * Property C124: asplode unpacks every file of a project
    (epsilon/asplode.py).

    [texts_of proj capproj today lines texts]: [texts] are the lines with the
    name of the project and the date put in.  [sec_ok (h, f, body)]: the text
    [h] names the file [f], and no text of [body] is a header.  [fails]: the
    exception an effect raises, if any.  [does fails es [] r]: [r] is the result of
    doing [es] in order, where directories that cannot be made are skipped and
    any other failure ends it. *)

From Coq Require Import NArith String List Bool Arith Lia.
From Verif Require Import Py PyStr PySplit PyInt FilePath Asplode.
Import ListNotations.
Open Scope nat_scope.
Open Scope list_scope.

(** what is done, in order, whatever fails *)
Theorem C124_order : forall proj capproj today fails lines texts secs,
  texts_of proj capproj today lines texts -> texts = flat_map sec_texts secs -> Forall sec_ok secs -> secs <> [] ->
  does fails (flat_map sec_effects secs) [] (splode proj capproj today fails lines).
Proof.
  intros proj capproj today fails lines texts secs Ht E Hs Hn. apply texts_from_of in Ht. rewrite E in Ht.
  exact (splode_sections proj capproj today fails lines secs (eq_sym Ht) Hs Hn).
Qed.
Print Assumptions C124_order.

(** each file is left with the lines that follow its last header, and no other
    file is touched *)
Theorem C124_contents : forall proj capproj today fails lines texts secs files,
  texts_of proj capproj today lines texts -> texts = flat_map sec_texts secs -> Forall sec_ok secs -> secs <> [] ->
  (forall tr e, is_makedirs e = false -> fails tr e = None) ->
  exists tr, splode proj capproj today fails lines = (tr, None) /\
    (forall before s after, secs = before ++ s :: after -> (forall s', In s' after -> sec_file s' <> sec_file s) ->
       dget (files_after files tr) (sec_file s) = Some (concat (snd s))) /\
    (forall f, (forall s, In s secs -> sec_file s <> f) -> dget (files_after files tr) f = dget files f).
Proof.
  intros proj capproj today fails lines texts secs files Ht E Hs Hn Hf.
  pose proof (C124_order proj capproj today fails lines texts secs Ht E Hs Hn) as H.
  destruct (does_files fails _ _ _ H Hf) as [H1 H2]. destruct (splode proj capproj today fails lines) as [tr x]. cbn [fst snd] in *. subst x.
  exists tr. split; [reflexivity|]. rewrite H2. cbn [files_after fold_left]. split.
  - intros before s after -> Ha. rewrite sections_files, last_body_last; auto.
  - intros f Hno. rewrite sections_files, last_body_none; auto.
Qed.
Print Assumptions C124_contents.

(** lines before the first header, or no lines, are an error, before anything is
    done *)
Theorem C124_stray : forall proj capproj today fails lines texts,
  texts_of proj capproj today lines texts -> (forall t r, texts = t :: r -> ordinary t) ->
  splode proj capproj today fails lines = ([], Some AttributeError).
Proof.
  intros proj capproj today fails lines texts Ht H. apply texts_from_of in Ht. subst texts. exact (splode_stray proj capproj today fails lines H).
Qed.
Print Assumptions C124_stray.

(** these are all the cases, and the texts are determined by the lines *)
Theorem C124_all : forall proj capproj today lines, exists texts,
  texts_of proj capproj today lines texts /\ (forall texts', texts_of proj capproj today lines texts' -> texts' = texts) /\
  ((forall t r, texts = t :: r -> ordinary t) \/
   exists secs, secs <> [] /\ Forall sec_ok secs /\ texts = flat_map sec_texts secs).
Proof.
  intros proj capproj today lines. exists (texts_from proj capproj today 0 lines). split; [now apply texts_from_of|].
  split; [intros t' H; now apply texts_from_of in H|].
  destruct (lines_kind (texts_from proj capproj today 0 lines)) as [E|[(t & r & E & H)|H]]; [left|left|now right].
  - intros t r E'. congruence.
  - intros t' r' E'. congruence.
Qed.
Print Assumptions C124_all.

(** ** A project of three files, one of them written twice *)

Definition lines0 : list str :=
  [lit "###file:_project_/__init__.py "; lit "# _Project_, _date_"; lit "###file:README"; lit "old";
   lit "###file:README ###file: x"; lit "_project__project_"; lit "two"].
Definition day (n : nat) : str := if n =? 1 then lit "2008-01-02" else lit "2008-01-03".
Definition no_dirs (tr : list effect) (e : effect) : option exn := if is_makedirs e then Some OSError else None.
Definition secs0 : list section :=
  [(lit "###file:zoop/__init__.py ", lit "zoop/__init__.py", [lit "# Zoop, 2008-01-02"]);
   (lit "###file:README", lit "README", [lit "old"]);
   (lit "###file:README ###file: x", lit "README", [lit "zoopzoop"; lit "two"])].

Example C124_nonvacuous :
  texts_of (lit "zoop") (lit "Zoop") day lines0 (flat_map sec_texts secs0) /\ Forall sec_ok secs0 /\
  dget (files_after [(lit "README", lit "older"); (lit "x", lit "y")] (fst (splode (lit "zoop") (lit "Zoop") day no_dirs lines0))) (lit "README") =
    Some (lit "zoopzooptwo").
Proof.
  split; [apply texts_from_of; vm_compute; reflexivity|]. split; [|vm_compute; reflexivity].
  repeat apply Forall_cons; try apply Forall_nil; (split; [|repeat constructor]).
  - exists [], (lit "zoop/__init__.py "), []. repeat split; auto. exists [], (lit " "). repeat split.
  - exists [], (lit "README"), []. repeat split; auto. exists [], []. repeat split.
  - exists [], (lit "README "), (lit "###file: x"). repeat split; [right; exists (lit " x"); reflexivity|]. exists [], (lit " "). repeat split.
Qed.
