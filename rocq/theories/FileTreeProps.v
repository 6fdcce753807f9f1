(** * C75, C76, C103-C106: files and directories *)

From Coq Require Import NArith String List Bool Arith Lia.
From Verif Require Import Py PyStr PySplit FilePath FileTree FileTreeMore FileSelf.
Import ListNotations.
Open Scope list_scope.

(** ** A file system *)

Definition a_ : str := lit "a".
Definition b_ : str := lit "b".
Definition c_ : str := lit "c".
Definition n_ : str := lit "n".
(** /a/b is a file of 5 bytes, /a/c an empty directory, /n a file of 1 *)
Definition disk : fs := [([], EDir); ([a_], EDir); ([n_], EFile [9%N]); ([a_; b_], EFile [1; 2; 3; 4; 5]%N); ([a_; c_], EDir)].
Definition fine (t : nat) : fate := Run.

Lemma short_name x : x = a_ \/ x = b_ \/ x = c_ \/ x = n_ -> name x.
Proof. intros [->|[->|[->| ->]]]; repeat split; try discriminate; intros H; repeat (destruct H as [H|H]; [discriminate H|]); exact H. Qed.
Lemma disk_get l e : dget disk l = Some e -> l = [] /\ e = EDir \/ l = [a_] /\ e = EDir \/ l = [n_] /\ e = EFile [9%N] \/ l = [a_; b_] /\ e = EFile [1; 2; 3; 4; 5]%N \/ l = [a_; c_] /\ e = EDir.
Proof. intros H. apply dget_In in H. repeat (destruct H as [H|H]; [injection H as <- <-; auto 10|]). destruct H. Qed.
Lemma disk_ok : okfs disk.
Proof.
  split; [| reflexivity| |].
  - unfold wf_dict. cbn [keys map fst disk]. repeat constructor; cbn [In]; intros H; repeat (destruct H as [H|H]; [discriminate H|]); exact H.
  - intros l e H. apply disk_get in H. repeat (destruct H as [(-> & _)|H]; [repeat constructor; apply short_name; auto|]). destruct H as [-> _]. repeat constructor; apply short_name; auto.
  - intros l c e H. apply disk_get in H. destruct H as [(H & _)|[(H & _)|[(H & _)|[(H & _)|(H & _)]]]].
    + now destruct l.
    + apply (app_inj_tail l [] c a_) in H. destruct H as [-> _]. reflexivity.
    + apply (app_inj_tail l [] c n_) in H. destruct H as [-> _]. reflexivity.
    + apply (app_inj_tail l [a_] c b_) in H. destruct H as [-> _]. reflexivity.
    + apply (app_inj_tail l [a_] c c_) in H. destruct H as [-> _]. reflexivity.
Qed.
Lemma abs_1 x : name x -> absolute 1 [x]. Proof. intros H. split; [now left|]. now constructor. Qed.
Lemma an_apart : apart [a_] [n_].
Proof. split; intros (r & E); discriminate E. Qed.

(** ** C75 *)

Definition C75_full : Prop := forall cwd fates k fuel n p m q f t g t', (0 < k)%nat -> absolute n p -> absolute m q -> okfs f ->
  copyTo cwd fates k fuel (render n p) (render m q) (f, t) = ((g, t'), Ok tt) ->
  (forall r e, dget f (p ++ r) = Some e -> dget g (q ++ r) = Some e) /\ (forall r, dget g (p ++ r) = dget f (p ++ r)).

(** a file copied onto itself is emptied; an empty directory copied onto a
    file reports success and does nothing *)
Theorem C75_copy_refuted :
  copyTo [] fine 2 9 (lit "/n") (lit "/n") (disk, 0%nat) =
    (([([], EDir); ([a_], EDir); ([n_], EFile []); ([a_; b_], EFile [1; 2; 3; 4; 5]%N); ([a_; c_], EDir)], 7%nat), Ok tt) /\
  copyTo [] fine 2 9 (lit "/a/c") (lit "/n") (disk, 0%nat) = ((disk, 3%nat), Ok tt) /\ ~ C75_full.
Proof.
  split; [reflexivity|]. split; [reflexivity|]. intros F. assert (Ha : absolute 1 [n_]) by (apply abs_1, short_name; auto).
  destruct (F [] fine 2%nat 9%nat 1%nat [n_] 1%nat [n_] disk 0%nat _ _ ltac:(lia) Ha Ha disk_ok eq_refl) as [_ H]. specialize (H []). discriminate H.
Qed.
Print Assumptions C75_copy_refuted.

(** Whatever fails and wherever the process stops, nothing outside the
    destination changes: the source stays as it is. *)
Theorem C75_outside : forall cwd fates k fuel n p m q f t, absolute n p -> absolute m q -> okfs f ->
  let g := fst (fst (copyTo cwd fates k fuel (render n p) (render m q) (f, t))) in
  forall l, ~ below q l -> dget g l = dget f l.
Proof. intros cwd fates k fuel n p m q f t Hp Hq Hf. apply (keeps_copy cwd fates k fuel n p m q Hp Hq (f, t) Hf). Qed.
Print Assumptions C75_outside.

(** A copy that ends normally, from a place to one that is neither above nor
    below it, has put every file and every directory of the source at the same
    place of the destination.  Missing: a directory does not replace what was
    at its place, and copies onto a place above or below the source (C166). *)
Theorem C75_copy_partial : forall cwd fates k fuel n p m q f t, absolute n p -> absolute m q -> okfs f -> apart p q ->
  snd (copyTo cwd fates k fuel (render n p) (render m q) (f, t)) = Ok tt ->
  let g := fst (fst (copyTo cwd fates k fuel (render n p) (render m q) (f, t))) in
  (forall r c, dget f (p ++ r) = Some (EFile c) -> dget g (q ++ r) = Some (EFile c)) /\
  (forall r, dget f (p ++ r) = Some EDir -> dget f (q ++ r) = None \/ dget f (q ++ r) = Some EDir -> dget g (q ++ r) = Some EDir) /\
  (forall r, dget f (p ++ r) = None -> dget g (q ++ r) = dget f (q ++ r)) /\
  (forall r, dget g (p ++ r) = dget f (p ++ r)).
Proof.
  intros cwd fates k fuel n p m q f t Hp Hq Hf Hd H g. destruct (keeps_copy cwd fates k fuel n p m q Hp Hq (f, t) Hf) as (_ & F & C). specialize (C tt H Hd). fold g in F, C. cbn [fst] in *.
  split; [|split; [|split]].
  - intros r c E. rewrite C, E. reflexivity.
  - intros r E [D|D]; rewrite C, E, D; reflexivity.
  - intros r E. rewrite C, E. reflexivity.
  - intros r. apply F. now apply apart_out.
Qed.
Print Assumptions C75_copy_partial.

(** onto an empty place: an exact copy *)
Theorem C75_exact_partial : forall cwd fates k fuel n p m q f t, absolute n p -> absolute m q -> okfs f -> apart p q -> dget f q = None ->
  snd (copyTo cwd fates k fuel (render n p) (render m q) (f, t)) = Ok tt ->
  let g := fst (fst (copyTo cwd fates k fuel (render n p) (render m q) (f, t))) in
  forall r, dget g (q ++ r) = dget f (p ++ r).
Proof.
  intros cwd fates k fuel n p m q f t Hp Hq Hf Hd Hn H g r. destruct (keeps_copy cwd fates k fuel n p m q Hp Hq (f, t) Hf) as (_ & _ & C). specialize (C tt H Hd r). fold g in C. cbn [fst] in C.
  rewrite C. assert (E : dget f (q ++ r) = None). { destruct r as [|x r]; [now rewrite app_nil_r|]. apply (no_below f q (x :: r) Hf); [rewrite Hn; discriminate|discriminate]. }
  rewrite E. destruct (dget f (p ++ r)) as [[| |]|]; reflexivity.
Qed.
Print Assumptions C75_exact_partial.

(** when nothing fails, files onto files and directories onto directories (or
    onto nothing) are copied, for every chunk size and every depth *)
Theorem C75_works_partial : forall cwd fates k n p m q f t, (0 < k)%nat -> (forall t, fates t = Run) -> absolute n p -> absolute m q -> okfs f -> apart p q ->
  dget f p <> None -> compatible f p q -> (dget f q <> None \/ has_parent f q = true) ->
  exists d, forall fuel, (d <= fuel)%nat -> snd (copyTo cwd fates k fuel (render n p) (render m q) (f, t)) = Ok tt.
Proof.
  intros cwd fates k n p m q f t Hk Hr Hp Hq Hf Hd Hex Hc Hpar. destruct (deep_exists f p) as (d & Hde). exists d. intros fuel Hfu.
  apply copy_works; auto. now apply (deep_le f p d).
Qed.
Print Assumptions C75_works_partial.

(** what is neither a file nor a directory *)
Theorem C75_refuses_partial : forall cwd fates k fuel n (p : loc) m (q : loc) f t, (forall t, fates t = Run) -> absolute n p -> absolute m q ->
  dget f p = None \/ dget f p = Some EOther ->
  snd (copyTo cwd fates k (S fuel) (render n p) (render m q) (f, t)) = Err NotImplementedErr /\
  fst (fst (copyTo cwd fates k (S fuel) (render n p) (render m q) (f, t))) = f.
Proof.
  intros cwd fates k fuel n p m q f t calm Hp Hq H. cbn [copyTo]. rewrite (bind_run _ _ _ _ _ (run_probe fates calm n p f t Hp)). destruct H as [H|H]; rewrite H.
  - rewrite (bind_run _ _ _ _ _ (run_probe fates calm n p f (S t) Hp)), H. split; reflexivity.
  - split; reflexivity.
Qed.
Print Assumptions C75_refuses_partial.

(** Copied onto itself, by whichever of its paths, a tree loses the content of all
    its files, without an error. *)
Theorem C75_self : forall cwd fates k n m (p : loc) f t, (0 < k)%nat -> (forall t, fates t = Run) -> absolute n p -> absolute m p -> okfs f -> dget f p <> None -> (forall r, dget f (p ++ r) <> Some EOther) ->
  exists d, forall fuel, (d <= fuel)%nat -> exists g t', copyTo cwd fates k fuel (render n p) (render m p) (f, t) = ((g, t'), Ok tt) /\
    (forall r c, dget f (p ++ r) = Some (EFile c) -> dget g (p ++ r) = Some (EFile [])) /\
    (forall l, (forall r c, l = p ++ r -> dget f l <> Some (EFile c)) -> dget g l = dget f l).
Proof.
  intros cwd fates k n m p f t Hk calm Hn Hm Hf Hp Ho. destruct (deep_exists f p) as (d & Hd). exists d. intros fuel Hl.
  destruct (copy_self cwd fates calm k Hk fuel n m p f t Hn Hm Hf Hp Ho (deep_le f p d fuel Hl Hd)) as (g & t' & R & A & B). exists g, t'. split; [exact R|]. split.
  - intros r c E. rewrite A, E. reflexivity.
  - intros l H. destruct (strip p l) as [r|] eqn:E.
    + apply strip_spec in E. subst l. rewrite A. specialize (H r). destruct (dget f (p ++ r)) as [[c| |]|]; try reflexivity. destruct (H c eq_refl eq_refl).
    + apply B. intros (r & ->). rewrite (proj2 (strip_spec p (p ++ r) r) eq_refl) in E. discriminate E.
Qed.
Print Assumptions C75_self.

Example C75_self_nonvacuous : okfs disk /\ absolute 1 [a_] /\ absolute 2 [a_] /\
  copyTo [] fine 2 9 (lit "/a") (lit "//a") (disk, 0%nat) = (([([], EDir); ([a_], EDir); ([n_], EFile [9%N]); ([a_; b_], EFile []); ([a_; c_], EDir)], 13%nat), Ok tt).
Proof. split; [exact disk_ok|]. split; [apply abs_1, short_name; auto|]. split; [split; [now right|]; constructor; [apply short_name; auto|constructor]|]. vm_compute. reflexivity. Qed.

Example C75_nonvacuous :
  okfs disk /\ absolute 1 [a_] /\ absolute 1 [b_] /\ apart [a_] [b_] /\ dget disk [b_] = None /\ compatible disk [a_] [b_] /\ has_parent disk [b_] = true /\
  copyTo [] fine 2 9 (lit "/a") (lit "/b") (disk, 0%nat) =
    ((disk ++ [([b_], EDir); ([b_; b_], EFile [1; 2; 3; 4; 5]%N); ([b_; c_], EDir)], 19%nat), Ok tt) /\
  copyTo [] (fun t => if (t =? 9)%nat then Fail 1 else Run) 2 9 (lit "/a") (lit "/b") (disk, 0%nat) =
    ((disk ++ [([b_], EDir); ([b_; b_], EFile [1; 2]%N)], 10%nat), Err OSError).
Proof.
  split; [exact disk_ok|]. split; [apply abs_1, short_name; auto|]. split; [apply abs_1, short_name; auto|]. split; [split; intros (r & E); discriminate E|]. split; [reflexivity|]. split.
  - intros r. destruct (dget disk ([a_] ++ r)) as [e|] eqn:E; [|exact I]. apply disk_get in E.
    destruct E as [(E & _)|[(E & ->)|[(E & _)|[(E & ->)|(E & ->)]]]]; try discriminate E; injection E as ->; left; reflexivity.
  - split; [reflexivity|]. split; vm_compute; reflexivity.
Qed.

(** ** C76 *)

(** Nothing fails, but the process may stop at any moment, even in the middle
    of a write: the file has its old or its new content. *)
Theorem C76_crash : forall cwd fates samedev direct n l c content ext f t, absolute n (l ++ [c]) -> ext <> [] -> ~ In 47%N ext -> okfs f -> no_failure fates ->
  let g := fst (fst (setContent cwd fates samedev direct (render n (l ++ [c])) content ext (f, t))) in
  dget g (l ++ [c]) = dget f (l ++ [c]) \/ dget g (l ++ [c]) = Some (EFile content).
Proof.
  intros cwd fates samedev direct n l c content ext f t Ha He Hs Hf Hn. pose proof (set_states cwd fates samedev direct n l c content ext f t Ha He Hs Hf) as S. cbv zeta in S.
  destruct (setContent _ _ _ _ _ _ _ _) as [s' r]. cbn [fst]. destruct S as (_ & [S|(i & S & _ & L)] & _); [now left|right]. rewrite S. do 2 f_equal. apply firstn_all2. auto.
Qed.
Print Assumptions C76_crash.

(** when it returns, the content is the new one, and no other file is left
    behind; nothing but the file and its sibling ever changes *)
Theorem C76_done : forall cwd fates samedev direct n l c content ext f t, absolute n (l ++ [c]) -> ext <> [] -> ~ In 47%N ext -> okfs f ->
  let (s', r) := setContent cwd fates samedev direct (render n (l ++ [c])) content ext (f, t) in
  (r = Ok tt -> no_failure fates -> dget (fst s') (l ++ [c]) = Some (EFile content) /\ dget (fst s') (l ++ [c ++ ext]) = None) /\
  (forall x, ~ below (l ++ [c]) x -> ~ below (l ++ [c ++ ext]) x -> dget (fst s') x = dget f x).
Proof.
  intros cwd fates samedev direct n l c content ext f t Ha He Hs Hf. pose proof (set_states cwd fates samedev direct n l c content ext f t Ha He Hs Hf) as S. cbv zeta in S.
  destruct (setContent _ _ _ _ _ _ _ _) as [s' r]. destruct S as (S1 & _ & S3). split; [|exact S1]. intros Hr Hn. destruct (S3 Hr) as (i & E1 & E2 & L). split; [|exact E2]. rewrite E1. do 2 f_equal. apply firstn_all2. auto.
Qed.
Print Assumptions C76_done.

Theorem C76_works : forall cwd fates samedev direct n (l : loc) c content ext f t, (forall t, fates t = Run) -> absolute n (l ++ [c]) -> ext <> [] -> ~ In 47%N ext -> okfs f ->
  (forall a b, samedev a b = true) -> dget f l = Some EDir ->
  (dget f (l ++ [c]) = None \/ exists x, dget f (l ++ [c]) = Some (EFile x)) ->
  (dget f (l ++ [c ++ ext]) = None \/ exists x, dget f (l ++ [c ++ ext]) = Some (EFile x)) ->
  snd (setContent cwd fates samedev direct (render n (l ++ [c])) content ext (f, t)) = Ok tt.
Proof. intros cwd fates samedev direct n l c content ext f t calm. now apply set_works. Qed.
Print Assumptions C76_works.

Definition same (a b : loc) : bool := true.
Example C76_nonvacuous :
  okfs disk /\ absolute 1 ([] ++ [n_]) /\ ~ In 47%N (lit ".new") /\
  setContent [] fine same 1 (lit "/n") [7; 8]%N (lit ".new") (disk, 0%nat) =
    (([([], EDir); ([a_], EDir); ([a_; b_], EFile [1; 2; 3; 4; 5]%N); ([a_; c_], EDir); ([n_], EFile [7; 8]%N)], 5%nat), Ok tt) /\
  no_failure (fun t => if (t =? 2)%nat then Stop 0 else Run) /\
  setContent [] (fun t => if (t =? 2)%nat then Stop 0 else Run) same 1 (lit "/n") [7; 8]%N (lit ".new") (disk, 0%nat) =
    ((disk ++ [([lit "n.new"], EFile [7%N])], 3%nat), Err KILLED).
Proof.
  split; [exact disk_ok|]. split; [apply abs_1, short_name; auto|]. split; [intros H; repeat (destruct H as [H|H]; [discriminate H|]); exact H|]. split; [vm_compute; reflexivity|]. split; [|vm_compute; reflexivity].
  intros t k. destruct (t =? 2)%nat; discriminate.
Qed.

(** ** C106 *)

Definition C106_full : Prop := forall cwd fates samedev direct n l c content ext f t, absolute n (l ++ [c]) -> ext <> [] -> ~ In 47%N ext -> okfs f ->
  snd (setContent cwd fates samedev direct (render n (l ++ [c])) content ext (f, t)) = Ok tt ->
  dget (fst (fst (setContent cwd fates samedev direct (render n (l ++ [c])) content ext (f, t)))) (l ++ [c]) = Some (EFile content).

(** the disk is full when the file is closed: success, and the old content is
    replaced by an empty file *)
Theorem C106_full_disk_refuted :
  setContent [] (fun t => if (t =? 2)%nat then Fail 0 else Run) same 0 (lit "/n") [7; 8]%N (lit ".new") (disk, 0%nat) =
    (([([], EDir); ([a_], EDir); ([a_; b_], EFile [1; 2; 3; 4; 5]%N); ([a_; c_], EDir); ([n_], EFile [])], 4%nat), Ok tt) /\ ~ C106_full.
Proof.
  split; [vm_compute; reflexivity|]. intros F. assert (H : Some (EFile []) = Some (EFile [7; 8]%N)); [|discriminate H].
  apply (F [] (fun t => if (t =? 2)%nat then Fail 0 else Run) same 0%nat 1%nat [] n_ [7; 8]%N (lit ".new") disk 0%nat).
  - apply abs_1, short_name; auto.
  - discriminate.
  - intros H; repeat (destruct H as [H|H]; [discriminate H|]); exact H.
  - exact disk_ok.
  - vm_compute. reflexivity.
Qed.
Print Assumptions C106_full_disk_refuted.

(** Any call may fail.  If write itself hands everything to the operating
    system, the file has its old or its new content, and the new one on success.
    Missing: when part of it is only written as the file is closed, the file
    may hold any beginning of the new content. *)
Theorem C106_failures_partial : forall cwd fates samedev direct n l c content ext f t, absolute n (l ++ [c]) -> ext <> [] -> ~ In 47%N ext -> okfs f ->
  let (s', r) := setContent cwd fates samedev direct (render n (l ++ [c])) content ext (f, t) in
  ((length content <= direct)%nat -> (dget (fst s') (l ++ [c]) = dget f (l ++ [c]) \/ dget (fst s') (l ++ [c]) = Some (EFile content)) /\
    (r = Ok tt -> dget (fst s') (l ++ [c]) = Some (EFile content))) /\
  (dget (fst s') (l ++ [c]) = dget f (l ++ [c]) \/ exists i, dget (fst s') (l ++ [c]) = Some (EFile (firstn i content))).
Proof.
  intros cwd fates samedev direct n l c content ext f t Ha He Hs Hf. pose proof (set_states cwd fates samedev direct n l c content ext f t Ha He Hs Hf) as S. cbv zeta in S.
  destruct (setContent _ _ _ _ _ _ _ _) as [s' r]. destruct S as (_ & S2 & S3). split; [|destruct S2 as [S2|(i & S2 & _)]; [now left|right; now exists i]]. intros L. split.
  - destruct S2 as [S2|(i & S2 & _ & G)]; [now left|right]. rewrite S2. do 2 f_equal. apply firstn_all2. auto.
  - intros Hr. destruct (S3 Hr) as (i & E & _ & G). rewrite E. do 2 f_equal. apply firstn_all2. auto.
Qed.
Print Assumptions C106_failures_partial.

Example C106_nonvacuous :
  absolute 1 ([] ++ [n_]) /\
  snd (setContent [] (fun t => if (t =? 1)%nat then Fail 1 else Run) same 2 (lit "/n") [7; 8]%N (lit ".new") (disk, 0%nat)) = Err OSError /\
  dget (fst (fst (setContent [] (fun t => if (t =? 1)%nat then Fail 1 else Run) same 2 (lit "/n") [7; 8]%N (lit ".new") (disk, 0%nat)))) [n_] = Some (EFile [9%N]).
Proof. split; [apply abs_1, short_name; auto|]. split; vm_compute; reflexivity. Qed.

(** ** C103 *)

(** Whatever fails and wherever the process stops: nothing outside the tree
    changes, and what is left of the tree is as it was. *)
Theorem C103_outside : forall cwd fates fuel n p f t, absolute n p -> okfs f ->
  let g := fst (fst (remove cwd fates fuel (render n p) (f, t))) in
  (forall l, ~ below p l -> dget g l = dget f l) /\ (forall l, dget g l = None \/ dget g l = dget f l).
Proof.
  intros cwd fates fuel n p f t Ha Hf. split; [apply (keeps_remove cwd fates fuel n p Ha (f, t) Hf)|apply (shrinks_remove cwd fates fuel (render n p) (f, t)), Hf].
Qed.
Print Assumptions C103_outside.

Theorem C103_gone : forall cwd fates fuel n p f t, absolute n p -> okfs f -> snd (remove cwd fates fuel (render n p) (f, t)) = Ok tt ->
  forall l, below p l -> dget (fst (fst (remove cwd fates fuel (render n p) (f, t)))) l = None.
Proof. intros cwd fates fuel n p f t Ha Hf H l (r & ->). destruct (keeps_remove cwd fates fuel n p Ha (f, t) Hf) as (_ & _ & C). apply (C tt H). Qed.
Print Assumptions C103_gone.

Theorem C103_works : forall cwd fates n p f t, (forall t, fates t = Run) -> absolute n p -> p <> [] -> okfs f -> dget f p <> None ->
  exists d, forall fuel, (d <= fuel)%nat -> snd (remove cwd fates fuel (render n p) (f, t)) = Ok tt.
Proof.
  intros cwd fates n p f t calm Ha Hp Hf Hex. destruct (deep_exists f p) as (d & Hde). exists d. intros fuel Hfu. apply remove_works; auto. now apply (deep_le f p d).
Qed.
Print Assumptions C103_works.

Example C103_nonvacuous :
  okfs disk /\ absolute 1 [a_] /\ dget disk [a_] <> None /\
  remove [] fine 9 (lit "/a") (disk, 0%nat) = (([([], EDir); ([n_], EFile [9%N])], 11%nat), Ok tt) /\
  snd (remove [] (fun t => if (t =? 6)%nat then Fail 0 else Run) 9 (lit "/a") (disk, 0%nat)) = Err OSError.
Proof. split; [exact disk_ok|]. split; [apply abs_1, short_name; auto|]. split; [discriminate|]. split; vm_compute; reflexivity. Qed.

(** ** C104 *)

Theorem C104_walk : forall cwd fates n p f t, (forall t, fates t = Run) -> absolute n p -> okfs f ->
  exists d, forall fuel, (d <= fuel)%nat -> exists t' ws, walk cwd fates fuel (render n p) (f, t) = ((f, t'), Ok (map (render n) ws)) /\
    NoDup ws /\ (forall l, In l ws <-> l = p \/ below p l /\ dget f l <> None) /\
    (forall a k c b, ws = a ++ (k ++ [c]) :: b -> k ++ [c] = p \/ In k a).
Proof.
  intros cwd fates n p f t calm Ha Hf. destruct (deep_exists f p) as (d & Hde). exists (S d). intros fuel Hfu.
  destruct (walk_spec cwd fates calm fuel n p f t Ha Hf ltac:(lia) (deep_le f p d fuel ltac:(lia) Hde)) as (t' & ws & E & [V1 V2 V3]). exists t', ws. auto.
Qed.
Print Assumptions C104_walk.

Example C104_nonvacuous :
  okfs disk /\ absolute 1 [a_] /\ snd (walk [] fine 9 (lit "/a") (disk, 0%nat)) = Ok [lit "/a"; lit "/a/b"; lit "/a/c"] /\
  snd (walk [] fine 9 (lit "/x") (disk, 0%nat)) = Ok [lit "/x"].
Proof. split; [exact disk_ok|]. split; [apply abs_1, short_name; auto|]. split; vm_compute; reflexivity. Qed.

(** ** C105 *)

Definition C105_full : Prop := forall fates samedev n p m q f t, (forall t, fates t = Run) -> absolute n p -> absolute m q -> okfs f -> apart p q ->
  dget f p <> None -> dget f q = None -> has_parent f q = true -> snd (moveTo fates samedev (render n p) (render m q) (f, t)) = Ok tt.

(** to another file system: secureSibling does not exist *)
Theorem C105_other_device_refuted :
  (forall fates samedev n p m q f t, (forall t, fates t = Run) -> absolute n p -> absolute m q -> dget f p <> None -> p <> q -> samedev p q = false ->
    moveTo fates samedev (render n p) (render m q) (f, t) = ((f, S t), Err AttributeError)) /\ ~ C105_full.
Proof.
  split; [exact move_other_device|]. intros F.
  specialize (F fine (fun _ _ => false) 1%nat [a_] 1%nat [b_] disk 0%nat (fun _ => eq_refl) (abs_1 _ (short_name a_ ltac:(auto))) (abs_1 _ (short_name b_ ltac:(auto))) disk_ok).
  assert (H : @Err unit AttributeError = Ok tt); [|discriminate H]. apply F; [split; intros (r & E); discriminate E|discriminate|reflexivity|reflexivity].
Qed.
Print Assumptions C105_other_device_refuted.

(** Whatever fails and wherever the process stops, the tree is entirely at the
    old place or entirely at the new one, and nothing else changes; an error
    means that nothing changed.  Missing: moves between file systems. *)
Theorem C105_move_partial : forall fates samedev n p m q f t, absolute n p -> absolute m q -> okfs f ->
  let (s', r) := moveTo fates samedev (render n p) (render m q) (f, t) in
  (fst s' = f \/ apart p q /\ moved p q f (fst s')) /\
  (r = Ok tt -> dget f p <> None /\ (p = q /\ fst s' = f \/ apart p q /\ moved p q f (fst s'))) /\
  (r <> Ok tt -> fst s' = f \/ r = Err KILLED).
Proof. exact move_states. Qed.
Print Assumptions C105_move_partial.

Theorem C105_works_partial : forall fates samedev n p m q f t, (forall t, fates t = Run) -> absolute n p -> absolute m q -> dget f p <> None -> apart p q -> samedev p q = true ->
  dget f q = None -> has_parent f q = true -> snd (moveTo fates samedev (render n p) (render m q) (f, t)) = Ok tt.
Proof. exact move_works. Qed.
Print Assumptions C105_works_partial.

Example C105_nonvacuous :
  okfs disk /\ absolute 1 [a_] /\ absolute 1 [b_] /\ apart [a_] [b_] /\ dget disk [b_] = None /\ has_parent disk [b_] = true /\
  moveTo fine same (lit "/a") (lit "/b") (disk, 0%nat) =
    (([([], EDir); ([b_], EDir); ([n_], EFile [9%N]); ([b_; b_], EFile [1; 2; 3; 4; 5]%N); ([b_; c_], EDir)], 2%nat), Ok tt) /\
  snd (moveTo fine same (lit "/a") (lit "/n") (disk, 0%nat)) = Err OSError.
Proof.
  split; [exact disk_ok|]. split; [apply abs_1, short_name; auto|]. split; [apply abs_1, short_name; auto|]. split; [split; intros (r & E); discriminate E|]. split; [reflexivity|]. split; [reflexivity|]. split; vm_compute; reflexivity.
Qed.
