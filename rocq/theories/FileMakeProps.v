(** * Properties C132, C133, C134: making directories and files, reading them *)

From Coq Require Import NArith String List Bool Arith Lia.
From Verif Require Import Py PyStr PySplit FilePath FileTree FileTreeMore FileMake FileTreeProps.
Import ListNotations.
Open Scope list_scope.

(** ** C132: makedirs *)

(** Whatever fails and wherever the process stops: all that has changed is that
    there are directories at places that lead to the path, where nothing was.  When
    makedirs ends normally there was nothing at the path, and there is a directory
    (and so above it). *)
Theorem C132_made : forall fates file_exists n (p : loc) f t, absolute n p -> okfs f ->
  let (s', r) := makedirs fates file_exists (render n p) (f, t) in
  okfs (fst s') /\
  (forall l, dget (fst s') l = dget f l \/ (below l p /\ l <> [] /\ dget f l = None /\ dget (fst s') l = Some EDir)) /\
  (r = Ok tt -> dget f p = None /\ forall l, below l p -> dget (fst s') l = Some EDir).
Proof.
  intros fates file_exists n p f t Ha Hf. pose proof (makedirs_made fates file_exists (S (length (render n p))) n p (f, t) Ha Hf) as D. fold (makedirs fates file_exists (render n p)) in D.
  destruct (makedirs fates file_exists (render n p) (f, t)) as [s' r]. destruct D as (D1 & D2 & D3). split; [exact D1|]. split; [exact D2|].
  intros E. destruct (D3 E) as [D4 D5]. split; [exact D4|]. intros l (x & ->). destruct x as [|c x]; [now rewrite app_nil_r in D5|].
  apply (ok_below _ l (c :: x) D1); [discriminate|]. intros X. pose proof (eq_trans (eq_sym X) D5) as Y. discriminate Y.
Qed.
Print Assumptions C132_made.

(** When nothing fails it ends normally exactly if nothing is at the path and
    everything on the way to it is a directory or missing; otherwise it raises
    OSError and changes nothing. *)
Theorem C132_works : forall fates file_exists n (p : loc) f t, (forall t, fates t = Run) -> absolute n p -> okfs f ->
  dget f p = None -> (forall l, below l p -> dget f l = None \/ dget f l = Some EDir) ->
  snd (makedirs fates file_exists (render n p) (f, t)) = Ok tt.
Proof. intros fates file_exists n p f t R Ha Hf. apply makedirs_works; auto. pose proof (length_render n p Ha). lia. Qed.
Print Assumptions C132_works.

(** (where nothing fails by itself, mkdir for the directories above never says that
    something exists, since nothing does) *)
Theorem C132_refuses : forall fates file_exists n (p : loc) f t, (forall t, fates t = Run) -> (forall t, file_exists t = false) -> absolute n p -> okfs f ->
  dget f p <> None \/ ~ (forall l, below l p -> dget f l = None \/ dget f l = Some EDir) ->
  exists t', makedirs fates file_exists (render n p) (f, t) = ((f, t'), Err OSError).
Proof. intros fates file_exists n p f t R X Ha Hf Hb. apply makedirs_refuses; auto. pose proof (length_render n p Ha). lia. Qed.
Print Assumptions C132_refuses.

(** createDirectory makes the one directory and none above it: it ends normally exactly if
    the call does not fail by itself, nothing is at the path and its parent is a directory;
    then the directory is all that is new, and otherwise nothing has changed. *)
Theorem C132_one : forall fates n l c f t, absolute n (l ++ [c]) ->
  let (s', r) := createDirectory fates (render n (l ++ [c])) (f, t) in
  snd s' = S t /\
  (r = Ok tt <-> fates t = Run /\ dget f (l ++ [c]) = None /\ dget f l = Some EDir) /\
  (r = Ok tt -> fst s' = dset f (l ++ [c]) EDir) /\ (r <> Ok tt -> fst s' = f).
Proof. exact createDirectory_one. Qed.
Print Assumptions C132_one.

Example C132_nonvacuous :
  makedirs fine (fun _ => false) (lit "/a/x/y") (disk, 0%nat) = ((dset (dset disk [a_; lit "x"] EDir) [a_; lit "x"; lit "y"] EDir, 4%nat), Ok tt) /\
  createDirectory fine (lit "/a/x") (disk, 0%nat) = ((dset disk [a_; lit "x"] EDir, 1%nat), Ok tt) /\
  createDirectory fine (lit "/a/x/y") (disk, 0%nat) = ((disk, 1%nat), Err OSError) /\
  snd (makedirs fine (fun _ => false) (lit "/n/x/y") (disk, 0%nat)) = Err OSError /\
  snd (makedirs fine (fun _ => false) (lit "/a") (disk, 0%nat)) = Err OSError /\
  fst (makedirs (fun t => if (t =? 3)%nat then Stop 0 else Run) (fun _ => false) (lit "/a/x/y") (disk, 0%nat)) = (dset disk [a_; lit "x"] EDir, 4%nat).
Proof. repeat split; vm_compute; reflexivity. Qed.

(** ** C133: touch *)

(** Whatever fails and wherever the process stops, at most a new empty file is there;
    when touch ends normally something is there. *)
Theorem C133_touched : forall fates n (p : loc) f t, absolute n p -> okfs f ->
  let (s', r) := touch fates false (render n p) (f, t) in
  okfs (fst s') /\ (fst s' = f \/ (dget f p = None /\ fst s' = dset f p (EFile []))) /\ (r = Ok tt -> dget (fst s') p <> None).
Proof. intros fates n p f t. exact (touch_spec fates n p (f, t)). Qed.
Print Assumptions C133_touched.

(** When nothing fails and something is there, or a directory that can hold it, touch
    works. *)
Theorem C133_works : forall fates n (p : loc) f t, (forall t, fates t = Run) -> absolute n p -> okfs f -> dget f p <> None \/ has_parent f p = true ->
  let (s', r) := touch fates false (render n p) (f, t) in r = Ok tt /\ fst s' = match dget f p with Some _ => f | None => dset f p (EFile []) end.
Proof. intros fates n p f t. exact (touch_works fates n p f t). Qed.
Print Assumptions C133_works.

(** A path that must be created cannot be touched. *)
Theorem C133_must_create : forall fates path s, touch fates true path s = (s, Err AssertionError).
Proof. intros fates path s. exact (touch_always fates path s). Qed.
Print Assumptions C133_must_create.

Example C133_nonvacuous :
  touch fine false (lit "/a/x") (disk, 0%nat) = ((dset disk [a_; lit "x"] (EFile []), 3%nat), Ok tt) /\
  touch fine false (lit "/n") (disk, 0%nat) = ((disk, 3%nat), Ok tt) /\ touch fine false (lit "/a") (disk, 0%nat) = ((disk, 2%nat), Ok tt) /\
  snd (touch fine false (lit "/x/y") (disk, 0%nat)) = Err OSError.
Proof. repeat split; vm_compute; reflexivity. Qed.

(** ** C134: getContent *)

Definition C134_full : Prop := forall fates alwaysCreate n (p : loc) f t, absolute n p -> okfs f ->
  let (s', r) := getContent fates alwaysCreate (render n p) (f, t) in fst s' = f /\ forall c, r = Ok c -> dget f p = Some (EFile c).

(** false of a path that must be created: reading it makes an empty file *)
Theorem C134_must_create_refuted : (forall fates n (p : loc) f t, absolute n p -> let (s', r) := getContent fates true (render n p) (f, t) in
  forall c, r = Ok c -> c = [] /\ dget f p = None /\ fst s' = dset f p (EFile [])) /\ ~ C134_full.
Proof.
  split; [intros fates n p f t; exact (get_always fates n p (f, t))|]. intros F.
  assert (Ha : absolute 1 ([lit "x"] : loc)) by (split; [now left|]; repeat constructor; cbn; intuition discriminate).
  assert (Ho : okfs disk) by exact disk_ok.
  specialize (F fine true 1%nat [lit "x"] disk 0%nat Ha Ho). vm_compute in F. destruct F as [F _]. discriminate F.
Qed.
Print Assumptions C134_must_create_refuted.

(** Otherwise what is returned is the content of the file, and nothing changes. *)
Theorem C134_content_partial : forall fates n (p : loc) f t, absolute n p ->
  let (s', r) := getContent fates false (render n p) (f, t) in fst s' = f /\ forall c, r = Ok c -> dget f p = Some (EFile c).
Proof. intros fates n p f t. exact (get_spec fates n p (f, t)). Qed.
Print Assumptions C134_content_partial.

Theorem C134_works_partial : forall fates n (p : loc) f t c, (forall t, fates t = Run) -> absolute n p -> dget f p = Some (EFile c) -> snd (getContent fates false (render n p) (f, t)) = Ok c.
Proof. intros fates n p f t c. exact (get_works fates n p f t c). Qed.
Print Assumptions C134_works_partial.

(** After setContent, in a process of its own, that stopped anywhere: the content set
    or the content before; and the content set, if it ended normally. *)
Theorem C134_after_set : forall cwd fates samedev direct n l c content ext f t fates' t', absolute n (l ++ [c]) -> ext <> [] -> ~ In 47%N ext -> okfs f -> no_failure fates ->
  let (s', r) := setContent cwd fates samedev direct (render n (l ++ [c])) content ext (f, t) in
  forall got, snd (getContent fates' false (render n (l ++ [c])) (fst s', t')) = Ok got -> (dget f (l ++ [c]) = Some (EFile got) \/ got = content) /\ (r = Ok tt -> got = content).
Proof.
  intros cwd fates samedev direct n l c content ext f t fates' t' Ha He Hs Hf Hn.
  pose proof (C76_crash cwd fates samedev direct n l c content ext f t Ha He Hs Hf Hn) as A. pose proof (C76_done cwd fates samedev direct n l c content ext f t Ha He Hs Hf) as B. cbv zeta in A.
  destruct (setContent cwd fates samedev direct (render n (l ++ [c])) content ext (f, t)) as [s' r]. cbn [fst] in A. intros got G.
  pose proof (get_spec fates' n (l ++ [c]) (fst s', t') Ha) as D. destruct (getContent fates' false (render n (l ++ [c])) (fst s', t')) as [s2 r2]. cbn [snd fst] in *. destruct D as [_ D]. specialize (D got G).
  split.
  - destruct A as [A|A]; [left; exact (eq_trans (eq_sym A) D)|right]. pose proof (eq_trans (eq_sym A) D) as X. injection X. auto.
  - intros E. destruct B as [B _]. destruct (B E Hn) as [B1 _]. pose proof (eq_trans (eq_sym B1) D) as X. injection X. auto.
Qed.
Print Assumptions C134_after_set.

Example C134_nonvacuous :
  getContent fine false (lit "/a/b") (disk, 0%nat) = ((disk, 2%nat), Ok [1; 2; 3; 4; 5]%N) /\ snd (getContent fine false (lit "/a") (disk, 0%nat)) = Err OSError /\
  (let s := fst (setContent [] fine same 1 (lit "/n") [7; 8]%N (lit ".new") (disk, 0%nat)) in snd (getContent fine false (lit "/n") s) = Ok [7; 8]%N).
Proof. repeat split; vm_compute; reflexivity. Qed.
