(** * C166: copies to a place above or below the source *)

From Coq Require Import NArith String List Bool Arith Lia.
From Verif Require Import Py PyStr PySplit FilePath FileTree FileNest.
Import ListNotations.
Open Scope list_scope.

(** ** A file system: /n/a/a/b and /n/a/b are files, /n/e is a directory with a file a *)
Definition a_ : str := lit "a".
Definition b_ : str := lit "b".
Definition e_ : str := lit "e".
Definition n_ : str := lit "n".
Definition disk : fs := [([], EDir); ([n_], EDir); ([n_; a_], EDir); ([n_; a_; a_], EDir); ([n_; a_; a_; b_], EFile [1%N]); ([n_; a_; b_], EFile [2%N]); ([n_; e_], EDir); ([n_; e_; a_], EFile [3%N])].
Definition fine (t : nat) : fate := Run.

Lemma short_name x : x = a_ \/ x = b_ \/ x = e_ \/ x = n_ -> name x.
Proof. intros [->|[->|[->| ->]]]; repeat split; try discriminate; intros H; repeat (destruct H as [H|H]; [discriminate H|]); exact H. Qed.
Lemma disk_get l e : dget disk l = Some e -> In (l, e) disk.
Proof. apply dget_In. Qed.
Lemma disk_ok : okfs disk.
Proof.
  split; [| reflexivity| |].
  - unfold wf_dict. cbn [keys map fst disk]. repeat constructor; cbn [In]; intros H; repeat (destruct H as [H|H]; [discriminate H|]); exact H.
  - intros l e H. apply disk_get in H. repeat (destruct H as [H|H]; [injection H as <- _; repeat constructor; apply short_name; auto|]). destruct H.
  - intros l c e H. apply disk_get in H. cbn [disk In] in H. repeat (destruct H as [H|H]; [injection H as H _|]); [..|destruct H].
    + now destruct l.
    + apply (app_inj_tail [] l n_ c) in H. destruct H as [<- _]. reflexivity.
    + apply (app_inj_tail [n_] l a_ c) in H. destruct H as [<- _]. reflexivity.
    + apply (app_inj_tail [n_; a_] l a_ c) in H. destruct H as [<- _]. reflexivity.
    + apply (app_inj_tail [n_; a_; a_] l b_ c) in H. destruct H as [<- _]. reflexivity.
    + apply (app_inj_tail [n_; a_] l b_ c) in H. destruct H as [<- _]. reflexivity.
    + apply (app_inj_tail [n_] l e_ c) in H. destruct H as [<- _]. reflexivity.
    + apply (app_inj_tail [n_; e_] l a_ c) in H. destruct H as [<- _]. reflexivity.
Qed.
Lemma disk_abs l : Forall name l -> absolute 1 l. Proof. intros H. split; [now left|exact H]. Qed.

(** ** The claim: where nothing fails, a directory that holds files and directories only is
    copied to any other place which is in a directory and takes it, and the copy is exact *)
Definition C166_full : Prop := forall cwd fates k n p m q f t, (0 < k)%nat -> (forall t, fates t = Run) -> absolute n p -> absolute m q -> okfs f -> p <> q ->
  dget f p = Some EDir -> compatible f p q -> (dget f q <> None \/ has_parent f q = true) ->
  exists d, forall fuel, (d <= fuel)%nat -> exists g t', copyTo cwd fates k fuel (render n p) (render m q) (f, t) = ((g, t'), Ok tt) /\
    forall r e, dget f (p ++ r) = Some e -> dget g (q ++ r) = Some e.

(** Copied to a new place in it, an empty directory never gets copied: directory is made in
    directory for ever.  And the tree /n/a copied to /n has the content of /n/a/a/b where that
    of /n/a/b belongs, which is overwritten also in the source, without an error. *)
Theorem C166_refuted :
  (forall cwd fates k fuel n p m x f t, (forall t, fates t = Run) -> absolute n p -> absolute m p -> name x -> okfs f -> dget f p = Some EDir -> (forall c, dget f (p ++ [c]) = None) ->
    let out := copyTo cwd fates k fuel (render n p) (render m (p ++ [x])) (f, t) in
    snd out = Err NO_FUEL /\ forall j, (j < fuel)%nat -> dget (fst (fst out)) (p ++ repeat x (S j)) = Some EDir) /\
  copyTo [] fine 2 9 (lit "/n/a") (lit "/n") (disk, 0%nat) =
    (([([], EDir); ([n_], EDir); ([n_; a_], EDir); ([n_; a_; a_], EDir); ([n_; a_; a_; b_], EFile [1%N]); ([n_; a_; b_], EFile [1%N]); ([n_; e_], EDir); ([n_; e_; a_], EFile [3%N]); ([n_; b_], EFile [1%N])], 20%nat), Ok tt) /\
  ~ C166_full.
Proof.
  split; [intros; now apply endless_below|]. split; [vm_compute; reflexivity|]. intros F.
  assert (Hp : absolute 1 [n_; e_]) by (apply disk_abs; repeat constructor; apply short_name; auto).
  assert (Hq : absolute 1 [n_; e_; b_]) by (apply disk_abs; repeat constructor; apply short_name; auto).
  destruct (F [] fine 2%nat 1%nat [n_; e_] 1%nat [n_; e_; b_] disk 0%nat ltac:(lia) ltac:(reflexivity) Hp Hq disk_ok ltac:(discriminate) eq_refl) as (d & H).
  - intros r. destruct (dget disk ([n_; e_] ++ r)) as [e|] eqn:E; [|exact I]. apply disk_get in E. cbn [disk In app] in E.
    repeat (destruct E as [E|E]; [try discriminate E; injection E as <- <-; left; reflexivity|]). destruct E.
  - right. reflexivity.
  - destruct (H d (le_n d)) as (g & t' & R & _). apply (never_below [] fine 2 d 1 [n_; e_] 1 [b_] (disk, 0%nat) Hp Hq disk_ok ltac:(discriminate)).
    cbn [app]. rewrite R. reflexivity.
Qed.
Print Assumptions C166_refuted.

(** Whatever there is and whatever fails: a copy to a place below the source never ends
    normally; it raises or goes on beyond any number of levels. *)
Theorem C166_below : forall cwd fates k fuel n p m r f t, absolute n p -> absolute m (p ++ r) -> okfs f -> r <> [] ->
  snd (copyTo cwd fates k fuel (render n p) (render m (p ++ r)) (f, t)) <> Ok tt.
Proof. intros. now apply (never_below cwd fates k fuel n p m r (f, t)). Qed.
Print Assumptions C166_below.

(** A directory copied to a place above it, where it does not hold an entry of the name that
    leads back to it: everything gets to its place, and nothing else changes, the source
    included.  Missing: such an entry. *)
Theorem C166_above_partial : forall cwd fates k fuel n (q : loc) x (r : loc) m f t, let p := q ++ x :: r in absolute n p -> absolute m q -> okfs f ->
  dget f p = Some EDir -> dget f (p ++ [x]) = None ->
  let out := copyTo cwd fates k fuel (render n p) (render m q) (f, t) in snd out = Ok tt ->
  let g := fst (fst out) in
  (forall s c, dget f (p ++ s) = Some (EFile c) -> dget g (q ++ s) = Some (EFile c)) /\
  (forall s, dget f (p ++ s) = Some EDir -> dget f (q ++ s) = None \/ dget f (q ++ s) = Some EDir -> dget g (q ++ s) = Some EDir) /\
  (forall s, dget f (p ++ s) = None -> dget g (q ++ s) = dget f (q ++ s)) /\
  (forall s, dget g (p ++ s) = dget f (p ++ s)) /\
  (forall l, ~ below q l -> dget g l = dget f l).
Proof.
  intros cwd fates k fuel n q x r m f t p Hp Hq Hf Hd Hx out H g.
  pose proof (copy_above cwd fates k fuel n q r x m f t Hp Hq Hf Hd Hx H) as C. fold p in C. change (copied p q f g) in C.
  destruct (keeps_copy cwd fates k fuel n p m q Hp Hq (f, t) Hf) as (_ & Fr & _).
  split; [intros s c E; rewrite C, E; reflexivity|]. split; [intros s E [D|D]; rewrite C, E, D; reflexivity|]. split; [intros s E; rewrite C, E; reflexivity|]. split; [|exact Fr].
  intros s. unfold p. rewrite <- app_assoc. rewrite C. cbn [app].
  replace (dget f (p ++ x :: r ++ s)) with (@None entry); [reflexivity|]. symmetry.
  assert (E : p ++ x :: r ++ s = (p ++ [x]) ++ (r ++ s)) by (rewrite <- app_assoc; reflexivity). rewrite E.
  destruct (r ++ s) as [|y u]; [now rewrite app_nil_r|]. apply (no_below f (p ++ [x]) (y :: u) Hf); [rewrite Hx; discriminate|discriminate].
Qed.
Print Assumptions C166_above_partial.

(** and it is copied, if nothing fails *)
Theorem C166_works_partial : forall cwd fates k n (q : loc) x (r : loc) m f t, let p := q ++ x :: r in (forall t, fates t = Run) -> (0 < k)%nat -> absolute n p -> absolute m q -> okfs f ->
  dget f p = Some EDir -> dget f (p ++ [x]) = None -> compatible f p q ->
  exists d, forall fuel, (d <= fuel)%nat -> snd (copyTo cwd fates k fuel (render n p) (render m q) (f, t)) = Ok tt.
Proof. intros. now apply works_above. Qed.
Print Assumptions C166_works_partial.

(** /n/e copied to /n, and to /n/e/b with room for 6 levels *)
Example C166_nonvacuous : okfs disk /\ absolute 1 [n_; e_] /\ dget disk [n_; e_; e_] = None /\
  copyTo [] fine 2 9 (lit "/n/e") (lit "/n") (disk, 0%nat) = ((disk, 5%nat), Err OSError) /\
  snd (copyTo [] fine 2 9 (lit "/n/e") (lit "/") (disk, 0%nat)) = Ok tt /\
  snd (copyTo [] fine 2 6 (lit "/n/e") (lit "/n/e/b") (disk, 0%nat)) = Err NO_FUEL.
Proof. split; [exact disk_ok|]. split; [apply disk_abs; repeat constructor; apply short_name; auto|]. split; [reflexivity|]. repeat split; vm_compute; reflexivity. Qed.
