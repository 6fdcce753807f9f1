(** * Properties C143, C144: running a benchmark script *)

From Coq Require Import NArith String List Bool Arith Lia.
From Verif Require Import Py PyStr PySplit FilePath FileTree FileTreeMore FileMake FileStat BenchMain FileTreeProps.
Import ListNotations.
Open Scope list_scope.

(** to see what the child is started with, and the disk it finds *)
Definition observe (sp : spawned) (g : fs) : fs * res (spawned * fs) := (g, Ok (sp, g)).

(** ** C143 *)

(** The claim: the script which the child runs is the one that is named, as seen from
    the directory benchmark is run in. *)
Definition C143_full : Prop := forall fates file_exists exe rnd fuel n (wd : loc) prog nm args f t sp g,
  absolute n wd -> name rnd -> okfs f -> dget f wd = Some EDir ->
  snd (main (render n wd) fates file_exists exe rnd fuel observe (prog :: nm :: args) (f, t)) = Ok (sp, g) ->
  script sp nm = place (abspath (render n wd) nm).

Lemma observed : forall fates file_exists exe rnd fuel n (wd : loc) prog nm args f t sp g,
  absolute n wd -> name rnd -> okfs f -> dget f wd = Some EDir ->
  snd (main (render n wd) fates file_exists exe rnd fuel observe (prog :: nm :: args) (f, t)) = Ok (sp, g) ->
  sp = Spawned exe (exe :: lit "-Wignore" :: nm :: args) (render n (wd ++ [rnd ++ lit ".stat"])) [(0%N, false); (1%N, true); (2%N, true); (3%N, true); (4%N, false)] /\
  (forall l, dget g l = if eqb l (wd ++ [rnd ++ lit ".stat"]) then Some EDir else dget f l) /\ dget f (wd ++ [rnd ++ lit ".stat"]) = None /\ okfs g.
Proof.
  intros fates file_exists exe rnd fuel n wd prog nm args f t sp g Ha Hr Hf Hwd E.
  pose proof (main_outside fates file_exists exe rnd fuel observe n wd Ha Hr prog nm args f t Hf Hwd (fun _ _ H => H)) as M.
  destruct (main (render n wd) fates file_exists exe rnd fuel observe (prog :: nm :: args) (f, t)) as [s' r]. cbn [snd] in E. subst r.
  destruct M as (_ & [(_ & e & X)|(N0 & g' & Og & G & M)]); [discriminate X|]. unfold observe in M. destruct M as (_ & _ & _ & M). destruct M as [(M & _)|(e & M)]; [discriminate|injection M as -> ->; auto|discriminate M].
Qed.

(** False of every relative name but for those that begin with '../': the child is
    started in the new directory, and the name is taken from there.  For a plain name
    nothing is found. *)
Theorem C143_relative_refuted : ~ C143_full /\
  forall fates file_exists exe rnd fuel n (wd : loc) prog nm args f t sp g,
    absolute n wd -> name rnd -> okfs f -> dget f wd = Some EDir ->
    snd (main (render n wd) fates file_exists exe rnd fuel observe (prog :: nm :: args) (f, t)) = Ok (sp, g) ->
    (prefixb slash nm = false -> script sp nm = resolve (wd ++ [rnd ++ lit ".stat"]) (pieces nm) /\ place (abspath (render n wd) nm) = resolve wd (pieces nm)) /\
    (name nm -> script sp nm = wd ++ [rnd ++ lit ".stat"; nm] /\ dget g (script sp nm) = None).
Proof.
  split.
  - intros F. set (sp := Spawned (lit "python") [lit "python"; lit "-Wignore"; lit "n"] (lit "/x.stat") [(0%N, false); (1%N, true); (2%N, true); (3%N, true); (4%N, false)]).
    assert (X : script sp (lit "n") = place (abspath (render 1 []) (lit "n"))).
    { apply (F fine (fun _ => false) (lit "python") (lit "x") 9%nat 1%nat [] (lit "benchmark") (lit "n") [] disk 0%nat sp (dset disk [lit "x.stat"] EDir)).
      - split; [now left|constructor].
      - repeat split; try discriminate. vm_compute. intuition discriminate.
      - exact disk_ok.
      - reflexivity.
      - vm_compute. reflexivity. }
    vm_compute in X. discriminate X.
  - intros fates file_exists exe rnd fuel n wd prog nm args f t sp g Ha Hr Hf Hwd E. destruct (observed _ _ _ _ _ _ _ _ _ _ _ _ _ _ Ha Hr Hf Hwd E) as (-> & G & Hno & Og). pose proof (proj2 (temp_path n wd rnd Ha Hr)) as Hp.
    unfold script. cbn [directory]. split; [intros Hrel; split; now apply relative_place|].
    intros Hn. assert (Hnm : Forall name [nm]) by (constructor; [exact Hn|constructor]). pose proof (names_head [nm] Hnm) as Hrel. change (join slash [nm]) with nm in Hrel. rewrite (relative_place _ _ _ Hp Hrel).
    assert (R : resolve (wd ++ [rnd ++ lit ".stat"]) (pieces nm) = wd ++ [rnd ++ lit ".stat"; nm]).
    { change nm with (join slash [nm]) at 1. rewrite (pieces_names [nm]) by (exact Hnm || discriminate). rewrite resolve_names by exact Hnm. now rewrite <- app_assoc. }
    rewrite R. split; [reflexivity|]. rewrite G. match goal with |- context [@eqb ?T ?I ?a ?b] => destruct (@eqb_spec T I a b) as [X|_]; [apply app_inv_head in X; discriminate X|] end.
    destruct (dget f (wd ++ [rnd ++ lit ".stat"; nm])) eqn:D; [|reflexivity]. exfalso.
    assert (Y : dget f (wd ++ [rnd ++ lit ".stat"]) = Some EDir) by (apply (ok_below f _ [nm] Hf); [discriminate|]; rewrite <- app_assoc; cbn [app]; intros Z; pose proof (eq_trans (eq_sym D) Z) as Z'; discriminate Z'). pose proof (eq_trans (eq_sym Y) Hno) as Z. discriminate Z.
Qed.
Print Assumptions C143_relative_refuted.

(** The child is started with the interpreter, the name and the other arguments, and
    with pipes for its five descriptors, in a new and empty directory.  The script is
    the one named if the name is absolute, and the one named by what follows '../'. *)
Theorem C143_script_partial : forall fates file_exists exe rnd fuel n (wd : loc) prog nm args f t sp g,
  absolute n wd -> name rnd -> okfs f -> dget f wd = Some EDir ->
  snd (main (render n wd) fates file_exists exe rnd fuel observe (prog :: nm :: args) (f, t)) = Ok (sp, g) ->
  (executable sp = exe /\ argv sp = exe :: lit "-Wignore" :: nm :: args /\ descriptors sp = [(0%N, false); (1%N, true); (2%N, true); (3%N, true); (4%N, false)]) /\
  (dget f (place (directory sp)) = None /\ dget g (place (directory sp)) = Some EDir /\ names g (place (directory sp)) = []) /\
  (prefixb slash nm = true -> script sp nm = place (abspath (render n wd) nm)) /\
  (forall rel, nm = lit "../" ++ rel -> prefixb slash rel = false -> script sp nm = place (abspath (render n wd) rel)).
Proof.
  intros fates file_exists exe rnd fuel n wd prog nm args f t sp g Ha Hr Hf Hwd E. destruct (observed _ _ _ _ _ _ _ _ _ _ _ _ _ _ Ha Hr Hf Hwd E) as (-> & G & Hno & Og). pose proof (proj2 (temp_path n wd rnd Ha Hr)) as Hp.
  cbn [executable argv descriptors directory]. split; [auto|]. rewrite (place_render n _ Hp). split; [split; [exact Hno|]; split; [rewrite G; now rewrite eqb_refl|]|].
  - destruct (names g (wd ++ [rnd ++ lit ".stat"])) as [|c l] eqn:N0; [reflexivity|]. exfalso.
    assert (I : In c (names g (wd ++ [rnd ++ lit ".stat"]))) by (rewrite N0; now left). apply names_spec in I; [|apply Og]. rewrite G in I.
    match type of I with context [@eqb ?T ?J ?a ?b] => destruct (@eqb_spec T J a b) as [X|_] end.
    + apply (f_equal (@List.length _)) in X. rewrite !app_length in X. cbn in X. lia.
    + pose proof (ok_below f _ [c] Hf ltac:(discriminate) I) as Y. pose proof (eq_trans (eq_sym Y) Hno) as Z. discriminate Z.
  - split.
    + intros H. unfold script. cbn [directory]. unfold abspath. now rewrite H.
    + intros rel -> Hrel. unfold script. cbn [directory]. rewrite (relative_place n wd rel Ha Hrel), (relative_place n _ _ Hp) by reflexivity.
      change (pieces (lit "../" ++ rel)) with (lit ".." :: pieces rel). cbn [resolve fold_left]. change (follow (wd ++ [rnd ++ lit ".stat"]) (lit "..")) with (removelast (wd ++ [rnd ++ lit ".stat"])). rewrite removelast_last. reflexivity.
Qed.
Print Assumptions C143_script_partial.

(** ** C144 *)

(** Whatever fails, whatever the child does (as long as there is still a file system)
    and wherever the process stops: but for the new directory, either nothing has
    changed and main raises, or everything is as it was when the reactor stopped; in
    the new directory nothing has been added or changed since.  If main ends normally
    nothing is left of it. *)
Theorem C144_outside : forall (A : Type) fates file_exists exe rnd fuel (during : spawned -> fs -> fs * res A) n (wd : loc) prog nm args f t,
  absolute n wd -> name rnd -> okfs f -> dget f wd = Some EDir -> (forall sp g, okfs g -> okfs (fst (during sp g))) ->
  let p := wd ++ [rnd ++ lit ".stat"] in
  let (s', r) := main (render n wd) fates file_exists exe rnd fuel during (prog :: nm :: args) (f, t) in
  ((forall l, l <> p -> dget (fst s') l = dget f l) /\ exists e, r = Err e) \/
  exists sp g, (forall l, dget g l = if eqb l p then Some EDir else dget f l) /\
    let (h, b) := during sp g in
    (forall l, ~ below p l -> dget (fst s') l = dget h l) /\ (forall l, dget (fst s') l = None \/ dget (fst s') l = dget h l) /\
    (forall a, r = Ok a -> b = Ok a /\ forall l, below p l -> dget (fst s') l = None).
Proof.
  intros A fates file_exists exe rnd fuel during n wd prog nm args f t Ha Hr Hf Hwd Hd p.
  pose proof (main_outside fates file_exists exe rnd fuel during n wd Ha Hr prog nm args f t Hf Hwd Hd) as M. fold p in M.
  destruct (main (render n wd) fates file_exists exe rnd fuel during (prog :: nm :: args) (f, t)) as [s' r].
  destruct M as (_ & [M|(_ & g & _ & G & M)]); [now left|right]. match type of M with context [during ?x g] => exists x, g; destruct (during x g) as [h b] end. split; [exact G|]. destruct M as (M1 & M2 & M3 & M4). split; [exact M1|]. split; [exact M2|]. intros a ->.
  destruct (killed b) eqn:K.
  - apply killed_spec in K. destruct (M3 K) as [X _]. congruence.
  - destruct M4 as [(M4 & M5)|(e & M4)]; [intros X; apply killed_spec in X; congruence|auto|discriminate M4].
Qed.
Print Assumptions C144_outside.

(** When nothing fails and the child has not removed its directory itself, nothing is
    left of it, also when what the run did raises: main raises the same. *)
Theorem C144_works : forall (A : Type) fates file_exists exe rnd (during : spawned -> fs -> fs * res A) n (wd : loc) prog nm args f t,
  absolute n wd -> name rnd -> (forall t, fates t = Run) -> okfs f -> dget f wd = Some EDir -> dget f (wd ++ [rnd ++ lit ".stat"]) = None ->
  (forall sp g, okfs g -> okfs (fst (during sp g))) ->
  let p := wd ++ [rnd ++ lit ".stat"] in
  exists sp g, (forall l, dget g l = if eqb l p then Some EDir else dget f l) /\
    let (h, b) := during sp g in dget h p <> None -> b <> Err KILLED ->
    exists d, forall fuel, (d <= fuel)%nat -> let (s', r) := main (render n wd) fates file_exists exe rnd fuel during (prog :: nm :: args) (f, t) in
      r = b /\ (forall l, ~ below p l -> dget (fst s') l = dget h l) /\ (forall l, below p l -> dget (fst s') l = None).
Proof.
  intros A fates file_exists exe rnd during n wd prog nm args f t Ha Hr R Hf Hwd Hno Hd p.
  destruct (main_works fates file_exists exe rnd during n wd prog nm args f t Ha Hr R Hf Hwd Hno Hd) as (g & _ & G & M). eexists _, g. split; [exact G|exact M].
Qed.
Print Assumptions C144_works.

(** Without the name of a script nothing happens. *)
Theorem C144_nameless : forall (A : Type) cwd fates file_exists exe rnd fuel (during : spawned -> fs -> fs * res A) args s, (length args <= 1)%nat ->
  main cwd fates file_exists exe rnd fuel during args s = (s, Err IndexError).
Proof. intros A cwd fates file_exists exe rnd fuel during args s H. destruct args as [|a [|b l]]; [reflexivity|reflexivity|cbn in H; lia]. Qed.
Print Assumptions C144_nameless.

(** A script that writes two files into its directory and one beside it, and then
    fails to be reported. *)
Definition busy (sp : spawned) (g : fs) : fs * res unit :=
  (dset (dset (dset g (place (directory sp) ++ [lit "d"]) EDir) (place (directory sp) ++ [lit "d"; lit "x"]) (EFile [1%N])) [lit "o"] (EFile [2%N]), Err TypeError).
Definition disk0 : fs := [([], EDir); ([lit "h"], EDir); ([lit "h"; lit "a.py"], EFile [])].
Example C144_nonvacuous :
  main (lit "/h") fine (fun _ => false) (lit "python") (lit "r") 9 busy [lit "benchmark"; lit "/h/a.py"] (disk0, 0%nat) =
    ((disk0 ++ [([lit "o"], EFile [2%N])], 13%nat), Err TypeError).
Proof. vm_compute. reflexivity. Qed.
Example C143_nonvacuous :
  absolute 1 [lit "h"] /\ name (lit "r") /\ exists sp g, snd (main (lit "/h") fine (fun _ => false) (lit "python") (lit "r") 9 observe [lit "benchmark"; lit "/h/a.py"] (disk0, 0%nat)) = Ok (sp, g) /\
  script sp (lit "/h/a.py") = [lit "h"; lit "a.py"] /\ script sp (lit "a.py") = [lit "h"; lit "r.stat"; lit "a.py"] /\ script sp (lit "../a.py") = [lit "h"; lit "a.py"].
Proof.
  split; [split; [now left|]; constructor; [|constructor]; repeat split; try discriminate; vm_compute; intuition discriminate|]. split; [repeat split; try discriminate; vm_compute; intuition discriminate|].
  do 2 eexists. split; [vm_compute; reflexivity|]. repeat split; vm_compute; reflexivity.
Qed.
