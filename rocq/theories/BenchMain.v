(** * epsilon/scripts/benchmark.py: main, bench, makeBenchmarkRunner, BasicProcess.spawn

    The file system is that of FileTree.v, without links.  FilePath is that of
    filepath_copyTo.py, which Twisted's was. *)

From Coq Require Import NArith String List Bool Arith Lia.
From Verif Require Import Py PyStr PySplit FilePath FileTree FileTreeMore FileMake FileStat.
Import ListNotations.
Open Scope list_scope.

(** what is asked of reactor.spawnProcess: what each descriptor of the child is to the
    parent (true: the parent reads it) *)
Record spawned := Spawned { executable : str; argv : list str; directory : str; descriptors : list (N * bool) }.

(** benchmark.py:169-195 [spawn] *)
Definition spawn (exe : str) (args : list str) (path : str) : spawned :=
  Spawned exe (exe :: args) path [(0%N, false); (1%N, true); (2%N, true); (3%N, true); (4%N, false)].

(** benchmark.py:516-528 *)
Definition makeBenchmarkRunner (exe path : str) (args : list str) : spawned := spawn exe (lit "-Wignore" :: args) path.

(** the process was killed *)
Definition killed {A} (r : res A) : bool := match r with Err (OtherExn k) => (k =? 9)%N | _ => false end.

Section Main.
  Context {A : Type}.
  Variable cwd : str.
  Variable fates : nat -> fate.
  Variable file_exists : nat -> bool.
  Variable exe rnd : str.
  Variable fuel : nat.
  (** What happens to the disk from the call of spawnProcess until reactor.run returns
      or something is raised: the work of the child, of others, and the report.  It
      may raise (spawnProcess does if there is no more room for processes); it ends
      with KILLED if this process is.  Its result stands for what can be seen of it. *)
  Variable during : spawned -> fs -> fs * res A.

  (** benchmark.py:468-513 [bench], with _bench.  The Deferred fires from the reactor;
      what goes wrong with the report is logged, and then the reactor is stopped. *)
  Definition bench (func : spawned) : M A := fun s => let (f', r) := during func (fst s) in ((f', snd s), r).

  (** try: ... finally: ...; a process that is killed does nothing more *)
  Definition finally {B C} (m : M B) (end_ : M C) : M B := fun s =>
    let (s', r) := m s in
    if killed r then (s', r)
    else let (s'', r') := end_ s' in (s'', match r' with Ok _ => r | Err e => Err e end).

  (** benchmark.py:565-578; [args] are sys.argv *)
  Definition main (args : list str) : M A :=
    name <-- lift (match args with _ :: n :: _ => Ok n | _ => Err IndexError end) ;
    path <-- lift (temporarySibling cwd rnd (filePath cwd (lit ".stat"))) ;
    _ <-- makedirs fates file_exists path ;
    finally (bench (makeBenchmarkRunner exe path (tl args))) (remove cwd fates fuel path).
End Main.

(** ** Specification *)

(** the file the interpreter opens for its first argument that is not an option *)
Definition script (sp : spawned) (name : str) : loc := place (abspath (directory sp) name).

(** ** Proofs *)

Lemma relative_place n cs q : absolute n cs -> prefixb slash q = false -> place (abspath (render n cs) q) = resolve cs (pieces q).
Proof.
  intros Ha Hq. destruct (join_norm n cs q Ha Hq) as (E1 & E2 & E3). unfold abspath. rewrite Hq, E1. now apply place_render.
Qed.
Lemma stat_path n wd : absolute n wd -> filePath (render n wd) (lit ".stat") = render n (wd ++ [lit ".stat"]) /\ absolute n (wd ++ [lit ".stat"]).
Proof.
  intros Ha. destruct (join_norm n wd (lit ".stat") Ha eq_refl) as (E1 & E2 & E3). unfold filePath, abspath. change (prefixb slash (lit ".stat")) with false. cbv iota. rewrite E1.
  change (pieces (lit ".stat")) with [lit ".stat"] in *. cbn [resolve fold_left] in *. rewrite follow_name in * by (repeat split; try discriminate; vm_compute; intuition discriminate). auto.
Qed.
Lemma temp_path n wd rnd : absolute n wd -> name rnd -> temporarySibling (render n wd) rnd (filePath (render n wd) (lit ".stat")) = Ok (render n (wd ++ [rnd ++ lit ".stat"])) /\ absolute n (wd ++ [rnd ++ lit ".stat"]).
Proof.
  intros Ha Hr. destruct (stat_path n wd Ha) as [-> Hs]. split; [now apply temporary_sibling|]. destruct Ha as [Hn Ha]. split; [exact Hn|]. apply Forall_app. split; [exact Ha|]. constructor; [|constructor].
  apply name_app; [exact Hr|]. repeat split; try discriminate; vm_compute; intuition discriminate.
Qed.

Section Facts.
  Context {A : Type}.
  Variables (fates : nat -> fate) (file_exists : nat -> bool) (exe rnd : str) (fuel : nat) (during : spawned -> fs -> fs * res A).
  Variables (n : nat) (wd : loc).
  Hypothesis Ha : absolute n wd.
  Hypothesis Hr : name rnd.
  Let cwd := render n wd.
  Let p := wd ++ [rnd ++ lit ".stat"].
  Let sp (args : list str) := Spawned exe (exe :: lit "-Wignore" :: args) (render n p) [(0%N, false); (1%N, true); (2%N, true); (3%N, true); (4%N, false)].

  Lemma main_eq prog nm args s : main cwd fates file_exists exe rnd fuel during (prog :: nm :: args) s =
    (_ <-- makedirs fates file_exists (render n p) ; finally (bench during (sp (nm :: args))) (remove cwd fates fuel (render n p))) s.
  Proof. unfold main. cbn [tl]. unfold bindM at 1, lift at 1. unfold bindM at 1, lift at 1. unfold cwd at 1 2. rewrite (proj1 (temp_path n wd rnd Ha Hr)). reflexivity. Qed.

  Lemma killed_spec (r : res A) : killed r = true <-> r = Err KILLED.
  Proof. destruct r as [a|e]; [split; discriminate|]. destruct e; try (split; discriminate). cbn [killed]. rewrite N.eqb_eq. split; [intros ->; reflexivity|intros E; injection E; auto]. Qed.

  (** what has happened, whatever fails *)
  Lemma main_outside prog nm args f t : okfs f -> dget f wd = Some EDir -> (forall sp g, okfs g -> okfs (fst (during sp g))) ->
    let (s', r) := main cwd fates file_exists exe rnd fuel during (prog :: nm :: args) (f, t) in
    okfs (fst s') /\
    (((forall l, l <> p -> dget (fst s') l = dget f l) /\ exists e, r = Err e) \/
     dget f p = None /\ exists g, okfs g /\ (forall l, dget g l = if eqb l p then Some EDir else dget f l) /\
       let (h, b) := during (sp (nm :: args)) g in
       (forall l, ~ below p l -> dget (fst s') l = dget h l) /\ (forall l, dget (fst s') l = None \/ dget (fst s') l = dget h l) /\
       (b = Err KILLED -> r = b /\ fst s' = h) /\
       (b <> Err KILLED -> r = b /\ (forall l, below p l -> dget (fst s') l = None)\/ exists e, r = Err e)).
  Proof.
    intros Hf Hwd Hd. rewrite main_eq. pose proof (proj2 (temp_path n wd rnd Ha Hr)) as Hp. change (wd ++ [rnd ++ lit ".stat"]) with p in Hp.
    pose proof (makedirs_made fates file_exists (S (length (render n p))) n p (f, t) Hp Hf) as D. fold (makedirs fates file_exists (render n p)) in D.
    unfold bindM at 1. destruct (makedirs fates file_exists (render n p) (f, t)) as [s1 r1] eqn:Em. destruct D as (D1 & D2 & D3).
    assert (Only : forall l, l <> p -> dget (fst s1) l = dget f l).
    { intros l Hl. destruct (D2 l) as [D|(B & B1 & B2 & _)]; [exact D|]. exfalso. destruct B as (x & B). destruct (exists_last (l:=x)) as (y & c & ->); [intros ->; rewrite app_nil_r in B; congruence|].
      unfold p in B. rewrite app_assoc in B. apply app_inj_tail in B. destruct B as [B _].
      destruct y as [|c' y]; [rewrite app_nil_r in B; subst l; cbn [fst] in B2; congruence|].
      assert (X : dget f l = Some EDir) by (apply (ok_below f l (c' :: y) Hf); [discriminate|]; rewrite <- B; congruence). cbn [fst] in B2. congruence. }
    destruct r1 as [[]|e]; [|split; [exact D1|left; split; [exact Only|eauto]]].
    destruct (D3 eq_refl) as [Hnone Hdir]. unfold finally, bench. specialize (Hd (sp (nm :: args)) (fst s1) D1). destruct (during (sp (nm :: args)) (fst s1)) as [h b] eqn:Eb. cbn [fst] in Hd.
    assert (G : exists g, okfs g /\ (forall l, dget g l = if eqb l p then Some EDir else dget f l) /\ during (sp (nm :: args)) g = (h, b)).
    { exists (fst s1). split; [exact D1|]. split; [|exact Eb]. intros l. destruct (eqb_spec l p) as [->|Hl]; [exact Hdir|now apply Only]. }
    destruct G as (g & G1 & G2 & G3). cbn [fst snd] in *. change (dget f p = None) in Hnone.
    destruct (killed b) eqn:K.
    - apply killed_spec in K. cbn [fst]. split; [exact Hd|]. right. split; [exact Hnone|]. exists g. split; [exact G1|]. split; [exact G2|]. rewrite G3. split; [auto|]. split; [auto|]. split; [auto|]. intros X. congruence.
    - assert (K' : b <> Err KILLED) by (intros X; apply killed_spec in X; congruence).
      pose proof (keeps_remove cwd fates fuel n p Hp (h, snd s1) Hd) as (R2 & R1 & R3). pose proof (shrinks_remove cwd fates fuel (render n p) (h, snd s1)) as Sh.
      destruct (remove cwd fates fuel (render n p) (h, snd s1)) as [s2 r2] eqn:Er. cbn [fst snd] in *.
      split; [exact R2|]. right. split; [exact Hnone|]. exists g. split; [exact G1|]. split; [exact G2|]. rewrite G3. split; [exact R1|]. split; [apply Sh, Hd|]. split; [intros X; congruence|].
      intros _. destruct r2 as [[]|e]; [left|right; now exists e]. split; [reflexivity|]. intros l (x & ->). now apply (R3 tt eq_refl).
  Qed.
End Facts.

(** when nothing fails and the child has not removed its directory itself *)
Lemma main_works {A} fates file_exists exe rnd (during : spawned -> fs -> fs * res A) n (wd : loc) prog nm args f t :
  absolute n wd -> name rnd -> (forall t, fates t = Run) -> okfs f -> dget f wd = Some EDir -> dget f (wd ++ [rnd ++ lit ".stat"]) = None ->
  (forall sp g, okfs g -> okfs (fst (during sp g))) ->
  let p := wd ++ [rnd ++ lit ".stat"] in
  let sp := Spawned exe (exe :: lit "-Wignore" :: nm :: args) (render n p) [(0%N, false); (1%N, true); (2%N, true); (3%N, true); (4%N, false)] in
  exists g, okfs g /\ (forall l, dget g l = if eqb l p then Some EDir else dget f l) /\
    let (h, b) := during sp g in dget h p <> None -> b <> Err KILLED ->
    exists d, forall fuel, (d <= fuel)%nat -> let (s', r) := main (render n wd) fates file_exists exe rnd fuel during (prog :: nm :: args) (f, t) in
      r = b /\ (forall l, ~ below p l -> dget (fst s') l = dget h l) /\ (forall l, below p l -> dget (fst s') l = None).
Proof.
  intros Ha Hr R Hf Hwd Hno Hd p sp. pose proof (proj2 (temp_path n wd rnd Ha Hr)) as Hp. change (wd ++ [rnd ++ lit ".stat"]) with p in Hp, Hno.
  assert (Hw : open_way f p).
  { intros l (x & B). destruct x as [|c0 x0]; [rewrite app_nil_r in B; subst l; auto|]. destruct (exists_last (l:=c0 :: x0)) as (y & c & E); [discriminate|]. rewrite E in B.
    unfold p in B. rewrite app_assoc in B. apply app_inj_tail in B. destruct B as [B _]. right. destruct y as [|c' y]; [rewrite app_nil_r in B; now subst l|].
    apply (ok_below f l (c' :: y) Hf); [discriminate|]. rewrite <- B. congruence. }
  assert (W : snd (makedirs fates file_exists (render n p) (f, t)) = Ok tt) by (apply makedirs_works; auto; pose proof (length_render n p Hp); lia).
  pose proof (makedirs_made fates file_exists (S (length (render n p))) n p (f, t) Hp Hf) as D. fold (makedirs fates file_exists (render n p)) in D.
  destruct (makedirs fates file_exists (render n p) (f, t)) as [s1 r1] eqn:Em. cbn [snd] in W. subst r1. destruct D as (D1 & D2 & D3). destruct (D3 eq_refl) as [_ Hdir].
  exists (fst s1). split; [exact D1|]. split.
  { intros l. destruct (eqb_spec l p) as [->|Hl]; [exact Hdir|]. destruct (D2 l) as [D|(B & B1 & B2 & _)]; [exact D|]. cbn [fst] in B2. destruct (Hw l B) as [X|X]; [|congruence]. exfalso.
    destruct B as (x & B). destruct (exists_last (l:=x)) as (y & c & E); [intros ->; rewrite app_nil_r in B; congruence|]. rewrite E in B. unfold p in B. rewrite app_assoc in B. apply app_inj_tail in B. destruct B as [B _].
    destruct y as [|c' y]; [rewrite app_nil_r in B; subst l; congruence|]. assert (Y : dget f l = Some EDir) by (apply (ok_below f l (c' :: y) Hf); [discriminate|]; rewrite <- B; congruence). congruence. }
  specialize (Hd sp (fst s1) D1). destruct (during sp (fst s1)) as [h b] eqn:Eb. cbn [fst] in Hd. intros Hex Hk.
  destruct (deep_exists h p) as (d & Hde). exists d. intros fuel Hfu. rewrite (main_eq fates file_exists exe rnd fuel during n wd Ha Hr). fold p. fold sp.
  unfold bindM at 1. rewrite Em. unfold finally, bench. rewrite Eb.
  destruct (killed b) eqn:K; [apply killed_spec in K; contradiction|].
  pose proof (keeps_remove (render n wd) fates fuel n p Hp (h, snd s1) Hd) as (R2 & R1 & R3).
  assert (Rw : snd (remove (render n wd) fates fuel (render n p) (h, snd s1)) = Ok tt).
  { apply remove_works; auto; [unfold p; destruct wd; discriminate|]. now apply (deep_le h p d). }
  destruct (remove (render n wd) fates fuel (render n p) (h, snd s1)) as [s2 r2]. cbn [fst snd] in *. subst r2. split; [reflexivity|]. split; [exact R1|]. intros l (x & ->). now apply (R3 tt eq_refl).
Qed.
