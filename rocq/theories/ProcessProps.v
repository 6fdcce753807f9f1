(** * C84: process.spawnProcess *)

From Coq Require Import NArith String List Bool Lia.
From Verif Require Import Py PyStr PySplit FilePath Process.
Import ListNotations.
Open Scope nat_scope.

(** C84: no environment that exists is changed: neither the caller's nor the default
    one, whether or not the call raises *)
Theorem C84_callers : forall find_module sys_prefix list_set protocol executable args e path uid gid usePTY packages s s' r,
  spawnProcess find_module sys_prefix list_set protocol executable args e path uid gid usePTY packages s = (s', r) ->
  forall k, k < length s -> load s' k = load s k.
Proof. exact spawn_callers. Qed.
Print Assumptions C84_callers.

(** C84: the entries of the child are the directories of the packages outside the
    library, then the caller's *)
Definition C84_full : Prop := forall find_module sys_prefix list_set, (forall l, NoDup (list_set l) /\ forall x, In x (list_set l) <-> In x l) ->
  forall protocol executable args e path uid gid usePTY packages s,
  (forall p, In p packages -> exists f, find_module p = Ok (Some f)) -> (forall d, found find_module packages d -> ~ In 58%N d) ->
  exists s' c dirs, spawnProcess find_module sys_prefix list_set protocol executable args e path uid gid usePTY packages s = (s', Ok c) /\
    (forall d, In d dirs <-> found find_module packages d /\ ~ within d (library sys_prefix)) /\
    entries (load s' (c_env c)) = dirs ++ entries (load s e).

Definition distinct (l : list str) : list str := nodup (list_eq_dec N.eq_dec) l.
Lemma distinct_ok : forall l, NoDup (distinct l) /\ forall x, In x (distinct l) <-> In x l.
Proof. intros l. split; [apply NoDup_nodup|]. intros x. apply nodup_In. Qed.

(** false without a PYTHONPATH: the child gets an empty entry, the current directory *)
Theorem C84_unset_refuted :
  (exists s' c, spawnProcess (fun p => Ok (Some (lit "/src/pkg"))) (lit "/usr") distinct 1 (lit "python") [] 0 None None None false [lit "pkg"] [[]] = (s', Ok c) /\ entries (load s' (c_env c)) = [lit "/src"; []]) /\ ~ C84_full.
Proof.
  split; [do 2 eexists; split; reflexivity|]. intros F.
  destruct (F (fun p => Ok (Some (lit "/src/pkg"))) (lit "/usr") distinct distinct_ok 1%N (lit "python") [] 0 None None None false [lit "pkg"] [[]]) as (s' & c & dirs & E & D & En).
  - intros p _. eauto.
  - intros d (p & f & _ & [= <-] & <-). cbn. intuition discriminate.
  - injection E as <- <-. change (entries (load ([[]] ++ [[(lit "PYTHONPATH", lit "/src:")]]) 1)) with [lit "/src"; []] in En. change (entries (load [[]] 0)) with (@nil str) in En. rewrite app_nil_r in En. subst dirs.
    destruct (D []) as [D1 _]. destruct (D1 (or_intror (or_introl eq_refl))) as ((p & f & _ & [= <-] & E) & _). discriminate E.
Qed.
Print Assumptions C84_unset_refuted.

(** and false for directories whose name only begins like the library's *)
Theorem C84_library_refuted : exists s' c,
  spawnProcess (fun p => Ok (Some (lit "/usr/libfoo/pkg"))) (lit "/usr") distinct 1 (lit "python") [] 0 None None None false [lit "pkg"] [[(lit "PYTHONPATH", lit "/x")]] = (s', Ok c) /\
  entries (load s' (c_env c)) = [lit "/x"] /\ ~ within (lit "/usr/libfoo") (library (lit "/usr")).
Proof. do 2 eexists. split; [reflexivity|]. split; [reflexivity|]. intros [E|(r & E)]; discriminate E. Qed.
Print Assumptions C84_library_refuted.

(** True, with that empty entry, of the directories which do not begin like it; all
    other variables and arguments are the caller's. *)
Theorem C84_path_partial : forall find_module sys_prefix list_set, (forall l, NoDup (list_set l) /\ forall x, In x (list_set l) <-> In x l) ->
  forall protocol executable args e path uid gid usePTY packages s,
  (forall p, In p packages -> exists f, find_module p = Ok (Some f)) -> (forall d, found find_module packages d -> ~ In 58%N d) ->
  exists s' dirs, spawnProcess find_module sys_prefix list_set protocol executable args e path uid gid usePTY packages s = (s', Ok (Call protocol executable args (length s) path uid gid usePTY)) /\
    NoDup dirs /\ (forall d, In d dirs <-> found find_module packages d /\ prefixb (library sys_prefix) d = false) /\
    (forall k, k <> lit "PYTHONPATH" -> dget (load s' (length s)) k = dget (load s e) k) /\
    entries (load s' (length s)) = dirs ++ match dget (load s e) (lit "PYTHONPATH") with Some v => split (lit ":") v | None => [[]] end.
Proof. intros find_module sys_prefix list_set H protocol executable args e path uid gid usePTY packages s. apply spawn_env. exact H. Qed.
Print Assumptions C84_path_partial.

(** C84: spawnPythonProcess is the same with Python itself as the program. *)
Theorem C84_python_partial : forall find_module sys_prefix sys_executable list_set, (forall l, NoDup (list_set l) /\ forall x, In x (list_set l) <-> In x l) ->
  forall protocol args e path uid gid usePTY packages s,
  (forall p, In p packages -> exists f, find_module p = Ok (Some f)) -> (forall d, found find_module packages d -> ~ In 58%N d) ->
  exists s' dirs, spawnPythonProcess find_module sys_prefix sys_executable list_set protocol args e path uid gid usePTY packages s = (s', Ok (Call protocol sys_executable args (length s) path uid gid usePTY)) /\
    (forall k, k < length s -> load s' k = load s k) /\
    NoDup dirs /\ (forall d, In d dirs <-> found find_module packages d /\ prefixb (library sys_prefix) d = false) /\
    (forall k, k <> lit "PYTHONPATH" -> dget (load s' (length s)) k = dget (load s e) k) /\
    entries (load s' (length s)) = dirs ++ match dget (load s e) (lit "PYTHONPATH") with Some v => split (lit ":") v | None => [[]] end.
Proof.
  intros find_module sys_prefix sys_executable list_set H protocol args e path uid gid usePTY packages s Hf Hc.
  destruct (spawn_env find_module sys_prefix list_set H protocol sys_executable args e path uid gid usePTY packages s Hf Hc) as (s' & dirs & E & Hd).
  exists s', dirs. split; [exact E|]. split; [exact (spawn_callers _ _ _ _ _ _ _ _ _ _ _ _ _ _ _ E)|exact Hd].
Qed.
Print Assumptions C84_python_partial.

(** C84: the first package which is not found, or has no file, is the one whose error is
    raised; no process is started and the caller's environment is left alone. *)
Theorem C84_missing : forall find_module sys_prefix list_set protocol executable args e path uid gid usePTY pre p post s x,
  (forall q, In q pre -> exists f, find_module q = Ok (Some f)) ->
  find_module p = Err x \/ find_module p = Ok None /\ x = TypeError ->
  exists s', spawnProcess find_module sys_prefix list_set protocol executable args e path uid gid usePTY (pre ++ p :: post) s = (s', Err x) /\
    forall k, k < length s -> load s' k = load s k.
Proof.
  intros find_module sys_prefix list_set protocol executable args e path uid gid usePTY pre p post s x Hp Hx.
  destruct (spawnProcess find_module sys_prefix list_set protocol executable args e path uid gid usePTY (pre ++ p :: post) s) as [s' r] eqn:E. exists s'.
  split; [|exact (spawn_callers _ _ _ _ _ _ _ _ _ _ _ _ _ _ _ E)]. unfold spawnProcess in E. rewrite (dirs_missing find_module sys_prefix pre p post x Hp Hx) in E. congruence.
Qed.
Print Assumptions C84_missing.

Example C84_missing_nonvacuous : exists s',
  spawnProcess (fun p => if eqb p (lit "sys") then Ok None else if eqb p (lit "nil") then Err OSError else Ok (Some (lit "/src/pkg"))) (lit "/usr") distinct 1 (lit "python") [] 0 None None None false
    [lit "pkg"; lit "nil"; lit "sys"] [[(lit "A", lit "b")]] = (s', Err OSError).
Proof. eexists. reflexivity. Qed.

Example C84_nonvacuous :
  let find := fun p => if eqb p (lit "epsilon") then Ok (Some (lit "/src/e/epsilon")) else if eqb p (lit "os") then Ok (Some (lit "/usr/lib/python3/os.py")) else Ok (Some (lit "/src/e/axiom")) in
  let x := spawnProcess find (lit "/usr") distinct 1 (lit "python") [lit "-c"] 0 None None None false [lit "epsilon"; lit "os"; lit "axiom"] [[(lit "A", lit "1"); (PYTHONPATH, lit "/x:/y")]] in
  load (fst x) 1 = [(lit "A", lit "1"); (PYTHONPATH, lit "/src/e:/x:/y")] /\ load (fst x) 0 = [(lit "A", lit "1"); (PYTHONPATH, lit "/x:/y")].
Proof. vm_compute. split; reflexivity. Qed.
