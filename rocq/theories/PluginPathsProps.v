(** * Property C125: where the plugins of a package are looked for
    (epsilon/hotfixes/plugin_package_paths.py).

    [render n cs] is the absolute path with the components [cs] ([n] is 1, or 2
    for a path that begins with two slashes); the first of them is the working
    directory.  [dotted name parts]: the parts of a dotted name.  [extends cwd x
    parts path]: [path] is the directory [x] extended by [parts]. *)

From Coq Require Import NArith String List Bool Arith Lia.
From Verif Require Import Py PyStr PySplit FilePath PluginPaths.
Import ListNotations.
Open Scope nat_scope.
Open Scope list_scope.

(** For each entry of sys.path, in order, that has no __init__.py for the
    package: the absolute path of the package under that entry.  [exists_ p]
    answers for the file [p], however it is spelled. *)
Theorem C125_paths : forall n cs exists_ syspath name parts, absolute n cs -> ~ In 47%N name -> dotted name parts ->
  exists init, (forall x, extends (render n cs) x (parts ++ [lit "__init__.py"]) (init x)) /\
    Forall2 (fun x r => extends (render n cs) x parts r /\ abspath (render n cs) r = r)
      (filter (fun x => negb (exists_ (init x))) syspath) (pluginPackagePaths (render n cs) exists_ syspath name).
Proof. exact paths_right. Qed.
Print Assumptions C125_paths.

(** every name has parts, and only one list of them *)
Theorem C125_parts : forall name, exists parts, dotted name parts /\ forall parts', dotted name parts' -> parts' = parts.
Proof.
  intros name. exists (split DOT name). split; [apply split_dotted|]. intros parts' H. symmetry. exact (dotted_unique name parts' H).
Qed.
Print Assumptions C125_parts.

(** so no directory outside the entries of sys.path is searched *)
Theorem C125_inside : forall n cs exists_ syspath name r, absolute n cs -> ~ In 47%N name ->
  In r (pluginPackagePaths (render n cs) exists_ syspath name) ->
  exists x m ds below, In x syspath /\ abspath (render n cs) x = render m ds /\ r = render m (ds ++ below).
Proof.
  intros n cs ex syspath name r Ha Hn Hr. destruct (paths_right n cs ex syspath name _ Ha Hn (split_dotted name)) as (init & _ & HF).
  assert (G : forall l l', Forall2 (fun x r => extends (render n cs) x (split DOT name) r /\ abspath (render n cs) r = r) l l' -> In r l' ->
    exists x, In x l /\ extends (render n cs) x (split DOT name) r /\ abspath (render n cs) r = r).
  { intros l l' H. induction H as [|x r' l l' H1 H2 IH]; intros Hi; [destruct Hi|]. destruct Hi as [->|Hi]; [exists x; split; [now left|exact H1]|].
    destruct (IH Hi) as (y & Hy & H). exists y. split; [now right|exact H]. }
  destruct (G _ _ HF Hr) as (x & Hx & (m & ds & _ & E1 & E2) & E3). apply filter_In in Hx as [Hx _].
  exists x, m, ds, (filter (fun p => negb (eqb p [])) (split DOT name)). split; [exact Hx|]. split; [exact E1|]. congruence.
Qed.
Print Assumptions C125_inside.

Definition cwd0 : str := lit "/home/u".
Definition path0 : list str := [[]; lit "/usr/lib/../lib64/"; lit "src"; lit "/opt"].
Definition ex0 (p : str) : bool := eqb p (lit "/opt/twisted/plugins/__init__.py").

Example C125_nonvacuous :
  absolute 1 [lit "home"; lit "u"] /\ cwd0 = render 1 [lit "home"; lit "u"] /\
  dotted (lit "twisted.plugins") [lit "twisted"; lit "plugins"] /\
  pluginPackagePaths cwd0 ex0 path0 (lit "twisted.plugins") =
    [lit "/home/u/twisted/plugins"; lit "/usr/lib64/twisted/plugins"; lit "/home/u/src/twisted/plugins"].
Proof.
  split; [|split; [reflexivity|split; [|vm_compute; reflexivity]]].
  - split; [now left|]. repeat constructor; try discriminate; intros H; vm_compute in H; intuition discriminate.
  - split; [discriminate|]. split; [|reflexivity]. repeat constructor; intros H; vm_compute in H; intuition discriminate.
Qed.
