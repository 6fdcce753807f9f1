(** * C83: setuphelper.autosetup *)

From Coq Require Import NArith String List Bool Lia.
From Verif Require Import Py PyStr PySplit FilePath Setup.
Import ListNotations.
Open Scope nat_scope.

(** C83: whatever is in the current directory, autosetup finds its packages and the
    data files of the top-level ones, each once *)
Definition C83_full : Prop := forall root, wf root -> exists packages data, autosetup false root = Ok (packages, data) /\ NoDup packages /\
  (forall p, In p packages <-> exists ns d, visible root ns d /\ is_package d /\ p = join dot ns) /\ keys data = filter undotted packages /\
  (forall p D, In (p, D) data -> exists d, In (p, d) (subs root) /\ NoDup D /\ forall f, In f D <-> wanted_data d f).

(** false if the current directory is itself a package: OSError *)
Theorem C83_root_refuted : (forall root given, wf root -> is_package root -> autosetup given root = Err OSError) /\ ~ C83_full.
Proof.
  split; [exact root_package|]. intros F.
  assert (W : wf (Dir [INIT] [])) by (repeat constructor; cbn; intuition discriminate).
  destruct (F _ W) as (ps & data & E & _). rewrite root_package in E; [discriminate E|exact W|]. left. now left.
Qed.
Print Assumptions C83_root_refuted.

(** and a package is listed twice if a directory name has a dot *)
Theorem C83_twice_refuted : exists root, wf root /\ ~ is_package root /\ fst (scan root) = [lit "a"; lit "a.b"; lit "a.b"].
Proof.
  exists (Dir [] [(lit "a", Dir [INIT] [(lit "b", Dir [INIT] [])]); (lit "a.b", Dir [INIT] [])]). split; [|split; [|reflexivity]].
  - repeat constructor; cbn; intuition discriminate.
  - intros [[]|H]. cbn in H. intuition discriminate.
Qed.
Print Assumptions C83_twice_refuted.

(** True of every other directory, but for packages listed twice; *)
Theorem C83_found_partial : forall root, wf root -> ~ is_package root -> exists packages data, autosetup false root = Ok (packages, data) /\
  (forall p, In p packages <-> exists ns d, visible root ns d /\ is_package d /\ p = join dot ns) /\ keys data = filter undotted packages /\
  (forall p D, In (p, D) data -> exists d, In (p, d) (subs root) /\ NoDup D /\ forall f, In f D <-> wanted_data d f).
Proof. exact autosetup_ok. Qed.
Print Assumptions C83_found_partial.

(** and once each if no directory has a dot in its name. *)
Theorem C83_once_partial : forall root, wf root -> (forall ns d, visible root ns d -> Forall (fun n => ~ In 46%N n) ns) -> NoDup (fst (scan root)).
Proof. exact packages_nodup. Qed.
Print Assumptions C83_once_partial.

(** C83: packages or package_data among the arguments are refused. *)
Theorem C83_given : forall root, wf root -> (is_package root -> autosetup true root = Err OSError) /\ (~ is_package root -> autosetup true root = Err AssertionError).
Proof. exact autosetup_given. Qed.
Print Assumptions C83_given.

Example C83_nonvacuous :
  let root := Dir [lit "setup.py"] [(lit ".git", Dir [INIT] []); (lit "docs", Dir [lit "x"] []);
    (lit "pkg", Dir [INIT; lit "a.py"; lit "a.pyc"; lit "README"; lit ".py"] [(lit "sub", Dir [INIT; lit "logo.png"] []); (lit "static", Dir [lit "tool.py"] [(lit ".svn", Dir [lit "z"] [])])]);
    (lit "zebra", Dir [lit "p.py"; lit "dropin.cache"] [(lit "plugins", Dir [lit "zp.py"] [])])] in
  wf root /\ ~ is_package root /\
  autosetup false root = Ok ([lit "pkg"; lit "pkg.sub"; lit "zebra"], [(lit "pkg", [lit "README"; lit ".py"; lit "sub/logo.png"; lit "static/tool.py"]); (lit "zebra", [lit "p.py"; lit "plugins/zp.py"])]).
Proof.
  cbn zeta. split; [|split; [|vm_compute; reflexivity]].
  - repeat constructor; cbn; intuition discriminate.
  - intros [[H|[]]|H]; [discriminate H|]. cbn in H. intuition discriminate.
Qed.
