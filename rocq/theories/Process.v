(** * epsilon/process.py: spawnProcess *)

From Coq Require Import NArith String List Bool Arith Lia Permutation.
From Verif Require Import Py PyStr PySplit FilePath.
Import ListNotations.
Open Scope nat_scope.

(** Environments are dictionaries which are shared: a store of them, by number. *)
Definition env := dict str str.
Definition store := list env.
Definition load (s : store) (r : nat) : env := nth r s [].
Definition write (s : store) (r : nat) (e : env) : store := firstn r s ++ e :: skipn (S r) s.

Definition colon : str := lit ":".
Definition PYTHONPATH : str := lit "PYTHONPATH".

(** what reactor.spawnProcess is called with *)
Record call := Call { c_protocol : N; c_executable : str; c_args : list str; c_env : nat; c_path : option str; c_uid : option N; c_gid : option N; c_usePTY : bool }.

Section Spawn.
  (** imp.find_module(pkg)[1]: the file or directory, None for a module which has none
      (split raises TypeError), or ImportError *)
  Variable find_module : str -> res (option str).
  Variable sys_prefix sys_executable : str.
  (** list(set(l)): the different elements, in an order of Python's own *)
  Variable list_set : list str -> list str.

  (** process.py:32-37 *)
  Fixpoint package_dirs (packages : list str) : res (list str) :=
    match packages with
    | [] => Ok []
    | pkg :: t =>
      rbind (find_module pkg) (fun f =>
      match f with
      | None => Err TypeError
      | Some file =>
        let p := dirname file in
        rbind (package_dirs t) (fun r => Ok (if prefixb (joinpath sys_prefix (lit "lib")) p then r else p :: r))
      end)
    end.

  (** process.py:19-43 with the environment [e] in the store; a package that is not
      found raises before the later ones are looked for, which shows only in which
      error is raised *)
  Definition spawnProcess (protocol : N) (executable : str) (args : list str) (e : nat) (path : option str) (uid gid : option N) (usePTY : bool) (packages : list str) (s : store)
    : store * res call :=
    let new := length s in
    let s1 := s ++ [load s e] in                                                  (* env.copy() *)
    match package_dirs packages with
    | Err x => (s1, Err x)
    | Ok dirs =>
      let pythonpath := list_set dirs ++ split colon (match dget (load s1 new) PYTHONPATH with Some v => v | None => [] end) in
      (write s1 new (dset (load s1 new) PYTHONPATH (join colon pythonpath)), Ok (Call protocol executable args new path uid gid usePTY))
    end.

  (** process.py:45-54 *)
  Definition spawnPythonProcess (protocol : N) (args : list str) (e : nat) (path : option str) (uid gid : option N) (usePTY : bool) (packages : list str) (s : store) : store * res call :=
    spawnProcess protocol sys_executable args e path uid gid usePTY packages s.

  (** ** Specification *)

  (** the caller's entries *)
  Definition entries (e : env) : list str := match dget e (lit "PYTHONPATH") with Some v => split (lit ":") v | None => [] end.
  (** a directory within another *)
  Definition within (d top : str) : Prop := d = top \/ exists r, d = top ++ lit "/" ++ r.
  Definition library : str := joinpath sys_prefix (lit "lib").
  (** the directory a package is found in *)
  Definition found (packages : list str) (d : str) : Prop := exists pkg file, In pkg packages /\ find_module pkg = Ok (Some file) /\ dirname file = d.

  (** ** Proofs *)
  Lemma dirs_in packages : forall dirs, package_dirs packages = Ok dirs -> forall d, In d dirs <-> found packages d /\ prefixb library d = false.
  Proof.
    induction packages as [|pkg t IH]; cbn [package_dirs]; intros dirs.
    - intros [= <-] d. split; [intros []|]. intros ((p & f & [] & _) & _).
    - destruct (find_module pkg) as [[file|]|] eqn:E; cbn [rbind]; try discriminate. destruct (package_dirs t) as [r|]; cbn [rbind]; [|discriminate]. intros [= <-] d. specialize (IH r eq_refl d).
      assert (F : found (pkg :: t) d <-> dirname file = d \/ found t d).
      { unfold found. split.
        - intros (p & f & [<-|Hi] & E1 & E2); [left; congruence|right; eauto].
        - intros [<-|(p & f & Hi & E1 & E2)]; [exists pkg, file; cbn; auto|exists p, f; cbn; auto]. }
      fold library. destruct (prefixb library (dirname file)) eqn:El; cbn [In]; rewrite ?IH, F; split; try tauto.
      + intros [[<-|H] Hp]; [congruence|tauto].
      + intros [<-|H]; [auto|tauto].
  Qed.

  Lemma dirs_ok packages : (forall p, In p packages -> exists f, find_module p = Ok (Some f)) -> exists dirs, package_dirs packages = Ok dirs.
  Proof.
    induction packages as [|p t IH]; intros H; [eexists; reflexivity|]. cbn [package_dirs]. destruct (H p (or_introl eq_refl)) as (f & ->). cbn [rbind].
    destruct IH as (r & ->); [intros; apply H; now right|]. cbn. eauto.
  Qed.

  Lemma dirs_missing pre p post x : (forall q, In q pre -> exists f, find_module q = Ok (Some f)) ->
    find_module p = Err x \/ find_module p = Ok None /\ x = TypeError -> package_dirs (pre ++ p :: post) = Err x.
  Proof.
    intros Hp Hx. induction pre as [|q t IH]; cbn [package_dirs app].
    - destruct Hx as [->|[-> ->]]; reflexivity.
    - destruct (Hp q (or_introl eq_refl)) as (f & ->). cbn [rbind]. rewrite IH; [reflexivity|]. intros; apply Hp; now right.
  Qed.

  Lemma load_write s r e : r < length s -> load (write s r e) r = e.
  Proof. intros H. unfold load, write. rewrite app_nth2; rewrite firstn_length_le by lia; [|lia]. now rewrite Nat.sub_diag. Qed.

  Lemma load_write_other s r r' e : r < length s -> r' <> r -> r' < length s -> load (write s r e) r' = load s r'.
  Proof.
    intros H Hn Hl. unfold load, write. destruct (lt_dec r' r) as [L|L].
    - rewrite app_nth1 by (rewrite firstn_length_le; lia). rewrite <- (firstn_skipn r s) at 2. rewrite app_nth1 by (rewrite firstn_length_le; lia). reflexivity.
    - rewrite app_nth2; rewrite firstn_length_le by lia; [|lia]. destruct (r' - r) as [|k] eqn:E; [lia|]. cbn [nth]. rewrite <- (firstn_skipn (S r) s) at 2. rewrite app_nth2; rewrite firstn_length_le by lia; [|lia]. f_equal. lia.
  Qed.

  Lemma spawn_callers protocol executable args e path uid gid usePTY packages s s' r : spawnProcess protocol executable args e path uid gid usePTY packages s = (s', r) ->
    forall k, k < length s -> load s' k = load s k.
  Proof.
    unfold spawnProcess. intros E k Hk. assert (A : load (s ++ [load s e]) k = load s k) by (unfold load; now rewrite app_nth1).
    destruct (package_dirs packages); injection E as <- _; [|exact A]. rewrite load_write_other; [exact A| |lia|]; rewrite ?app_length; cbn; lia.
  Qed.

  Hypothesis list_set_ok : forall l, NoDup (list_set l) /\ forall x, In x (list_set l) <-> In x l.

  Lemma colon_ok : no_overlap colon.
  Proof. apply no_overlapb_spec. reflexivity. Qed.

  Lemma split_none_in v : forall x, In x (split colon v) -> containsb colon x = false.
  Proof.
    remember (length v) as n eqn:En. assert (L : length v <= n) by lia. clear En. revert v L. induction n as [|n IH]; intros v L x Hx.
    - destruct v; [|cbn in L; lia]. cbn in Hx. destruct Hx as [<-|[]]. reflexivity.
    - destruct (find colon v) as [i|] eqn:E.
      + rewrite (split_Some colon v i) in Hx by (exact E || discriminate). destruct (find_at _ _ _ E) as [E1 E2]. destruct Hx as [<-|Hx].
        * pose proof (find_spec colon v) as Hf. rewrite E in Hf. destruct Hf as [_ Hf]. unfold containsb. destruct (find colon (firstn i v)) as [j|] eqn:Ej; [|reflexivity]. exfalso.
          pose proof (find_spec colon (firstn i v)) as Hj. rewrite Ej in Hj. destruct Hj as [(a & b & Eab & <-) _].
          apply (Hf (length a)); [rewrite <- E2, Eab, !app_length; change (length colon) with 1; lia|]. exists a, (b ++ colon ++ skipn (i + length colon) v). split; [|reflexivity]. rewrite E1 at 1. rewrite Eab, <- !app_assoc. reflexivity.
        * apply (IH (skipn (i + length colon) v)); [|exact Hx]. apply (f_equal (@length N)) in E1. rewrite !app_length in E1. cbn [colon length] in *. change (length colon) with 1 in *. lia.
      + rewrite split_None in Hx by exact E. destruct Hx as [<-|[]]. unfold containsb. now rewrite E.
  Qed.

  Lemma split_ne v : split colon v <> [].
  Proof. destruct (join_split colon ltac:(discriminate) (length v) v (le_n _)) as [_ H]. exact H. Qed.

  Lemma spawn_env protocol executable args e path uid gid usePTY packages s :
    (forall p, In p packages -> exists f, find_module p = Ok (Some f)) -> (forall d, found packages d -> ~ In 58%N d) ->
    exists s' dirs, spawnProcess protocol executable args e path uid gid usePTY packages s = (s', Ok (Call protocol executable args (length s) path uid gid usePTY)) /\
      NoDup dirs /\ (forall d, In d dirs <-> found packages d /\ prefixb library d = false) /\
      (forall k, k <> PYTHONPATH -> dget (load s' (length s)) k = dget (load s e) k) /\
      entries (load s' (length s)) = dirs ++ match dget (load s e) PYTHONPATH with Some v => split colon v | None => [[]] end.
  Proof.
    intros Hf Hc. destruct (dirs_ok packages Hf) as (dirs & Ed). pose proof (dirs_in _ _ Ed) as Hd. destruct (list_set_ok dirs) as [S1 S2].
    assert (A : load (s ++ [load s e]) (length s) = load s e) by (unfold load at 1; rewrite app_nth2, Nat.sub_diag by lia; reflexivity).
    unfold spawnProcess. rewrite Ed, A. eexists. exists (list_set dirs). split; [reflexivity|]. split; [exact S1|]. split; [intros d; rewrite S2; apply Hd|].
    rewrite load_write by (rewrite app_length; cbn; lia). split.
    - intros k Hk. now apply dget_dset_neq.
    - unfold entries. fold PYTHONPATH. fold colon. rewrite dget_dset_eq. set (v := match dget (load s e) PYTHONPATH with Some v => v | None => [] end).
      assert (Ev : match dget (load s e) PYTHONPATH with Some v => split colon v | None => [[]] end = split colon v) by (unfold v; destruct (dget (load s e) PYTHONPATH); reflexivity).
      rewrite Ev. apply split_join; [exact colon_ok| |].
      + intros E. apply app_eq_nil in E as [_ E]. now apply split_ne in E.
      + apply Forall_app. split; [|apply Forall_forall; apply split_none_in]. apply Forall_forall. intros d Hi. apply S2, Hd in Hi as [Hi _]. specialize (Hc d Hi).
        unfold containsb. destruct (find colon d) as [i|] eqn:E; [|reflexivity]. destruct (find_at _ _ _ E) as [E1 _]. destruct Hc. rewrite E1. apply in_or_app. right. now left.
  Qed.
End Spawn.
