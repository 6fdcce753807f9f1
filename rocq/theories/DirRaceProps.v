(** * C185: processes that make directories at the same time *)

From Coq Require Import NArith String List Bool Arith Lia.
From Verif Require Import Py PyStr PySplit FilePath FileTree DirRace.
Import ListNotations.
Open Scope list_scope.
Open Scope nat_scope.

(** The full claim: where nothing is at the path and nothing but directories on the way to
    it, every makedirs that ends has ended normally. *)
Definition C185_full : Prop := forall f es i l r, okfs f -> named es -> (forall j q, ~ In (CreateDirectory j q) es) -> (forall j, ~ In (Fail j) es) ->
  dget f l = None -> clear f l -> In (i, l, r) (snd (run (boot f) es)) -> r = Made.

Definition root : fs := [([], EDir)].
Lemma root_ok : okfs root.
Proof.
  split.
  - unfold wf_dict, root. cbn. constructor; [intros []|constructor].
  - reflexivity.
  - intros l e. destruct l as [|c l]; [constructor|discriminate].
  - intros l c e. destruct l as [|d l]; discriminate.
Qed.
Lemma root_clear l : clear root l.
Proof. intros q _. destruct q as [|c q]; [now right|now left]. Qed.

Definition x_ : str := lit "x".
Definition y_ : str := lit "y".

(** Two processes that make one path: the second to come gets FileExistsError.  So it does
    when the other one makes a path below, whose makedirs made this one on the way. *)
Theorem C185_race_refuted :
  (exists es, named es /\ (forall j q, ~ In (CreateDirectory j q) es) /\ (forall j, ~ In (Fail j) es) /\ snd (run (boot root) es) = [(0, [x_], Made); (1, [x_], Exists)]) /\
  (exists es, named es /\ (forall j q, ~ In (CreateDirectory j q) es) /\ (forall j, ~ In (Fail j) es) /\ snd (run (boot root) es) = [(1, [x_], Exists); (0, [x_; y_], Made)]).
Proof.
  assert (Nx : name x_) by (repeat split; try discriminate; cbn; intros [X|[]]; discriminate). assert (Ny : name y_) by (repeat split; try discriminate; cbn; intros [X|[]]; discriminate). split.
  - exists [Makedirs 0 [x_]; Makedirs 1 [x_]; Go 0; Go 1; Go 0; Go 1]. split; [|split; [|split]].
    + intros l (i & H). cbn in H. intuition (try discriminate); match goal with H : Makedirs _ _ = _ |- _ => injection H as _ <- end; repeat (apply Forall_cons; [assumption|]); apply Forall_nil.
    + intros j q H. cbn in H. intuition discriminate.
    + intros j H. cbn in H. intuition discriminate.
    + vm_compute. reflexivity.
  - exists [Makedirs 0 [x_; y_]; Makedirs 1 [x_]; Go 0; Go 1; Go 0; Go 0; Go 1; Go 0]. split; [|split; [|split]].
    + intros l (i & H). cbn in H. intuition (try discriminate); match goal with H : Makedirs _ _ = _ |- _ => injection H as _ <- end; repeat (apply Forall_cons; [assumption|]); apply Forall_nil.
    + intros j q H. cbn in H. intuition discriminate.
    + intros j H. cbn in H. intuition discriminate.
    + vm_compute. reflexivity.
Qed.
Print Assumptions C185_race_refuted.

Theorem C185_full_refuted : ~ C185_full.
Proof.
  intros F. destruct C185_race_refuted as [(es & H1 & H2 & H2' & H3) _]. specialize (F root es 1 [x_] Exists root_ok H1 H2 H2' eq_refl (root_clear _)). rewrite H3 in F. specialize (F ltac:(cbn; auto)). discriminate.
Qed.
Print Assumptions C185_full_refuted.

(** However the processes are interleaved and whatever fails and whoever is killed: at most one call
    ends normally for each path, and none if something was there. *)
Theorem C185_once_partial : forall f es l, makers l (snd (run (boot f) es)) <= 1 /\ (dget f l <> None -> makers l (snd (run (boot f) es)) = 0).
Proof.
  intros f es l. split; [apply makers_le|]. intros H. destruct (dget f l) as [x|] eqn:E; [|congruence]. apply (run_none es (boot f) l x). exact E.
Qed.
Print Assumptions C185_once_partial.

(** However they are interleaved and whatever fails and whoever is killed: a call that ended normally,
    or with FileExistsError, has its path there from then on; with a normal end it is a
    directory, and nothing was there when all began. *)
Theorem C185_there_partial : forall f es i l r, In (i, l, r) (snd (run (boot f) es)) ->
  (r = Made -> dget f l = None /\ dget (disk (fst (run (boot f) es))) l = Some EDir) /\
  (r = Exists -> dget (disk (fst (run (boot f) es))) l <> None).
Proof. intros f es i l r. exact (ends_there es (boot f) i l r). Qed.
Print Assumptions C185_there_partial.

(** ... nothing is changed but that there are directories at places leading to the paths
    asked for, where nothing was; and it is still a file system. *)
Theorem C185_changes_partial : forall f es, okfs f -> named es ->
  okfs (disk (fst (run (boot f) es))) /\
  forall q, dget (disk (fst (run (boot f) es))) q = dget f q \/
    (dget f q = None /\ dget (disk (fst (run (boot f) es))) q = Some EDir /\ exists l, asked es l /\ below q l).
Proof. intros f es Hf Hn. apply (run_changes (asked es) es Hn (fun l H => H) (boot f) Hf). intros i l H. discriminate H. Qed.
Print Assumptions C185_changes_partial.

(** A makedirs on a clear way that is not killed, and whose calls do not fail by
    themselves, ends after at most 2 n + 1 calls of the
    operating system of its own, n the number of names of the path, whatever the others do
    in between; it ends normally or with FileExistsError; the path is then a directory. *)
Theorem C185_works_partial : forall f before after i l, okfs f -> named (before ++ Makedirs i l :: after) -> clear f l ->
  (forall j, ~ In (CreateDirectory j l) (before ++ Makedirs i l :: after)) ->
  at_ (fst (run (boot f) before)) i = Off -> ~ In (Kill i) after -> ~ In (Fail i) (before ++ Makedirs i l :: after) -> 2 * length l + 1 <= goes i after ->
  exists r, In (i, l, r) (snd (run (boot f) (before ++ Makedirs i l :: after))) /\ r <> Refused /\
    dget (disk (fst (run (boot f) (before ++ Makedirs i l :: after)))) l = Some EDir.
Proof.
  intros f before after i l Hf Hn Hc HC Ho Hk Hx Hg. set (es := before ++ Makedirs i l :: after) in *.
  assert (Hs0 : short (boot f)) by (intros j; exact I).
  assert (NR : ~ In (i, l, Refused) (snd (run (boot f) es))).
  { intros X. apply Hx. revert X. apply not_refused; [exact HC|exact (ok_root f Hf)|exact Hs0|exact Hc|intros j k; discriminate|discriminate]. }
  assert (E : exists r, In (i, l, r) (snd (run (boot f) es))).
  { unfold es. rewrite run_app. assert (Hs : forall es s, short s -> short (fst (run s es))). { induction es0 as [|e es0 IH]; intros s H; cbn [run]; [exact H|]. pose proof (step_short s e H) as H1. destruct (step s e) as [s1 o1]. specialize (IH s1 H1). destruct (run s1 es0). exact IH. }
    specialize (Hs before (boot f) Hs0). destruct (run (boot f) before) as [s1 o1]. cbn [fst snd] in *. cbn [run step]. rewrite Ho.
    pose proof (step_short s1 (Makedirs i l) Hs) as Hs1. cbn [step] in Hs1. rewrite Ho in Hs1. cbn [fst] in Hs1.
    destruct (ends after _ i l Hs1) as (r & Hr); [cbn [at_]; rewrite put_same; destruct (length l); reflexivity|exact Hk|cbn [at_]; rewrite put_same; destruct (length l) eqn:EL; cbn [left_]; lia|].
    match type of Hr with In _ (snd (run ?s2 after)) => destruct (run s2 after) as [s3 o3] end. exists r. cbn [snd app] in *. apply in_app_iff. now right. }
  destruct E as (r & Hr). exists r. split; [exact Hr|]. split; [intros ->; exact (NR Hr)|].
  destruct (C185_there_partial f es i l r Hr) as [T1 T2]. destruct (C185_changes_partial f es Hf Hn) as [_ C].
  destruct r; [now apply T1| |destruct (NR Hr)]. specialize (T2 eq_refl). destruct (C l) as [E|(_ & E & _)]; [|exact E]. rewrite E in *. destruct (Hc l (below_refl l)) as [X|X]; [congruence|exact X].
Qed.
Print Assumptions C185_works_partial.

(** If all ask for one path, where nothing was, and any call has ended that was not refused,
    then exactly one has ended normally; so the processes can tell who is first. *)
Theorem C185_one_partial : forall f es i l r, (forall q, asked es q -> q = l) -> dget f l = None ->
  In (i, l, r) (snd (run (boot f) es)) -> r <> Refused -> makers l (snd (run (boot f) es)) = 1.
Proof.
  intros f es i l r Ha H0 Hi Hr. assert (M : exists j, In (j, l, Made) (snd (run (boot f) es))).
  { apply maker; [exact Ha|intros j; exact I|discriminate|exact H0|]. destruct (C185_there_partial f es i l r Hi) as [T1 T2]. destruct r; [rewrite (proj2 (T1 eq_refl)); discriminate|now apply T2|congruence]. }
  apply makers_In in M. pose proof (makers_le es (boot f) l). lia.
Qed.
Print Assumptions C185_one_partial.

Example C185_nonvacuous : okfs root /\ clear root [x_; y_] /\
  snd (run (boot root) ([Makedirs 1 [x_; y_]; Go 1; Go 1; Go 1; Kill 1] ++ Makedirs 0 [x_; y_] :: [Go 0; Makedirs 2 [x_; y_]; Go 2; Go 2; Go 0; Go 0; Go 0; Go 0])) = [(2, [x_; y_], Made); (0, [x_; y_], Exists)] /\
  goes 0 [Go 0; Makedirs 2 [x_; y_]; Go 2; Go 2; Go 0; Go 0; Go 0; Go 0] = 2 * length [x_; y_] + 1 /\
  snd (run (boot root) [CreateDirectory 0 [x_; y_]; Go 0]) = [(0, [x_; y_], Refused)] /\
  snd (run (boot root) [Makedirs 0 [x_; y_]; Fail 0; Go 0; Go 0; Fail 0]) = [(0, [x_; y_], Refused)].
Proof. split; [exact root_ok|]. split; [apply root_clear|]. repeat split; vm_compute; reflexivity. Qed.
