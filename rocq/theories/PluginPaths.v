(** * epsilon/hotfixes/plugin_package_paths.py *)

From Coq Require Import NArith String List Bool Arith Lia.
From Verif Require Import Py PyStr PySplit FilePath.
Import ListNotations.
Open Scope nat_scope.
Open Scope list_scope.

Definition DOT : str := lit ".".
Definition INIT : str := lit "__init__.py".

(** os.path.join with any number of parts (standard library) *)
Definition joinall (a : str) (parts : list str) : str := fold_left joinpath parts a.

(** plugin_package_paths.py:9-37.  [exists_]: os.path.exists; [syspath]: sys.path *)
Definition pluginPackagePaths (cwd : str) (exists_ : str -> bool) (syspath : list str) (name : str) : list str :=
  let package := split DOT name in
  map (fun x => abspath cwd (joinall x package)) (filter (fun x => negb (exists_ (joinall x (package ++ [INIT])))) syspath).

(** ** Specification *)

(** the parts of a dotted name *)
Definition dotted (name : str) (parts : list str) : Prop :=
  parts <> [] /\ Forall (fun p => ~ In 46%N p) parts /\ join (lit ".") parts = name.

(** [path] is the directory [x] extended by [parts], as an absolute path; empty
    parts count for nothing *)
Definition extends (cwd x : str) (parts : list str) (path : str) : Prop :=
  exists n cs, absolute n cs /\ abspath cwd x = render n cs /\
    abspath cwd path = render n (cs ++ List.filter (fun p => negb (eqb p [])) parts).

(** ** Proofs *)

Lemma dot_in s : containsb DOT s = true <-> In 46%N s.
Proof.
  rewrite containsb_spec. split.
  - intros (a & b & ->). rewrite !in_app_iff. right. left. now left.
  - intros H. apply in_split in H as (a & b & ->). exists a, b. reflexivity.
Qed.

Lemma split_dotted name : dotted name (split DOT name).
Proof.
  destruct (join_split DOT ltac:(discriminate) (length name) name (le_n _)) as [H1 H2]. split; [exact H2|]. split; [|exact H1].
  clear H1 H2. assert (H : forall n s, length s <= n -> Forall (fun p => ~ In 46%N p) (split DOT s)); [|now apply (H (length name))].
  induction n as [|n IH]; intros s Hl.
  - destruct s; [|cbn in Hl; lia]. repeat constructor. intros [].
  - destruct (find DOT s) as [i|] eqn:E.
    + rewrite (split_Some DOT s i ltac:(discriminate) E). pose proof (find_spec DOT s) as Hs. rewrite E in Hs. destruct Hs as [(a & b & -> & Hi) Hm]. subst i.
      constructor.
      * rewrite firstn_app, Nat.sub_diag, firstn_all. cbn [firstn]. rewrite app_nil_r. intros Hin. apply in_split in Hin as (u & v & ->).
        apply (Hm (length u)); [rewrite app_length; cbn; lia|]. exists u, (v ++ DOT ++ b). split; [now rewrite <- app_assoc|reflexivity].
      * apply IH. rewrite skipn_length, !app_length. rewrite !app_length in Hl. cbn in *. lia.
    + rewrite (split_None _ _ E). constructor; [|constructor]. intros Hin. apply dot_in in Hin. unfold containsb in Hin. now rewrite E in Hin.
Qed.

Lemma dotted_unique name parts : dotted name parts -> split DOT name = parts.
Proof.
  intros (H1 & H2 & <-). fold DOT. apply split_join; [|exact H1|].
  - apply no_overlapb_spec. reflexivity.
  - eapply Forall_impl; [|exact H2]. intros p Hp. destruct (containsb DOT p) eqn:E; [|reflexivity]. now apply dot_in in E.
Qed.

Lemma noslash_prefix b : ~ In 47%N b -> prefixb slash b = false.
Proof.
  intros H. destruct (prefixb slash b) eqn:E; [|reflexivity]. apply prefixb_spec in E as [t ->]. destruct H. now left.
Qed.

Lemma pieces_join_part a b cs : ~ In 47%N b -> resolve cs (pieces (joinpath a b)) = follow (resolve cs (pieces a)) b.
Proof.
  intros Hb. unfold joinpath. rewrite (noslash_prefix b Hb). destruct a as [|c a].
  - rewrite (pieces_word b Hb). reflexivity.
  - destruct (suffixb slash (c :: a)) eqn:Es.
    + apply suffix_slash in Es as (t & ->). rewrite <- app_assoc. rewrite pieces_app, resolve_app, (pieces_word b Hb).
      replace (t ++ slash) with (t ++ slash ++ []) by now rewrite app_nil_r. rewrite pieces_app, resolve_app. reflexivity.
    + rewrite pieces_app, resolve_app, (pieces_word b Hb). reflexivity.
Qed.

Lemma join_abs a b : ~ In 47%N b -> prefixb slash (joinpath a b) = prefixb slash a.
Proof.
  intros Hb. unfold joinpath. rewrite (noslash_prefix b Hb). destruct a as [|c a]; [apply noslash_prefix; exact Hb|].
  destruct (suffixb slash (c :: a)); reflexivity.
Qed.

Lemma join_initial a b : ~ In 47%N b -> initial_slashes (joinpath a b) = initial_slashes a.
Proof.
  intros Hb. pose proof (noslash_prefix b Hb) as Hp. unfold joinpath. rewrite Hp.
  destruct a as [|c1 a]; [unfold initial_slashes; rewrite Hp; reflexivity|].
  assert (G : forall t, prefixb slash t = false -> (suffixb slash (c1 :: a) = true -> initial_slashes ((c1 :: a) ++ t) = initial_slashes (c1 :: a)) /\
    (suffixb slash (c1 :: a) = false -> initial_slashes ((c1 :: a) ++ slash ++ t) = initial_slashes (c1 :: a))).
  { intros t Ht. unfold initial_slashes, suffixb. change slash with [47%N] in *. change (lit "//") with [47%N; 47%N]. change (lit "///") with [47%N; 47%N; 47%N].
    destruct a as [|c2 [|c3 a]]; cbn [app prefixb rev] in *.
    - destruct t as [|x t]; [|destruct (47 =? x)%N eqn:E; [discriminate Ht|]]; destruct (47 =? c1)%N eqn:E1; cbn [andb];
        split; intros Hs; cbn [andb negb] in *; rewrite ?E, ?E1 in *; cbn [andb negb] in *; try discriminate Hs; reflexivity.
    - destruct t as [|x t]; [|destruct (47 =? x)%N eqn:E; [discriminate Ht|]]; destruct (47 =? c1)%N eqn:E1; destruct (47 =? c2)%N eqn:E2; cbn [andb];
        split; intros Hs; cbn [andb negb] in *; rewrite ?E, ?E1, ?E2 in *; cbn [andb negb] in *; try discriminate Hs; reflexivity.
    - split; reflexivity. }
  destruct (suffixb slash (c1 :: a)) eqn:Es; apply (G b Hp); reflexivity.
Qed.

Lemma joinall_place parts : Forall (fun p => ~ In 47%N p) parts -> forall a cs,
  resolve cs (pieces (joinall a parts)) = fold_left follow parts (resolve cs (pieces a)) /\
  prefixb slash (joinall a parts) = prefixb slash a /\ initial_slashes (joinall a parts) = initial_slashes a.
Proof.
  unfold joinall. induction parts as [|p parts IH]; intros HF a cs; [auto|]. inversion HF as [|? ? Hp HF']; subst. cbn [fold_left].
  destruct (IH HF' (joinpath a p) cs) as (H1 & H2 & H3). rewrite H1, H2, H3, pieces_join_part, join_abs, join_initial; auto.
Qed.

Lemma follow_parts parts : Forall (fun p => ~ In 47%N p) parts -> Forall (fun p => p <> DOT /\ p <> lit "..") parts ->
  forall cs, fold_left follow parts cs = cs ++ filter (fun p => negb (eqb p [])) parts.
Proof.
  induction parts as [|p parts IH]; intros H1 H2 cs; cbn [fold_left filter]; [now rewrite app_nil_r|].
  inversion H1 as [|? ? Hs H1']; inversion H2 as [|? ? [Hd Hu] H2']; subst. rewrite IH by assumption. destruct (eqb_spec p []) as [->|Hn].
  - reflexivity.
  - cbn [negb]. rewrite follow_name by (repeat split; assumption). now rewrite <- app_assoc.
Qed.

Lemma extends_joinall cn ccs x parts : absolute cn ccs ->
  Forall (fun p => ~ In 47%N p) parts -> Forall (fun p => p <> DOT /\ p <> lit "..") parts ->
  extends (render cn ccs) x parts (joinall x parts).
Proof.
  intros Ha Hs Hd. unfold extends, abspath. destruct (joinall_place parts Hs x) with (cs := @nil str) as (_ & -> & E2).
  destruct (prefixb slash x) eqn:Ex.
  - destruct (normpath_abs x Ex) as [E3 E4]. exists (initial_slashes x), (resolve [] (pieces x)). split; [exact E4|]. split; [exact E3|].
    destruct (joinall_place parts Hs x []) as (E1 & Ep & _). rewrite <- Ep in Ex. destruct (normpath_abs _ Ex) as [E5 _]. rewrite E5, E2, E1.
    now rewrite follow_parts.
  - destruct (join_norm cn ccs x Ha Ex) as (E3 & E4 & _). exists cn, (resolve ccs (pieces x)). split; [exact E4|]. split; [exact E3|].
    destruct (joinall_place parts Hs x ccs) as (E1 & Ep & _). rewrite <- Ep in Ex. destruct (join_norm cn ccs _ Ha Ex) as (E5 & _). rewrite E5, E1.
    now rewrite follow_parts.
Qed.

Lemma dotted_parts name parts : dotted name parts -> ~ In 47%N name ->
  Forall (fun p => ~ In 47%N p) parts /\ Forall (fun p => p <> DOT /\ p <> lit "..") parts.
Proof.
  intros (_ & H & <-) Hn. split.
  - clear H. induction parts as [|p parts IH]; constructor.
    + intros Hi. apply Hn. destruct parts; cbn [join]; [exact Hi|]. rewrite in_app_iff. now left.
    + destruct parts as [|q parts]; [constructor|]. apply IH. intros Hi. apply Hn. cbn [join]. rewrite !in_app_iff. right. right. exact Hi.
  - eapply Forall_impl; [|exact H]. intros p Hp. split; intros ->; apply Hp; [now left|now left].
Qed.

(** what [abspath] gives is absolute, so it is the same path again *)
Lemma abspath_again cn ccs p : absolute cn ccs -> abspath (render cn ccs) (abspath (render cn ccs) p) = abspath (render cn ccs) p.
Proof.
  intros Ha. unfold abspath at 2 3. destruct (prefixb slash p) eqn:E.
  - destruct (normpath_abs p E) as [-> H]. now apply abspath_render.
  - destruct (join_norm cn ccs p Ha E) as (-> & H & _). now apply abspath_render.
Qed.

Theorem paths_right cn ccs ex syspath name parts : absolute cn ccs -> ~ In 47%N name -> dotted name parts ->
  exists init, (forall x, extends (render cn ccs) x (parts ++ [INIT]) (init x)) /\
    Forall2 (fun x r => extends (render cn ccs) x parts r /\ abspath (render cn ccs) r = r)
      (filter (fun x => negb (ex (init x))) syspath) (pluginPackagePaths (render cn ccs) ex syspath name).
Proof.
  intros Ha Hn Hd. destruct (dotted_parts name parts Hd Hn) as [H1 H2]. exists (fun x => joinall x (parts ++ [INIT])). split.
  - intros x. apply extends_joinall; [exact Ha| |]; apply Forall_app; split; auto.
    + constructor; [|constructor]. intros Hi. vm_compute in Hi. intuition discriminate.
    + constructor; [|constructor]. split; discriminate.
  - unfold pluginPackagePaths. rewrite (dotted_unique name parts Hd). induction syspath as [|x syspath IH]; [constructor|]. cbn [filter].
    destruct (ex (joinall x (parts ++ [INIT]))); cbn [negb map]; [exact IH|]. constructor; [|exact IH].
    pose proof (extends_joinall cn ccs x parts Ha H1 H2) as (n & cs & E1 & E2 & E3). split.
    + exists n, cs. rewrite abspath_again by exact Ha. auto.
    + now apply abspath_again.
Qed.
