(** * C127-C129: files, directories and symbolic links *)

From Coq Require Import NArith String List Bool Arith Lia.
From Verif Require Import Py PyStr PySplit FilePath FileTree FileTreeMore FileLinks FileReach FileWalk.
Import ListNotations.
Open Scope list_scope.

(** ** A file system *)

Definition a_ : str := lit "a".
Definition b_ : str := lit "b".
Definition d_ : str := lit "d".
Definition l_ : str := lit "l".
Definition n_ : str := lit "n".
(** /a/b and /d/n are files, /a/l is a link to the directory /d, /d/b a link to
    the file /n, /d/a a link that leads nowhere *)
Definition disk : lfs :=
  [([], LDir); ([a_], LDir); ([a_; b_], LFile [1; 2]%N); ([a_; l_], LLink true [d_]);
   ([d_], LDir); ([d_; n_], LFile [3%N]); ([d_; b_], LLink false [lit ".."; n_]); ([d_; a_], LLink false [lit "none"]);
   ([n_], LFile [9%N])].
Definition fine (t : nat) : fate := Run.

Lemma short_name x : In x [a_; b_; d_; l_; n_] -> name x.
Proof.
  intros H. repeat (destruct H as [<-|H]; [repeat split; try discriminate; intros E; repeat (destruct E as [E|E]; [discriminate E|]); exact E|]). destruct H.
Qed.
Lemma disk_get l e : dget disk l = Some e -> In (l, e) disk.
Proof. apply dget_In. Qed.
Lemma disk_ok : okl disk.
Proof.
  split.
  - unfold wf_dict. repeat (constructor; [intros H; repeat (destruct H as [H|H]; [discriminate H|]); exact H|]). constructor.
  - reflexivity.
  - intros l e H. apply disk_get in H. repeat (destruct H as [H|H]; [injection H as <- _; repeat (constructor; [apply short_name; cbn; tauto|]); constructor|]). destruct H.
  - intros l c e H. apply disk_get in H.
    assert (E : In l [[]; [a_]; [d_]]).
    { repeat (destruct H as [H|H]; [injection H as H _; destruct l as [|x [|y [|z l]]]; try discriminate H; cbn [app] in H; inversion H; subst; cbn; tauto|]). destruct H. }
    repeat (destruct E as [<-|E]; [reflexivity|]). destruct E.
Qed.
(** no link in /d leads to a directory *)
Lemma disk_safe x : safe 40 disk ([d_] ++ x).
Proof.
  intros l r t (y & ->) H d G. apply disk_get in H.
  repeat (destruct H as [H|H]; [first [discriminate H|apply (f_equal fst) in H; cbn [fst] in H; first [discriminate H|rewrite <- H in G; vm_compute in G; injection G as <-; vm_compute; discriminate]]|]).
  destruct H.
Qed.

(** ** C127 *)

(** removing a path leaves everything alone that is not at or below it *)
Definition C127_full : Prop := forall B fates fuel p0 c f t, okl f -> dget f p0 = Some LDir -> name c ->
  forall l, ~ below (p0 ++ [c]) l -> dget (fst (fst (lremove B fates fuel (p0 ++ [c]) (f, t)))) l = dget f l.

(** Removing a link to a directory elsewhere, when nothing fails: everything in
    the directory is removed, and then there is an error; the link stays.  (The
    directory holds no links to further directories.) *)
Theorem C127_link_refuted :
  (forall B fates, (1 <= B)%nat -> (forall t, fates t = Run) -> forall f t p0 c d, okl f ->
     dget f (p0 ++ [c]) = Some (LLink true d) -> dget f d = Some LDir -> ~ below d (p0 ++ [c]) ->
     (forall x, safe B f (d ++ [x])) ->
     exists depth, forall fuel, (depth <= fuel)%nat ->
     let out := lremove B fates fuel (p0 ++ [c]) (f, t) in
     snd out = Err OSError /\
     (forall x r, dget (fst (fst out)) (d ++ x :: r) = None) /\
     (forall l, (forall x r, l <> d ++ x :: r) -> dget (fst (fst out)) l = dget f l)) /\
  ~ C127_full.
Proof.
  split.
  - intros B fates HB calm f t p0 c d Hf Hp Hd Hn HS. destruct (ldeep_exists f d) as (k & Hk). exists k. intros fuel Hfu.
    destruct (rm_link B fates calm fuel f t p0 c d Hf HB Hp Hd Hn HS (ldeep_le f d k fuel Hfu Hk)) as (A1 & A2 & A3). cbv zeta. split; [exact A1|]. split; [exact A3|exact A2].
  - intros F. specialize (F 40%nat fine 9%nat [a_] l_ disk 0%nat disk_ok eq_refl (short_name l_ ltac:(cbn; tauto)) [d_; n_]).
    assert (H : dget (fst (fst (lremove 40 fine 9 ([a_] ++ [l_]) (disk, 0%nat)))) [d_; n_] = None) by (vm_compute; reflexivity).
    rewrite H in F. assert (X : @None lentry = Some (LFile [3%N])); [|discriminate X]. apply F. intros (r & E). discriminate E.
Qed.
Print Assumptions C127_link_refuted.

(** If no link at or below the path leads to a directory: whatever fails and
    wherever the process stops, nothing outside the tree changes, and what is
    left of the tree is as it was; a removal that ends normally has removed all
    of it, links included; when nothing fails it ends normally.  Missing for
    the full claim: links that lead to directories. *)
Theorem C127_remove_partial : forall B fates f t p0 c, okl f -> dget f p0 = Some LDir -> name c -> safe B f (p0 ++ [c]) ->
  (forall fuel,
     let out := lremove B fates fuel (p0 ++ [c]) (f, t) in
     (forall l, ~ below (p0 ++ [c]) l -> dget (fst (fst out)) l = dget f l) /\
     (forall l, dget (fst (fst out)) l = None \/ dget (fst (fst out)) l = dget f l) /\
     (snd out = Ok tt -> forall l, below (p0 ++ [c]) l -> dget (fst (fst out)) l = None)) /\
  ((forall t, fates t = Run) -> dget f (p0 ++ [c]) <> None ->
   exists depth, forall fuel, (depth <= fuel)%nat -> snd (lremove B fates fuel (p0 ++ [c]) (f, t)) = Ok tt).
Proof.
  intros B fates f t p0 c Hf Hp Hc HS. pose proof (naming_phys B f p0 c Hf Hp Hc) as N. split.
  - intros fuel. destruct (rm_core B fates fuel f t _ _ Hf N HS) as (A1 & A2 & A3 & A4). cbv zeta. split; [exact A3|]. split.
    + intros l. destruct (dget (fst (fst (lremove B fates fuel (p0 ++ [c]) (f, t)))) l) as [e|] eqn:E; [right|now left]. symmetry. now apply A2.
    + intros H l (r & ->). now apply A4.
  - intros calm Hex. destruct (ldeep_exists f (p0 ++ [c])) as (k & Hk). exists k. intros fuel Hfu. apply (rm_works B fates calm fuel f t _ _ Hf N HS Hex). now apply (ldeep_le f _ k).
Qed.
Print Assumptions C127_remove_partial.

Example C127_nonvacuous :
  okl disk /\ safe 40 disk ([] ++ [d_]) /\
  lremove 40 fine 9 ([] ++ [d_]) (disk, 0%nat) =
    (([([], LDir); ([a_], LDir); ([a_; b_], LFile [1; 2]%N); ([a_; l_], LLink true [d_]); ([n_], LFile [9%N])], 13%nat), Ok tt) /\
  (dget disk ([a_] ++ [l_]) = Some (LLink true [d_]) /\ ~ below [d_] ([a_] ++ [l_]) /\ (forall x, safe 40 disk ([d_] ++ [x])) /\
   fst (fst (lremove 40 fine 9 ([a_] ++ [l_]) (disk, 0%nat))) =
     [([], LDir); ([a_], LDir); ([a_; b_], LFile [1; 2]%N); ([a_; l_], LLink true [d_]); ([d_], LDir); ([n_], LFile [9%N])]).
Proof.
  split; [exact disk_ok|]. split; [exact (disk_safe [])|]. split; [vm_compute; reflexivity|]. split; [reflexivity|]. split; [intros (r & E); discriminate E|].
  split; [intros x; exact (disk_safe [x])|vm_compute; reflexivity].
Qed.

(** Whatever links there are: a removal changes nothing but to take away what
    some path at or below the one removed names (following links on the way,
    as the operating system does, but not at its end). *)
Theorem C127_reach_partial : forall B fates fuel p f t, okl f ->
  let g := fst (fst (lremove B fates fuel p (f, t))) in
  forall l, dget g l = dget f l \/ (dget g l = None /\ exists r, Forall name r /\ goes B f false (p ++ r) = Ok l).
Proof. intros B fates fuel p f t Hf. exact (remove_reach B fates fuel p f t Hf). Qed.
Print Assumptions C127_reach_partial.

Example C127_reach_nonvacuous :
  okl disk /\ goes 40 disk false [a_; l_; n_] = Ok [d_; n_] /\
  dget (fst (fst (lremove 40 fine 9 [a_; l_] (disk, 0%nat)))) [d_; n_] = None /\ dget disk [d_; n_] <> None.
Proof. split; [exact disk_ok|]. split; [vm_compute; reflexivity|]. split; [vm_compute; reflexivity|vm_compute; discriminate]. Qed.

(** ** C128 *)

(** a copy changes nothing that is not at or below the destination *)
Definition C128_full : Prop := forall B fates k fuel p q f t, okl f -> Forall name q ->
  forall l, ~ below q l -> dget (fst (fst (lcopyTo B fates k fuel p q (f, t)))) l = dget f l.

(** Copying /a/b to /d/b, which is a link to /n, writes to /n. *)
Theorem C128_through_link_refuted :
  lcopyTo 40 fine 7 9 [a_; b_] [d_; b_] (disk, 0%nat) =
    (([([], LDir); ([a_], LDir); ([a_; b_], LFile [1; 2]%N); ([a_; l_], LLink true [d_]); ([d_], LDir); ([d_; n_], LFile [3%N]);
       ([d_; b_], LLink false [lit ".."; n_]); ([d_; a_], LLink false [lit "none"]); ([n_], LFile [1; 2]%N)], 7%nat), Ok tt) /\
  ~ C128_full.
Proof.
  assert (X : lcopyTo 40 fine 7 9 [a_; b_] [d_; b_] (disk, 0%nat) =
    (([([], LDir); ([a_], LDir); ([a_; b_], LFile [1; 2]%N); ([a_; l_], LLink true [d_]); ([d_], LDir); ([d_; n_], LFile [3%N]);
       ([d_; b_], LLink false [lit ".."; n_]); ([d_; a_], LLink false [lit "none"]); ([n_], LFile [1; 2]%N)], 7%nat), Ok tt)) by (vm_compute; reflexivity).
  split; [exact X|]. intros F. specialize (F 40%nat fine 7%nat 9%nat [a_; b_] [d_; b_] disk 0%nat disk_ok). rewrite X in F.
  assert (Y : Some (LFile [1; 2]%N) = Some (LFile [9%N])); [|discriminate Y]. apply (F ltac:(repeat (constructor; [apply short_name; cbn; tauto|]); constructor) [n_]).
  intros (r & E). discriminate E.
Qed.
Print Assumptions C128_through_link_refuted.

(** If there is no link at, above or below the destination, a copy from any
    path, through whatever links there are in the source, changes nothing
    outside the destination; whatever fails and wherever the process stops.
    Missing for the full claim: links in the destination, for which see
    C128_reach_partial. *)
Theorem C128_copy_partial : forall B fates k fuel p q f t, okl f -> Forall name q -> clear_of_links f q ->
  forall l, ~ below q l -> dget (fst (fst (lcopyTo B fates k fuel p q (f, t)))) l = dget f l.
Proof.
  intros B fates k fuel p q f t Hf Hq Hc. assert (I : cinv q f) by (split; [apply Hf|apply Hf|exact Hc]).
  pose proof (stays_copy B fates k fuel q p [] ltac:(rewrite app_nil_r; exact Hq) f t I) as (_ & F & _). rewrite app_nil_r in F. exact F.
Qed.
Print Assumptions C128_copy_partial.

Example C128_nonvacuous :
  okl disk /\ Forall name [n_; a_] /\ clear_of_links disk [b_] /\
  snd (lcopyTo 40 fine 7 9 [a_; l_; n_] [b_] (disk, 0%nat)) = Ok tt /\
  dget (fst (fst (lcopyTo 40 fine 7 9 [a_; l_; n_] [b_] (disk, 0%nat)))) [b_] = Some (LFile [3%N]).
Proof.
  split; [exact disk_ok|]. split; [repeat (constructor; [apply short_name; cbn; tauto|]); constructor|]. split; [|split; vm_compute; reflexivity].
  intros x Hx r t H. apply disk_get in H. destruct Hx as [(y & ->)|(y & E)].
  - repeat (destruct H as [H|H]; [try discriminate H|]). destruct H.
  - repeat (destruct H as [H|H]; [try discriminate H; injection H as <- _ _; discriminate E|]). destruct H.
Qed.

(** Whatever links there are, at the destination too: a copy changes only
    places to which paths at or below the destination lead; it makes
    directories and files and writes files, and never removes anything, changes
    a link or a directory, or puts a file in the place of either. *)
Theorem C128_reach_partial : forall B fates k fuel p q f t, okl f -> links_ok f -> Forall name q ->
  let g := fst (fst (lcopyTo B fates k fuel p q (f, t))) in
  forall l, dget g l = dget f l \/
    ((exists r, Forall name r /\ goes B g true (q ++ r) = Ok l) /\
     ((exists c c', dget f l = Some (LFile c) /\ dget g l = Some (LFile c')) \/
      (dget f l = None /\ (dget g l = Some LDir \/ exists c, dget g l = Some (LFile c))))).
Proof.
  intros B fates k fuel p q f t Hf Hl Hq. cbv zeta. intros l. destruct (copy_reach B fates k fuel p q f t Hf Hl Hq) as (G & R).
  destruct (lentry_dec (dget (fst (fst (lcopyTo B fates k fuel p q (f, t)))) l) (dget f l)) as [E|N]; [now left|right].
  split; [exact (R l N)|]. specialize (G l). destruct (dget f l) as [[c| | |]|].
  - destruct G as (c' & E). left. now exists c, c'.
  - congruence.
  - congruence.
  - congruence.
  - right. split; [reflexivity|]. destruct G as [E|G]; [congruence|exact G].
Qed.
Print Assumptions C128_reach_partial.

Example C128_reach_nonvacuous :
  okl disk /\ links_ok disk /\ goes 40 disk true [d_; b_] = Ok [n_] /\
  dget (fst (fst (lcopyTo 40 fine 7 9 [a_; b_] [d_; b_] (disk, 0%nat)))) [n_] <> dget disk [n_].
Proof.
  split; [exact disk_ok|]. split; [|split; [vm_compute; reflexivity|vm_compute; discriminate]].
  intros l r t H. apply disk_get in H.
  assert (P : forall c, In c [d_; lit ".."; n_; lit "none"] -> part c).
  { intros c Hc. cbn in Hc. repeat (destruct Hc as [<-|Hc]; [first [now right; right|left; repeat split; try discriminate; cbn; intuition discriminate]|]). destruct Hc. }
  repeat (destruct H as [H|H]; [try discriminate H; injection H as _ _ <-; repeat (constructor; [apply P; cbn; tauto|]); constructor|]). destruct H.
Qed.

(** ** C129 *)

(** walk ends, and yields every place at and below the path once, directories
    before what is in them *)
Definition C129_full : Prop := forall B fates f t p, (forall t, fates t = Run) -> okl f -> plain f p ->
  exists depth, forall fuel, (depth <= fuel)%nat -> exists t' ws, lwalk B fates fuel p (f, t) = ((f, t'), Ok ws) /\ lvisits f p ws.

(** A directory [d] that holds just a link [l] to itself: the same directory is
    yielded as d, d/l, d/l/l, ... until no more links are followed. *)
Theorem C129_loop_refuted :
  (forall B fates d l t fuel, (forall t, fates t = Run) -> name d -> name l -> (S B < fuel)%nat ->
     let f := [([], LDir); ([d], LDir); ([d; l], LLink false [lit "."])] in
     exists t', lwalk B fates fuel [d] (f, t) = ((f, t'), Ok (map (fun j => d :: repeat l j) (seq 0 (S (S B)))))) /\
  ~ C129_full.
Proof.
  assert (G : forall B fates d l t fuel, (forall t, fates t = Run) -> name d -> name l -> (S B < fuel)%nat ->
     let f := [([], LDir); ([d], LDir); ([d; l], LLink false [lit "."])] in
     exists t', lwalk B fates fuel [d] (f, t) = ((f, t'), Ok (map (fun j => d :: repeat l j) (seq 0 (S (S B)))))).
  { intros B fates d l t fuel calm Hd Hl Hfu. destruct (loop_walk B fates calm d l Hd Hl fuel 0 t ltac:(lia) ltac:(lia)) as (t' & E). exists t'. exact E. }
  split; [exact G|]. intros F. pose proof (short_name d_ ltac:(cbn; tauto)) as Hd. pose proof (short_name l_ ltac:(cbn; tauto)) as Hl.
  destruct (F 40%nat fine [([], LDir); ([d_], LDir); ([d_; l_], LLink false [lit "."])] 0%nat [d_] (fun _ => eq_refl)) as (depth & D).
  - split.
    + unfold wf_dict. repeat (constructor; [intros H; repeat (destruct H as [H|H]; [discriminate H|]); exact H|]). constructor.
    + reflexivity.
    + intros l e H. apply dget_In in H. repeat (destruct H as [H|H]; [injection H as <- _; repeat (constructor; [assumption|]); constructor|]). destruct H.
    + intros l c e H. apply dget_In in H. assert (E : l = [] \/ l = [d_]).
      { repeat (destruct H as [H|H]; [injection H as H _; destruct l as [|x [|y [|z l]]]; try discriminate H; cbn [app] in H; inversion H; subst; tauto|]). destruct H. }
      destruct E as [->| ->]; reflexivity.
  - right. exists [], d_. split; [reflexivity|]. split; [exact Hd|reflexivity].
  - destruct (D (depth + 42)%nat ltac:(lia)) as (t' & ws & E & [_ V _]). destruct (G 40%nat fine d_ l_ 0%nat (depth + 42)%nat (fun _ => eq_refl) Hd Hl ltac:(lia)) as (t'' & E').
    pose proof (eq_trans (eq_sym E') E) as EE. injection EE as _ <-. destruct (V [d_; l_; l_]) as [V1 _]. destruct V1 as [V1|[_ V1]]; [|discriminate V1|apply V1; reflexivity].
    cbn [map seq repeat In]. tauto.
Qed.
Print Assumptions C129_loop_refuted.

(** Proved if no link at or below the path leads to a directory: a link is then
    yielded as the last path of its branch. *)
Theorem C129_walk_partial : forall B fates f t p, (forall t, fates t = Run) -> okl f -> plain f p -> safe B f p ->
  exists depth, forall fuel, (depth <= fuel)%nat -> exists t' ws, lwalk B fates fuel p (f, t) = ((f, t'), Ok ws) /\
    NoDup ws /\ (forall l, In l ws <-> l = p \/ below p l /\ dget f l <> None) /\
    (forall a k c b, ws = a ++ (k ++ [c]) :: b -> k ++ [c] = p \/ In k a).
Proof.
  intros B fates f t p calm Hf Hp HS. destruct (ldeep_exists f p) as (k & Hk). exists (S k). intros fuel Hfu.
  destruct (lwalk_spec B fates calm fuel p f t Hf Hp HS ltac:(lia) (ldeep_le f p k fuel ltac:(lia) Hk)) as (t' & ws & E & [V1 V2 V3]). exists t', ws. auto.
Qed.
Print Assumptions C129_walk_partial.

Example C129_nonvacuous :
  okl disk /\ plain disk [d_] /\ safe 40 disk [d_] /\
  snd (lwalk 40 fine 9 [d_] (disk, 0%nat)) = Ok [[d_]; [d_; n_]; [d_; b_]; [d_; a_]] /\
  snd (lwalk 40 fine 9 [a_] (disk, 0%nat)) = Ok [[a_]; [a_; b_]; [a_; l_]; [a_; l_; n_]; [a_; l_; b_]; [a_; l_; a_]].
Proof.
  split; [exact disk_ok|]. split; [right; exists [], d_; split; [reflexivity|]; split; [apply short_name; cbn; tauto|reflexivity]|].
  split; [exact (disk_safe [])|]. split; vm_compute; reflexivity.
Qed.

(** Whatever links there are, when nothing fails: walk ends, and yields the
    path and every existing path that is made by adding names to it, each path
    once, directories before what is in them.  Missing for the full claim: two
    of these paths may lead to the same place, which is then yielded twice. *)
Theorem C129_links_partial : forall B fates f t p, (forall t, fates t = Run) -> okl f ->
  exists depth, forall fuel, (depth <= fuel)%nat -> exists t' ws, lwalk B fates fuel p (f, t) = ((f, t'), Ok ws) /\
    NoDup ws /\
    (forall l, In l ws <-> l = p \/ exists r, r <> [] /\ Forall name r /\ l = p ++ r /\ exists d, goes B f false l = Ok d /\ dget f d <> None) /\
    (forall a k c b, ws = a ++ (k ++ [c]) :: b -> k ++ [c] = p \/ In k a).
Proof.
  intros B fates f t p calm Hf. destruct (walk_links B fates f t p calm Hf) as (depth & H). exists depth. intros fuel Hfu.
  destruct (H fuel Hfu) as (t' & ws & E & [W1 W2 W3]). exists t', ws. auto.
Qed.
Print Assumptions C129_links_partial.

Example C129_links_nonvacuous :
  okl disk /\ goes 40 disk false [a_; l_; n_] = Ok [d_; n_] /\
  snd (lwalk 40 fine 9 [a_] (disk, 0%nat)) = Ok [[a_]; [a_; b_]; [a_; l_]; [a_; l_; n_]; [a_; l_; b_]; [a_; l_; a_]].
Proof. split; [exact disk_ok|]. split; vm_compute; reflexivity. Qed.
