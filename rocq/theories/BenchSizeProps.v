(** * Property C145: the size of a directory *)

From Coq Require Import NArith String List Bool Arith Lia Permutation.
From Verif Require Import Py PyStr PySplit FilePath FileTree FileTreeMore FileLinks BenchSize BenchSizeLinks FileLinksProps.
Import ListNotations.
Open Scope list_scope.

(** The claim: getSize of what is at a path is the sum of the sizes of everything at
    and below it: of files and directories their size, of links the length of their
    text. *)
Definition C145_full : Prop := forall B other_size missing f (p : loc), okl f -> dget f p <> None ->
  exists depth, forall fuel, (depth <= fuel)%nat -> getSize B other_size missing fuel p f = Ok (sum (map (own other_size f) (places f p))).

(** False of links to something: its size is counted, again if it is in the tree
    itself, and everything in it if it is a directory.  For a directory with a link to
    itself getSize raises. *)
Theorem C145_links_refuted : ~ C145_full /\
  (forall B other_size missing f l r t d e, okl f -> dget f l = Some (LLink r t) -> goes B f true l = Ok d -> dget f d = Some e -> getOneSize B other_size missing f l = Ok (size_at other_size d e)) /\
  (forall B other_size missing d l fuel, name d -> name l -> (S B < fuel)%nat -> (forall g p, missing g p = false) ->
     getSize B other_size missing fuel [d] [([], LDir); ([d], LDir); ([d; l], LLink false [lit "."])] = Err OSError).
Proof.
  split; [|split].
  - intros F. destruct (F 40%nat (fun _ => 0%N) (fun _ _ => true) disk [d_] disk_ok ltac:(discriminate)) as (depth & D).
    assert (N0 : dget disk [d_] <> None) by discriminate.
    destruct (size_counted 40 (fun _ => 0%N) (fun _ _ => true) disk [d_] disk_ok N0 (disk_safe []) ltac:(intros l r t e _ _ _; reflexivity)) as (depth' & D').
    specialize (D (depth + depth')%nat ltac:(lia)). rewrite (D' (depth + depth')%nat ltac:(lia)) in D. vm_compute in D. discriminate D.
  - intros B other_size missing f l r t d e Hf El G E. rewrite (one_link B other_size missing f l r t Hf El), G, E. reflexivity.
  - intros B other_size missing d l fuel Hd Hl Hfu Hm. unfold getSize. change [([], LDir); ([d], LDir); ([d; l], LLink false [lit "."])] with (looped d l).
    destruct (loop_walk B (fun _ => Run) (fun _ => eq_refl) d l Hd Hl fuel 0 0%nat ltac:(lia) ltac:(lia)) as (t' & E). cbn [repeat] in E. rewrite E. cbn [snd rbind]. rewrite Nat.sub_0_r.
    rewrite seq_S, map_app. cbn [Nat.add map]. set (ws := map (fun j : nat => d :: repeat l j) (seq 0 (S B))).
    assert (Z : total B other_size missing (looped d l) [d :: repeat l (S B)] = Err OSError).
    { cbn [total]. unfold getOneSize at 1, stat_size at 1. rewrite (loop_goes B d l Hd Hl (S B)). destruct (Nat.leb_spec (S B) B); [lia|]. rewrite Hm. reflexivity. }
    assert (W : forall w, In w ws -> exists k, getOneSize B other_size missing (looped d l) w = Ok k).
    { intros w Hw. apply in_map_iff in Hw. destruct Hw as (j & <- & Hj). apply in_seq in Hj. unfold getOneSize, stat_size. rewrite (loop_goes B d l Hd Hl j). destruct (Nat.leb_spec j B); [|lia]. destruct (loop_keys d l) as (_ & -> & _). eauto. }
    clearbody ws. induction ws as [|w ws IH]; [exact Z|]. cbn [app total]. destruct (W w (or_introl eq_refl)) as [k ->]. cbn [rbind]. rewrite IH by (intros; apply W; now right). reflexivity.
Qed.
Print Assumptions C145_links_refuted.

(** Proved where no link leads to a directory: each place is counted once, a link for
    the file it leads to, or for its text if it leads to nothing.  Where there are only
    links that lead to nothing the claim holds.  A link that cannot be followed for
    another reason (links in a circle) makes getSize raise. *)
Theorem C145_size_partial : forall B other_size missing f (p : loc), okl f -> dget f p <> None -> safe B f p ->
  (resolvable B missing f p -> exists depth, forall fuel, (depth <= fuel)%nat ->
     getSize B other_size missing fuel p f = Ok (sum (map (counted B other_size f) (places f p)))) /\
  (resolvable B missing f p -> (forall l r t, below p l -> dget f l = Some (LLink r t) -> forall d, goes B f true l = Ok d -> dget f d = None) ->
     exists depth, forall fuel, (depth <= fuel)%nat -> getSize B other_size missing fuel p f = Ok (sum (map (own other_size f) (places f p)))) /\
  (forall l r t e, below p l -> dget f l = Some (LLink r t) -> goes B f true l = Err e -> missing f l = false ->
     exists depth, forall fuel, (depth <= fuel)%nat -> exists e', getSize B other_size missing fuel p f = Err e').
Proof.
  intros B other_size missing f p Hf Hp HS. split; [|split].
  - now apply size_counted.
  - intros HR HN. destruct (size_counted B other_size missing f p Hf Hp HS HR) as (d & D). exists d. intros fuel Hfu. rewrite (D fuel Hfu). f_equal. f_equal. apply map_ext_in. intros l Hl. apply counted_own.
    intros r t. apply HN. apply filter_In in Hl. destruct Hl as [_ Hl]. now apply is_below_spec.
  - intros l r t e. now apply size_raises.
Qed.
Print Assumptions C145_size_partial.

(** /d: the directory (4 bytes, say), a file of 1 byte, a link to a file of 1 byte, a
    link to nothing, with a text of 4 bytes *)
Example C145_nonvacuous :
  okl disk /\ safe 40 disk [d_] /\ resolvable 40 (fun _ _ => true) disk [d_] /\
  getSize 40 (fun _ => 4%N) (fun _ _ => true) 9 [d_] disk = Ok 10%N /\ places disk [d_] = [[d_]; [d_; n_]; [d_; b_]; [d_; a_]] /\
  getSize 40 (fun _ => 4%N) (fun _ _ => true) 9 [a_] disk = Ok 16%N.
Proof.
  split; [exact disk_ok|]. split; [exact (disk_safe [])|]. split; [intros l r t e _ _ _; reflexivity|]. repeat split; vm_compute; reflexivity.
Qed.

(** Whatever links there are: getSize adds up, for every existing path that is made by
    adding names to the one given, and for that one, the size of what is seen there, once
    for every path.  It raises if one of these paths leads through too many links. *)
Theorem C145_any_partial : forall B other_size missing f (p d : loc), okl f -> goes B f false p = Ok d -> dget f d <> None ->
  exists depth, forall fuel, (depth <= fuel)%nat -> exists ws, NoDup ws /\
    (forall l, In l ws <-> l = p \/ exists r, r <> [] /\ Forall name r /\ l = p ++ r /\ exists d', goes B f false l = Ok d' /\ dget f d' <> None) /\
    ((forall w e, In w ws -> goes B f true w = Err e -> missing f w = true) ->
      getSize B other_size missing fuel p f = Ok (sum (map (seen_size B other_size f) ws))) /\
    (forall w e, In w ws -> goes B f true w = Err e -> missing f w = false -> exists e', getSize B other_size missing fuel p f = Err e').
Proof. intros B other_size missing f p d Hf G H. apply size_links; [exact Hf|]. now exists d. Qed.
Print Assumptions C145_any_partial.

(** /a holds a link to /d, whose three entries count too *)
Example C145_any_nonvacuous :
  okl disk /\ goes 40 disk false [a_] = Ok [a_] /\
  map (seen_size 40 (fun _ => 4%N) disk) [[a_]; [a_; b_]; [a_; l_]; [a_; l_; n_]; [a_; l_; b_]; [a_; l_; a_]] = [4; 2; 4; 1; 1; 4]%N.
Proof. split; [exact disk_ok|]. split; vm_compute; reflexivity. Qed.
