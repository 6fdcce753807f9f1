(** * getSize of a tree with any links (epsilon/scripts/benchmark.py:437-460; the
      model is in BenchSize.v) *)

From Coq Require Import NArith String List Bool Arith Lia Permutation.
From Verif Require Import Py PyStr PySplit FilePath FileTree FileTreeMore FileLinks BenchSize FileReach FileLinksCopy FileWalk.
Import ListNotations.
Open Scope list_scope.

(** ** Specification *)

(** the length of the text of the link that is at a path *)
Definition text_size (B : nat) (f : lfs) (p : loc) : N :=
  match goes B f false p with
  | Ok l => match dget f l with Some (LLink r t) => N.of_nat (length (link_text r t)) | _ => 0%N end
  | Err _ => 0%N
  end.
(** the size of what is seen at a path; of a link that leads nowhere, the length of its
    text *)
Definition seen_size (B : nat) (other_size : loc -> N) (f : lfs) (p : loc) : N :=
  match goes B f true p with
  | Ok d => match dget f d with Some e => size_at other_size d e | None => text_size B f p end
  | Err _ => text_size B f p
  end.

(** ** Proofs *)

Section Sizes.
  Variable B : nat.
  Variable other_size : loc -> N.
  Variable missing : lfs -> loc -> bool.

  Lemma link_or_seen f p l : goes B f false p = Ok l -> dget f l <> None -> view B f p = None -> exists r t, dget f l = Some (LLink r t).
  Proof.
    intros G H V. unfold goes in G. destruct (find f false B [] p) as [[x b]|] eqn:F; [|discriminate]. injection G as ->.
    destruct (dget f l) as [[c| | |r t]|] eqn:E; try congruence; [..|eauto];
      (exfalso; unfold view, goes in V; rewrite (find_follow f _ _ _ _ _ F) in V; [congruence|intros r0 t0; congruence]).
  Qed.
  Lemma one_seen f p : lexists B f p -> (forall e, goes B f true p = Err e -> missing f p = true) -> getOneSize B other_size missing f p = Ok (seen_size B other_size f p).
  Proof.
    intros (l & G & H) Hm. pose proof (link_or_seen f p l G H) as L. unfold getOneSize, stat_size, seen_size, text_size, view in *. rewrite G.
    destruct (goes B f true p) as [d|e] eqn:Gt.
    - destruct (dget f d) as [x|] eqn:E; [reflexivity|]. destruct (L eq_refl) as (r & t & ->). reflexivity.
    - rewrite (Hm e eq_refl). destruct (L eq_refl) as (r & t & ->). reflexivity.
  Qed.
  Lemma total_seen f ws : (forall w, In w ws -> getOneSize B other_size missing f w = Ok (seen_size B other_size f w)) ->
    total B other_size missing f ws = Ok (sum (map (seen_size B other_size f) ws)).
  Proof.
    induction ws as [|w ws IH]; intros H; [reflexivity|]. cbn [total map sum fold_right]. rewrite (H w) by now left. cbn [rbind]. rewrite IH by (intros; apply H; now right). reflexivity.
  Qed.

  Theorem size_links f p : okl f -> lexists B f p ->
    exists depth, forall fuel, (depth <= fuel)%nat -> exists ws, NoDup ws /\
      (forall l, In l ws <-> l = p \/ exists r, r <> [] /\ Forall name r /\ l = p ++ r /\ lexists B f l) /\
      ((forall w e, In w ws -> goes B f true w = Err e -> missing f w = true) ->
        getSize B other_size missing fuel p f = Ok (sum (map (seen_size B other_size f) ws))) /\
      (forall w e, In w ws -> goes B f true w = Err e -> missing f w = false -> exists e', getSize B other_size missing fuel p f = Err e').
  Proof.
    intros Hf Hp. destruct (walk_links B (fun _ => Run) f 0%nat p (fun _ => eq_refl) Hf) as (depth & H). exists depth. intros fuel Hfu.
    destruct (H fuel Hfu) as (t' & ws & E & [W1 W2 _]). exists ws. split; [exact W1|]. split; [exact W2|]. unfold getSize. rewrite E. cbn [snd rbind]. split.
    - intros M. apply total_seen. intros w Hw. apply one_seen; [|intros e; now apply M]. apply W2 in Hw. destruct Hw as [->|(r & _ & _ & _ & He)]; assumption.
    - intros w e Hw G M. apply (total_raises B other_size missing f ws w e Hw). unfold getOneSize, stat_size. rewrite G. now rewrite M.
  Qed.
End Sizes.
