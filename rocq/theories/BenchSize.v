(** * epsilon/scripts/benchmark.py: getSize and getOneSize

    Over the file system with links of FileLinks.v, which nobody else changes: so it
    makes no difference that walk is a generator, whose steps are between the calls of
    getOneSize. *)

From Coq Require Import NArith String List Bool Arith Lia Permutation.
From Verif Require Import Py PyStr PySplit FilePath FileTree FileTreeMore FileLinks.
Import ListNotations.
Open Scope list_scope.

Section Size.
  Variable B : nat.
  (** what stat says of the size of a directory or a device *)
  Variable other_size : loc -> N.
  (** whether a path that leads through something that is missing, or is no directory,
      or through too many links, gives ENOENT *)
  Variable missing : lfs -> loc -> bool.

  (** stat(2): st_size *)
  Definition size_at (l : loc) (e : lentry) : N := match e with LFile c => N.of_nat (length c) | _ => other_size l end.
  (** readlink(2): the text of a link *)
  Definition link_text (rooted : bool) (t : list str) : str := (if rooted then slash else []) ++ join slash t.

  (** benchmark.py:445-460, with FilePath.getsize (filepath_copyTo.py:167-172); [None]
      is ENOENT *)
  Definition stat_size (f : lfs) (p : loc) : option (res N) :=
    match goes B f true p with
    | Ok l => match dget f l with Some e => Some (Ok (size_at l e)) | None => None end
    | Err e => if missing f p then None else Some (Err e)
    end.
  Definition getOneSize (f : lfs) (p : loc) : res N :=
    match stat_size f p with
    | Some r => r
    | None =>
        (* os.path.islink, os.readlink *)
        match goes B f false p with
        | Ok l => match dget f l with Some (LLink r t) => Ok (N.of_nat (length (link_text r t))) | _ => Err OSError end
        | Err _ => Err OSError
        end
    end.

  Fixpoint total (f : lfs) (ws : list loc) : res N :=
    match ws with
    | [] => Ok 0%N
    | w :: ws' => rbind (getOneSize f w) (fun a => rbind (total f ws') (fun b => Ok (a + b)%N))
    end.
  (** benchmark.py:437-442 *)
  Definition getSize (fuel : nat) (p : loc) (f : lfs) : res N :=
    rbind (snd (lwalk B (fun _ => Run) fuel p (f, 0%nat))) (total f).

  (** ** Specification *)

  (** the size of a place itself *)
  Definition own (f : lfs) (l : loc) : N :=
    match dget f l with
    | Some (LLink r t) => N.of_nat (length (link_text r t))
    | Some e => size_at l e
    | None => 0
    end.
  (** the size that is counted for it: that of what a link leads to *)
  Definition counted (f : lfs) (l : loc) : N :=
    match dget f l with
    | Some (LLink r t) =>
        match goes B f true l with
        | Ok d => match dget f d with Some e => size_at d e | None => N.of_nat (length (link_text r t)) end
        | Err _ => N.of_nat (length (link_text r t))
        end
    | Some e => size_at l e
    | None => 0
    end.
  (** the places at and below [p] *)
  Definition is_below (p l : loc) : bool := match strip p l with Some _ => true | None => false end.
  Definition places (f : lfs) (p : loc) : list loc := filter (is_below p) (keys f).
  Definition sum (sizes : list N) : N := fold_right N.add 0%N sizes.
  (** every link at or below [p] leads to something, or to nothing *)
  Definition resolvable (f : lfs) (p : loc) : Prop := forall l r t e, below p l -> dget f l = Some (LLink r t) -> goes B f true l = Err e -> missing f l = true.

  (** ** Proofs *)
  Lemma is_below_spec p l : is_below p l = true <-> below p l.
  Proof. unfold is_below. destruct (strip p l) as [r|] eqn:E; [apply strip_spec in E; split; [intros _; now exists r|reflexivity]|]. apply strip_none in E. split; [discriminate|contradiction]. Qed.
  Lemma in_keys_iff (f : lfs) l : In l (keys f) <-> dget f l <> None.
  Proof. rewrite <- din_keys. unfold din. destruct (dget f l); split; congruence. Qed.
  Lemma plain_of f l : okl f -> dget f l <> None -> plain f l.
  Proof.
    intros Hf H. destruct l as [|c l _] using rev_ind; [now left|right]. exists l, c. destruct (dget f (l ++ [c])) as [e|] eqn:E; [|congruence]. split; [reflexivity|]. split.
    - pose proof (okl_names f Hf _ _ E) as N0. apply Forall_app in N0. destruct N0 as [_ N0]. now inversion N0.
    - exact (okl_above f Hf _ _ _ E).
  Qed.
  Lemma goes_self f l : okl f -> dget f l <> None -> goes B f false l = Ok l.
  Proof.
    intros Hf H. destruct (plain_of f l Hf H) as [->|(p0 & c & -> & Hc & Hp)]; [unfold goes; now rewrite find_nil|]. apply (naming_here B f _ _ Hf (naming_phys B f p0 c Hf Hp Hc)).
  Qed.
  Lemma one_plain f l e : okl f -> dget f l = Some e -> (forall r t, e <> LLink r t) -> getOneSize f l = Ok (size_at l e).
  Proof.
    intros Hf E Hn. assert (Hex : dget f l <> None) by congruence. unfold getOneSize, stat_size. rewrite (plain_goes B f l Hf (plain_of f l Hf Hex)) by (intros r t X; rewrite E in X; injection X as X; exact (Hn r t X)). now rewrite E.
  Qed.
  Lemma one_link f l r t : okl f -> dget f l = Some (LLink r t) -> getOneSize f l =
    match goes B f true l with
    | Ok d => match dget f d with Some e => Ok (size_at d e) | None => Ok (N.of_nat (length (link_text r t))) end
    | Err e => if missing f l then Ok (N.of_nat (length (link_text r t))) else Err e
    end.
  Proof.
    intros Hf E. assert (Hex : dget f l <> None) by congruence. unfold getOneSize, stat_size. rewrite (goes_self f l Hf Hex), E.
    destruct (goes B f true l) as [d|e]; [now destruct (dget f d)|now destruct (missing f l)].
  Qed.
  Lemma one_counted f l : okl f -> dget f l <> None -> (forall r t e, dget f l = Some (LLink r t) -> goes B f true l = Err e -> missing f l = true) -> getOneSize f l = Ok (counted f l).
  Proof.
    intros Hf Hex Hm. unfold counted. destruct (dget f l) as [e|] eqn:E; [|congruence]. destruct e as [c| | |r t]; try (apply one_plain; [exact Hf|exact E|discriminate]).
    rewrite (one_link f l r t Hf E). destruct (goes B f true l) as [d|e]; [now destruct (dget f d)|]. now rewrite (Hm r t e eq_refl eq_refl).
  Qed.
  Lemma total_counted f ws : (forall w, In w ws -> getOneSize f w = Ok (counted f w)) -> total f ws = Ok (sum (map (counted f) ws)).
  Proof.
    induction ws as [|w ws IH]; intros H; [reflexivity|]. cbn [total map sum fold_right]. rewrite (H w) by now left. cbn [rbind]. rewrite IH by (intros; apply H; now right). reflexivity.
  Qed.
  Lemma total_raises f ws w e : In w ws -> getOneSize f w = Err e -> exists e', total f ws = Err e'.
  Proof.
    induction ws as [|a ws IH]; intros I E; [destruct I|]. cbn [total]. destruct (getOneSize f a) as [x|x] eqn:Ea; [|cbn; eauto]. destruct I as [->|I]; [congruence|]. destruct (IH I E) as [e' ->]. cbn. eauto.
  Qed.
  Lemma sum_perm a b : Permutation a b -> sum a = sum b.
  Proof. induction 1; unfold sum in *; cbn [fold_right] in *; lia. Qed.
  Lemma walked f p ws : okl f -> dget f p <> None -> lvisits f p ws -> Permutation ws (places f p).
  Proof.
    intros Hf Hp [V1 V2 _]. apply NoDup_Permutation; [exact V1|apply NoDup_filter, Hf|]. intros l. rewrite V2. unfold places. rewrite filter_In, is_below_spec. rewrite in_keys_iff. split.
    - intros [->|[H1 H2]]; [split; [exact Hp|exists []; now rewrite app_nil_r]|auto].
    - intros [H1 H2]. auto.
  Qed.
  Lemma size_walk f p : okl f -> dget f p <> None -> safe B f p ->
    exists depth, forall fuel, (depth <= fuel)%nat -> exists ws, Permutation ws (places f p) /\ getSize fuel p f = total f ws.
  Proof.
    intros Hf Hp HS. destruct (ldeep_exists f p) as (k & Hk). exists (S k). intros fuel Hfu. unfold getSize.
    destruct (lwalk_spec B (fun _ => Run) (fun _ => eq_refl) fuel p f 0%nat Hf (plain_of f p Hf Hp) HS ltac:(lia) (ldeep_le f p k fuel ltac:(lia) Hk)) as (t'' & ws & E' & V).
    exists ws. split; [now apply walked|]. now rewrite E'.
  Qed.
  Lemma size_counted f p : okl f -> dget f p <> None -> safe B f p -> resolvable f p ->
    exists depth, forall fuel, (depth <= fuel)%nat -> getSize fuel p f = Ok (sum (map (counted f) (places f p))).
  Proof.
    intros Hf Hp HS HR. destruct (size_walk f p Hf Hp HS) as (d & D). exists d. intros fuel Hfu. destruct (D fuel Hfu) as (ws & P & ->). rewrite total_counted.
    - f_equal. apply sum_perm. now apply Permutation_map.
    - intros w Hw. apply (Permutation_in w P) in Hw. apply filter_In in Hw. destruct Hw as [Hk Hb]. apply is_below_spec in Hb. apply in_keys_iff in Hk. apply one_counted; [exact Hf|exact Hk|]. intros r t e. now apply HR.
  Qed.
  Lemma size_raises f p l r t e : okl f -> dget f p <> None -> safe B f p -> below p l -> dget f l = Some (LLink r t) -> goes B f true l = Err e -> missing f l = false ->
    exists depth, forall fuel, (depth <= fuel)%nat -> exists e', getSize fuel p f = Err e'.
  Proof.
    intros Hf Hp HS Hb El G M. destruct (size_walk f p Hf Hp HS) as (d & D). exists d. intros fuel Hfu. destruct (D fuel Hfu) as (ws & P & ->).
    apply (total_raises f ws l e); [|rewrite (one_link f l r t Hf El), G; now rewrite M]. apply (Permutation_in l (Permutation_sym P)). apply filter_In. split; [apply in_keys_iff; congruence|now apply is_below_spec].
  Qed.
  Lemma counted_own f l : (forall r t, dget f l = Some (LLink r t) -> forall d, goes B f true l = Ok d -> dget f d = None) -> counted f l = own f l.
  Proof.
    intros H. unfold counted, own. destruct (dget f l) as [[c| | |r t]|]; try reflexivity. specialize (H r t eq_refl). destruct (goes B f true l) as [d|e]; [|reflexivity]. now rewrite (H d eq_refl).
  Qed.
End Size.
