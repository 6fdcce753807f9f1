(** * Several processes using one FilePath at a time: setContent and getContent
    (epsilon/hotfixes/filepath_copyTo.py:148-155, 281-287) *)

From Coq Require Import NArith String List Bool Arith Lia.
From Verif Require Import Py.
Import ListNotations.
Open Scope nat_scope.

Definition content := list N.

(** A directory: the file each name leads to, the bytes of each file, the number the
    next new file gets.  Subdirectories, links and failing calls are left out; they are in
    FileTree.v and FileLinks.v for one process. *)
Record fs := Fs { names : str -> option nat; data : nat -> content; fresh : nat }.

Definition upd {K} `{EqB K} {V} (m : K -> V) (k : K) (v : V) : K -> V := fun x => if eqb x k then v else m x.
Definition updn {V} (m : nat -> V) (k : nat) (v : V) : nat -> V := fun x => if x =? k then v else m x.

(** write(2) at an offset: what another process cut off reads as zeros *)
Definition write_at (d : content) (off : nat) (b : content) : content :=
  firstn off d ++ repeat 0%N (off - length d) ++ b ++ skipn (off + length b) d.

(** open(name, 'wb'): a file that exists is emptied *)
Definition open_w (f : fs) (n : str) : fs * nat :=
  match names f n with
  | Some i => (Fs (names f) (updn (data f) i []) (fresh f), i)
  | None => (Fs (upd (names f) n (Some (fresh f))) (updn (data f) (fresh f) []) (S (fresh f)), fresh f)
  end.

(** os.rename(n, m); two names of the same file are left alone *)
Definition rename (f : fs) (n m : str) : option fs :=
  match names f n with
  | None => None
  | Some i => Some (if eqb (names f m) (Some i) then f else Fs (upd (upd (names f) m (Some i)) n None) (data f) (fresh f))
  end.

(** where a process is in setContent: before the call, or with the sibling open at an
    offset and bytes left to write *)
Inductive wstate := WIdle | WOpen (fd off : nat) (rest : content).
(** the contents a process is still to set, one call after the other *)
Record writer := Wr { todo : list content; wst : wstate }.
(** where a process is in getContent *)
Inductive rstate := RIdle | ROpen (fd off : nat) (acc : content).

Record state := St { disk : fs; wr : nat -> writer; rd : nat -> rstate }.

(** the next system call of writer [i] or reader [j]; it transfers at most [k] bytes, and
    at least one, as the operating system pleases *)
Inductive event := Write (i k : nat) | Crash (i : nat) | Read (j k : nat).

(** the calls that end: setContent returned or raised OSError, getContent returned or
    raised OSError *)
Inductive out := DoneSet (i : nat) (c : content) | FailedSet (i : nat) | Got (j : nat) (c : content) | Missing (j : nat).

Section Race.
  Variable path : str.
  (** the extension each process gives to setContent ('.new' if it gives none) *)
  Variable ext : nat -> str.

  (** filepath_copyTo.py:148-149 [siblingExtension] *)
  Definition sib (i : nat) : str := path ++ ext i.

  (** filepath_copyTo.py:281-284 [setContent], a system call at a time.  The file object is
      dropped, and so closed, before the rename.  filepath_copyTo.py:286-287 [getContent],
      which opens the file by 151-155.  A crash ends the call of a writer. *)
  Definition step (s : state) (e : event) : state * list out :=
    let f := disk s in
    match e with
    | Write i k =>
      let w := wr s i in
      match todo w with
      | [] => (s, [])
      | c :: t =>
        match wst w with
        | WIdle => let (f', fd) := open_w f (sib i) in (St f' (updn (wr s) i (Wr (c :: t) (WOpen fd 0 c))) (rd s), [])
        | WOpen fd off [] =>
          match rename f (sib i) path with
          | Some f' => (St f' (updn (wr s) i (Wr t WIdle)) (rd s), [DoneSet i c])
          | None => (St f (updn (wr s) i (Wr t WIdle)) (rd s), [FailedSet i])
          end
        | WOpen fd off rest =>
          let b := firstn (S k) rest in
          (St (Fs (names f) (updn (data f) fd (write_at (data f fd) off b)) (fresh f)) (updn (wr s) i (Wr (c :: t) (WOpen fd (off + length b) (skipn (S k) rest)))) (rd s), [])
        end
      end
    | Crash i =>
      match wst (wr s i) with
      | WIdle => (s, [])
      | WOpen _ _ _ => (St f (updn (wr s) i (Wr (tl (todo (wr s i))) WIdle)) (rd s), [])
      end
    | Read j k =>
      match rd s j with
      | RIdle => match names f path with
                 | Some fd => (St f (wr s) (updn (rd s) j (ROpen fd 0 [])), [])
                 | None => (s, [Missing j])
                 end
      | ROpen fd off acc =>
        match firstn (S k) (skipn off (data f fd)) with
        | [] => (St f (wr s) (updn (rd s) j RIdle), [Got j acc])
        | b => (St f (wr s) (updn (rd s) j (ROpen fd (off + length b) (acc ++ b))), [])
        end
      end
    end.

  Fixpoint run (s : state) (es : list event) : state * list out :=
    match es with
    | [] => (s, [])
    | e :: t => let (s1, o1) := step s e in let (s2, o2) := run s1 t in (s2, o1 ++ o2)
    end.

  (** ** Specification *)

  (** what a name holds *)
  Definition holds (s : state) (n : str) : option content := option_map (data (disk s)) (names (disk s) n).

  (** the value of a variable that starts as [v] after the calls that ended *)
  Fixpoint register (v : option content) (os : list out) : option content :=
    match os with [] => v | DoneSet _ c :: t => register (Some c) t | _ :: t => register v t end.

  (** before anything happens: no call is under way; the file and the siblings of the
      processes that will write are not links to one another or to anything else *)
  Definition start (s : state) : Prop :=
    (forall i, wst (wr s i) = WIdle) /\ (forall j, rd s j = RIdle) /\
    (forall n i, names (disk s) n = Some i -> i < fresh (disk s)) /\
    (forall n m i, names (disk s) n = Some i -> names (disk s) m = Some i -> n = m).

  (** the processes that write use different extensions, and none the empty one *)
  Definition apart (s : state) : Prop :=
    (forall i, todo (wr s i) <> [] -> ext i <> []) /\
    (forall i j, todo (wr s i) <> [] -> todo (wr s j) <> [] -> ext i = ext j -> i = j).

  (** ** Proofs *)

  Lemma upd_same {V} (m : str -> V) k v : upd m k v k = v.
  Proof. unfold upd. destruct (eqb_spec k k); congruence. Qed.
  Lemma upd_other {V} (m : str -> V) k v x : x <> k -> upd m k v x = m x.
  Proof. intros H. unfold upd. destruct (eqb_spec x k); congruence. Qed.
  Lemma updn_same {V} (m : nat -> V) k v : updn m k v k = v.
  Proof. unfold updn. now rewrite Nat.eqb_refl. Qed.
  Lemma updn_other {V} (m : nat -> V) k v x : x <> k -> updn m k v x = m x.
  Proof. intros H. unfold updn. now destruct (Nat.eqb_spec x k). Qed.

  Lemma sib_path i : ext i <> [] -> sib i <> path.
  Proof. intros H E. apply H. apply (app_inv_head path). rewrite app_nil_r. exact E. Qed.
  Lemma sib_inj i j : sib i = sib j -> ext i = ext j.
  Proof. apply app_inv_head. Qed.

  Section Apart.
    (** the processes that write *)
    Variable A : nat -> Prop.
    Hypothesis A_ext : forall i, A i -> ext i <> [].
    Hypothesis A_inj : forall i j, A i -> A j -> ext i = ext j -> i = j.

    Record inv (s : state) (v : option content) : Prop := {
      i_fresh : forall n i, names (disk s) n = Some i -> i < fresh (disk s);
      i_links : forall n m i, names (disk s) n = Some i -> names (disk s) m = Some i -> n = m;
      i_act : forall i, todo (wr s i) <> [] -> A i;
      i_w : forall i fd off rest, wst (wr s i) = WOpen fd off rest ->
        names (disk s) (sib i) = Some fd /\ exists c t, todo (wr s i) = c :: t /\ off <= length c /\ data (disk s) fd = firstn off c /\ rest = skipn off c;
      i_r : forall j fd off acc, rd s j = ROpen fd off acc ->
        fd < fresh (disk s) /\ (forall n, names (disk s) n = Some fd -> n = path) /\ off <= length (data (disk s) fd) /\ acc = firstn off (data (disk s) fd);
      i_v : holds s path = v }.

    Definition special (n : str) : Prop := n = path \/ exists i, A i /\ n = sib i.

    Definition kept (s s' : state) : Prop :=
      (forall j fd off acc, rd s j = ROpen fd off acc -> data (disk s') fd = data (disk s) fd) /\
      (forall n, ~ special n -> holds s' n = holds s n).

    Lemma sib_A i : A i -> sib i <> path.
    Proof. intros H. apply sib_path. auto. Qed.

    Lemma firstn_plus {X} off m : forall c : list X, firstn off c ++ firstn m (skipn off c) = firstn (off + m) c.
    Proof. induction off as [|off IH]; intros [|x c]; cbn [firstn skipn Nat.add app]; try reflexivity; [now rewrite firstn_nil|now rewrite IH]. Qed.

    Lemma skipn_plus {X} off m : forall c : list X, skipn m (skipn off c) = skipn (off + m) c.
    Proof. induction off as [|off IH]; intros [|x c]; cbn [skipn Nat.add]; try reflexivity; [now rewrite skipn_nil|apply IH]. Qed.

    Lemma piece (c : content) off m : off <= length c ->
      let b := firstn m (skipn off c) in
      off + length b <= length c /\ firstn off c ++ b = firstn (off + length b) c /\ skipn m (skipn off c) = skipn (off + length b) c.
    Proof.
      intros H b. assert (L : length b = Nat.min m (length c - off)) by (unfold b; rewrite firstn_length, skipn_length; reflexivity).
      split; [lia|]. split.
      - unfold b at 1. rewrite firstn_plus. rewrite L. destruct (Nat.min_spec m (length c - off)) as [[X ->]|[X ->]]; [reflexivity|]. rewrite !firstn_all2 by lia. reflexivity.
      - rewrite L. destruct (Nat.min_spec m (length c - off)) as [[X ->]|[X ->]].
        + apply skipn_plus.
        + rewrite !skipn_all2; [reflexivity|lia|rewrite skipn_length; lia].
    Qed.

    Lemma write_prefix c off m : off <= length c -> let b := firstn m (skipn off c) in write_at (firstn off c) off b = firstn (off + length b) c.
    Proof.
      intros H b. destruct (piece c off m H) as (_ & E & _). fold b in E. unfold write_at. rewrite firstn_firstn, Nat.min_id. rewrite firstn_length, Nat.min_l by exact H.
      rewrite Nat.sub_diag. cbn [repeat app]. rewrite (skipn_all2 (n := off + length b)) by (rewrite firstn_length; lia). rewrite app_nil_r. exact E.
    Qed.

    Lemma step_inv s v e : inv s v -> let (s', o) := step s e in inv s' (register v o) /\ kept s s' /\ (forall i, ~ In (FailedSet i) o).
    Proof.
      intros I. destruct e as [i k|i|j k]; cbn [step].
      - destruct (todo (wr s i)) as [|c t] eqn:Et; [split; [exact I|split; [split; auto|auto]]|].
        assert (Ai : A i) by (apply (i_act _ _ I); now rewrite Et).
        destruct (wst (wr s i)) as [|fd off rest] eqn:Ew.
        + unfold open_w. destruct (names (disk s) (sib i)) as [fd|] eqn:En.
          * (* a sibling left by a crash *)
            assert (Rd : forall j fd' off acc, rd s j = ROpen fd' off acc -> fd' <> fd).
            { intros j fd' off acc Hj ->. destruct (i_r _ _ I j fd off acc Hj) as (_ & X & _). apply (sib_A i Ai). apply X. exact En. }
            assert (Hp : forall n, n <> sib i -> option_map (updn (data (disk s)) fd []) (names (disk s) n) = option_map (data (disk s)) (names (disk s) n)).
            { intros n Hn. destruct (names (disk s) n) as [x|] eqn:Ex; [|reflexivity]. cbn [option_map]. rewrite updn_other; [reflexivity|]. intros ->. apply Hn. exact (i_links _ _ I n (sib i) fd Ex En). }
            split; [|split; [split|intros ? []]]; cbn [register].
            -- constructor; unfold holds; cbn [disk wr rd names data fresh].
               ++ apply (i_fresh _ _ I).
               ++ apply (i_links _ _ I).
               ++ intros i' Hi'. destruct (Nat.eq_dec i' i) as [->|Hn]; [exact Ai|]. rewrite updn_other in Hi' by exact Hn. exact (i_act _ _ I i' Hi').
               ++ intros i' fd' off' rest' Hw. destruct (Nat.eq_dec i' i) as [->|Hn].
                  ** rewrite updn_same in *. cbn [wst todo] in *. injection Hw as <- <- <-. split; [exact En|]. exists c, t. split; [reflexivity|]. split; [lia|]. rewrite updn_same. split; reflexivity.
                  ** rewrite updn_other in * by exact Hn. destruct (i_w _ _ I i' fd' off' rest' Hw) as (X1 & c' & t' & X2 & X3 & X4 & X5). split; [exact X1|]. exists c', t'. rewrite updn_other; [auto|].
                     intros ->. apply Hn. apply A_inj; [apply (i_act _ _ I); now rewrite X2|exact Ai|]. apply sib_inj. exact (i_links _ _ I _ _ fd X1 En).
               ++ intros j fd' off acc Hj. rewrite updn_other by (eapply Rd; exact Hj). exact (i_r _ _ I j fd' off acc Hj).
               ++ rewrite Hp by (intros X; now apply (sib_A i Ai)). exact (i_v _ _ I).
            -- intros j fd' off acc Hj. cbn [disk data]. rewrite updn_other; [reflexivity|]. eapply Rd; exact Hj.
            -- intros n Hn. unfold holds. cbn [disk names data]. apply Hp. intros ->. apply Hn. right. exists i. auto.
          * assert (Hp : forall n, n <> sib i -> option_map (updn (data (disk s)) (fresh (disk s)) []) (upd (names (disk s)) (sib i) (Some (fresh (disk s))) n) = option_map (data (disk s)) (names (disk s) n)).
            { intros n Hn. rewrite upd_other by exact Hn. destruct (names (disk s) n) as [x|] eqn:Ex; [|reflexivity]. cbn [option_map]. rewrite updn_other; [reflexivity|]. apply (i_fresh _ _ I) in Ex. lia. }
            assert (Rd : forall j fd' off acc, rd s j = ROpen fd' off acc -> fd' <> fresh (disk s)).
            { intros j fd' off acc Hj. destruct (i_r _ _ I j fd' off acc Hj) as (X & _). lia. }
            split; [|split; [split|intros ? []]]; cbn [register].
            -- constructor; unfold holds; cbn [disk wr rd names data fresh].
               ++ intros n x Hx. destruct (eqb_spec n (sib i)) as [->|Hn]; [rewrite upd_same in Hx; injection Hx as <-; lia|]. rewrite upd_other in Hx by exact Hn. apply (i_fresh _ _ I) in Hx. lia.
               ++ assert (Q : forall n x, upd (names (disk s)) (sib i) (Some (fresh (disk s))) n = Some x -> n = sib i /\ x = fresh (disk s) \/ names (disk s) n = Some x).
                  { intros n x Hx. destruct (eqb_spec n (sib i)) as [->|Hn]; [rewrite upd_same in Hx; injection Hx as <-; auto|]. rewrite upd_other in Hx by exact Hn. auto. }
                  intros n m x Hx Hy. destruct (Q n x Hx) as [[-> Ex]|N], (Q m x Hy) as [[-> E]|M]; subst.
                  ** reflexivity.
                  ** pose proof (i_fresh _ _ I _ _ M); lia.
                  ** pose proof (i_fresh _ _ I _ _ N); lia.
                  ** eapply (i_links _ _ I); eassumption.
               ++ intros i' Hi'. destruct (Nat.eq_dec i' i) as [->|Hn]; [exact Ai|]. rewrite updn_other in Hi' by exact Hn. exact (i_act _ _ I i' Hi').
               ++ intros i' fd' off' rest' Hw. destruct (Nat.eq_dec i' i) as [->|Hn].
                  ** rewrite updn_same in *. cbn [wst todo] in *. injection Hw as <- <- <-. split; [apply upd_same|]. exists c, t. split; [reflexivity|]. split; [lia|]. rewrite updn_same. split; reflexivity.
                  ** rewrite updn_other in * by exact Hn. destruct (i_w _ _ I i' fd' off' rest' Hw) as (X1 & c' & t' & X2 & X3 & X4 & X5).
                     assert (Ns : sib i' <> sib i) by (intros E; rewrite E in X1; congruence). rewrite upd_other by exact Ns. split; [exact X1|]. exists c', t'. rewrite updn_other; [auto|]. apply (i_fresh _ _ I) in X1. lia.
               ++ intros j fd' off acc Hj. rewrite updn_other by (eapply Rd; exact Hj). destruct (i_r _ _ I j fd' off acc Hj) as (X1 & X2 & X3). split; [lia|]. split; [|exact X3].
                  intros n Hn. destruct (eqb_spec n (sib i)) as [->|Hx]; [rewrite upd_same in Hn; injection Hn as <-; lia|]. rewrite upd_other in Hn by exact Hx. auto.
               ++ rewrite Hp by (intros X; now apply (sib_A i Ai)). exact (i_v _ _ I).
            -- intros j fd' off acc Hj. cbn [disk data]. rewrite updn_other; [reflexivity|]. eapply Rd; exact Hj.
            -- intros n Hn. unfold holds. cbn [disk names data]. apply Hp. intros ->. apply Hn. right. exists i. auto.
        + destruct (i_w _ _ I i fd off rest Ew) as (X1 & c' & t' & X2 & X3 & X4 & X5). rewrite Et in X2. injection X2 as <- <-.
          destruct rest as [|b0 rest].
          * (* the rename *)
            unfold rename. rewrite X1. assert (Hc : data (disk s) fd = c). { rewrite X4. apply firstn_all2. symmetry in X5. apply (f_equal (@length N)) in X5. rewrite skipn_length in X5. cbn in X5. lia. }
            destruct (eqb_spec (names (disk s) path) (Some fd)) as [Ep|Ep]; [exfalso; apply (sib_A i Ai); exact (i_links _ _ I _ _ fd X1 Ep)|].
            assert (Np : path <> sib i) by (intros E; symmetry in E; now apply (sib_A i Ai)).
            split; [|split; [split|intros i' [E|[]]; discriminate E]]; cbn [register].
            -- constructor; unfold holds; cbn [disk wr rd names data fresh].
               ++ intros n x Hx. destruct (eqb_spec n (sib i)) as [->|Hn]; [rewrite upd_same in Hx; discriminate|]. rewrite upd_other in Hx by exact Hn. destruct (eqb_spec n path) as [->|Hn']; [rewrite upd_same in Hx; injection Hx as <-; exact (i_fresh _ _ I _ _ X1)|]. rewrite upd_other in Hx by exact Hn'. exact (i_fresh _ _ I _ _ Hx).
               ++ assert (Q : forall n x, upd (upd (names (disk s)) path (Some fd)) (sib i) None n = Some x -> n = path /\ x = fd \/ n <> path /\ n <> sib i /\ names (disk s) n = Some x).
                  { intros n x Hx. destruct (eqb_spec n (sib i)) as [->|Hn]; [rewrite upd_same in Hx; discriminate|]. rewrite upd_other in Hx by exact Hn. destruct (eqb_spec n path) as [->|Hn']; [rewrite upd_same in Hx; injection Hx as <-; auto|]. rewrite upd_other in Hx by exact Hn'. auto. }
                  intros n m x Hx Hy. destruct (Q n x Hx) as [[-> Ex]|(N1 & N2 & N3)], (Q m x Hy) as [[-> E]|(M1 & M2 & M3)]; subst; auto.
                  ** exfalso. apply M2. eapply (i_links _ _ I); eassumption.
                  ** exfalso. apply N2. eapply (i_links _ _ I); eassumption.
                  ** eapply (i_links _ _ I); eassumption.
               ++ intros i' Hi'. destruct (Nat.eq_dec i' i) as [->|Hn]; [exact Ai|]. rewrite updn_other in Hi' by exact Hn. exact (i_act _ _ I i' Hi').
               ++ intros i' fd' off' rest' Hw. destruct (Nat.eq_dec i' i) as [->|Hn]; [rewrite updn_same in Hw; discriminate|]. rewrite updn_other in * by exact Hn.
                  destruct (i_w _ _ I i' fd' off' rest' Hw) as (Y1 & c' & t' & Y2 & Y3 & Y4 & Y5). assert (Ai' : A i') by (apply (i_act _ _ I); now rewrite Y2).
                  assert (Ns : sib i' <> sib i) by (intros E; apply Hn; apply A_inj; auto; now apply sib_inj). rewrite upd_other by exact Ns. rewrite upd_other by now apply sib_A. split; [exact Y1|]. exists c', t'. auto.
               ++ intros j fd' off' acc Hj. destruct (i_r _ _ I j fd' off' acc Hj) as (Y1 & Y2 & Y3). split; [exact Y1|]. split; [|exact Y3].
                  intros n Hx. destruct (eqb_spec n (sib i)) as [->|Hn]; [rewrite upd_same in Hx; discriminate|]. rewrite upd_other in Hx by exact Hn. destruct (eqb_spec n path) as [->|Hn']; [reflexivity|]. rewrite upd_other in Hx by exact Hn'. auto.
               ++ rewrite upd_other, upd_same by exact Np. cbn [option_map]. now rewrite Hc.
            -- intros j fd' off' acc Hj. reflexivity.
            -- intros n Hn. unfold holds. cbn [disk names data]. rewrite upd_other by (intros ->; apply Hn; right; exists i; auto). rewrite upd_other by (intros ->; apply Hn; now left). reflexivity.
          * (* a piece *)
            cbv zeta. rewrite X5. set (b := firstn (S k) (skipn off c)). destruct (piece c off (S k) X3) as (P1 & _ & P3). pose proof (write_prefix c off (S k) X3) as P2. cbv zeta in P1, P2, P3. fold b in P1, P2, P3. rewrite X4, P2.
            assert (Rd : forall j fd' off acc, rd s j = ROpen fd' off acc -> fd' <> fd).
            { intros j fd' off' acc Hj ->. destruct (i_r _ _ I j fd off' acc Hj) as (_ & X & _). apply (sib_A i Ai). apply X. exact X1. }
            assert (Hp : forall x n, n <> sib i -> option_map (updn (data (disk s)) fd x) (names (disk s) n) = option_map (data (disk s)) (names (disk s) n)).
            { intros y n Hn. destruct (names (disk s) n) as [x|] eqn:Ex; [|reflexivity]. cbn [option_map]. rewrite updn_other; [reflexivity|]. intros ->. apply Hn. exact (i_links _ _ I n (sib i) fd Ex X1). }
            split; [|split; [split|intros ? []]]; cbn [register].
            -- constructor; unfold holds; cbn [disk wr rd names data fresh].
               ++ apply (i_fresh _ _ I).
               ++ apply (i_links _ _ I).
               ++ intros i' Hi'. destruct (Nat.eq_dec i' i) as [->|Hn]; [exact Ai|]. rewrite updn_other in Hi' by exact Hn. exact (i_act _ _ I i' Hi').
               ++ intros i' fd' off' rest' Hw. destruct (Nat.eq_dec i' i) as [->|Hn].
                  ** rewrite updn_same in *. cbn [wst todo] in *. injection Hw as <- <- <-. split; [exact X1|]. exists c, t. split; [reflexivity|]. split; [exact P1|]. rewrite updn_same. split; [reflexivity|exact P3].
                  ** rewrite updn_other in * by exact Hn. destruct (i_w _ _ I i' fd' off' rest' Hw) as (Y1 & c' & t' & Y2 & Y3 & Y4 & Y5). split; [exact Y1|]. exists c', t'. rewrite updn_other; [auto|].
                     intros ->. apply Hn. apply A_inj; [apply (i_act _ _ I); now rewrite Y2|exact Ai|]. apply sib_inj. exact (i_links _ _ I _ _ fd Y1 X1).
               ++ intros j fd' off' acc Hj. rewrite updn_other by (eapply Rd; exact Hj). exact (i_r _ _ I j fd' off' acc Hj).
               ++ rewrite Hp by (intros X; now apply (sib_A i Ai)). exact (i_v _ _ I).
            -- intros j fd' off' acc Hj. cbn [disk data]. rewrite updn_other; [reflexivity|]. eapply Rd; exact Hj.
            -- intros n Hn. unfold holds. cbn [disk names data]. apply Hp. intros ->. apply Hn. right. exists i. auto.
      - destruct (wst (wr s i)) as [|fd off rest] eqn:Ew; [split; [exact I|split; [split; auto|auto]]|].
        destruct (i_w _ _ I i fd off rest Ew) as (X1 & c & t & X2 & _). assert (Ai : A i) by (apply (i_act _ _ I); now rewrite X2).
        split; [|split; [split; auto|intros ? []]]. cbn [register]. constructor; unfold holds; cbn [disk wr rd names data fresh]; try apply I.
        + intros i' Hi'. destruct (Nat.eq_dec i' i) as [->|Hn]; [exact Ai|]. rewrite updn_other in Hi' by exact Hn. exact (i_act _ _ I i' Hi').
        + intros i' fd' off' rest' Hw. destruct (Nat.eq_dec i' i) as [->|Hn]; [rewrite updn_same in Hw; discriminate|]. rewrite updn_other in * by exact Hn. exact (i_w _ _ I i' fd' off' rest' Hw).
      - destruct (rd s j) as [|fd off acc] eqn:Er.
        + destruct (names (disk s) path) as [fd|] eqn:En; [|split; [exact I|split; [split; auto|intros i [E|[]]; discriminate E]]].
          split; [|split; [split; auto|intros ? []]]. cbn [register]. constructor; unfold holds; cbn [disk wr rd names data fresh]; try apply I.
          intros j' fd' off acc Hj. destruct (Nat.eq_dec j' j) as [->|Hn]; [|rewrite updn_other in Hj by exact Hn; exact (i_r _ _ I j' fd' off acc Hj)].
          rewrite updn_same in Hj. injection Hj as <- <- <-. split; [exact (i_fresh _ _ I _ _ En)|]. split; [|split; [lia|reflexivity]]. intros n Hn. exact (i_links _ _ I _ _ fd Hn En).
        + destruct (i_r _ _ I j fd off acc Er) as (X1 & X2 & X3 & X4). destruct (firstn (S k) (skipn off (data (disk s) fd))) as [|b0 b] eqn:Eb.
          * split; [|split; [split; auto|intros i [E|[]]; discriminate E]]. cbn [register]. constructor; unfold holds; cbn [disk wr rd names data fresh]; try apply I.
            intros j' fd' off' acc' Hj. destruct (Nat.eq_dec j' j) as [->|Hn]; [rewrite updn_same in Hj; discriminate|rewrite updn_other in Hj by exact Hn; exact (i_r _ _ I j' fd' off' acc' Hj)].
          * split; [|split; [split; auto|intros ? []]]. cbn [register]. constructor; unfold holds; cbn [disk wr rd names data fresh]; try apply I.
            intros j' fd' off' acc' Hj. destruct (Nat.eq_dec j' j) as [->|Hn]; [|rewrite updn_other in Hj by exact Hn; exact (i_r _ _ I j' fd' off' acc' Hj)].
            rewrite updn_same in Hj. injection Hj as <- <- <-. split; [exact X1|]. split; [exact X2|]. destruct (piece (data (disk s) fd) off (S k) X3) as (P1 & P2 & _). cbv zeta in P1, P2. rewrite Eb in P1, P2. split; [exact P1|]. rewrite X4. exact P2.
    Qed.

    Lemma register_app os os' : forall v, register v (os ++ os') = register (register v os) os'.
    Proof. induction os as [|o os IH]; intros v; [reflexivity|]. destruct o; cbn [app register]; apply IH. Qed.

    Lemma run_inv es : forall s v, inv s v -> let (s', o) := run s es in
      inv s' (register v o) /\ (forall n, ~ special n -> holds s' n = holds s n) /\ (forall i, ~ In (FailedSet i) o).
    Proof.
      induction es as [|e es IH]; intros s v I; cbn [run]; [auto|].
      pose proof (step_inv s v e I) as H. destruct (step s e) as [s1 o1]. destruct H as (I1 & (_ & F1) & N1).
      specialize (IH s1 _ I1). destruct (run s1 es) as [s2 o2]. destruct IH as (I2 & F2 & N2). rewrite register_app. split; [exact I2|]. split.
      - intros n Hn. rewrite F2 by exact Hn. auto.
      - intros i Hi. apply in_app_iff in Hi as [Hi|Hi]; [now apply (N1 i)|now apply (N2 i)].
    Qed.
  End Apart.

  Lemma start_inv s : start s -> inv (fun i => todo (wr s i) <> []) s (holds s path).
  Proof.
    intros (S1 & S2 & S3 & S4). constructor; auto.
    - intros i fd off rest H. rewrite S1 in H. discriminate.
    - intros j fd off acc H. rewrite S2 in H. discriminate.
  Qed.

  Lemma run_app es es' : forall s, run s (es ++ es') = let (s1, o1) := run s es in let (s2, o2) := run s1 es' in (s2, o1 ++ o2).
  Proof.
    induction es as [|e es IH]; intros s; cbn [run app]; [now destruct (run s es')|]. destruct (step s e) as [s1 o1]. rewrite IH. destruct (run s1 es) as [s2 o2]. destruct (run s2 es') as [s3 o3]. now rewrite app_assoc.
  Qed.

  (** *** a reader *)
  Lemma step_reader s e j fd off acc : rd s j = ROpen fd off acc -> let (s', o) := step s e in
    (exists off' acc', rd s' j = ROpen fd off' acc' /\ forall r, ~ In (Got j r) o) \/ o = [Got j acc] /\ skipn off (data (disk s) fd) = [].
  Proof.
    intros Hr. destruct e as [i k|i|j' k]; cbn [step].
    - destruct (todo (wr s i)); [left; eauto|]. destruct (wst (wr s i)) as [|fd' off' [|b rest]].
      + destruct (open_w (disk s) (sib i)). left. exists off, acc. split; [exact Hr|intros r []].
      + destruct (rename (disk s) (sib i) path); left; exists off, acc; (split; [exact Hr|intros r [E|[]]; discriminate E]).
      + left. exists off, acc. split; [exact Hr|intros r []].
    - destruct (wst (wr s i)); left; exists off, acc; (split; [exact Hr|intros r []]).
    - destruct (Nat.eq_dec j' j) as [->|Hn].
      + rewrite Hr. destruct (firstn (S k) (skipn off (data (disk s) fd))) as [|b0 b] eqn:Eb.
        * right. split; [reflexivity|]. destruct (skipn off (data (disk s) fd)); [reflexivity|discriminate Eb].
        * left. eexists _, _. cbn [rd]. rewrite updn_same. split; [reflexivity|intros r []].
      + destruct (rd s j') as [|fd' off' acc'].
        * destruct (names (disk s) path); left; exists off, acc; cbn [rd]; rewrite ?updn_other by congruence; (split; [exact Hr|]); intros r H; cbn in H; repeat (contradiction || discriminate H || destruct H as [H|H]).
        * destruct (firstn (S k) _); left; exists off, acc; cbn [rd]; rewrite ?updn_other by congruence; (split; [exact Hr|]); intros r H; cbn in H; [destruct H as [H|H]; [injection H as H _; congruence|destruct H]|destruct H].
  Qed.

  Lemma split_at {X} (a b pre post : list X) x : a ++ b = pre ++ x :: post -> ~ In x a -> exists pre', pre = a ++ pre' /\ b = pre' ++ x :: post.
  Proof.
    revert pre. induction a as [|y a IH]; intros pre H Hx; [exists pre; auto|]. destruct pre as [|z pre]; cbn [app] in H.
    - injection H as -> _. destruct Hx. now left.
    - injection H as -> H. destruct (IH pre H) as (pre' & -> & ->); [intros X1; apply Hx; now right|]. exists pre'. auto.
  Qed.

  Lemma run_reader (A : nat -> Prop) (A_ext : forall i, A i -> ext i <> []) (A_inj : forall i j, A i -> A j -> ext i = ext j -> i = j) es : forall s v j fd off acc, inv A s v -> rd s j = ROpen fd off acc ->
    forall pre r post, snd (run s es) = pre ++ Got j r :: post -> (forall r', ~ In (Got j r') pre) -> r = data (disk s) fd.
  Proof.
    induction es as [|e es IH]; intros s v j fd off acc I Hr pre r post; cbn [run]; [destruct pre; discriminate|].
    pose proof (step_inv A A_ext A_inj s v e I) as H. pose proof (step_reader s e j fd off acc Hr) as R. destruct (step s e) as [s1 o1]. destruct H as (I1 & (K & _) & _).
    destruct (run s1 es) as [s2 o2] eqn:E2. cbn [snd]. intros Ho Hp. destruct R as [(off' & acc' & Hr' & No)|[-> Hs]].
    - destruct (split_at o1 o2 pre post _ Ho (No r)) as (pre' & -> & Ho'). rewrite <- (K j fd off acc Hr). apply (IH s1 _ j fd off' acc' I1 Hr' pre' r post); [now rewrite E2|]. intros r' Hi. apply (Hp r'). apply in_app_iff. now right.
    - destruct pre as [|x pre]; cbn [app] in Ho.
      + injection Ho as <- _. destruct (i_r _ _ _ I j fd off acc Hr) as (_ & _ & L & ->). apply firstn_all2. apply (f_equal (@length N)) in Hs. rewrite skipn_length in Hs. cbn in Hs. lia.
      + injection Ho as <- _. exfalso. apply (Hp acc). now left.
  Qed.

  (** *** the calls of a writer *)
  Definition set_by (i : nat) (o : out) : list content := match o with DoneSet i' c => if i' =? i then [c] else [] | _ => [] end.
  (** what process [i] has set, in order *)
  Definition sets (i : nat) (os : list out) : list content := flat_map (set_by i) os.

  Lemma step_todo s e i : e <> Crash i -> let (s', o) := step s e in (forall x, ~ In (FailedSet x) o) -> sets i o ++ todo (wr s' i) = todo (wr s i).
  Proof.
    intros He. assert (Keep : forall i' w, i' <> i -> updn (wr s) i' w i = wr s i) by (intros i' w Hn; apply updn_other; congruence).
    destruct e as [i' k|i'|j k]; cbn [step].
    - destruct (todo (wr s i')) as [|c t] eqn:Et; [reflexivity|]. destruct (wst (wr s i')) as [|fd off [|b rest]].
      + destruct (open_w (disk s) (sib i')). intros _. cbn [sets flat_map app wr]. destruct (Nat.eq_dec i' i) as [->|Hn]; [rewrite updn_same; now rewrite Et|now rewrite Keep].
      + destruct (rename (disk s) (sib i') path); intros Hf; [|exfalso; apply (Hf i'); now left]. cbn [sets flat_map set_by wr]. rewrite app_nil_r. destruct (Nat.eqb_spec i' i) as [->|Hn]; [rewrite updn_same; now rewrite Et|now rewrite Keep].
      + intros _. cbn [sets flat_map app wr]. destruct (Nat.eq_dec i' i) as [->|Hn]; [rewrite updn_same; now rewrite Et|now rewrite Keep].
    - destruct (wst (wr s i')); intros _; [reflexivity|]. cbn [sets flat_map app wr]. rewrite Keep; [reflexivity|congruence].
    - destruct (rd s j) as [|fd off acc]; [destruct (names (disk s) path)|destruct (firstn (S k) _)]; intros _; reflexivity.
  Qed.

  Lemma run_todo i es : ~ In (Crash i) es -> forall s, let (s', o) := run s es in (forall x, ~ In (FailedSet x) o) -> sets i o ++ todo (wr s' i) = todo (wr s i).
  Proof.
    induction es as [|e es IH]; intros Hc s; cbn [run]; [reflexivity|]. pose proof (step_todo s e i ltac:(intros ->; apply Hc; now left)) as H. destruct (step s e) as [s1 o1].
    specialize (IH ltac:(intros X; apply Hc; now right) s1). destruct (run s1 es) as [s2 o2]. intros Hf. unfold sets. rewrite flat_map_app, <- app_assoc. fold (sets i o1) (sets i o2). rewrite IH by (intros x Hx; apply (Hf x), in_app_iff; now right).
    apply H. intros x Hx. apply (Hf x), in_app_iff. now left.
  Qed.

  (** *** the theorem *)
  Theorem race_apart s es : start s -> apart s ->
    let s' := fst (run s es) in let o := snd (run s es) in
    holds s' path = register (holds s path) o /\
    (forall i, ~ In (FailedSet i) o) /\
    (forall i, ~ In (Crash i) es -> sets i o ++ todo (wr s' i) = todo (wr s i)) /\
    (forall n, n <> path -> (forall i, todo (wr s i) <> [] -> n <> path ++ ext i) -> holds s' n = holds s n).
  Proof.
    intros Hs [Ha1 Ha2]. pose proof (run_inv (fun i => todo (wr s i) <> []) Ha1 Ha2 es s _ (start_inv s Hs)) as H.
    pose proof (fun i (Hc : ~ In (Crash i) es) => run_todo i es Hc s) as T.
    destruct (run s es) as [s' o]. cbn [fst snd]. destruct H as (I & F & N). split; [exact (i_v _ _ _ I)|]. split; [exact N|]. split; [intros i Hc; exact (T i Hc N)|].
    intros n Hn Hn'. apply F. intros [->|(i & Hi & ->)]; [now apply Hn|exact (Hn' i Hi eq_refl)].
  Qed.

  Theorem race_reader s es j k es' c : start s -> apart s ->
    rd (fst (run s es)) j = RIdle -> holds (fst (run s es)) path = Some c ->
    forall pre r post, snd (run (fst (run s es)) (Read j k :: es')) = pre ++ Got j r :: post -> (forall r', ~ In (Got j r') pre) -> r = c.
  Proof.
    intros Hs [Ha1 Ha2] Hr Hc pre r post. pose proof (run_inv (fun i => todo (wr s i) <> []) Ha1 Ha2 es s _ (start_inv s Hs)) as H.
    destruct (run s es) as [s1 o1]. cbn [fst] in *. destruct H as (I & _ & _). pose proof (step_inv _ Ha1 Ha2 s1 _ (Read j k) I) as H.
    cbn [run]. assert (E : exists fd, names (disk s1) path = Some fd /\ data (disk s1) fd = c). { unfold holds in Hc. destruct (names (disk s1) path) as [fd|]; [|discriminate]. injection Hc as Hc. eauto. } destruct E as (fd & En & Ed).
    cbn [step] in *. rewrite Hr, En in *. set (s2 := St (disk s1) (wr s1) (updn (rd s1) j (ROpen fd 0 []))) in *. destruct H as (I2 & _).
    destruct (run s2 es') as [s3 o3] eqn:E3. cbn [snd app]. intros Ho Hp. rewrite <- Ed. change (data (disk s1) fd) with (data (disk s2) fd).
    apply (run_reader _ Ha1 Ha2 es' s2 _ j fd 0 [] I2 ltac:(unfold s2; cbn [rd]; apply updn_same) pre r post); [now rewrite E3|exact Hp].
  Qed.

  (** *** any extensions *)
  Section Bytes.
    Variable src : content -> Prop.
    Definition byte_from (p : nat) (x : N) : Prop := x = 0%N \/ exists c, src c /\ nth_error c p = Some x.
    Definition good (d : content) : Prop := forall p x, nth_error d p = Some x -> byte_from p x.

    Record binv (s : state) : Prop := {
      b_path : forall fd, names (disk s) path = Some fd -> good (data (disk s) fd);
      b_todo : forall i c, In c (todo (wr s i)) -> src c;
      b_w : forall i fd off rest, wst (wr s i) = WOpen fd off rest -> good (data (disk s) fd) /\ (forall fd', names (disk s) (sib i) = Some fd' -> good (data (disk s) fd')) /\ exists c, src c /\ rest = skipn off c;
      b_r : forall j fd off acc, rd s j = ROpen fd off acc -> good (data (disk s) fd) /\ good acc /\ length acc = off }.

    Definition good_out (o : out) : Prop := match o with Got _ c => good c | _ => True end.

    Lemma nth_app {X} (a b : list X) p : nth_error (a ++ b) p = if p <? length a then nth_error a p else nth_error b (p - length a).
    Proof. destruct (Nat.ltb_spec p (length a)); [now apply nth_error_app1|now apply nth_error_app2]. Qed.

    Lemma nth_skipn {X} n : forall (l : list X) p, nth_error (skipn n l) p = nth_error l (n + p).
    Proof. induction n as [|n IH]; intros [|a l] p; cbn; auto. now destruct p. Qed.

    Lemma nth_firstn {X} n : forall (l : list X) p x, nth_error (firstn n l) p = Some x -> nth_error l p = Some x.
    Proof. induction n as [|n IH]; intros [|a l] [|p] x; cbn; auto; try discriminate; apply IH. Qed.

    Lemma nth_repeat n : forall p (a x : N), nth_error (repeat a n) p = Some x -> x = a.
    Proof. induction n as [|n IH]; intros [|p] a x; cbn; try discriminate; [now intros [= ->]|apply IH]. Qed.

    Lemma good_nil : good [].
    Proof. intros [|p] x; discriminate. Qed.

    Lemma good_write d off c k : good d -> src c -> good (write_at d off (firstn (S k) (skipn off c))).
    Proof.
      intros Hd Hc p x. set (b := firstn (S k) (skipn off c)). unfold write_at. rewrite nth_app.
      destruct (Nat.ltb_spec p (length (firstn off d))) as [L|L]; [intros H; apply Hd; exact (nth_firstn _ _ _ _ H)|]. rewrite nth_app.
      destruct (Nat.ltb_spec (p - length (firstn off d)) (length (repeat 0%N (off - length d)))) as [L1|L1]; [intros H; left; exact (nth_repeat _ _ _ _ H)|].
      rewrite repeat_length, firstn_length in *. assert (Ep : p - Nat.min off (length d) - (off - length d) = p - off /\ off <= p) by lia. destruct Ep as [Ep Lp]. rewrite Ep.
      rewrite nth_app. destruct (Nat.ltb_spec (p - off) (length b)) as [L2|L2]; intros H.
      - right. exists c. split; [exact Hc|]. apply nth_firstn in H. rewrite nth_skipn in H. replace p with (off + (p - off)) by lia. exact H.
      - rewrite nth_skipn in H. apply Hd. replace p with (off + length b + (p - off - length b)) by lia. exact H.
    Qed.

    Lemma good_updn (m : nat -> content) fd d fd' : good (m fd') -> good d -> good (updn m fd d fd').
    Proof. unfold updn. now destruct (fd' =? fd). Qed.

    Lemma step_binv s e : binv s -> let (s', o) := step s e in binv s' /\ Forall good_out o.
    Proof.
      intros [Bp Bt Bw Br]. destruct e as [i k|i|j k]; cbn [step].
      - destruct (todo (wr s i)) as [|c t] eqn:Et; [split; [constructor; auto|constructor]|].
        assert (Hc : src c) by (apply (Bt i); rewrite Et; now left).
        assert (Ht : forall f' r' w, (w = c :: t \/ w = t) -> forall st i' c', In c' (todo (wr (St f' (updn (wr s) i (Wr w st)) r') i')) -> src c').
        { intros f' r' w Hw st i' c'. cbn [wr]. destruct (Nat.eq_dec i' i) as [->|Hn]; [rewrite updn_same|rewrite updn_other by congruence; apply Bt]. cbn [todo]. intros H. apply (Bt i). rewrite Et. destruct Hw as [->| ->]; [exact H|now right]. }
        destruct (wst (wr s i)) as [|fd off [|b rest]] eqn:Ew.
        + unfold open_w. destruct (names (disk s) (sib i)) as [fd|] eqn:En; cbn.
          * split; [|constructor]. constructor; cbn [disk names data wr rd].
            -- intros fd' H. apply good_updn; [auto|apply good_nil].
            -- apply (Ht (disk s) (rd s)). now left.
            -- intros i' fd' off rest. destruct (Nat.eq_dec i' i) as [->|Hn]; [rewrite updn_same|rewrite updn_other by congruence].
               ++ cbn [wst]. intros [= <- <- <-]. split; [unfold updn; rewrite Nat.eqb_refl; apply good_nil|]. split; [|now exists c].
                  intros fd1 H1. rewrite En in H1. injection H1 as <-. unfold updn; rewrite Nat.eqb_refl; apply good_nil.
               ++ intros H. destruct (Bw i' fd' off rest H) as (G1 & G2 & G3). split; [apply good_updn; [auto|apply good_nil]|]. split; [|exact G3]. intros fd1 H1. apply good_updn; [auto|apply good_nil].
            -- intros j fd' off acc H. destruct (Br j fd' off acc H) as (G1 & G2 & G3). split; [apply good_updn; [auto|apply good_nil]|auto].
          * split; [|constructor]. constructor; cbn [disk names data wr rd].
            -- intros fd'. unfold upd. destruct (eqb_spec path (sib i)) as [Es|Es]; [intros [= <-]; unfold updn; rewrite Nat.eqb_refl; apply good_nil|]. intros H. apply good_updn; [auto|apply good_nil].
            -- apply (Ht (disk s) (rd s)). now left.
            -- intros i' fd' off rest. destruct (Nat.eq_dec i' i) as [->|Hn]; [rewrite updn_same|rewrite updn_other by congruence].
               ++ cbn [wst]. intros [= <- <- <-]. split; [unfold updn; rewrite Nat.eqb_refl; apply good_nil|]. split; [|now exists c].
                  intros fd1 H1. unfold upd in H1. destruct (eqb_spec (sib i) (sib i)); [|congruence]. injection H1 as <-. unfold updn; rewrite Nat.eqb_refl; apply good_nil.
               ++ intros H. destruct (Bw i' fd' off rest H) as (G1 & G2 & G3). split; [apply good_updn; [auto|apply good_nil]|]. split; [|exact G3]. intros fd1. unfold upd.
                  destruct (eqb_spec (sib i') (sib i)) as [Es|Es]; [intros [= <-]; unfold updn; rewrite Nat.eqb_refl; apply good_nil|]. intros H1. apply good_updn; [auto|apply good_nil].
            -- intros j fd' off acc H. destruct (Br j fd' off acc H) as (G1 & G2 & G3). split; [apply good_updn; [auto|apply good_nil]|auto].
        + destruct (Bw i fd off [] Ew) as (G1 & G2 & _). unfold rename. destruct (names (disk s) (sib i)) as [fd1|] eqn:En.
          * split; [|repeat constructor]. destruct (eqb_spec (names (disk s) path) (Some fd1)) as [Ep|Ep]; (constructor; cbn [disk names data wr rd]).
            -- exact Bp.
            -- apply (Ht (disk s) (rd s)). now right.
            -- intros i' fd' off' rest. destruct (Nat.eq_dec i' i) as [->|Hn]; [rewrite updn_same; discriminate|rewrite updn_other by congruence]. apply Bw.
            -- exact Br.
            -- intros fd'. unfold upd. destruct (eqb_spec path (sib i)); [discriminate|]. destruct (eqb_spec path path); [|congruence]. intros [= <-]. auto.
            -- apply (Ht (disk s) (rd s)). now right.
            -- intros i' fd' off' rest. destruct (Nat.eq_dec i' i) as [->|Hn]; [rewrite updn_same; discriminate|rewrite updn_other by congruence].
               intros H. destruct (Bw i' fd' off' rest H) as (K1 & K2 & K3). split; [exact K1|]. split; [|exact K3]. intros fd2. unfold upd. destruct (eqb_spec (sib i') (sib i)); [discriminate|]. destruct (eqb_spec (sib i') path); [intros [= <-]; auto|apply K2].
            -- exact Br.
          * split; [|repeat constructor]. constructor; cbn [disk names data wr rd]; auto.
            -- apply (Ht (disk s) (rd s)). now right.
            -- intros i' fd' off' rest. destruct (Nat.eq_dec i' i) as [->|Hn]; [rewrite updn_same; discriminate|rewrite updn_other by congruence]. apply Bw.
        + destruct (Bw i fd off (b :: rest) Ew) as (G1 & G2 & c' & Hc' & Er). assert (Gw : good (write_at (data (disk s) fd) off (firstn (S k) (b :: rest)))) by (rewrite Er; now apply good_write).
          split; [|constructor]. set (bs := firstn (S k) (b :: rest)) in *. constructor; cbn [disk names data wr rd].
          * intros fd' H. apply good_updn; auto.
          * apply (Ht (disk s) (rd s)). now left.
          * intros i' fd' off' rest'. destruct (Nat.eq_dec i' i) as [->|Hn]; [rewrite updn_same|rewrite updn_other by congruence].
            -- cbn [wst]. intros [= <- <- <-]. split; [now apply good_updn|]. split; [intros fd1 H1; apply good_updn; auto|]. exists c'. split; [exact Hc'|].
               assert (L : off <= length c') by (apply (f_equal (@length N)) in Er; rewrite skipn_length in Er; cbn in Er; lia). destruct (piece c' off (S k) L) as (_ & _ & Pc). rewrite <- Er in Pc. exact Pc.
            -- intros H. destruct (Bw i' fd' off' rest' H) as (K1 & K2 & K3). split; [now apply good_updn|]. split; [intros fd1 H1; apply good_updn; auto|exact K3].
          * intros j fd' off' acc H. destruct (Br j fd' off' acc H) as (K1 & K2 & K3). split; [now apply good_updn|auto].
      - destruct (wst (wr s i)) as [|fd off rest]; (split; [constructor; auto|constructor]); cbn [wr].
        + intros i' c'. destruct (Nat.eq_dec i' i) as [->|Hn]; [rewrite updn_same|rewrite updn_other by congruence; apply Bt]. cbn [todo]. intros H. apply (Bt i). destruct (todo (wr s i)); [exact H|now right].
        + intros i' fd' off' rest'. destruct (Nat.eq_dec i' i) as [->|Hn]; [rewrite updn_same; discriminate|rewrite updn_other by congruence]. apply Bw.
      - destruct (rd s j) as [|fd off acc] eqn:Er.
        + destruct (names (disk s) path) as [fd|] eqn:En; (split; [constructor; cbn [disk wr rd]; rewrite ?En; auto|repeat constructor]).
          * intros j' fd' off acc. destruct (Nat.eq_dec j' j) as [->|Hn]; [rewrite updn_same|rewrite updn_other by congruence; apply Br]. intros [= <- <- <-]. split; [auto|]. split; [apply good_nil|reflexivity].
        + destruct (Br j fd off acc Er) as (K1 & K2 & K3). destruct (firstn (S k) (skipn off (data (disk s) fd))) as [|b0 b] eqn:Eb; (split; [constructor; cbn [disk wr rd]; auto|try solve [constructor|constructor; [exact K2|constructor]]]).
          * intros j' fd' off' acc'. destruct (Nat.eq_dec j' j) as [->|Hn]; [rewrite updn_same; discriminate|rewrite updn_other by congruence; apply Br].
          * intros j' fd' off' acc'. destruct (Nat.eq_dec j' j) as [->|Hn]; [rewrite updn_same|rewrite updn_other by congruence; apply Br]. intros [= <- <- <-]. split; [exact K1|]. split.
            -- intros p x. rewrite nth_app. destruct (Nat.ltb_spec p (length acc)) as [L|L]; [apply K2|]. rewrite <- Eb. intros H. apply nth_firstn in H. rewrite nth_skipn in H. apply K1. replace p with (off + (p - length acc)) by lia. exact H.
            -- rewrite app_length, K3. reflexivity.
    Qed.

    Lemma run_binv es : forall s, binv s -> let (s', o) := run s es in binv s' /\ Forall good_out o.
    Proof.
      induction es as [|e es IH]; intros s B; cbn [run]; [auto|]. pose proof (step_binv s e B) as H. destruct (step s e) as [s1 o1]. destruct H as [B1 H1].
      specialize (IH s1 B1). destruct (run s1 es) as [s2 o2]. destruct IH as [B2 H2]. split; [exact B2|]. now apply Forall_app.
    Qed.
  End Bytes.

  Theorem race_bytes s es : start s ->
    let from p x := x = 0%N \/ exists c, (holds s path = Some c \/ exists i, In c (todo (wr s i))) /\ nth_error c p = Some x in
    (forall c p x, holds (fst (run s es)) path = Some c -> nth_error c p = Some x -> from p x) /\
    (forall j c p x, In (Got j c) (snd (run s es)) -> nth_error c p = Some x -> from p x).
  Proof.
    intros (S1 & S2 & _ & _). set (src := fun c => holds s path = Some c \/ exists i, In c (todo (wr s i))).
    assert (B : binv src s).
    { constructor.
      - intros fd H p x Hx. right. exists (data (disk s) fd). split; [left; unfold holds; now rewrite H|exact Hx].
      - intros i c H. right. eauto.
      - intros i fd off rest H. rewrite S1 in H. discriminate.
      - intros j fd off acc H. rewrite S2 in H. discriminate. }
    pose proof (run_binv src es s B) as H. destruct (run s es) as [s' o]. cbn [fst snd]. destruct H as [B' H]. rewrite Forall_forall in H. split.
    - intros c p x Hc Hx. unfold holds in Hc. destruct (names (disk s') path) as [fd|] eqn:En; [|discriminate]. injection Hc as <-. exact (b_path _ _ B' fd En p x Hx).
    - intros j c p x Hi Hx. exact (H _ Hi p x Hx).
  Qed.
End Race.
