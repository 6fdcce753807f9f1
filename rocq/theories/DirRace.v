(** * epsilon/hotfixes/filepath_copyTo.py: makedirs and createDirectory called by several
    processes at once

    Over the file systems of FileTree.v; paths are absolute and given as places. *)

From Coq Require Import NArith String List Bool Arith Lia.
From Verif Require Import Py PyStr PySplit FilePath FileTree.
Import ListNotations.
Open Scope list_scope.
Open Scope nat_scope.

(** how a call ends: it made the directory; FileExistsError; any other OSError *)
Inductive result := Made | Exists | Refused.

(** mkdir of the operating system (FileTree.v, os_mkdir), telling the errors apart *)
Definition sys_mkdir (f : fs) (l : loc) : fs * result :=
  match dget f l with
  | Some _ => (f, Exists)
  | None => if has_parent f l then (dset f l EDir, Made) else (f, Refused)
  end.

(** Where a process is.  [Down l k]: in os.makedirs of the standard library for [l], about
    to ask whether the place of the first [k] names exists; [Up l k]: about to make that
    place; [One l]: in createDirectory, about to make [l]. *)
Inductive phase := Off | Down (l : loc) (k : nat) | Up (l : loc) (k : nat) | One (l : loc).

Record state := St { disk : fs; at_ : nat -> phase }.

(** What happens next: a process calls makedirs or createDirectory; its next call of the
    operating system runs, or fails for a reason of its own; it is killed. *)
Inductive event := Makedirs (i : nat) (l : loc) | CreateDirectory (i : nat) (l : loc) | Go (i : nat) | Fail (i : nat) | Kill (i : nat).

Definition put (a : nat -> phase) (i : nat) (p : phase) : nat -> phase := fun x => if x =? i then p else a x.

(** filepath_copyTo.py:259-260 [makedirs], 296-297 [createDirectory]; os.makedirs as in
    FileMake.v: it asks for each directory above the path, nearest first, until one exists,
    and makes those that do not; FileExistsError is ignored for all but the last.  An error
    when asking is taken for a no. *)
Definition step (s : state) (e : event) : state * list (nat * loc * result) :=
  match e with
  | Makedirs i l =>
      match at_ s i with
      | Off => (St (disk s) (put (at_ s) i (match length l with O => Up l 0 | S k => Down l k end)), [])
      | _ => (s, [])
      end
  | CreateDirectory i l => match at_ s i with Off => (St (disk s) (put (at_ s) i (One l)), []) | _ => (s, []) end
  | Kill i => (St (disk s) (put (at_ s) i Off), [])
  | Fail i =>
      match at_ s i with
      | Off => (s, [])
      | Down l k => (St (disk s) (put (at_ s) i (match k with O => Up l 0 | S k' => Down l k' end)), [])
      | Up l _ | One l => (St (disk s) (put (at_ s) i Off), [(i, l, Refused)])
      end
  | Go i =>
      match at_ s i with
      | Off => (s, [])
      | Down l k =>
          (St (disk s) (put (at_ s) i
             (match dget (disk s) (firstn k l) with
              | Some _ => Up l (S k)
              | None => match k with O => Up l 0 | S k' => Down l k' end
              end)), [])
      | Up l k =>
          let (f, r) := sys_mkdir (disk s) (firstn k l) in
          if k <? length l
          then match r with
               | Refused => (St f (put (at_ s) i Off), [(i, l, Refused)])
               | _ => (St f (put (at_ s) i (Up l (S k))), [])
               end
          else (St f (put (at_ s) i Off), [(i, l, r)])
      | One l => let (f, r) := sys_mkdir (disk s) l in (St f (put (at_ s) i Off), [(i, l, r)])
      end
  end.

Fixpoint run (s : state) (es : list event) : state * list (nat * loc * result) :=
  match es with
  | [] => (s, [])
  | e :: t => let (s1, o1) := step s e in let (s2, o2) := run s1 t in (s2, o1 ++ o2)
  end.

Definition boot (f : fs) : state := St f (fun _ => Off).

(** ** Specification *)

(** the paths that are asked for, and that they are paths *)
Definition asked (es : list event) (l : loc) : Prop := exists i, In (Makedirs i l) es \/ In (CreateDirectory i l) es.
Definition named (es : list event) : Prop := forall l, asked es l -> Forall name l.

(** nothing but directories is on the way to [l], or at [l] *)
Definition clear (f : fs) (l : loc) : Prop := forall q, below q l -> dget f q = None \/ dget f q = Some EDir.

(** how many have made [l] *)
Definition makers (l : loc) (os : list (nat * loc * result)) : nat :=
  length (filter (fun o => match o with (_, q, Made) => eqb q l | _ => false end) os).

(** how many calls of the operating system [i] makes *)
Definition goes (i : nat) (es : list event) : nat := length (filter (fun e => match e with Go j => j =? i | _ => false end) es).

(** ** Proofs *)

Lemma put_same a i p : put a i p i = p.
Proof. unfold put. now rewrite Nat.eqb_refl. Qed.
Lemma put_other a i p x : x <> i -> put a i p x = a x.
Proof. unfold put. intros H. destruct (Nat.eqb_spec x i); congruence. Qed.

Lemma run_app es es' : forall s, run s (es ++ es') = let (s1, o1) := run s es in let (s2, o2) := run s1 es' in (s2, o1 ++ o2).
Proof.
  induction es as [|e es IH]; intros s; cbn [app run]; [now destruct (run s es')|].
  destruct (step s e) as [s1 o1]. rewrite IH. destruct (run s1 es) as [s2 o2]. destruct (run s2 es') as [s3 o3]. now rewrite app_assoc.
Qed.

(** *** what a call of mkdir does *)

Lemma mkdir_cases f l : 
  (sys_mkdir f l = (f, Exists) /\ dget f l <> None) \/ (sys_mkdir f l = (f, Refused) /\ dget f l = None /\ has_parent f l = false) \/
  (sys_mkdir f l = (dset f l EDir, Made) /\ dget f l = None /\ has_parent f l = true).
Proof. unfold sys_mkdir. destruct (dget f l); [left; split; [reflexivity|discriminate]|]. right. destruct (has_parent f l); auto. Qed.

(** the place a process is about to make, if it is about to make one *)
Definition aim (p : phase) : option loc := match p with Up l k => Some (firstn k l) | One l => Some l | _ => None end.

(** the disk after a step *)
Lemma step_disk s e :
  disk (fst (step s e)) = disk s \/
  exists i q, e = Go i /\ aim (at_ s i) = Some q /\ dget (disk s) q = None /\ has_parent (disk s) q = true /\ disk (fst (step s e)) = dset (disk s) q EDir.
Proof.
  destruct e as [i l|i l|i|i|i]; cbn [step].
  - destruct (at_ s i); now left.
  - destruct (at_ s i); now left.
  - destruct (at_ s i) as [|l k|l k|l] eqn:Ei; [now left|now left| |].
    + destruct (mkdir_cases (disk s) (firstn k l)) as [(-> & H)|[(-> & H)|(-> & H & P)]].
      * left. destruct (k <? length l); reflexivity.
      * left. destruct (k <? length l); reflexivity.
      * right. exists i, (firstn k l). rewrite Ei. split; [reflexivity|]. split; [reflexivity|]. split; [exact H|]. split; [exact P|]. destruct (k <? length l); reflexivity.
    + destruct (mkdir_cases (disk s) l) as [(-> & H)|[(-> & H)|(-> & H & P)]]; [now left|now left|].
      right. exists i, l. rewrite Ei. auto.
  - left. destruct (at_ s i); reflexivity.
  - now left.
Qed.

Lemma step_mono s e l x : dget (disk s) l = Some x -> dget (disk (fst (step s e))) l = Some x.
Proof.
  intros H. destruct (step_disk s e) as [->|(i & q & _ & _ & Hq & _ & ->)]; [exact H|]. rewrite dget_dset. destruct (eqb_spec l q) as [->|_]; [congruence|exact H].
Qed.

Lemma run_mono es : forall s l x, dget (disk s) l = Some x -> dget (disk (fst (run s es))) l = Some x.
Proof.
  induction es as [|e es IH]; intros s l x H; cbn [run]; [exact H|]. pose proof (step_mono s e l x H) as H1. destruct (step s e) as [s1 o1]. specialize (IH s1 l x H1). destruct (run s1 es). exact IH.
Qed.

(** what a step tells *)
Lemma step_out s e i l r : In (i, l, r) (snd (step s e)) ->
  (r = Made -> dget (disk s) l = None /\ dget (disk (fst (step s e))) l = Some EDir) /\
  (r = Exists -> dget (disk s) l <> None).
Proof.
  destruct e as [j q|j q|j|j|j]; cbn [step].
  - destruct (at_ s j); intros [].
  - destruct (at_ s j); intros [].
  - destruct (at_ s j) as [|q k|q k|q] eqn:Ej; [intros []|intros []| |].
    + destruct (Nat.ltb_spec k (length q)) as [Hk|Hk].
      * destruct (mkdir_cases (disk s) (firstn k q)) as [(-> & H)|[(-> & H)|(-> & H & P)]]; [intros []| |intros []]. intros [X|[]]. injection X as <- <- <-. split; discriminate.
      * rewrite (firstn_all2 q Hk). destruct (mkdir_cases (disk s) q) as [(-> & H)|[(-> & H)|(-> & H & P)]]; intros [X|[]]; injection X as <- <- <-; cbn [fst disk]; (split; [try discriminate|try discriminate]); auto.
        intros _. split; [exact H|]. apply dget_dset_eq.
    + destruct (mkdir_cases (disk s) q) as [(-> & H)|[(-> & H)|(-> & H & P)]]; intros [X|[]]; injection X as <- <- <-; cbn [fst disk]; (split; [try discriminate|try discriminate]); auto.
      intros _. split; [exact H|]. apply dget_dset_eq.
  - destruct (at_ s j); cbn [snd]; try (intros []; fail); intros [X|[]]; injection X as <- <- <-; split; discriminate.
  - intros [].
Qed.

Lemma makers_app l a b : makers l (a ++ b) = makers l a + makers l b.
Proof. unfold makers. now rewrite filter_app, app_length. Qed.
Lemma makers_In l os : makers l os <> 0 <-> exists i, In (i, l, Made) os.
Proof.
  unfold makers. split.
  - intros H. destruct (filter _ os) as [|[[i q] r] t] eqn:E; [destruct (H eq_refl)|]. assert (X : In (i, q, r) ((i, q, r) :: t)) by now left. rewrite <- E in X. apply filter_In in X as [X1 X2]. destruct r; try discriminate. destruct (eqb_spec q l) as [->|]; [|discriminate]. eauto.
  - intros (i & H) E. apply length_zero_iff_nil in E. assert (X : In (i, l, Made) (filter (fun o => match o with (_, q, Made) => eqb q l | _ => false end) os)) by (apply filter_In; split; [exact H|]; destruct (eqb_spec l l); congruence). rewrite E in X. destruct X.
Qed.

Lemma step_one_out s e : length (snd (step s e)) <= 1.
Proof.
  destruct e as [j q|j q|j|j|j]; cbn [step]; try (destruct (at_ s j); cbn; lia).
  destruct (at_ s j); cbn [snd length]; try lia; [destruct (sys_mkdir (disk s) (firstn k l)) as [f r]; destruct (k <? length l); [destruct r|]; cbn; lia|destruct (sys_mkdir (disk s) l); cbn; lia].
Qed.

Lemma run_none es : forall s l x, dget (disk s) l = Some x -> makers l (snd (run s es)) = 0.
Proof.
  induction es as [|e es IH]; intros s l x H; cbn [run]; [reflexivity|]. pose proof (step_mono s e l x H) as H1.
  assert (E : makers l (snd (step s e)) = 0).
  { destruct (Nat.eq_dec (makers l (snd (step s e))) 0) as [E|E]; [exact E|]. apply makers_In in E as (i & E). apply step_out in E as [E _]. destruct (E eq_refl) as [X _]. congruence. }
  destruct (step s e) as [s1 o1]. specialize (IH s1 l x H1). destruct (run s1 es) as [s2 o2]. cbn [snd] in *. now rewrite makers_app, E, IH.
Qed.

Lemma filter_le {A} (g : A -> bool) x : length (filter g x) <= length x.
Proof. induction x as [|a x IH]; cbn [filter length]; [lia|]. destruct (g a); cbn [length]; lia. Qed.

Theorem makers_le es : forall s l, makers l (snd (run s es)) <= 1.
Proof.
  induction es as [|e es IH]; intros s l; cbn [run]; [cbn; lia|]. pose proof (step_one_out s e) as H1.
  assert (L : makers l (snd (step s e)) <= 1) by (unfold makers; etransitivity; [apply filter_le|exact H1]).
  pose proof (run_none es (fst (step s e)) l EDir) as H2. pose proof (fun i => step_out s e i l Made) as H3. pose proof (proj1 (makers_In l (snd (step s e)))) as H4.
  destruct (step s e) as [s1 o1]. cbn [fst snd] in *. specialize (IH s1 l). destruct (run s1 es) as [s2 o2]. cbn [fst snd] in *. rewrite makers_app.
  destruct (Nat.eq_dec (makers l o1) 0) as [E|E]; [lia|]. destruct (H4 E) as (i & Hi). destruct (H3 i Hi) as [X _]. rewrite (H2 (proj2 (X eq_refl))). lia.
Qed.

Theorem ends_there es : forall s i l r, In (i, l, r) (snd (run s es)) ->
  (r = Made -> dget (disk s) l = None /\ dget (disk (fst (run s es))) l = Some EDir) /\
  (r = Exists -> dget (disk (fst (run s es))) l <> None).
Proof.
  induction es as [|e es IH]; intros s i l r; cbn [run]; [intros []|]. pose proof (step_out s e i l r) as H1. pose proof (step_mono s e l) as M1. pose proof (run_mono es (fst (step s e)) l) as M2.
  destruct (step s e) as [s1 o1]. cbn [fst snd] in *. specialize (IH s1 i l r). destruct (run s1 es) as [s2 o2]. cbn [fst snd] in *. intros Hi. apply in_app_iff in Hi as [Hi|Hi].
  - destruct (H1 Hi) as [A B]. split; intros E; [destruct (A E) as [A1 A2]; auto|]. specialize (B E). destruct (dget (disk s) l) as [x|]; [|congruence]. rewrite (M2 x (M1 x eq_refl)). discriminate.
  - destruct (IH Hi) as [A B]. split; [intros E; destruct (A E) as [A1 A2]; split; [|exact A2]|exact B]. destruct (dget (disk s) l) as [x|]; [|reflexivity]. rewrite (M1 x eq_refl) in A1. discriminate.
Qed.

(** *** what changes *)

Definition wants (p : phase) : option loc := match p with Off => None | Down l _ | Up l _ | One l => Some l end.

Lemma step_wants s e i l : wants (at_ (fst (step s e)) i) = Some l -> wants (at_ s i) = Some l \/ e = Makedirs i l \/ e = CreateDirectory i l.
Proof.
  destruct e as [j q|j q|j|j|j]; cbn [step].
  - destruct (at_ s j) eqn:Ej; auto. cbn [fst at_]. destruct (Nat.eq_dec i j) as [->|N]; [|rewrite put_other by exact N; auto]. rewrite put_same. intros H. right. left. destruct (length q); cbn in H; congruence.
  - destruct (at_ s j) eqn:Ej; auto. cbn [fst at_]. destruct (Nat.eq_dec i j) as [->|N]; [|rewrite put_other by exact N; auto]. rewrite put_same. intros H. right. right. cbn in H; congruence.
  - destruct (at_ s j) as [|q k|q k|q] eqn:Ej; auto.
    + cbn [fst at_]. destruct (Nat.eq_dec i j) as [->|N]; [|rewrite put_other by exact N; auto]. rewrite put_same, Ej. intros H. left. destruct (dget (disk s) (firstn k q)); [exact H|]. destruct k; exact H.
    + destruct (sys_mkdir (disk s) (firstn k q)) as [f r]. destruct (k <? length q); [destruct r|]; cbn [fst at_]; (destruct (Nat.eq_dec i j) as [->|N]; [|rewrite put_other by exact N; auto]); rewrite put_same, ?Ej; cbn [wants]; auto; discriminate.
    + destruct (sys_mkdir (disk s) q) as [f r]. cbn [fst at_]. destruct (Nat.eq_dec i j) as [->|N]; [|rewrite put_other by exact N; auto]. rewrite put_same. discriminate.
  - destruct (at_ s j) as [|q k|q k|q] eqn:Ej; auto; cbn [fst at_]; (destruct (Nat.eq_dec i j) as [->|N]; [|rewrite put_other by exact N; auto]); rewrite put_same, ?Ej; try discriminate. intros H. left. destruct k; exact H.
  - cbn [fst at_]. destruct (Nat.eq_dec i j) as [->|N]; [|rewrite put_other by exact N; auto]. rewrite put_same. discriminate.
Qed.

Lemma aim_wants p q : aim p = Some q -> exists l, wants p = Some l /\ below q l.
Proof.
  destruct p as [|l k|l k|l]; cbn; try discriminate; intros [= <-]; exists l; (split; [reflexivity|]); [|apply below_refl]. exists (skipn k l). now rewrite firstn_skipn.
Qed.

Lemma name_below q l : below q l -> Forall name l -> Forall name q.
Proof. intros (r & ->) H. now apply Forall_app in H. Qed.

(** [W]: the paths that may be asked for *)
Lemma run_changes (W : loc -> Prop) es : (forall l, W l -> Forall name l) -> (forall l, asked es l -> W l) -> forall s, okfs (disk s) -> (forall i l, wants (at_ s i) = Some l -> W l) ->
  okfs (disk (fst (run s es))) /\
  forall q, dget (disk (fst (run s es))) q = dget (disk s) q \/
    (dget (disk s) q = None /\ dget (disk (fst (run s es))) q = Some EDir /\ exists l, W l /\ below q l).
Proof.
  intros HN. induction es as [|e es IH]; intros HA s Hf Hw; cbn [run]; [auto|].
  assert (Hw1 : forall i l, wants (at_ (fst (step s e)) i) = Some l -> W l).
  { intros i l H. apply step_wants in H as [H|[->| ->]]; [eauto|apply HA; exists i; left; now left|apply HA; exists i; right; now left]. }
  assert (H1 : okfs (disk (fst (step s e))) /\ forall q, dget (disk (fst (step s e))) q = dget (disk s) q \/ (dget (disk s) q = None /\ dget (disk (fst (step s e))) q = Some EDir /\ exists l, W l /\ below q l)).
  { destruct (step_disk s e) as [->|(i & q & _ & Ha & Hq & Hp & ->)]; [auto|]. apply aim_wants in Ha as (l & Hl & Hb). specialize (Hw i l Hl). split; [apply ok_dset; auto; exact (name_below q l Hb (HN l Hw))|].
    intros x. rewrite dget_dset. destruct (eqb_spec x q) as [->|_]; [right; eauto|now left]. }
  destruct (step s e) as [s1 o1]. cbn [fst] in *. destruct H1 as [Hf1 H1]. assert (HA1 : forall l, asked es l -> W l) by (intros l (i & H); apply HA; exists i; destruct H; [left|right]; now right).
  specialize (IH HA1 s1 Hf1 Hw1). destruct (run s1 es) as [s2 o2]. cbn [fst] in *. destruct IH as [I1 I2]. split; [exact I1|].
  intros q. destruct (I2 q) as [->|(A & B & C)]; [apply H1|]. right. split; [|auto]. destruct (H1 q) as [E|(E & _)]; [congruence|exact E].
Qed.

(** *** nobody is refused on a clear way *)

Lemma step_clear s e l : clear (disk s) l -> clear (disk (fst (step s e))) l.
Proof.
  intros H q Hq. destruct (step_disk s e) as [->|(i & x & _ & _ & _ & _ & ->)]; [auto|]. rewrite dget_dset. destruct (eqb_spec q x); auto.
Qed.

Definition safe (s : state) (l : loc) : Prop := forall i k, at_ s i = Up l k -> k = 0 \/ dget (disk s) (firstn (k - 1) l) = Some EDir.

Lemma firstn_below k (l : loc) : below (firstn k l) l.
Proof. exists (skipn k l). now rewrite firstn_skipn. Qed.

Lemma parent_firstn (f : fs) k (l : loc) : k < length l -> dget f (firstn k l) = Some EDir -> has_parent f (firstn (S k) l) = true.
Proof.
  intros Hk Hd. unfold has_parent. rewrite removelast_firstn by exact Hk. destruct (firstn (S k) l) eqn:E; [apply (f_equal (@length _)) in E; rewrite firstn_length in E; cbn [length] in E; lia|]. match goal with |- match ?d with _ => _ end = _ => replace d with (Some EDir) by (symmetry; exact Hd) end. reflexivity.
Qed.

Lemma has_root f : okfs f -> dget f [] = Some EDir.
Proof. intros H. exact (ok_root f H). Qed.

Definition short (s : state) : Prop := forall i, match at_ s i with Down l k => k < length l | Up l k => k <= length l | _ => True end.

Lemma step_short s e : short s -> short (fst (step s e)).
Proof.
  intros H. destruct e as [j q|j q|j|j|j]; cbn [step].
  - destruct (at_ s j) eqn:Ej; auto. intros i. cbn [fst at_]. destruct (Nat.eq_dec i j) as [->|N]; [|rewrite put_other by exact N; apply H]. rewrite put_same. destruct (length q) eqn:E; lia.
  - destruct (at_ s j) eqn:Ej; auto. intros i. cbn [fst at_]. destruct (Nat.eq_dec i j) as [->|N]; [|rewrite put_other by exact N; apply H]. now rewrite put_same.
  - pose proof (H j) as Hj. destruct (at_ s j) as [|q k|q k|q] eqn:Ej; auto.
    + intros i. cbn [fst at_]. destruct (Nat.eq_dec i j) as [->|N]; [|rewrite put_other by exact N; apply H]. rewrite put_same. destruct (dget (disk s) (firstn k q)); [lia|]. destruct k; lia.
    + destruct (sys_mkdir (disk s) (firstn k q)) as [f r]. intros i. destruct (Nat.ltb_spec k (length q)); [destruct r|]; cbn [fst at_]; (destruct (Nat.eq_dec i j) as [->|N]; [|rewrite put_other by exact N; apply H]); rewrite put_same; auto; lia.
    + destruct (sys_mkdir (disk s) q) as [f r]. intros i. cbn [fst at_]. destruct (Nat.eq_dec i j) as [->|N]; [|rewrite put_other by exact N; apply H]. now rewrite put_same.
  - pose proof (H j) as Hj. destruct (at_ s j) as [|q k|q k|q] eqn:Ej; auto; intros i; cbn [fst at_]; (destruct (Nat.eq_dec i j) as [->|N]; [|rewrite put_other by exact N; apply H]); rewrite put_same; auto. destruct k; lia.
  - intros i. cbn [fst at_]. destruct (Nat.eq_dec i j) as [->|N]; [|rewrite put_other by exact N; apply H]. now rewrite put_same.
Qed.

(** [CreateDirectory] of a path may be refused: it makes one directory only *)
Lemma step_safe s e l : dget (disk s) [] = Some EDir -> short s -> clear (disk s) l -> safe s l -> (forall i, at_ s i <> One l) ->
  safe (fst (step s e)) l /\ forall i, In (i, l, Refused) (snd (step s e)) -> e = Fail i.
Proof.
  intros Hr Hs Hc H HO. assert (K : forall i k, at_ (fst (step s e)) i = at_ s i -> at_ (fst (step s e)) i = Up l k -> k = 0 \/ dget (disk (fst (step s e))) (firstn (k - 1) l) = Some EDir).
  { intros i k E1 E2. rewrite E1 in E2. destruct (H i k E2) as [X|X]; [now left|right]. now apply step_mono. }
  destruct e as [j q|j q|j|j|j]; cbn [step] in *.
  - destruct (at_ s j) eqn:Ej; try (split; [exact H|intros i []]). split; [|intros i []]. intros i k. cbn [fst at_ disk] in *. destruct (Nat.eq_dec i j) as [->|N]; [|rewrite put_other by exact N; apply H]. rewrite put_same. destruct (length q); [intros [= <- <-]; now left|discriminate].
  - destruct (at_ s j) eqn:Ej; try (split; [exact H|intros i []]). split; [|intros i []]. intros i k. cbn [fst at_ disk] in *. destruct (Nat.eq_dec i j) as [->|N]; [|rewrite put_other by exact N; apply H]. rewrite put_same. discriminate.
  - pose proof (Hs j) as Hj. destruct (at_ s j) as [|q k0|q k0|q] eqn:Ej.
    + split; [exact H|intros i []].
    + split; [|intros i []]. intros i k. cbn [fst at_ disk] in *. destruct (Nat.eq_dec i j) as [->|N]; [|rewrite put_other by exact N; apply H]. rewrite put_same.
      destruct (dget (disk s) (firstn k0 q)) as [x|] eqn:Ex; [|destruct k0; [intros [= <- <-]; now left|discriminate]]. intros [= -> <-]. right. replace (S k0 - 1) with k0 by lia. destruct (Hc _ (firstn_below k0 l)) as [X|X]; [congruence|exact X].
    + destruct (mkdir_cases (disk s) (firstn k0 q)) as [(E & Hx)|[(E & Hx & Hp)|(E & Hx & Hp)]]; rewrite E in *.
      * destruct (Nat.ltb_spec k0 (length q)) as [Hk|Hk]; cbn [fst snd at_ disk] in *.
        -- split; [|intros i []]. intros i k. cbn [fst at_ disk] in *. destruct (Nat.eq_dec i j) as [->|N]; [|intros X; apply (K i k); [now rewrite put_other by exact N|exact X]]. rewrite put_same. intros [= -> <-]. right. replace (S k0 - 1) with k0 by lia. destruct (Hc _ (firstn_below k0 l)) as [X|X]; [congruence|exact X].
        -- split; [|intros i [X|[]]; discriminate]. intros i k. cbn [fst at_ disk] in *. destruct (Nat.eq_dec i j) as [->|N]; [rewrite put_same; discriminate|]. intros X. apply (K i k); [now rewrite put_other by exact N|exact X].
      * assert (Q : q <> l).
        { intros ->. destruct (H j k0 Ej) as [->|X]; [cbn [firstn] in Hx; congruence|]. destruct k0 as [|k0]; [cbn [firstn] in Hx; congruence|]. replace (S k0 - 1) with k0 in X by lia. rewrite (parent_firstn (disk s) k0 l Hj X) in Hp. discriminate. }
        destruct (Nat.ltb_spec k0 (length q)) as [Hk|Hk]; cbn [fst snd at_ disk] in *; (split; [|intros i [X|[]]; congruence]); intros i k; cbn [at_ disk]; (destruct (Nat.eq_dec i j) as [->|N]; [rewrite put_same; discriminate|]); intros X; apply (K i k); [now rewrite put_other by exact N|exact X|now rewrite put_other by exact N|exact X].
      * destruct (Nat.ltb_spec k0 (length q)) as [Hk|Hk]; cbn [fst snd at_ disk] in *.
        -- split; [|intros i []]. intros i k. cbn [fst at_ disk] in *. destruct (Nat.eq_dec i j) as [->|N]; [|intros X; apply (K i k); [now rewrite put_other by exact N|exact X]]. rewrite put_same. intros [= -> <-]. right. replace (S k0 - 1) with k0 by lia. apply dget_dset_eq.
        -- split; [|intros i [X|[]]; discriminate]. intros i k. cbn [fst at_ disk] in *. destruct (Nat.eq_dec i j) as [->|N]; [rewrite put_same; discriminate|]. intros X. apply (K i k); [now rewrite put_other by exact N|exact X].
    + assert (Q : q <> l) by (intros ->; exact (HO j Ej)). destruct (sys_mkdir (disk s) q) as [f r] eqn:E. cbn [fst snd at_ disk] in *. split; [|intros i [X|[]]; congruence]. intros i k. cbn [fst at_ disk] in *. destruct (Nat.eq_dec i j) as [->|N]; [rewrite put_same; discriminate|]. intros X. apply (K i k); [now rewrite put_other by exact N|exact X].
  - destruct (at_ s j) as [|q k0|q k0|q] eqn:Ej; [split; [exact H|intros i []]|..]; cbn [snd]; (split; [|intros i X; cbn in X; repeat (contradiction || destruct X as [X|X] || injection X as <- _); try reflexivity]); intros i k; cbn [fst at_ disk] in *; (destruct (Nat.eq_dec i j) as [->|N]; [|rewrite put_other by exact N; apply H]); rewrite put_same; try discriminate. destruct k0; [intros [= <- <-]; now left|discriminate].
  - split; [|intros i []]. intros i k. cbn [fst at_ disk] in *. destruct (Nat.eq_dec i j) as [->|N]; [rewrite put_same; discriminate|]. rewrite put_other by exact N. apply H.
Qed.

Lemma step_ones s e l : (forall i, e <> CreateDirectory i l) -> (forall i, at_ s i <> One l) -> forall i, at_ (fst (step s e)) i <> One l.
Proof.
  intros He H i. destruct e as [j q|j q|j|j|j]; cbn [step].
  - destruct (at_ s j) eqn:Ej; auto. cbn [fst at_]. destruct (Nat.eq_dec i j) as [->|N]; [|rewrite put_other by exact N; auto]. rewrite put_same. destruct (length q); discriminate.
  - destruct (at_ s j) eqn:Ej; auto. cbn [fst at_]. destruct (Nat.eq_dec i j) as [->|N]; [|rewrite put_other by exact N; auto]. rewrite put_same. intros [= ->]. exact (He j eq_refl).
  - destruct (at_ s j) as [|q k|q k|q] eqn:Ej; auto.
    + cbn [fst at_]. destruct (Nat.eq_dec i j) as [->|N]; [|rewrite put_other by exact N; auto]. rewrite put_same. destruct (dget (disk s) (firstn k q)); [discriminate|]. destruct k; discriminate.
    + destruct (sys_mkdir (disk s) (firstn k q)) as [f r]. destruct (k <? length q); [destruct r|]; cbn [fst at_]; (destruct (Nat.eq_dec i j) as [->|N]; [|rewrite put_other by exact N; auto]); rewrite put_same; discriminate.
    + destruct (sys_mkdir (disk s) q) as [f r]. cbn [fst at_]. destruct (Nat.eq_dec i j) as [->|N]; [|rewrite put_other by exact N; auto]. rewrite put_same. discriminate.
  - destruct (at_ s j) as [|q k|q k|q] eqn:Ej; auto; cbn [fst at_]; (destruct (Nat.eq_dec i j) as [->|N]; [|rewrite put_other by exact N; auto]); rewrite put_same; try discriminate. destruct k; discriminate.
  - cbn [fst at_]. destruct (Nat.eq_dec i j) as [->|N]; [|rewrite put_other by exact N; auto]. rewrite put_same. discriminate.
Qed.

Theorem not_refused l es : (forall i, ~ In (CreateDirectory i l) es) -> forall s, dget (disk s) [] = Some EDir -> short s -> clear (disk s) l -> safe s l -> (forall i, at_ s i <> One l) ->
  forall i, In (i, l, Refused) (snd (run s es)) -> In (Fail i) es.
Proof.
  induction es as [|e es IH]; intros He s Hr Hs Hc H HO i; cbn [run]; [intros []|].
  pose proof (step_mono s e [] EDir Hr) as Hr1. pose proof (step_short s e Hs) as Hs1. pose proof (step_clear s e l Hc) as Hc1. destruct (step_safe s e l Hr Hs Hc H HO) as [H1 O1].
  assert (HO1 : forall i, at_ (fst (step s e)) i <> One l) by (apply step_ones; [intros x ->; apply (He x); now left|exact HO]).
  destruct (step s e) as [s1 o1]. specialize (IH (fun x X => He x (or_intror X)) s1 Hr1 Hs1 Hc1 H1 HO1 i). destruct (run s1 es) as [s2 o2]. cbn [fst snd] in *. intros Hi. apply in_app_iff in Hi as [Hi|Hi]; [left; exact (O1 i Hi)|right; exact (IH Hi)].
Qed.

(** *** every call ends *)

(** how many calls of the operating system a process still makes, at most *)
Definition left_ (p : phase) : nat := match p with Off => 0 | Down l k => k + length l + 2 | Up l k => length l - k + 1 | One _ => 1 end.

Theorem ends es : forall s i l, short s -> wants (at_ s i) = Some l -> ~ In (Kill i) es -> left_ (at_ s i) <= goes i es -> exists r, In (i, l, r) (snd (run s es)).
Proof.
  induction es as [|e es IH]; intros s i l Hs Hw Hk Hm; cbn [run].
  - cbn in Hm. destruct (at_ s i); cbn in *; [discriminate|lia|lia|lia].
  - assert (Hk' : ~ In (Kill i) es) by (intros X; apply Hk; now right).
    assert (C : (exists r, In (i, l, r) (snd (step s e))) \/ (wants (at_ (fst (step s e)) i) = Some l /\ left_ (at_ (fst (step s e)) i) <= goes i es)).
    { unfold goes in Hm |- *. cbn [filter] in Hm. destruct e as [j q|j q|j|j|j]; cbn [step].
      - destruct (at_ s j) eqn:Ej; auto. cbn [fst snd at_]. right. destruct (Nat.eq_dec i j) as [->|N]; [rewrite Ej in Hw; discriminate|]. now rewrite put_other by exact N.
      - destruct (at_ s j) eqn:Ej; auto. cbn [fst snd at_]. right. destruct (Nat.eq_dec i j) as [->|N]; [rewrite Ej in Hw; discriminate|]. now rewrite put_other by exact N.
      - destruct (Nat.eq_dec j i) as [->|N].
        + rewrite Nat.eqb_refl in Hm. cbn [length] in Hm. pose proof (Hs i) as Hi. destruct (at_ s i) as [|q k|q k|q] eqn:Ei; cbn [wants left_] in *; try discriminate; injection Hw as ->.
          * right. cbn [fst at_]. rewrite put_same. destruct (dget (disk s) (firstn k l)); [split; [reflexivity|cbn; lia]|]. destruct k; (split; [reflexivity|cbn; lia]).
          * destruct (sys_mkdir (disk s) (firstn k l)) as [f r]. destruct (Nat.ltb_spec k (length l)) as [Hl|Hl]; [|left; exists r; now left]. destruct r; [right|right|left; eexists; now left]; cbn [fst at_]; rewrite put_same; (split; [reflexivity|cbn; lia]).
          * destruct (sys_mkdir (disk s) l) as [f r]. left. exists r. now left.
        + right. apply Nat.eqb_neq in N as N'. rewrite N' in Hm. assert (E : at_ (fst (step s (Go j))) i = at_ s i).
          { cbn [step]. destruct (at_ s j) as [|q k|q k|q]; [reflexivity| | |].
            - cbn [fst at_]. rewrite put_other by congruence. reflexivity.
            - destruct (sys_mkdir (disk s) (firstn k q)) as [f r]. destruct (k <? length q); [destruct r|]; cbn [fst at_]; rewrite put_other by congruence; reflexivity.
            - destruct (sys_mkdir (disk s) q) as [f r]. cbn [fst at_]. rewrite put_other by congruence. reflexivity. }
          cbn [step] in E. rewrite E. auto.
      - destruct (Nat.eq_dec i j) as [->|N].
        + destruct (at_ s j) as [|q k|q k|q] eqn:Ei; cbn [wants left_] in *; try discriminate; injection Hw as ->; [|left; eexists; now left..].
          right. cbn [fst at_]. rewrite put_same. destruct k; (split; [reflexivity|cbn; lia]).
        + right. destruct (at_ s j); cbn [fst at_]; rewrite ?put_other by exact N; auto.
      - assert (N : i <> j) by (intros ->; apply Hk; now left). right. cbn [fst at_]. rewrite put_other by exact N. auto. }
    pose proof (step_short s e Hs) as Hs1. destruct (step s e) as [s1 o1]. cbn [fst snd] in *. specialize (IH s1 i l Hs1). destruct (run s1 es) as [s2 o2]. cbn [fst snd] in *.
    destruct C as [(r & C)|[C1 C2]]; [exists r; apply in_app_iff; now left|]. destruct (IH C1 Hk' C2) as (r & X). exists r. apply in_app_iff. now right.
Qed.

(** *** who made it *)

Lemma step_maker s e l : short s -> (forall i q, wants (at_ s i) = Some q -> q = l) -> dget (disk s) l = None -> dget (disk (fst (step s e))) l <> None -> exists i, In (i, l, Made) (snd (step s e)).
Proof.
  intros Hs Hw H0 H1. destruct (step_disk s e) as [E|(i & q & -> & Ha & Hq & Hp & E)]; [rewrite E in H1; congruence|]. rewrite E, dget_dset in H1. destruct (eqb_spec l q) as [Elq|_]; [|congruence]. subst q.
  exists i. cbn [step]. pose proof (Hs i) as Hi. pose proof (Hw i) as Hwi. destruct (at_ s i) as [|x k|x k|x]; cbn [aim wants] in *; try discriminate; injection Ha as Ha; specialize (Hwi x eq_refl); subst x.
  - assert (Hk : k = length l) by (apply (f_equal (@length _)) in Ha; rewrite firstn_length in Ha; lia). subst k. rewrite firstn_all. unfold sys_mkdir. rewrite Hq, Hp. rewrite Nat.ltb_irrefl. now left.
  - unfold sys_mkdir. rewrite Hq, Hp. now left.
Qed.

Theorem maker l es : (forall q, asked es q -> q = l) -> forall s, short s -> (forall i q, wants (at_ s i) = Some q -> q = l) -> dget (disk s) l = None -> dget (disk (fst (run s es))) l <> None -> exists i, In (i, l, Made) (snd (run s es)).
Proof.
  induction es as [|e es IH]; intros HA s Hs Hw H0; cbn [run]; [intros H; now destruct (H H0)|].
  assert (HA1 : forall q, asked es q -> q = l) by (intros q (i & H); apply HA; exists i; destruct H; [left|right]; now right).
  assert (Hw1 : forall i q, wants (at_ (fst (step s e)) i) = Some q -> q = l).
  { intros i q H. apply step_wants in H as [H|[->| ->]]; [eauto|apply HA; exists i; left; now left|apply HA; exists i; right; now left]. }
  pose proof (step_short s e Hs) as Hs1. pose proof (step_maker s e l Hs Hw H0) as M. destruct (step s e) as [s1 o1]. cbn [fst snd] in *. specialize (IH HA1 s1 Hs1 Hw1). destruct (run s1 es) as [s2 o2]. cbn [fst snd] in *. intros H.
  destruct (dget (disk s1) l) eqn:E.
  - destruct M as (i & Hi); [discriminate|]. exists i. apply in_app_iff. now left.
  - destruct (IH eq_refl H) as (i & Hi). exists i. apply in_app_iff. now right.
Qed.
