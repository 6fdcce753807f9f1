(** * epsilon/hotfixes/trial_assertwarns.py: failUnlessWarns *)

From Coq Require Import NArith List Bool Arith Lia.
From Verif Require Import Py PyStr.
Import ListNotations.

(** The arguments of a call of [warnings.warn_explicit].  Messages and categories
    are compared with [==] and [is], so numbers stand for them; filenames are
    strings.  Simplification: every call has at least the four arguments which
    warn_explicit requires, and passes them by position; the line number and what
    follows it is not represented because it is not looked at. *)
Record warning := Warning { message : N; category : N; filename : str }.

(** what the global [warnings.warn_explicit] is: some other function, or the
    function warnExplicit of the k-th call of failUnlessWarns *)
Inductive hook := Other (n : nat) | Mine (k : nat).

(** The function under test is any code; what it does that matters here is to
    emit warnings, to replace the hook, to call failUnlessWarns itself (with a
    function, and going on with its outcome), and to return or raise. *)
Inductive prog :=
| Done (r : res N)
| Emit (w : warning) (k : prog)
| Install (h : hook) (k : prog)
| Check (cat msg : N) (file : str) (f : prog) (k : res N -> prog).

Record state := St {
  current : hook;                   (* warnings.warn_explicit *)
  shown : list (list warning);      (* warningsShown of each call, in order of the calls *)
  others : list (nat * warning)     (* what the other functions were called with *)
}.

Fixpoint append_at (k : nat) (w : warning) (l : list (list warning)) : list (list warning) :=
  match l, k with
  | [], _ => []
  | x :: t, 0 => (x ++ [w]) :: t
  | x :: t, S k => x :: append_at k w t
  end.

(** a call of warnings.warn_explicit; trial_assertwarns.py:25-26 *)
Definition emit (s : state) (w : warning) : state :=
  match current s with
  | Other n => St (current s) (shown s) (others s ++ [(n, w)])
  | Mine k => St (current s) (append_at k w (shown s)) (others s)
  end.

(** self.fail and the other assertions *)
Definition FAILED : exn := OtherExn 100.

(** trial_assertwarns.py:36-57, given warningsShown and the result of f *)
Definition verdict (cat msg : N) (file : str) (ws : list warning) (result : N) : res N :=
  match ws with
  | [] => Err FAILED
  | first :: rest =>
    if forallb (fun other => (message other =? message first)%N && (category other =? category first)%N) rest then
      if negb (message first =? msg)%N then Err FAILED
      else if negb (category first =? cat)%N then Err FAILED
      else if prefixb (filename first) file then Ok result else Err FAILED
    else Err FAILED
  end.

(** trial_assertwarns.py:8-57 (failUnlessWarns is [Check]); 28-33 is the try block *)
Fixpoint run (f : prog) (s : state) : state * res N :=
  match f with
  | Done r => (s, r)
  | Emit w k => run k (emit s w)
  | Install h k => run k (St h (shown s) (others s))
  | Check cat msg file g k =>
      let orig := current s in
      let me := length (shown s) in
      let (s1, r) := run g (St (Mine me) (shown s ++ [[]]) (others s)) in
      let s2 := St orig (shown s1) (others s1) in
      run (k (match r with Err e => Err e | Ok v => verdict cat msg file (nth me (shown s1) []) v end)) s2
  end.

Definition failUnlessWarns (cat msg : N) (file : str) (f : prog) : prog := Check cat msg file f Done.

(** ** Specification: without any state *)

(** f, and the functions it checks, do not touch the hook themselves *)
Inductive tame : prog -> Prop :=
| T_done r : tame (Done r)
| T_emit w k : tame k -> tame (Emit w k)
| T_check c m fn g k : tame g -> (forall r, tame (k r)) -> tame (Check c m fn g k).

(** the warnings and the outcome which f has by itself; a check inside f keeps the
    warnings of the checked function *)
Fixpoint outcome (f : prog) : list warning * res N :=
  match f with
  | Done r => ([], r)
  | Emit w k => let (ws, r) := outcome k in (w :: ws, r)
  | Install h k => outcome k
  | Check cat msg file g k =>
      let (ws, r) := outcome g in
      outcome (k (match r with Err e => Err e | Ok v => verdict cat msg file ws v end))
  end.

(** what a check accepts *)
Definition expected (cat msg : N) (file : str) (ws : list warning) : Prop :=
  (exists w, In w ws) /\ (forall w, In w ws -> message w = msg /\ category w = cat) /\
  (forall w, hd_error ws = Some w -> exists rest, file = filename w ++ rest).

(** ** Lemmas *)

Lemma run_check cat msg file g k s : run (Check cat msg file g k) s =
  run (k (match snd (run g (St (Mine (length (shown s))) (shown s ++ [[]]) (others s))) with
          | Err e => Err e
          | Ok v => verdict cat msg file (nth (length (shown s)) (shown (fst (run g (St (Mine (length (shown s))) (shown s ++ [[]]) (others s))))) []) v end))
      (St (current s) (shown (fst (run g (St (Mine (length (shown s))) (shown s ++ [[]]) (others s)))))
          (others (fst (run g (St (Mine (length (shown s))) (shown s ++ [[]]) (others s)))))).
Proof. cbn [run]. destruct (run g _) as [s1 r]. reflexivity. Qed.

Lemma restored cat msg file f s : current (fst (run (failUnlessWarns cat msg file f) s)) = current s.
Proof. unfold failUnlessWarns. now rewrite run_check. Qed.

Lemma append_at_app k w l m : k < length l -> append_at k w (l ++ m) = append_at k w l ++ m.
Proof. revert k. induction l as [|x l IH]; intros k H; cbn in *; [lia|]. destruct k; [reflexivity|]. cbn. rewrite IH by lia. reflexivity. Qed.
Lemma append_at_last w l x m : append_at (length l) w (l ++ x :: m) = l ++ (x ++ [w]) :: m.
Proof. induction l as [|y l IH]; [reflexivity|]. cbn. now rewrite IH. Qed.

(** f's own warnings go to the hook which is current at its start *)
Definition told (s : state) (ws : list warning) : state := fold_left emit ws s.

Lemma emit_current s w : current (emit s w) = current s.
Proof. unfold emit. destruct (current s) eqn:E; cbn; now rewrite ?E. Qed.

Lemma told_current ws : forall s, current (told s ws) = current s.
Proof. induction ws as [|w ws IH]; intros s; [reflexivity|]. change (told s (w :: ws)) with (told (emit s w) ws). rewrite IH. apply emit_current. Qed.

Definition known (s : state) : Prop := match current s with Mine k => k < length (shown s) | Other _ => True end.

Lemma append_len k w l : length (append_at k w l) = length l.
Proof. revert k. induction l as [|x l IH]; intros k; destruct k; cbn; auto. Qed.

Lemma emit_len s w : length (shown (emit s w)) = length (shown s).
Proof. unfold emit. destruct (current s); cbn; [reflexivity|apply append_len]. Qed.

Lemma emit_known s w : known s -> known (emit s w).
Proof. unfold known. rewrite emit_current. destruct (current s) eqn:E; [auto|]. intros H. now rewrite emit_len. Qed.

Lemma told_known ws : forall s, known s -> known (told s ws).
Proof. induction ws as [|w ws IH]; intros s H; [exact H|]. change (told s (w :: ws)) with (told (emit s w) ws). apply IH. now apply emit_known. Qed.

(** more lists of later calls change nothing *)
Definition more (s : state) (m : list (list warning)) : state := St (current s) (shown s ++ m) (others s).

Lemma emit_more s w m : known s -> emit (more s m) w = more (emit s w) m.
Proof. unfold emit, more, known. cbn. destruct (current s) eqn:E; cbn; rewrite ?E; [reflexivity|]. intros H. now rewrite append_at_app. Qed.

Lemma told_more ws : forall s m, known s -> told (more s m) ws = more (told s ws) m.
Proof. induction ws as [|w ws IH]; intros s m H; [reflexivity|]. change (told (more s m) (w :: ws)) with (told (emit (more s m) w) ws). rewrite emit_more by exact H. apply IH. now apply emit_known. Qed.

Lemma told_mine ws : forall l x o, told (St (Mine (length l)) (l ++ [x]) o) ws = St (Mine (length l)) (l ++ [x ++ ws]) o.
Proof.
  induction ws as [|w ws IH]; intros l x o; [cbn; now rewrite app_nil_r|]. match goal with |- told ?s (w :: ws) = _ => change (told s (w :: ws)) with (told (emit s w) ws) end. unfold emit. cbn [current shown others]. rewrite append_at_last. rewrite IH. now rewrite <- app_assoc.
Qed.

Lemma run_tame f : tame f -> forall s, known s ->
  exists m, fst (run f s) = more (told s (fst (outcome f))) m /\ snd (run f s) = snd (outcome f).
Proof.
  intros T. induction T as [r|w k T IH|c m fn g k Tg IHg Tk IHk]; intros s Hk.
  - exists []. cbn. unfold more. rewrite app_nil_r. destruct s; auto.
  - cbn [run outcome]. destruct (IH (emit s w) (emit_known s w Hk)) as (m & E1 & E2). exists m. destruct (outcome k) as [ws r]. cbn in *. auto.
  - rewrite run_check. set (s0 := St (Mine (length (shown s))) (shown s ++ [[]]) (others s)).
    destruct (IHg s0) as (mg & E1 & E2). { unfold known, s0. cbn. rewrite app_length. cbn. lia. }
    cbn [outcome]. destruct (outcome g) as [ws r] eqn:Eg. cbn [fst snd] in E1, E2. rewrite E2.
    assert (E3 : fst (run g s0) = St (Mine (length (shown s))) (shown s ++ ws :: mg) (others s)).
    { rewrite E1. unfold s0. rewrite told_mine. unfold more. cbn. now rewrite <- app_assoc. }
    rewrite E3. cbn [shown others].
    assert (E4 : nth (length (shown s)) (shown s ++ ws :: mg) [] = ws) by (rewrite app_nth2, Nat.sub_diag by lia; reflexivity). rewrite E4.
    set (v := match r with Ok v => verdict c m fn ws v | Err e => Err e end).
    destruct (IHk v (more s (ws :: mg))) as (m2 & F1 & F2). { unfold known, more. cbn. unfold known in Hk. destruct (current s); [exact I|]. rewrite app_length. lia. }
    exists ((ws :: mg) ++ m2). change (St (current s) (shown s ++ ws :: mg) (others s)) with (more s (ws :: mg)). split; [|exact F2].
    rewrite F1, told_more by exact Hk. unfold more. cbn [current shown others]. now rewrite <- app_assoc.
Qed.

Lemma check_tame cat msg file f s : tame f -> known s ->
  snd (run (failUnlessWarns cat msg file f) s) = match snd (outcome f) with Err e => Err e | Ok v => verdict cat msg file (fst (outcome f)) v end.
Proof.
  intros T K. destruct (run_tame (failUnlessWarns cat msg file f)) with (s := s) as (m & _ & E); [constructor; [exact T|intros r; constructor]|exact K|]. rewrite E. cbn.
  destruct (outcome f) as [ws [v|e]]; cbn; [now destruct (verdict cat msg file ws v)|reflexivity].
Qed.

Lemma verdict_ok cat msg file ws v r : verdict cat msg file ws v = Ok r <-> expected cat msg file ws /\ r = v.
Proof.
  unfold verdict, expected. destruct ws as [|w ws].
  { split; [discriminate|]. intros (((w & []) & _) & _). }
  destruct (forallb _ ws) eqn:Ef.
  - rewrite forallb_forall in Ef. destruct (N.eqb_spec (message w) msg) as [Em|Em]; cbn [negb].
    2:{ split; [discriminate|]. intros ((_ & H & _) & _). destruct Em. now apply H; left. }
    destruct (N.eqb_spec (category w) cat) as [Ec|Ec]; cbn [negb].
    2:{ split; [discriminate|]. intros ((_ & H & _) & _). destruct Ec. now apply H; left. }
    destruct (prefixb (filename w) file) eqn:Ep.
    + apply prefixb_spec in Ep. split; [|intros (_ & ->); reflexivity]. intros [= <-]. split; [|reflexivity]. split; [exists w; now left|]. split; [|intros w' [= <-]; exact Ep].
      intros w' [<-|Hi]; [auto|]. specialize (Ef w' Hi). apply andb_true_iff in Ef as (E1 & E2). apply N.eqb_eq in E1, E2. split; congruence.
    + split; [discriminate|]. intros ((_ & _ & H) & _). specialize (H w eq_refl). apply prefixb_spec in H. congruence.
  - split; [discriminate|]. intros ((_ & H & _) & _). assert (X : forallb (fun o => (message o =? message w)%N && (category o =? category w)%N) ws = true); [|congruence].
    apply forallb_forall. intros o Ho. destruct (H w (or_introl eq_refl)) as (E1 & E2). destruct (H o (or_intror Ho)) as (E3 & E4). rewrite E1, E2, E3, E4, !N.eqb_refl. reflexivity.
Qed.

Lemma verdict_err cat msg file ws v e : verdict cat msg file ws v = Err e -> e = FAILED.
Proof. unfold verdict. destruct ws; [now intros [= <-]|]. repeat match goal with |- context [if ?b then _ else _] => destruct b end; congruence. Qed.
