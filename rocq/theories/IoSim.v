(** * epsilon/test/iosim.py and the transports of epsilon/test/utils.py

    Two protocols joined by in-memory files, and the pump that moves what they
    write.  The protocols, and the code that uses them between two pumps, are
    arbitrary programs that use their transport.  Not modelled: the text printed
    in debug mode, [connectedServerAndClient] as a context manager, protocols
    that use the transport of the other end, pumping from within a protocol. *)

From Coq Require Import NArith String List Bool Arith Lia.
From Verif Require Import Py.
Import ListNotations.
Open Scope nat_scope.

Definition data := list N.
Inductive side := Cli | Srv.
Definition peer (x : side) : side := match x with Cli => Srv | Srv => Cli end.

(** what code does with its transport: [write] of bytes or of text,
    [writeSequence], [loseConnection] (also [stopConsuming] and
    [stopProducing], which call it) *)
Inductive action := Write (b : data) | WriteText | WriteSeq (l : list data) | Lose.

(** code run on behalf of one endpoint, whose state is in [P]: it ends, raises,
    or does something with its transport and looks at what comes of it *)
Inductive prog (P : Type) :=
| Ret (p : P)
| Raise (p : P) (e : exn)
| Do (a : action) (k : res unit -> prog P).
Arguments Ret {P}. Arguments Raise {P}. Arguments Do {P}.

(** what happens, for the specification *)
Inductive ev := EWrote (x : side) (b : data) | EGot (x : side) (b : data) | ELost (x : side).

(** utils.py:6-22, a [FileWrapper]: the contents of its file and the flags *)
Record wire := Wire { out : data; ing : bool; ed : bool }.

Record world (P : Type) := World { st : side -> P; tr : side -> wire; log : list ev }.
Arguments World {P}. Arguments st {P}. Arguments tr {P}. Arguments log {P}.

Definition upd {A} (f : side -> A) (x : side) (a : A) : side -> A :=
  fun y => match x, y with Cli, Cli | Srv, Srv => a | _, _ => f y end.

(** what the classes of the two protocols do: [dataReceived], [connectionLost],
    and [resumeProducing] of the producer that is registered ([Ret] if none) *)
Record protos (P : Type) := Protos {
  on_data : side -> P -> data -> prog P;
  on_lost : side -> P -> prog P;
  on_idle : side -> P -> prog P }.
Arguments Protos {P}. Arguments on_data {P}. Arguments on_lost {P}. Arguments on_idle {P}.

Section Sim.
Context {P : Type}.
Implicit Types (w : world P) (ps : protos P).

Definition set_tr w x t : world P := World (st w) (upd (tr w) x t) (log w).
Definition add_ev w e : world P := World (st w) (tr w) (log w ++ [e]).

(** utils.py:24-29, 52-56 [write], [writeSequence], [loseConnection], under
    Python 3.  The file is a BytesIO, to which text cannot be written; [write]
    ignores the exception.  [writeSequence] joins with a text. *)
Definition act (x : side) (a : action) w : world P * res unit :=
  let t := tr w x in
  match a with
  | Write b => (add_ev (set_tr w x (Wire (out t ++ b) (ing t) (ed t))) (EWrote x b), Ok tt)
  | WriteText => (w, Ok tt)
  | WriteSeq l => (w, match l with [] => Ok tt | _ => Err TypeError end)
  | Lose => (set_tr w x (Wire (out t) true (ed t)), Ok tt)
  end.

Fixpoint run (x : side) (p : prog P) w : world P * option exn :=
  match p with
  | Ret s => (World (upd (st w) x s) (tr w) (log w), None)
  | Raise s e => (World (upd (st w) x s) (tr w) (log w), Some e)
  | Do a k => let '(w', r) := act x a w in run x (k r) w'
  end.

(** iosim.py:13-22 [readAndDestroy]: the file is empty afterwards *)
Definition drained w x : world P := set_tr w x (Wire [] (ing (tr w x)) (ed (tr w x))).

Definition isnil (b : data) : bool := match b with [] => true | _ => false end.

Definition then_ (r : world P * option exn) (k : world P -> world P * res bool) : world P * res bool :=
  match r with (w, None) => k w | (w, Some e) => (w, Err e) end.

(** [x.dataReceived(b)], if there is something *)
Definition deliver ps x (b : data) w : world P * option exn :=
  if isnil b then (w, None) else run x (on_data ps x (st w x) b) (add_ev w (EGot x b)).

(** iosim.py:80-93: [x] has called loseConnection and its end was not closed
    yet: the peer is told *)
Definition close ps x w : world P * res bool :=
  let w1 := set_tr w x (Wire (out (tr w x)) (ing (tr w x)) true) in
  let w2 := set_tr w1 (peer x) (Wire (out (tr w1 (peer x))) true (ed (tr w1 (peer x)))) in
  then_ (run (peer x) (on_lost ps (peer x) (st w2 (peer x))) (add_ev w2 (ELost (peer x)))) (fun w3 => (w3, Ok true)).

(** iosim.py:53-94 [pump], under Python 3: with [debug], ['C: ' + line] raises
    TypeError if there is a line *)
Definition pump ps (debug : bool) w : world P * res bool :=
  let sData := out (tr w Srv) in
  let cData := out (tr w Cli) in
  let w1 := drained (drained w Srv) Cli in
  then_ (run Cli (on_idle ps Cli (st w1 Cli)) w1) (fun w2 =>
  then_ (run Srv (on_idle ps Srv (st w2 Srv)) w2) (fun w3 =>
  if debug && negb (isnil cData && isnil sData) then (w3, Err TypeError) else
  then_ (deliver ps Srv cData w3) (fun w4 =>
  then_ (deliver ps Cli sData w4) (fun w5 =>
  if negb (isnil cData && isnil sData) then (w5, Ok true) else
  if ing (tr w5 Srv) && negb (ed (tr w5 Srv)) then close ps Srv w5 else
  if ing (tr w5 Cli) && negb (ed (tr w5 Cli)) then close ps Cli w5 else
  (w5, Ok false))))).

(** iosim.py:37-51 [flush]: at most 1000 rounds; AssertionError if the last one
    moved something, too *)
Fixpoint rounds ps (debug : bool) (n : nat) (result : bool) w : world P * res bool :=
  match n with
  | O => (w, Err AssertionError)
  | S n => match pump ps debug w with
           | (w', Ok true) => rounds ps debug n true w'
           | (w', Ok false) => (w', Ok result)
           | (w', Err e) => (w', Err e)
           end
  end.
Definition LIMIT : nat := N.to_nat 1000.
Definition flush ps (debug : bool) w : world P * res bool := rounds ps debug LIMIT false w.

(** iosim.py:97-113: the two ends before [makeConnection] *)
Definition start (s0 : side -> P) : world P := World s0 (fun _ => Wire [] false false) [].

(** Any use: code of an endpoint is run (first of all [makeConnection]), the
    pump is worked.  [clean]: no pump raised. *)
Inductive Reach ps (s0 : side -> P) : bool -> world P -> Prop :=
| R_start : Reach ps s0 true (start s0)
| R_code clean w x (f : P -> prog P) : Reach ps s0 clean w -> Reach ps s0 clean (fst (run x (f (st w x)) w))
| R_pump clean w debug w' r : Reach ps s0 clean w -> pump ps debug w = (w', r) ->
    Reach ps s0 (clean && match r with Ok _ => true | Err _ => false end) w'.

End Sim.

(** ** Specification *)

Definition wrote (x : side) (l : list ev) : data :=
  flat_map (fun e => match x, e with Cli, EWrote Cli b | Srv, EWrote Srv b => b | _, _ => [] end) l.
Definition got (x : side) (l : list ev) : data :=
  flat_map (fun e => match x, e with Cli, EGot Cli b | Srv, EGot Srv b => b | _, _ => [] end) l.
Definition told (x : side) (l : list ev) : nat :=
  length (filter (fun e => match x, e with Cli, ELost Cli | Srv, ELost Srv => true | _, _ => false end) l).

(** [a] is [b] with some parts left out *)
Inductive sub : data -> data -> Prop :=
| S_nil : sub [] []
| S_keep c a b : sub a b -> sub (c :: a) (c :: b)
| S_skip c a b : sub a b -> sub a (c :: b).

(** something moved *)
Definition moved (e : ev) : bool := match e with EWrote _ _ => false | _ => true end.

(** [n] rounds, each of which moved something *)
Inductive moves {P} (ps : protos P) (debug : bool) : nat -> world P -> world P -> Prop :=
| M_none w : moves ps debug 0 w w
| M_more n w w1 w2 : pump ps debug w = (w1, Ok true) -> moves ps debug n w1 w2 -> moves ps debug (S n) w w2.

(** no producers *)
Definition no_producers {P} (ps : protos P) : Prop := forall x p, on_idle ps x p = Ret p.

(** ** Proofs *)

Lemma wrote_app x a b : wrote x (a ++ b) = wrote x a ++ wrote x b.
Proof. apply flat_map_app. Qed.
Lemma got_app x a b : got x (a ++ b) = got x a ++ got x b.
Proof. apply flat_map_app. Qed.
Lemma told_app x a b : told x (a ++ b) = told x a + told x b.
Proof. unfold told. now rewrite filter_app, app_length. Qed.

Lemma sub_refl a : sub a a.
Proof. induction a; constructor; auto. Qed.
Lemma sub_nil a : sub [] a.
Proof. induction a; constructor; auto. Qed.
Lemma sub_app a b c d : sub a b -> sub c d -> sub (a ++ c) (b ++ d).
Proof. induction 1; intros; cbn [app]; auto; constructor; auto. Qed.
Lemma sub_trans a b c : sub a b -> sub b c -> sub a c.
Proof.
  intros H1 H2. revert a H1. induction H2; intros a' H1; [exact H1| |constructor; auto].
  inversion H1; subst; constructor; auto.
Qed.

Section Proofs.
Context {P : Type}.
Implicit Types (w : world P) (ps : protos P).

Lemma upd_eq {A} (f : side -> A) x a : upd f x a x = a.
Proof. destruct x; reflexivity. Qed.
Lemma upd_peer {A} (f : side -> A) x a : upd f x a (peer x) = f (peer x).
Proof. destruct x; reflexivity. Qed.
Lemma upd_peer' {A} (f : side -> A) x a : upd f (peer x) a x = f x.
Proof. destruct x; reflexivity. Qed.

(** what running code of [x] does: it only adds to what [x] wrote *)
Record ran (x : side) w w' : Prop := {
  ran_log : exists l, log w' = log w ++ l /\ out (tr w' x) = out (tr w x) ++ wrote x l /\
                      (forall y, got y l = [] /\ told y l = 0) /\ wrote (peer x) l = [] /\
                      Forall (fun e => match e with EWrote y _ => y = x | _ => False end) l;
  ran_peer : tr w' (peer x) = tr w (peer x);
  ran_ing : ing (tr w x) = true -> ing (tr w' x) = true;
  ran_ed : ed (tr w' x) = ed (tr w x);
  ran_st : st w' (peer x) = st w (peer x) }.

Lemma ran_refl x w : ran x w w.
Proof. constructor; auto. exists []. rewrite !app_nil_r. repeat split; auto. Qed.

Lemma ran_trans x a b c : ran x a b -> ran x b c -> ran x a c.
Proof.
  intros [(l1 & A1 & A2 & A3 & A4 & A8) A5 A6 A7 A9] [(l2 & B1 & B2 & B3 & B4 & B8) B5 B6 B7 B9]. constructor.
  - exists (l1 ++ l2). rewrite B1, A1, B2, A2, !wrote_app, A4, B4. repeat rewrite app_assoc. repeat split; auto; try apply Forall_app; auto.
    + rewrite got_app. rewrite (proj1 (A3 y)), (proj1 (B3 y)). reflexivity.
    + rewrite told_app. rewrite (proj2 (A3 y)), (proj2 (B3 y)). reflexivity.
  - congruence.
  - auto.
  - congruence.
  - congruence.
Qed.

Lemma act_ran x a w w' r : act x a w = (w', r) -> ran x w w'.
Proof.
  unfold act. destruct a; intros E; injection E as <- <-; try apply ran_refl.
  - constructor; cbn [set_tr add_ev tr log st]; rewrite ?upd_eq, ?upd_peer; auto.
    exists [EWrote x b]. destruct x; cbn; rewrite ?app_nil_r; repeat split; auto; destruct y; auto.
  - constructor; cbn [set_tr add_ev tr log st]; rewrite ?upd_eq, ?upd_peer; auto.
    exists []. cbn. rewrite !app_nil_r. repeat split; auto.
Qed.

Lemma run_ran x p : forall w w' r, run x p w = (w', r) -> ran x w w'.
Proof.
  induction p as [s|s e|a k IH]; intros w w' r; cbn [run].
  - intros E. injection E as <- <-. constructor; cbn [tr log st]; rewrite ?upd_peer; auto. exists []. cbn. rewrite !app_nil_r. repeat split; auto.
  - intros E. injection E as <- <-. constructor; cbn [tr log st]; rewrite ?upd_peer; auto. exists []. cbn. rewrite !app_nil_r. repeat split; auto.
  - destruct (act x a w) as [w1 r1] eqn:Ea. intros E. eapply ran_trans; [eapply act_ran; eassumption|eapply IH; eassumption].
Qed.


(** *** Nothing is invented, repeated or reordered *)

Definition rel (b : bool) : data -> data -> Prop := if b then eq else sub.
Lemma rel_app b u v d : rel b u v -> rel b (u ++ d) (v ++ d).
Proof. destruct b; cbn [rel]; [intros ->; reflexivity|]. intros H. apply sub_app; [exact H|apply sub_refl]. Qed.
Lemma rel_weak b u v : rel b u v -> sub u v.
Proof. destruct b; cbn [rel]; [intros ->; apply sub_refl|auto]. Qed.

(** [f x]: what [x] wrote and the pump holds *)
Definition carried (b : bool) (f : side -> data) w : Prop :=
  forall x, rel b (got (peer x) (log w) ++ f x ++ out (tr w x)) (wrote x (log w)).

Lemma carried_ran b f x w w' : ran x w w' -> carried b f w -> carried b f w'.
Proof.
  intros [(l & L1 & L2 & L3 & L4 & _) T _ _ _] H y.
  assert (Hy : y = x \/ y = peer x) by (destruct x, y; auto). specialize (H y). destruct Hy as [->| ->].
  - rewrite L1, L2, got_app, wrote_app, (proj1 (L3 (peer x))), app_nil_r, !app_assoc. apply rel_app. now rewrite <- app_assoc.
  - rewrite L1, T, got_app, wrote_app, (proj1 (L3 _)), L4, !app_nil_r. exact H.
Qed.

Lemma carried_drop b f w : carried b f w -> carried false (fun _ => []) w.
Proof.
  intros H x. specialize (H x). apply rel_weak in H. cbn [rel app]. eapply sub_trans; [|exact H].
  apply sub_app; [apply sub_refl|]. exact (sub_app [] (f x) _ _ (sub_nil _) (sub_refl _)).
Qed.

Lemma carried_deliver b f ps x d w w' r : f (peer x) = d -> deliver ps x d w = (w', r) -> carried b f w -> carried b (upd f (peer x) []) w'.
Proof.
  intros Hf E H. unfold deliver in E. destruct (isnil d) eqn:Ed.
  - injection E as <- <-. destruct d; [|discriminate]. intros y. specialize (H y). destruct x, y; cbn [upd peer] in *; try exact H; rewrite Hf in H; exact H.
  - apply run_ran in E. eapply carried_ran; [exact E|]. intros y. specialize (H y). cbn [add_ev log tr]. rewrite got_app, wrote_app.
    assert (Hy : y = x \/ y = peer x) by (destruct x, y; auto). destruct Hy as [->| ->].
    + replace (got (peer x) [EGot x d]) with (@nil N) by (destruct x; reflexivity). replace (wrote x [EGot x d]) with (@nil N) by (destruct x; reflexivity).
      rewrite upd_peer', !app_nil_r. exact H.
    + replace (got (peer (peer x)) [EGot x d]) with d by (destruct x; cbn; now rewrite app_nil_r). replace (wrote (peer x) [EGot x d]) with (@nil N) by (destruct x; reflexivity).
      rewrite upd_eq, !app_nil_r. rewrite Hf in H. cbn [app]. rewrite <- app_assoc. exact H.
Qed.

Lemma carried_close b f ps x w w' r : close ps x w = (w', r) -> carried b f w -> carried b f w'.
Proof.
  unfold close. set (w2 := set_tr _ _ _). destruct (run _ _ _) as [w3 [e|]] eqn:E; cbn [then_]; intros X; injection X as <- <-; intros H;
    (eapply carried_ran; [eapply run_ran; exact E|]); intros y; specialize (H y); cbn [add_ev log tr]; rewrite got_app, wrote_app;
    replace (got (peer y) [ELost (peer x)]) with (@nil N) by (destruct x, y; reflexivity);
    replace (wrote y [ELost (peer x)]) with (@nil N) by (destruct x, y; reflexivity); rewrite !app_nil_r;
    replace (out (tr w2 y)) with (out (tr w y)) by (destruct x, y; reflexivity); exact H.
Qed.

Lemma carried_drain b w : carried b (fun _ => []) w -> carried b (fun x => out (tr w x)) (drained (drained w Srv) Cli).
Proof. intros H x. specialize (H x). destruct x; cbn in *; rewrite app_nil_r; exact H. Qed.

Lemma carried_pump b ps debug w w' r : pump ps debug w = (w', r) -> carried b (fun _ => []) w ->
  carried (b && match r with Ok _ => true | Err _ => false end) (fun _ => []) w'.
Proof.
  intros E H. apply carried_drain in H. unfold pump in E. set (w1 := drained _ _) in *.
  destruct (run Cli _ _) as [w2 [e|]] eqn:E2; cbn [then_] in E; apply run_ran in E2; pose proof (carried_ran _ _ _ _ _ E2 H) as H2.
  { injection E as <- <-. rewrite andb_false_r. exact (carried_drop _ _ _ H2). }
  destruct (run Srv _ _) as [w3 [e|]] eqn:E3; cbn [then_] in E; apply run_ran in E3; pose proof (carried_ran _ _ _ _ _ E3 H2) as H3.
  { injection E as <- <-. rewrite andb_false_r. exact (carried_drop _ _ _ H3). }
  destruct (debug && _). { injection E as <- <-. rewrite andb_false_r. exact (carried_drop _ _ _ H3). }
  destruct (deliver ps Srv _ _) as [w4 e4] eqn:E4. pose proof (carried_deliver _ _ _ Srv _ _ _ _ eq_refl E4 H3) as H4.
  destruct e4 as [e|]; cbn [then_] in E. { injection E as <- <-. rewrite andb_false_r. exact (carried_drop _ _ _ H4). }
  destruct (deliver ps Cli _ _) as [w5 e5] eqn:E5. pose proof (carried_deliver _ _ _ Cli _ _ _ _ eq_refl E5 H4) as H5.
  destruct e5 as [e|]; cbn [then_] in E. { injection E as <- <-. rewrite andb_false_r. exact (carried_drop _ _ _ H5). }
  assert (H6 : carried b (fun _ => []) w5) by (intros x; specialize (H5 x); destruct x; exact H5).
  assert (G : forall r', carried b (fun _ => []) w' -> carried (b && r') (fun _ => []) w').
  { intros [|] X; [now rewrite andb_true_r|]. rewrite andb_false_r. exact (carried_drop _ _ _ X). }
  apply G. destruct (negb _); [now injection E as <- <-|]. destruct (_ && _); [exact (carried_close _ _ _ _ _ _ _ E H6)|].
  destruct (_ && _); [exact (carried_close _ _ _ _ _ _ _ E H6)|now injection E as <- <-].
Qed.

Theorem reach_carried ps s0 clean w : Reach ps s0 clean w -> carried clean (fun _ => []) w.
Proof.
  induction 1 as [|clean w x f _ IH|clean w debug w' r _ IH E].
  - intros x. destruct x; reflexivity.
  - destruct (run x (f (st w x)) w) as [w' r] eqn:E. cbn [fst]. exact (carried_ran _ _ _ _ _ (run_ran _ _ _ _ _ E) IH).
  - exact (carried_pump _ _ _ _ _ _ E IH).
Qed.

(** *** The end of the connection *)

Definition ends w : Prop := forall x, told x (log w) = (if ed (tr w (peer x)) then 1 else 0) /\
  (ed (tr w x) = true -> ing (tr w x) = true /\ ing (tr w (peer x)) = true).

Lemma ends_ran x w w' : ran x w w' -> ends w -> ends w'.
Proof.
  intros [(l & L1 & L2 & L3 & L4 & _) T I D _] H y. destruct (H y) as [H1 H2]. rewrite L1, told_app, (proj2 (L3 y)), Nat.add_0_r.
  assert (Hy : y = x \/ y = peer x) by (destruct x, y; auto). destruct Hy as [->| ->].
  - rewrite T, D. split; [exact H1|]. intros X. destruct (H2 X). auto.
  - replace (peer (peer x)) with x in * by (destruct x; reflexivity). rewrite T, D. split; [exact H1|]. intros X. destruct (H2 X). auto.
Qed.

Lemma ends_same w w' : (forall x, ing (tr w' x) = ing (tr w x)) -> (forall x, ed (tr w' x) = ed (tr w x)) ->
  (forall x, told x (log w') = told x (log w)) -> ends w -> ends w'.
Proof. intros A B C H x. rewrite A, A, !B, C. exact (H x). Qed.

Lemma ends_deliver ps x d w w' r : deliver ps x d w = (w', r) -> ends w -> ends w'.
Proof.
  unfold deliver. destruct (isnil d); intros E H; [now injection E as <- <-|]. eapply ends_ran; [eapply run_ran; exact E|].
  apply (ends_same w); [reflexivity|reflexivity| |exact H]. intros y. cbn [add_ev log]. rewrite told_app. destruct x, y; cbn; lia.
Qed.

Lemma ends_close ps x w w' r : ing (tr w x) = true -> ed (tr w x) = false -> close ps x w = (w', r) -> ends w -> ends w'.
Proof.
  intros Hi He. unfold close. set (w1 := set_tr w x _). set (w2 := set_tr w1 _ _). destruct (run _ _ _) as [w3 o] eqn:E. intros X H.
  assert (Hw : w' = w3) by (destruct o; injection X as <- <-; reflexivity). subst w'.
  eapply ends_ran; [eapply run_ran; exact E|]. intros y. destruct (H y) as [H1 H2]. cbn [add_ev log tr]. change (log w2) with (log w). rewrite told_app, H1.
  assert (Hy : y = x \/ y = peer x) by (destruct x, y; auto). destruct Hy as [->| ->].
  - assert (T1 : tr w2 (peer x) = Wire (out (tr w (peer x))) true (ed (tr w (peer x)))) by (destruct x; reflexivity).
    assert (T2 : tr w2 x = Wire (out (tr w x)) (ing (tr w x)) true) by (destruct x; reflexivity). rewrite T1, T2. cbn [ed ing].
    replace (told x [ELost (peer x)]) with 0 by (destruct x; reflexivity). split; [lia|]. auto.
  - assert (T1 : tr w2 (peer x) = Wire (out (tr w (peer x))) true (ed (tr w (peer x)))) by (destruct x; reflexivity).
    assert (T2 : tr w2 x = Wire (out (tr w x)) (ing (tr w x)) true) by (destruct x; reflexivity). rewrite T1.
    replace (peer (peer x)) with x in * by (destruct x; reflexivity). rewrite T2. cbn [ed ing]. rewrite He.
    replace (told (peer x) [ELost (peer x)]) with 1 by (destruct x; reflexivity). split; [lia|]. intros X2. destruct (H2 X2). auto.
Qed.

Lemma ends_pump ps debug w w' r : pump ps debug w = (w', r) -> ends w -> ends w'.
Proof.
  intros E H. assert (H1 : ends (drained (drained w Srv) Cli)) by (apply (ends_same w); try (intros []; reflexivity); exact H).
  unfold pump in E. set (w1 := drained _ _) in *.
  destruct (run Cli _ _) as [w2 [e|]] eqn:E2; cbn [then_] in E; apply run_ran in E2; pose proof (ends_ran _ _ _ E2 H1) as H2; [now injection E as <- <-|].
  destruct (run Srv _ _) as [w3 [e|]] eqn:E3; cbn [then_] in E; apply run_ran in E3; pose proof (ends_ran _ _ _ E3 H2) as H3; [now injection E as <- <-|].
  destruct (debug && _); [now injection E as <- <-|].
  destruct (deliver ps Srv _ _) as [w4 [e|]] eqn:E4; cbn [then_] in E; pose proof (ends_deliver _ _ _ _ _ _ E4 H3) as H4; [now injection E as <- <-|].
  destruct (deliver ps Cli _ _) as [w5 [e|]] eqn:E5; cbn [then_] in E; pose proof (ends_deliver _ _ _ _ _ _ E5 H4) as H5; [now injection E as <- <-|].
  destruct (negb _); [now injection E as <- <-|].
  destruct (ing (tr w5 Srv) && negb (ed (tr w5 Srv))) eqn:Es.
  { apply andb_prop in Es as [A B]. apply negb_true_iff in B. exact (ends_close _ _ _ _ _ A B E H5). }
  destruct (ing (tr w5 Cli) && negb (ed (tr w5 Cli))) eqn:Ec.
  { apply andb_prop in Ec as [A B]. apply negb_true_iff in B. exact (ends_close _ _ _ _ _ A B E H5). }
  now injection E as <- <-.
Qed.

Theorem reach_ends ps s0 clean w : Reach ps s0 clean w -> ends w.
Proof.
  induction 1 as [|clean w x f _ IH|clean w debug w' r _ IH E].
  - intros []; split; [reflexivity|discriminate|reflexivity|discriminate].
  - destruct (run x (f (st w x)) w) as [w' r] eqn:E. cbn [fst]. exact (ends_ran _ _ _ (run_ran _ _ _ _ _ E) IH).
  - exact (ends_pump _ _ _ _ _ E IH).
Qed.


(** *** What one round does *)

Definition writes (l : list ev) : Prop := Forall (fun e => match e with EWrote _ _ => True | _ => False end) l.
Definition closing (e : ev) : bool := match e with ELost _ => true | _ => false end.

Lemma ran_writes x w w' : ran x w w' -> exists l, log w' = log w ++ l /\ writes l.
Proof.
  intros [(l & L1 & _ & _ & _ & L) _ _ _ _]. exists l. split; [exact L1|]. eapply Forall_impl; [|exact L]. intros []; auto.
Qed.

Lemma writes_moved l : writes l -> existsb moved l = false.
Proof. induction 1 as [|[] l H _ IH]; [reflexivity|exact IH|destruct H|destruct H]. Qed.
Lemma writes_closing l : writes l -> existsb closing l = false.
Proof. induction 1 as [|[] l H _ IH]; [reflexivity|exact IH|destruct H|destruct H]. Qed.

Lemma deliver_shape ps x d w w' r : deliver ps x d w = (w', r) ->
  exists l, log w' = log w ++ l /\ existsb closing l = false /\ existsb moved l = negb (isnil d).
Proof.
  unfold deliver. destruct (isnil d); intros E; [injection E as <- <-; exists []; now rewrite app_nil_r|].
  apply run_ran, ran_writes in E. destruct E as (l & E & W). exists (EGot x d :: l). cbn [add_ev log] in E. rewrite <- app_assoc in E. split; [exact E|].
  cbn [existsb closing moved orb negb]. rewrite writes_closing by exact W. now split.
Qed.

Lemma close_shape ps x w w' r : close ps x w = (w', r) -> exists l, log w' = log w ++ ELost (peer x) :: l /\ writes l /\ (r = Ok true \/ exists e, r = Err e).
Proof.
  unfold close. destruct (run _ _ _) as [w3 o] eqn:E. apply run_ran, ran_writes in E. destruct E as (l & E & W). cbn [add_ev log set_tr] in E. rewrite <- app_assoc in E.
  intros X. exists l. destruct o; injection X as <- <-; split; eauto.
Qed.

Lemma pump_shape ps debug w w' b : pump ps debug w = (w', Ok b) -> exists l1 l2, log w' = log w ++ l1 ++ l2 /\ writes l1 /\ (no_producers ps -> l1 = []) /\
  ((b = true /\ existsb closing l2 = false /\ existsb moved l2 = true) \/
   (b = true /\ (forall x, out (tr w x) = []) /\ exists y l3, l2 = ELost y :: l3 /\ writes l3) \/
   (b = false /\ l2 = [] /\ (forall x, out (tr w x) = []) /\ (forall x, ing (tr w' x) = true -> ed (tr w' x) = true) /\ (no_producers ps -> forall x, out (tr w' x) = []))).
Proof.
  unfold pump. set (w1 := drained _ _). intros E.
  destruct (run Cli _ _) as [w2 [e|]] eqn:E2; cbn [then_] in E; [discriminate|].
  destruct (run Srv _ _) as [w3 [e|]] eqn:E3; cbn [then_] in E; [discriminate|].
  assert (N1 : no_producers ps -> log w3 = log w /\ forall x, out (tr w3 x) = []).
  { intros N. unfold no_producers in N. rewrite N in E2, E3. cbn [run] in E2, E3. injection E2 as <-. injection E3 as <-. cbn [log tr]. split; [reflexivity|]. intros []; reflexivity. }
  destruct (ran_writes _ _ _ (run_ran _ _ _ _ _ E2)) as (la & La & Wa). destruct (ran_writes _ _ _ (run_ran _ _ _ _ _ E3)) as (lb & Lb & Wb).
  change (log w1) with (log w) in La. rewrite La, <- app_assoc in Lb. exists (la ++ lb).
  assert (W : writes (la ++ lb)) by now apply Forall_app.
  assert (N2 : no_producers ps -> la ++ lb = []).
  { intros N. destruct (N1 N) as [X _]. rewrite Lb in X. apply (app_inv_head (log w)). now rewrite app_nil_r. }
  destruct (debug && _); [discriminate|].
  destruct (deliver ps Srv _ _) as [w4 [e|]] eqn:E4; cbn [then_] in E; [discriminate|].
  destruct (deliver ps Cli _ _) as [w5 [e|]] eqn:E5; cbn [then_] in E; [discriminate|].
  destruct (isnil (out (tr w Cli)) && isnil (out (tr w Srv))) eqn:En; cbn [negb] in E.
  - apply andb_prop in En as [C S].
    assert (Ho : forall x, out (tr w x) = []) by (intros [|]; [destruct (out (tr w Cli))|destruct (out (tr w Srv))]; auto; discriminate).
    unfold deliver in E4, E5. rewrite C in E4. rewrite S in E5. injection E4 as <-. injection E5 as <-.
    destruct (ing (tr w3 Srv) && negb (ed (tr w3 Srv))) eqn:Es; [|destruct (ing (tr w3 Cli) && negb (ed (tr w3 Cli))) eqn:Ec].
    + destruct (close_shape _ _ _ _ _ E) as (l & L & Wl & [R|(e & R)]); [|discriminate]. exists (ELost (peer Srv) :: l). injection R as ->.
      split; [rewrite L, Lb, <- app_assoc; reflexivity|]. split; [exact W|]. split; [exact N2|]. right. left. split; [reflexivity|]. split; [exact Ho|]. do 2 eexists. split; [reflexivity|exact Wl].
    + destruct (close_shape _ _ _ _ _ E) as (l & L & Wl & [R|(e & R)]); [|discriminate]. exists (ELost (peer Cli) :: l). injection R as ->.
      split; [rewrite L, Lb, <- app_assoc; reflexivity|]. split; [exact W|]. split; [exact N2|]. right. left. split; [reflexivity|]. split; [exact Ho|]. do 2 eexists. split; [reflexivity|exact Wl].
    + injection E as <- <-. exists []. rewrite app_nil_r. split; [exact Lb|]. split; [exact W|]. split; [exact N2|]. right. right. split; [reflexivity|].
      split; [reflexivity|]. split; [exact Ho|]. split.
      * intros [] Hi; rewrite Hi in *; cbn [andb] in *; apply negb_false_iff; assumption.
      * intros N. exact (proj2 (N1 N)).
  - injection E as <- <-. destruct (deliver_shape _ _ _ _ _ _ E4) as (l4 & A1 & A2 & A3). destruct (deliver_shape _ _ _ _ _ _ E5) as (l5 & B1 & B2 & B3).
    exists (l4 ++ l5). split; [rewrite B1, A1, Lb, <- !app_assoc; reflexivity|]. split; [exact W|]. split; [exact N2|]. left. split; [reflexivity|].
    rewrite !existsb_app, A2, B2, A3, B3. split; [reflexivity|]. now rewrite <- negb_andb, En.
Qed.

(** *** Everything arrives before the end *)

Definition complete (l : list ev) : Prop := forall l1 x l2, l = l1 ++ ELost x :: l2 -> forall y, got (peer y) l1 = wrote y l1.

Lemma complete_more l l' : complete l -> existsb closing l' = false -> complete (l ++ l').
Proof.
  intros H Hc l1 x l2 E. 
  revert l H E. intros l H E. apply app_eq_app in E. destruct E as (m & [[E1 E2]|[E1 E2]]).
  - destruct m as [|e m].
    + cbn [app] in E2. subst l'. cbn [existsb closing orb] in Hc. discriminate.
    + injection E2 as <- E2. eapply H. exact E1.
  - subst l'. rewrite existsb_app in Hc. cbn [existsb closing orb] in Hc. rewrite orb_true_r in Hc. discriminate.
Qed.

Lemma complete_close l x : complete l -> (forall y, got (peer y) l = wrote y l) -> complete (l ++ [ELost x]).
Proof.
  intros H Hg l1 x' l2 E. destruct l2 as [|e l2 _] using rev_ind.
  - apply app_inj_tail in E. destruct E as [<- _]. exact Hg.
  - rewrite app_comm_cons, app_assoc in E. apply app_inj_tail in E. destruct E as [E _]. eapply H. exact E.
Qed.

Theorem reach_complete ps s0 clean w : no_producers ps -> Reach ps s0 clean w -> clean = true -> complete (log w).
Proof.
  intros N. induction 1 as [|clean w x f _ IH|clean w debug w' r HR IH E]; intros Hc.
  - intros [|] x l2 X; discriminate.
  - destruct (run x (f (st w x)) w) as [w' r] eqn:E. cbn [fst]. destruct (ran_writes _ _ _ (run_ran _ _ _ _ _ E)) as (l & -> & W).
    apply complete_more; [auto|now apply writes_closing].
  - apply andb_prop in Hc as [-> Hr]. destruct r as [b|]; [|discriminate]. specialize (IH eq_refl). pose proof (reach_carried _ _ _ _ HR) as C.
    destruct (pump_shape _ _ _ _ _ E) as (l1 & l2 & L & _ & N1 & H). rewrite (N1 N) in L. cbn [app] in L. rewrite L.
    destruct H as [(_ & H & _)|[(_ & Ho & y & l3 & -> & W)|(_ & -> & _)]].
    + now apply complete_more.
    + change (ELost y :: l3) with ([ELost y] ++ l3). rewrite app_assoc. apply complete_more; [|now apply writes_closing].
      apply complete_close; [exact IH|]. intros z. specialize (C z). cbn [rel app] in C. now rewrite Ho, app_nil_r in C.
    + now rewrite app_nil_r.
Qed.

(** *** flush *)

Lemma rounds_exact ps debug n : forall result w,
  (exists k w1 w2, k < n /\ moves ps debug k w w1 /\ pump ps debug w1 = (w2, Ok false) /\ rounds ps debug n result w = (w2, Ok (result || (0 <? k)))) \/
  (exists k w1 w2 e, k < n /\ moves ps debug k w w1 /\ pump ps debug w1 = (w2, Err e) /\ rounds ps debug n result w = (w2, Err e)) \/
  (exists w1, moves ps debug n w w1 /\ rounds ps debug n result w = (w1, Err AssertionError)).
Proof.
  induction n as [|n IH]; intros result w.
  - right. right. exists w. split; [constructor|reflexivity].
  - cbn [rounds]. destruct (pump ps debug w) as [w1 [[|]|e]] eqn:E.
    + destruct (IH true w1) as [(k & a & b & H1 & H2 & H3 & H4)|[(k & a & b & e & H1 & H2 & H3 & H4)|(a & H1 & H2)]].
      * left. exists (S k), a, b. split; [lia|]. split; [econstructor; eassumption|]. split; [exact H3|]. rewrite H4. now destruct result.
      * right. left. exists (S k), a, b, e. split; [lia|]. split; [econstructor; eassumption|]. now split.
      * right. right. exists a. split; [econstructor; eassumption|exact H2].
    + left. exists 0, w, w1. split; [lia|]. split; [constructor|]. split; [exact E|]. now rewrite orb_false_r.
    + right. left. exists 0, w, w1, e. split; [lia|]. split; [constructor|]. now split.
Qed.

Theorem flush_exact ps debug w :
  (exists k w1 w2, k < N.to_nat 1000 /\ moves ps debug k w w1 /\ pump ps debug w1 = (w2, Ok false) /\ flush ps debug w = (w2, Ok (0 <? k))) \/
  (exists k w1 w2 e, k < N.to_nat 1000 /\ moves ps debug k w w1 /\ pump ps debug w1 = (w2, Err e) /\ flush ps debug w = (w2, Err e)) \/
  (exists w1, moves ps debug (N.to_nat 1000) w w1 /\ flush ps debug w = (w1, Err AssertionError)).
Proof. exact (rounds_exact ps debug LIMIT false w). Qed.

Lemma moves_reach ps debug s0 n w w' clean : Reach ps s0 clean w -> moves ps debug n w w' -> Reach ps s0 clean w'.
Proof.
  intros HR HM. revert HR. induction HM as [|n w w1 w2 E _ IH]; [auto|]. intros HR. apply IH. rewrite <- (andb_true_r clean).
  exact (R_pump _ _ _ _ _ _ _ HR E).
Qed.

Lemma moves_log ps debug n w w' : moves ps debug n w w' -> exists l, log w' = log w ++ l /\ existsb moved l = (0 <? n).
Proof.
  induction 1 as [w|n w w1 w2 E _ (l & L & M)]; [exists []; now rewrite app_nil_r|].
  destruct (pump_shape _ _ _ _ _ E) as (l1 & l2 & L' & _ & _ & H). exists ((l1 ++ l2) ++ l). split; [rewrite L, L', <- !app_assoc; reflexivity|].
  rewrite !existsb_app. assert (X : existsb moved l2 = true).
  { destruct H as [(_ & _ & H)|[(_ & _ & y & l3 & -> & _)|(H & _)]]; [exact H|reflexivity|discriminate]. }
  rewrite X, orb_true_r. reflexivity.
Qed.

(** what a flush that returns has done *)
Theorem flush_returns ps s0 debug clean w w' b : Reach ps s0 clean w -> flush ps debug w = (w', Ok b) ->
  Reach ps s0 clean w' /\ (exists l, log w' = log w ++ l /\ b = existsb moved l) /\
  (forall x, ing (tr w' x) = true -> forall y, told y (log w') = 1) /\
  ((forall x, ing (tr w' x) = false) -> forall y, told y (log w') = 0) /\
  (no_producers ps -> forall x, out (tr w' x) = []).
Proof.
  intros HR E. destruct (flush_exact ps debug w) as [(k & w1 & w2 & H1 & H2 & H3 & H4)|[(k & w1 & w2 & e & H1 & H2 & H3 & H4)|(w1 & H1 & H2)]]; try congruence.
  rewrite E in H4. injection H4 as <- ->. pose proof (moves_reach _ _ _ _ _ _ _ HR H2) as R1.
  assert (R2 : Reach ps s0 clean w') by (rewrite <- (andb_true_r clean); exact (R_pump _ _ _ _ _ _ _ R1 H3)).
  destruct (moves_log _ _ _ _ _ H2) as (l & L & M). destruct (pump_shape _ _ _ _ _ H3) as (l1 & l2 & L' & W & _ & H).
  destruct H as [(X & _)|[(X & _)|(_ & -> & Ho & Hd & Hn)]]; try discriminate. split; [exact R2|]. pose proof (reach_ends _ _ _ _ R2) as En. split; [|split; [|split]].
  - exists (l ++ l1). rewrite L', L, app_nil_r, <- app_assoc. split; [reflexivity|]. rewrite existsb_app, (writes_moved _ W), M. now rewrite orb_false_r.
  - intros x Hi y. assert (A : forall z, ed (tr w' z) = true).
    { pose proof (Hd _ Hi) as D1. destruct (En x) as [_ E2]. destruct (E2 D1) as [_ I2]. pose proof (Hd _ I2) as D2. intros z. destruct x, z; assumption. }
    destruct (En y) as [-> _]. now rewrite A.
  - intros Hi y. destruct (En y) as [-> _]. destruct (ed (tr w' (peer y))) eqn:D; [|reflexivity]. destruct (En (peer y)) as [_ E2]. destruct (E2 D) as [I _]. rewrite Hi in I. discriminate.
  - exact Hn.
Qed.

End Proofs.

Section Corollaries.
Context {P : Type}.

Theorem after_end (ps : protos P) s0 w l1 x l2 : no_producers ps -> Reach ps s0 true w -> log w = l1 ++ ELost x :: l2 ->
  (forall y, got (peer y) l1 = wrote y l1) /\ got x l2 ++ out (tr w (peer x)) = wrote (peer x) l2.
Proof.
  intros N HR E. pose proof (reach_complete _ _ _ _ N HR eq_refl _ _ _ E) as C. split; [exact C|].
  pose proof (reach_carried _ _ _ _ HR (peer x)) as H. cbn [rel app] in H. rewrite E, got_app, wrote_app in H. specialize (C (peer x)).
  replace (peer (peer x)) with x in * by (destruct x; reflexivity). rewrite C, <- app_assoc in H. apply app_inv_head in H.
  change (ELost x :: l2) with ([ELost x] ++ l2) in H. rewrite got_app, wrote_app in H.
  destruct x; exact H.
Qed.

Theorem told_once (ps : protos P) s0 clean w x : Reach ps s0 clean w -> told x (log w) <= 1.
Proof. intros HR. destruct (reach_ends _ _ _ _ HR x) as [-> _]. destruct (ed _); lia. Qed.
End Corollaries.
