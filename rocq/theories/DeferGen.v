(** * epsilon/hotfixes/deferredgenerator_tfailure.py: deferredGenerator

    The module is Python 2 code ([g.next()]), modelled by its text.  Generators
    and callbacks are arbitrary code: at each of their steps they may do any of
    the things listed in [user_act] and [gen_act], in any order.  What they do
    is a label of the step, so "for all executions" covers all programs.

    Twisted's Deferred is modelled as far as it is used: callback, errback and
    addBoth, with callbacks run at once when the Deferred has its result, one at
    a time, and never re-entrantly ([Deferred._runningCallbacks]).  Callbacks
    which return Deferreds and pause/unpause are not modelled.  Nobody but the
    generator fires the Deferred of a generator. *)

From Coq Require Import NArith List Bool Arith Lia.
From Verif Require Import Py.
Import ListNotations.

(** A Deferred: one made by the rest of the program, the one of the i-th call
    of a deferredGenerator function ([defer.Deferred()], line 18), or the one of
    [defer.fail(TypeError(...))] (line 33) in that call. *)
Inductive did := Src (n : nat) | Own (i : nat) | Bad (i : nat).

Definition did_eqb (a b : did) : bool :=
  match a, b with Src n, Src m => n =? m | Own i, Own j => i =? j | Bad i, Bad j => i =? j | _, _ => false end.

(** what a Deferred is fired with; a Failure passed to callback is a failure *)
Inductive outcome := Val (v : option N) | Failed (e : exn).
Definition None_ : outcome := Val None.

(** a callback: gotResult of the k-th wait of call i for the waitForDeferred
    object w (lines 38-44), or any other function *)
Inductive cb := CGot (k i w : nat) | CUser.

Record cell := Cell { value : option outcome; queue : list cb; busy : bool }.

(** The Python stack, innermost first.
    [FNext i r]: the loop of _deferGenerator for call i is in [g.next()], with
    the variable result = r (lines 16-20).
    [FAdded i k]: call i is in [result.d.addBoth(gotResult)] (line 45).
    [FReturn i]: call i is in [deferred.callback] or [errback] (lines 22, 25).
    [FCaller i]: the code which called the deferredGenerator function.
    [FRun d]: d runs its callbacks.  [FUser d]: d is calling a function.
    [FGot d]: d is calling gotResult, which is in [_deferGenerator(g, deferred)]
    (line 44). *)
Inductive frame :=
| FNext (i : nat) (r : outcome) | FAdded (i k : nat) | FReturn (i : nat) | FCaller (i : nat)
| FRun (d : did) | FUser (d : did) | FGot (d : did).

(** what any code may do: fire one of its Deferreds, call a deferredGenerator
    function, make a waitForDeferred object, add a function to a Deferred *)
Inductive user_act := UFire (n : nat) (o : outcome) | UCall | UWait (d : did) | UAdd (d : did).

(** what a generator may do besides: yield a value, a Deferred, or a
    waitForDeferred object; call getResult of one; end; raise *)
Inductive gen_act := GYield (o : outcome) | GYieldDeferred | GYieldWait (w : nat) | GGet (w : nat) | GReturn | GRaise (e : exn).

(** The history: what generators did; gotResult of call i was called for w with
    a result, by d; another function was called by d with a result; it returned;
    a Deferred was fired; a call returned a Deferred; getResult of w gave. *)
Inductive event :=
| Acted (i : nat) (a : gen_act) | Got (d : did) (i w : nat) (o : outcome) | Told (d : did) (o : outcome) | Answered (d : did) (o : outcome)
| Fired (d : did) (o : outcome) | Returned (i : nat) (d : did) | Read (i w : nat) (r : option (res (option N))).

Record config := Cf {
  cells : did -> cell;
  nks : nat -> nat;             (* waits made by each call *)
  opens : nat -> nat -> bool;   (* waiting[0] of the k-th wait of a call *)
  ncalls : nat;                 (* calls so far *)
  waits : nat -> did;           (* the attribute d of the waitForDeferred objects *)
  nwaits : nat;
  results : nat -> option outcome;  (* their attribute result *)
  stack : list frame;
  ret : did;                    (* what _deferGenerator last returned *)
  log : list event              (* oldest first *)
}.

Definition init : config :=
  Cf (fun _ => Cell None [] false) (fun _ => 0) (fun _ _ => false) 0 (fun _ => Src 0) 0 (fun _ => None) [] (Src 0) [].

Definition upd {A} (f : nat -> A) (i : nat) (x : A) : nat -> A := fun j => if j =? i then x else f j.
Definition dupd (f : did -> cell) (d : did) (x : cell) : did -> cell := fun e => if did_eqb e d then x else f e.

Definition set_cells c x := Cf x (nks c) (opens c) (ncalls c) (waits c) (nwaits c) (results c) (stack c) (ret c) (log c).
Definition set_stack c x := Cf (cells c) (nks c) (opens c) (ncalls c) (waits c) (nwaits c) (results c) x (ret c) (log c).
Definition set_ret c x := Cf (cells c) (nks c) (opens c) (ncalls c) (waits c) (nwaits c) (results c) (stack c) x (log c).
Definition set_open c i k b := Cf (cells c) (nks c) (upd (opens c) i (upd (opens c i) k b)) (ncalls c) (waits c) (nwaits c) (results c) (stack c) (ret c) (log c).
Definition set_result c w o := Cf (cells c) (nks c) (opens c) (ncalls c) (waits c) (nwaits c) (upd (results c) w (Some o)) (stack c) (ret c) (log c).
Definition say c e := Cf (cells c) (nks c) (opens c) (ncalls c) (waits c) (nwaits c) (results c) (stack c) (ret c) (log c ++ [e]).
Definition push c fr := set_stack c (fr :: stack c).

(** Deferred.callback and Deferred.errback (Twisted): the result is set and the
    callbacks run *)
Definition fire (c : config) (d : did) (o : outcome) : config :=
  say (push (set_cells c (dupd (cells c) d (Cell (Some o) (queue (cells c d)) true))) (FRun d)) (Fired d o).

(** Deferred.addBoth (Twisted) *)
Definition addBoth (c : config) (d : did) (f : cb) : config :=
  let x := cells c d in
  match value x with
  | None => set_cells c (dupd (cells c) d (Cell None (queue x ++ [f]) (busy x)))
  | Some o =>
    let c := set_cells c (dupd (cells c) d (Cell (Some o) (queue x ++ [f]) true)) in
    if busy x then c else push c (FRun d)
  end.

(** the Deferreds which exist *)
Definition known (c : config) (d : did) : bool :=
  match d with Src _ => true | Own i => i <? ncalls c | Bad i => match value (cells c (Bad i)) with None => false | Some _ => true end end.

(** code other than this module's; calling a deferredGenerator function is
    [_deferGenerator(f(...))] with lines 16-18 *)
Definition user (c : config) (a : user_act) : option config :=
  match a with
  | UFire n o => match value (cells c (Src n)) with
                 | Some _ => Some c                  (* AlreadyCalledError *)
                 | None => Some (fire c (Src n) o)
                 end
  | UCall => let i := ncalls c in
    let c := Cf (cells c) (nks c) (opens c) (S i) (waits c) (nwaits c) (results c) (stack c) (ret c) (log c) in
    Some (push (push c (FCaller i)) (FNext i None_))
  | UWait d => if known c d then Some (Cf (cells c) (nks c) (opens c) (ncalls c) (upd (waits c) (nwaits c) d) (S (nwaits c)) (results c) (stack c) (ret c) (log c)) else None
  | UAdd d => if known c d then Some (addBoth c d CUser) else None
  end.

(** deferredgenerator_tfailure.py:5-8: getResult; the attribute is missing before
    the first result *)
Definition getResult (c : config) (w : nat) : option (res (option N)) :=
  match results c w with None => None | Some (Val v) => Some (Ok v) | Some (Failed e) => Some (Err e) end.

(** deferredgenerator_tfailure.py:11-51: _deferGenerator, after [g.next()] has
    done [a]; [c] has this frame removed *)
Definition gen (c : config) (i : nat) (r : outcome) (a : gen_act) : option config :=
  let c' := say c (Acted i a) in
  match a with
  | GGet w => Some (push (say c (Read i w (getResult c w))) (FNext i r))
  | GYield o => Some (push c' (FNext i o))                      (* 20, then 16 *)
  | GReturn => Some (fire (push c' (FReturn i)) (Own i) r)       (* 21-23 *)
  | GRaise e => Some (fire (push c' (FReturn i)) (Own i) (Failed e))  (* 24-26 *)
  | GYieldDeferred =>                                           (* 32-33 *)
      let c' := say (set_cells c' (dupd (cells c') (Bad i) (Cell (Some (Failed TypeError)) [] false))) (Fired (Bad i) (Failed TypeError)) in
      Some (set_ret c' (Bad i))
  | GYieldWait w =>                                             (* 35-45 *)
      if w <? nwaits c then
        let k := nks c i in
        let c' := Cf (cells c') (upd (nks c') i (S k)) (opens c') (ncalls c') (waits c') (nwaits c') (results c') (stack c') (ret c') (log c') in
        Some (addBoth (push (set_open c' i k true) (FAdded i k)) (waits c w) (CGot k i w))
      else None
  end.

(** one callback of d, which is no longer in the queue (Deferred._runCallbacks,
    Twisted); gotResult is lines 38-44 *)
Definition run (c : config) (d : did) (o : outcome) (f : cb) : config :=
  match f with
  | CUser => push (say c (Told d o)) (FUser d)
  | CGot k i w =>
    let c := say (set_result c w o) (Got d i w o) in
    if opens c i k
    then push (set_cells (set_open c i k false) (dupd (cells c) d (Cell (Some None_) (queue (cells c d)) true))) (FRun d)
    else push (push c (FGot d)) (FNext i None_)
  end.

Inductive label := LUser (a : user_act) | LGen (a : gen_act) | LAnswer (o : outcome) | LRun.

Definition step (c : config) (l : label) : option config :=
  match stack c, l with
  | [], LUser a => user c a
  | FUser d :: _, LUser a => user c a
  | FNext i r :: _, LUser a => user c a
  | FNext i r :: st, LGen a => gen (set_stack c st) i r a
  | FUser d :: st, LAnswer o =>
      Some (say (set_stack (set_cells c (dupd (cells c) d (Cell (Some o) (queue (cells c d)) true))) (FRun d :: st)) (Answered d o))
  | FGot d :: st, LRun =>      (* gotResult returns None *)
      Some (set_stack (set_cells c (dupd (cells c) d (Cell (Some None_) (queue (cells c d)) true))) (FRun d :: st))
  | FRun d :: st, LRun =>
      match value (cells c d), queue (cells c d) with
      | Some o, f :: q => Some (run (set_stack (set_cells c (dupd (cells c) d (Cell (Some o) q true))) st) d o f)
      | Some o, [] => Some (set_stack (set_cells c (dupd (cells c) d (Cell (Some o) [] false))) st)
      | None, _ => None
      end
  | FAdded i k :: st, LRun =>     (* 46-51 *)
      if opens c i k then Some (set_ret (set_stack (set_open c i k false) st) (Own i))
      else Some (set_stack c (FNext i None_ :: st))
  | FReturn i :: st, LRun => Some (set_ret (set_stack c st) (Own i))
  | FCaller i :: st, LRun => Some (say (set_stack c st) (Returned i (ret c)))
  | _, _ => None
  end.

Fixpoint exec (ls : list label) (c : config) : option config :=
  match ls with [] => Some c | l :: t => match step c l with Some c' => exec t c' | None => None end end.

Definition reachable (c : config) : Prop := exists ls, exec ls init = Some c.

(** ** Specification: the life of one generator, as its events tell it *)

Inductive phase :=
| Runs (last : outcome)   (* last plain value yielded since the last wait *)
| Waits (w : nat)         (* has yielded w and was not resumed since *)
| Ended (o : outcome)     (* ended, or raised *)
| Dropped.                (* yielded a Deferred *)

(** the events of generator i; any other order of events is illegal *)
Definition advance (i : nat) (p : option phase) (e : event) : option phase :=
  match e with
  | Acted j a => if j =? i then
      match p, a with
      | Some (Runs l), GYield o => Some (Runs o)
      | Some (Runs l), GYieldWait w => Some (Waits w)
      | Some (Runs l), GYieldDeferred => Some Dropped
      | Some (Runs l), GReturn => Some (Ended l)
      | Some (Runs l), GRaise e => Some (Ended (Failed e))
      | _, _ => None
      end else p
  | Got _ j w o => if j =? i then
      match p with Some (Waits v) => if v =? w then Some (Runs None_) else None | _ => None end else p
  | Read j _ _ => if j =? i then match p with Some (Runs l) => p | _ => None end else p
  | _ => p
  end.

Definition life (i : nat) (l : list event) : option phase := fold_left (advance i) l (Some (Runs None_)).

(** what Deferred d was fired with *)
Definition fired (d : did) (l : list event) : list outcome :=
  flat_map (fun e => match e with Fired e o => if did_eqb e d then [o] else [] | _ => [] end) l.

(** ** Lemmas *)

Lemma did_eqb_eq a b : did_eqb a b = true <-> a = b.
Proof.
  destruct a, b; cbn; try (split; discriminate); rewrite Nat.eqb_eq; (split; [now intros ->|now intros [= ->]]).
Qed.
Lemma did_eqb_refl a : did_eqb a a = true.
Proof. now apply did_eqb_eq. Qed.

Lemma did_eqb_neq a b : did_eqb a b = false <-> a <> b.
Proof. rewrite <- not_true_iff_false, did_eqb_eq. reflexivity. Qed.

Lemma life_app i l e : life i (l ++ [e]) = advance i (life i l) e.
Proof. unfold life. now rewrite fold_left_app. Qed.

Lemma fired_app d l e : fired d (l ++ [e]) = fired d l ++ fired d [e].
Proof. unfold fired. now rewrite flat_map_app. Qed.

(** where a call is *)
Inductive status := SRun (r : outcome) | SWait (k w : nat) | SEnd (o : outcome) | SDrop | SFree.

Definition phase_of (s : status) : phase :=
  match s with SRun r => Runs r | SWait _ w => Waits w | SEnd o => Ended o | SDrop => Dropped | SFree => Runs None_ end.

Definition frame_of (i : nat) (fr : frame) : bool :=
  match fr with FNext j _ => j =? i | FAdded j _ => j =? i | _ => false end.
Definition runs_of (d : did) (fr : frame) : bool :=
  match fr with FRun e => did_eqb e d | FUser e => did_eqb e d | FGot e => did_eqb e d | _ => false end.
Definition cb_of (i : nat) (f : cb) : bool := match f with CGot _ j _ => j =? i | CUser => false end.

Definition count {A} (f : A -> bool) (l : list A) : nat := length (filter f l).

Lemma count_cons {A} (f : A -> bool) x l : count f (x :: l) = (if f x then 1 else 0) + count f l.
Proof. unfold count. cbn. destruct (f x); reflexivity. Qed.

Lemma count_app {A} (f : A -> bool) l m : count f (l ++ m) = count f l + count f m.
Proof. unfold count. now rewrite filter_app, app_length. Qed.

Lemma count_0 {A} (f : A -> bool) l x : count f l = 0 -> In x l -> f x = false.
Proof.
  induction l as [|y l IH]; intros H Hi; [destruct Hi|]. rewrite count_cons in H. destruct Hi as [->|Hi]; [destruct (f x); [discriminate H|reflexivity]|].
  apply IH; [destruct (f y); lia|exact Hi].
Qed.

Definition good_frame (S : nat -> status) (c : config) (fr : frame) : Prop :=
  match fr with
  | FNext i r => S i = SRun r
  | FAdded i k => S i = SRun None_ /\ opens c i k = false \/ exists w, S i = SWait k w /\ opens c i k = true
  | FReturn i => S i <> SFree
  | FCaller i => S i <> SFree
  | _ => True
  end.

Record Inv (S : nat -> status) (c : config) : Prop := {
  I_frames : forall i, count (frame_of i) (stack c) = match S i with SRun _ => 1 | SWait k _ => if opens c i k then 1 else 0 | _ => 0 end;
  I_queue : forall i d, count (cb_of i) (queue (cells c d)) = match S i with SWait _ w => if did_eqb (waits c w) d then 1 else 0 | _ => 0 end;
  I_cb : forall k i w d, In (CGot k i w) (queue (cells c d)) -> S i = SWait k w;
  I_good : Forall (good_frame S c) (stack c);
  I_free : forall i, S i = SFree <-> ncalls c <= i;
  I_wait : forall i k w, S i = SWait k w -> w < nwaits c;
  I_life : forall i, life i (log c) = Some (phase_of (S i));
  I_fired : forall i, fired (Own i) (log c) = match S i with SEnd o => [o] | _ => [] end;
  I_value : forall i, value (cells c (Own i)) = None <-> fired (Own i) (log c) = [];
  I_busy : forall d, count (runs_of d) (stack c) = if busy (cells c d) then 1 else 0;
  I_busy2 : forall d, busy (cells c d) = true -> value (cells c d) <> None;
  I_idle : forall d, busy (cells c d) = false -> value (cells c d) <> None -> queue (cells c d) = [];
  I_bad : forall i, value (cells c (Bad i)) <> None -> S i = SDrop;
  I_unborn : forall i, value (cells c (Bad i)) = None -> queue (cells c (Bad i)) = [];
  I_made : forall w i, w < nwaits c -> waits c w = Bad i -> value (cells c (Bad i)) <> None
}.

Lemma good_ext S S' c c' st : Forall (good_frame S c) st ->
  (forall j fr, In fr st -> frame_of j fr = true -> S' j = S j /\ forall k, opens c' j k = opens c j k) ->
  (forall j, S j <> SFree -> S' j <> SFree) -> Forall (good_frame S' c') st.
Proof.
  intros H He Hf. rewrite Forall_forall in *. intros fr Hi. specialize (H fr Hi). destruct fr as [i r|i k|i|i|d|d|d]; cbn in *; auto.
  - destruct (He i _ Hi (Nat.eqb_refl i)) as (E & _). now rewrite E.
  - destruct (He i _ Hi (Nat.eqb_refl i)) as (E & E2). now rewrite E, E2.
Qed.

(** the invariant after a change of the cells and the stack which adds no frame
    and no gotResult, for the statuses as they were *)
Lemma inv_init : Inv (fun _ => SFree) init.
Proof. constructor; cbn; try (intros; (reflexivity || discriminate || contradiction || lia || (split; (reflexivity || lia)))); auto. Qed.

Ltac proj := cbn [cells nks opens ncalls waits nwaits results stack ret log set_cells set_stack set_ret set_open set_result say push fire value queue busy] in *.

(** ** UFire *)
Lemma inv_fire_src S c n o : Inv S c -> value (cells c (Src n)) = None -> Inv S (fire c (Src n) o).
Proof.
  intros [F Q C G Fr W L Fi V B B2 Id Bd U M] Hv. unfold fire. constructor; proj.
  - intros i. rewrite count_cons. cbn. apply F.
  - intros i d. unfold dupd. destruct (did_eqb d (Src n)) eqn:E; [|apply Q]. apply did_eqb_eq in E as ->. cbn. apply Q.
  - intros k i w d. unfold dupd. destruct (did_eqb d (Src n)) eqn:E; [|apply C]. cbn. apply C.
  - constructor; [exact I|]. eapply good_ext; [exact G|auto|auto].
  - exact Fr.
  - exact W.
  - intros i. rewrite life_app, L. reflexivity.
  - intros i. rewrite fired_app, Fi. cbn. now rewrite app_nil_r.
  - intros i. rewrite fired_app. cbn. rewrite app_nil_r. apply V.
  - intros d. rewrite count_cons. cbn [runs_of]. unfold dupd. destruct (did_eqb d (Src n)) eqn:E.
    + apply did_eqb_eq in E as ->. rewrite did_eqb_refl, B. cbn. destruct (busy (cells c (Src n))) eqn:Eb; [|reflexivity]. now apply B2 in Eb.
    + destruct (did_eqb (Src n) d) eqn:E2; [apply did_eqb_eq in E2 as <-; rewrite did_eqb_refl in E; discriminate|]. apply B.
  - intros d. unfold dupd. destruct (did_eqb d (Src n)) eqn:E; [discriminate|apply B2].
  - intros d. unfold dupd. destruct (did_eqb d (Src n)) eqn:E; [discriminate|apply Id].
  - exact Bd.
  - exact U.
  - exact M.
Qed.


Lemma upd_same {A} (f : nat -> A) i x : upd f i x i = x.
Proof. unfold upd. now rewrite Nat.eqb_refl. Qed.
Lemma upd_other {A} (f : nat -> A) i j x : j <> i -> upd f i x j = f j.
Proof. unfold upd. intros H. now apply Nat.eqb_neq in H as ->. Qed.
Lemma dupd_same f d x : dupd f d x d = x.
Proof. unfold dupd. now rewrite did_eqb_refl. Qed.
Lemma dupd_other f d e x : e <> d -> dupd f d x e = f e.
Proof. unfold dupd. intros H. now apply did_eqb_neq in H as ->. Qed.
Lemma did_dec (a b : did) : {a = b} + {a <> b}.
Proof. destruct (did_eqb a b) eqn:E; [left; now apply did_eqb_eq|right; now apply did_eqb_neq]. Qed.

Ltac dsplit d e := let Ed := fresh in destruct (did_dec d e) as [Ed|?]; [first [subst d | subst e | rewrite Ed in *]; rewrite ?dupd_same, ?did_eqb_refl in *; proj|rewrite ?dupd_other in * by assumption].
Ltac isplit i j := destruct (Nat.eq_dec i j) as [->|?]; [rewrite ?upd_same, ?Nat.eqb_refl in *|rewrite ?upd_other in * by assumption].

(** ** UCall *)
Lemma inv_call S c c' : Inv S c -> user c UCall = Some c' -> Inv (upd S (ncalls c) (SRun None_)) c'.
Proof.
  intros [F Q C G Fr W L Fi V B B2 Id Bd U M] [= <-]. pose proof (proj2 (Fr (ncalls c)) (Nat.le_refl _)) as Hn.
  constructor; proj; auto.
  - intros i. rewrite !count_cons. cbn [frame_of]. isplit i (ncalls c).
    + rewrite F, Hn. reflexivity.
    + rewrite (proj2 (Nat.eqb_neq _ _)) by auto. apply F.
  - intros i d. rewrite Q. isplit i (ncalls c); [now rewrite Hn|reflexivity].
  - intros k i w d Hi. apply C in Hi. isplit i (ncalls c); [congruence|exact Hi].
  - constructor; [cbn; now rewrite upd_same|]. constructor; [cbn; rewrite upd_same; discriminate|]. eapply good_ext; [exact G| |].
    + intros j fr Hi Hj. split; [|reflexivity]. isplit j (ncalls c); [|reflexivity]. exfalso. specialize (F (ncalls c)). rewrite Hn in F. rewrite (count_0 _ _ _ F Hi) in Hj. discriminate.
    + intros j Hj. isplit j (ncalls c); [discriminate|exact Hj].
  - intros i. isplit i (ncalls c); [split; [discriminate|lia]|]. rewrite Fr. lia.
  - intros i k w H. isplit i (ncalls c); [discriminate|eauto].
  - intros i. rewrite L. isplit i (ncalls c); [now rewrite Hn|reflexivity].
  - intros i. rewrite Fi. isplit i (ncalls c); [now rewrite Hn|reflexivity].
  - intros i H. apply Bd in H. isplit i (ncalls c); [congruence|exact H].
Qed.

(** ** UWait *)
Lemma inv_wait S c c' d : Inv S c -> user c (UWait d) = Some c' -> Inv S c'.
Proof.
  intros [F Q C G Fr W L Fi V B B2 Id Bd U M] H. cbn in H. destruct (known c d) eqn:K; [injection H as <-|discriminate H].
  constructor; proj; auto.
  - intros i e. rewrite Q. destruct (S i) eqn:E; try reflexivity. rewrite upd_other; [reflexivity|]. apply W in E. lia.
  - intros i k w E. apply W in E. lia.
  - intros w i Hw. isplit w (nwaits c); [|apply M; lia]. intros ->. cbn in K. destruct (value (cells c (Bad i))); [discriminate|discriminate K].
Qed.

(** ** UAdd, and addBoth in general *)
Lemma addBoth_eq c d f : addBoth c d f =
  match value (cells c d) with
  | None => set_cells c (dupd (cells c) d (Cell None (queue (cells c d) ++ [f]) (busy (cells c d))))
  | Some o => set_stack (set_cells c (dupd (cells c) d (Cell (Some o) (queue (cells c d) ++ [f]) true))) (if busy (cells c d) then stack c else FRun d :: stack c)
  end.
Proof. unfold addBoth. destruct (value (cells c d)); [|reflexivity]. destruct (busy (cells c d)); reflexivity. Qed.

Lemma inv_add S c d : Inv S c -> known c d = true -> Inv S (addBoth c d CUser).
Proof.
  intros [F Q C G Fr W L Fi V B B2 Id Bd U M] K. rewrite addBoth_eq. destruct (value (cells c d)) as [o|] eqn:Ev.
  - constructor; proj; auto.
    + intros i. destruct (busy (cells c d)); [apply F|rewrite count_cons; apply F].
    + intros i e. dsplit e d; [|apply Q]. rewrite count_app, Q. cbn. lia.
    + intros k i w e. dsplit e d; [|apply C]. intros Hi. apply in_app_or in Hi as [Hi|[Hi|[]]]; [eauto|discriminate Hi].
    + assert (G' : Forall (good_frame S (set_stack (set_cells c (dupd (cells c) d (Cell (Some o) (queue (cells c d) ++ [CUser]) true))) (if busy (cells c d) then stack c else FRun d :: stack c))) (stack c)) by (eapply good_ext; [exact G|auto|auto]).
      destruct (busy (cells c d)); [exact G'|constructor; [exact I|exact G']].
    + intros i. rewrite <- V. dsplit (Own i) d; [|reflexivity]. rewrite Ev. split; discriminate.
    + intros e. dsplit e d.
      * specialize (B d). destruct (busy (cells c d)); [exact B|]. rewrite count_cons, B. cbn. now rewrite did_eqb_refl.
      * rewrite <- B. destruct (busy (cells c d)); [reflexivity|]. rewrite count_cons. cbn. rewrite (proj2 (did_eqb_neq d e)) by auto. reflexivity.
    + intros e. dsplit e d; [discriminate|apply B2].
    + intros e. dsplit e d; [discriminate|apply Id].
    + intros i. dsplit (Bad i) d; [|apply Bd]. intros _. apply Bd. congruence.
    + intros i. dsplit (Bad i) d; [discriminate|apply U].
    + intros w i Hw Ew. dsplit (Bad i) d; [discriminate|eauto].
  - constructor; proj; auto.
    + intros i e. dsplit e d; [|apply Q]. rewrite count_app, Q. cbn. lia.
    + intros k i w e. dsplit e d; [|apply C]. intros Hi. apply in_app_or in Hi as [Hi|[Hi|[]]]; [eauto|discriminate Hi].
    + intros i. rewrite <- V. dsplit (Own i) d; [|reflexivity]. rewrite Ev. reflexivity.
    + intros e. rewrite B. dsplit e d; reflexivity.
    + intros e. dsplit e d; [|apply B2]. intros Hb. apply B2 in Hb. congruence.
    + intros e. dsplit e d; [congruence|apply Id].
    + intros i. dsplit (Bad i) d; [congruence|apply Bd].
    + intros i. dsplit (Bad i) d; [|apply U]. cbn in K. rewrite Ev in K. discriminate K.
    + intros w i Hw Ew. specialize (M w i Hw Ew). dsplit (Bad i) d; [congruence|exact M].
Qed.

Lemma inv_user S c a c' : Inv S c -> user c a = Some c' -> exists S', Inv S' c'.
Proof.
  intros H E. destruct a as [n o| |d|d].
  - cbn in E. destruct (value (cells c (Src n))) eqn:Ev; injection E as <-; [now exists S|]. exists S. now apply inv_fire_src.
  - eexists. now apply (inv_call _ _ _ H).
  - exists S. eapply inv_wait; eauto.
  - cbn in E. destruct (known c d) eqn:K; [injection E as <-|discriminate]. exists S. now apply inv_add.
Qed.

(** ** the generator: facts about the top frame *)
Lemma top_next S c i r st : Inv S c -> stack c = FNext i r :: st ->
  S i = SRun r /\ count (frame_of i) st = 0 /\ (forall d, count (cb_of i) (queue (cells c d)) = 0) /\ i < ncalls c /\ life i (log c) = Some (Runs r).
Proof.
  intros [F Q C G Fr W L Fi V B B2 Id Bd U M] E. rewrite E in G. inversion G as [|x y G1 G2]; subst. cbn in G1. split; [exact G1|]. split.
  - specialize (F i). rewrite E, count_cons, G1 in F. cbn in F. rewrite Nat.eqb_refl in F. lia.
  - split; [intros d; rewrite Q, G1; reflexivity|]. split; [|rewrite L, G1; reflexivity]. destruct (Nat.lt_ge_cases i (ncalls c)) as [H|H]; [exact H|]. apply Fr in H. congruence.
Qed.

(** the statuses of the others, and their frames, stay *)
Lemma good_rest S c c' i s st : Forall (good_frame S c) st -> count (frame_of i) st = 0 -> s <> SFree ->
  (forall j k, j <> i -> opens c' j k = opens c j k) -> Forall (good_frame (upd S i s) c') st.
Proof.
  intros G H Hs Ho. eapply good_ext; [exact G| |].
  - intros j fr Hi Hj. destruct (Nat.eq_dec j i) as [->|Hn]; [rewrite (count_0 _ _ _ H Hi) in Hj; discriminate|]. rewrite upd_other by exact Hn. auto.
  - intros j Hj. destruct (Nat.eq_dec j i) as [->|Hn]; [now rewrite upd_same|now rewrite upd_other].
Qed.

Lemma advance_other i j a p : j <> i -> advance i p (Acted j a) = p.
Proof. intros H. cbn. now apply Nat.eqb_neq in H as ->. Qed.

(** yield of a plain value *)
Lemma inv_yield S c i r st o : Inv S c -> stack c = FNext i r :: st ->
  Inv (upd S i (SRun o)) (push (say (set_stack c st) (Acted i (GYield o))) (FNext i o)).
Proof.
  intros H E. destruct (top_next _ _ _ _ _ H E) as (T1 & T2 & T3 & T4 & T5). destruct H as [F Q C G Fr W L Fi V B B2 Id Bd U M]. constructor; proj; auto.
  - intros j. specialize (F j). rewrite E in F. rewrite count_cons in *. cbn [frame_of] in *. isplit j i; [lia|exact F].
  - intros j d. isplit j i; [apply T3|apply Q].
  - intros k j w d Hi. specialize (C k j w d Hi). isplit j i; [congruence|exact C].
  - rewrite E in G. inversion G as [|x y G1 G2]; subst. constructor; [cbn; now rewrite upd_same|]. apply (good_rest S c); auto. discriminate.
  - intros j. isplit j i; [|apply Fr]. split; [discriminate|lia].
  - intros j k w. isplit j i; [discriminate|apply W].
  - intros j. rewrite life_app. isplit j i; [rewrite T5; cbn; now rewrite Nat.eqb_refl|]. rewrite advance_other by auto. apply L.
  - intros j. rewrite fired_app. cbn. rewrite app_nil_r, Fi. isplit j i; [now rewrite T1|reflexivity].
  - intros j. rewrite fired_app. cbn. rewrite app_nil_r. apply V.
  - intros d. specialize (B d). rewrite E in B. exact B.
  - intros j Hj. specialize (Bd j Hj). isplit j i; [congruence|exact Bd].
Qed.

(** getResult *)
Lemma inv_get S c i r st w x : Inv S c -> stack c = FNext i r :: st ->
  Inv S (push (say (set_stack c st) (Read i w x)) (FNext i r)).
Proof.
  intros H E. destruct (top_next _ _ _ _ _ H E) as (T1 & T2 & T3 & T4 & T5). destruct H as [F Q C G Fr W L Fi V B B2 Id Bd U M]. constructor; proj; auto.
  - intros j. specialize (F j). rewrite E in F. exact F.
  - rewrite E in G. eapply good_ext; [exact G|auto|auto].
  - intros j. rewrite life_app. destruct (Nat.eq_dec i j) as [->|Hn]; cbn; [rewrite Nat.eqb_refl, T5, T1; reflexivity|]. apply Nat.eqb_neq in Hn as ->. apply L.
  - intros j. rewrite fired_app. cbn. now rewrite app_nil_r, Fi.
  - intros j. rewrite fired_app. cbn. rewrite app_nil_r. apply V.
  - intros d. specialize (B d). rewrite E in B. exact B.
Qed.

(** the generator ends or raises *)
Lemma inv_end S c i r st a o : Inv S c -> stack c = FNext i r :: st -> advance i (Some (Runs r)) (Acted i a) = Some (Ended o) ->
  Inv (upd S i (SEnd o)) (fire (push (say (set_stack c st) (Acted i a)) (FReturn i)) (Own i) o).
Proof.
  intros H E Ha. destruct (top_next _ _ _ _ _ H E) as (T1 & T2 & T3 & T4 & T5). destruct H as [F Q C G Fr W L Fi V B B2 Id Bd U M]. unfold fire.
  assert (Hv : value (cells c (Own i)) = None) by (apply V; rewrite Fi, T1; reflexivity).
  assert (Hb : busy (cells c (Own i)) = false) by (destruct (busy (cells c (Own i))) eqn:Eb; [apply B2 in Eb; congruence|reflexivity]).
  constructor; proj; auto.
  - intros j. rewrite !count_cons. cbn [frame_of]. specialize (F j). rewrite E, count_cons in F. cbn [frame_of] in F. isplit j i; [lia|]. rewrite (proj2 (Nat.eqb_neq i j)) in F by auto. exact F.
  - intros j d. assert (Hq : count (cb_of j) (queue (dupd (cells c) (Own i) (Cell (Some o) (queue (cells c (Own i))) true) d)) = count (cb_of j) (queue (cells c d))) by (dsplit d (Own i); reflexivity).
    rewrite Hq. isplit j i; [apply T3|apply Q].
  - intros k j w d Hi. assert (Hi' : In (CGot k j w) (queue (cells c d))) by (dsplit d (Own i); exact Hi). apply C in Hi'. isplit j i; [congruence|exact Hi'].
  - rewrite E in G. inversion G as [|x y G1 G2]; subst. constructor; [exact I|]. constructor; [cbn; rewrite upd_same; discriminate|]. apply (good_rest S c); auto. discriminate.
  - intros j. isplit j i; [|apply Fr]. split; [discriminate|lia].
  - intros j k w. isplit j i; [discriminate|apply W].
  - intros j. rewrite !life_app. isplit j i; [rewrite T5, Ha; reflexivity|]. rewrite advance_other by auto. apply L.
  - intros j. rewrite !fired_app. cbn. rewrite app_nil_r, Fi. isplit j i; [now rewrite T1|]. rewrite (proj2 (Nat.eqb_neq i j)) by auto. now rewrite app_nil_r.
  - intros j. rewrite !fired_app. cbn. rewrite app_nil_r. destruct (Nat.eq_dec j i) as [->|Hn].
    + rewrite dupd_same, Nat.eqb_refl. cbn. split; [discriminate|]. intros Hz. apply app_eq_nil in Hz as (_ & Hz). discriminate Hz.
    + rewrite dupd_other by congruence. rewrite (proj2 (Nat.eqb_neq i j)) by auto. rewrite app_nil_r. apply V.
  - intros d. specialize (B d). rewrite E in B. rewrite !count_cons in *. cbn [runs_of] in *. dsplit d (Own i); [rewrite Hb in B; lia|]. rewrite (proj2 (did_eqb_neq (Own i) d)) by auto. exact B.
  - intros d. dsplit d (Own i); [discriminate|apply B2].
  - intros d. dsplit d (Own i); [discriminate|apply Id].
  - intros j Hj. rewrite dupd_other in Hj by discriminate. specialize (Bd j Hj). isplit j i; [congruence|exact Bd].
Qed.

(** the generator yields a Deferred *)
Lemma inv_drop S c i r st x : Inv S c -> stack c = FNext i r :: st ->
  Inv (upd S i SDrop) (set_ret (say (set_cells (say (set_stack c st) (Acted i GYieldDeferred)) (dupd (cells c) (Bad i) (Cell (Some (Failed TypeError)) [] false))) (Fired (Bad i) (Failed TypeError))) x).
Proof.
  intros H E. destruct (top_next _ _ _ _ _ H E) as (T1 & T2 & T3 & T4 & T5). destruct H as [F Q C G Fr W L Fi V B B2 Id Bd U M].
  assert (Hv : value (cells c (Bad i)) = None) by (destruct (value (cells c (Bad i))) eqn:Ev; [|reflexivity]; assert (X : S i = SDrop) by (apply Bd; congruence); congruence).
  assert (Hq : queue (cells c (Bad i)) = []) by now apply U.
  assert (Hb : busy (cells c (Bad i)) = false) by (destruct (busy (cells c (Bad i))) eqn:Eb; [apply B2 in Eb; congruence|reflexivity]).
  constructor; proj; auto.
  - intros j. specialize (F j). rewrite E, count_cons in F. cbn [frame_of] in F. isplit j i; [lia|]. rewrite (proj2 (Nat.eqb_neq i j)) in F by auto. exact F.
  - intros j d. assert (Hq' : queue (dupd (cells c) (Bad i) (Cell (Some (Failed TypeError)) [] false) d) = queue (cells c d)) by (dsplit d (Bad i); [now rewrite Hq|reflexivity]).
    rewrite Hq'. isplit j i; [apply T3|apply Q].
  - intros k j w d Hi. assert (Hi' : In (CGot k j w) (queue (cells c d))) by (dsplit d (Bad i); [destruct Hi|exact Hi]). apply C in Hi'. isplit j i; [congruence|exact Hi'].
  - rewrite E in G. inversion G as [|y z G1 G2]; subst. apply (good_rest S c); auto. discriminate.
  - intros j. isplit j i; [|apply Fr]. split; [discriminate|lia].
  - intros j k w. isplit j i; [discriminate|apply W].
  - intros j. rewrite !life_app. isplit j i; [rewrite T5; cbn; now rewrite Nat.eqb_refl|]. rewrite advance_other by auto. apply L.
  - intros j. rewrite !fired_app. cbn. rewrite !app_nil_r, Fi. isplit j i; [now rewrite T1|reflexivity].
  - intros j. rewrite !fired_app. cbn. rewrite !app_nil_r. apply V.
  - intros d. specialize (B d). rewrite E in B. rewrite !count_cons in *. cbn [runs_of] in *. dsplit d (Bad i); [rewrite Hb in B; exact B|exact B].
  - intros d. dsplit d (Bad i); [discriminate|apply B2].
  - intros d. dsplit d (Bad i); [reflexivity|apply Id].
  - intros j Hj. destruct (Nat.eq_dec j i) as [->|Hn]; [now rewrite upd_same|]. rewrite upd_other by exact Hn. rewrite dupd_other in Hj by congruence. auto.
  - intros j Hj. destruct (Nat.eq_dec j i) as [->|Hn]; [rewrite dupd_same in *; reflexivity|]. rewrite dupd_other in * by congruence. auto.
  - intros w j Hw Ew. destruct (Nat.eq_dec j i) as [->|Hn]; [rewrite dupd_same; discriminate|]. rewrite dupd_other by congruence. eauto.
Qed.

(** the generator yields a waitForDeferred object *)
Lemma inv_yieldwait S c i r st w c' : Inv S c -> stack c = FNext i r :: st -> gen (set_stack c st) i r (GYieldWait w) = Some c' ->
  Inv (upd S i (SWait (nks c i) w)) c'.
Proof.
  intros H E Eg. destruct (top_next _ _ _ _ _ H E) as (T1 & T2 & T3 & T4 & T5). destruct H as [F Q C G Fr W L Fi V B B2 Id Bd U M].
  cbn [gen] in Eg. proj. destruct (w <? nwaits c) eqn:Ew; [|discriminate Eg]. apply Nat.ltb_lt in Ew. injection Eg as <-. rewrite addBoth_eq. proj.
  rewrite E in *. inversion G as [|x y G1 G2]; subst x y.
  assert (GG : forall c', (forall j k, j <> i -> opens c' j k = opens c j k) -> opens c' i (nks c i) = true -> Forall (good_frame (upd S i (SWait (nks c i) w)) c') (FAdded i (nks c i) :: st)).
  { intros c'' Ho Ho2. constructor; [|apply (good_rest S c); auto; discriminate]. cbn. right. exists w. rewrite upd_same. auto. }
  set (d := waits c w) in *. destruct (value (cells c d)) as [o|] eqn:Ev.
  - constructor; proj; auto.
    + intros j. assert (X : count (frame_of j) (if busy (cells c d) then FAdded i (nks c i) :: st else FRun d :: FAdded i (nks c i) :: st) = count (frame_of j) (FAdded i (nks c i) :: st)) by (destruct (busy (cells c d)); [reflexivity|now rewrite count_cons]).
      rewrite X. specialize (F j). rewrite count_cons in *. cbn [frame_of] in *. isplit j i; [lia|]. rewrite F. reflexivity.
    + intros j e. assert (X : count (cb_of j) (queue (dupd (cells c) d (Cell (Some o) (queue (cells c d) ++ [CGot (nks c i) i w]) true) e)) =
        count (cb_of j) (queue (cells c e)) + if (i =? j) && did_eqb d e then 1 else 0).
      { dsplit e d; [rewrite count_app, andb_true_r; unfold count at 2; cbn; destruct (i =? j); reflexivity|]. rewrite (proj2 (did_eqb_neq d e)) by auto. rewrite andb_false_r. lia. }
      rewrite X. isplit j i; [rewrite T3; reflexivity|]. rewrite (proj2 (Nat.eqb_neq i j)) by auto. rewrite Q. cbn. lia.
    + intros k j v e Hi. assert (X : In (CGot k j v) (queue (cells c e)) \/ k = nks c i /\ j = i /\ v = w).
      { dsplit e d; [|auto]. apply in_app_or in Hi as [Hi|[Hi|[]]]; [auto|]. injection Hi as <- <- <-. auto. }
      destruct X as [X|(-> & -> & ->)]; [|now rewrite upd_same]. apply C in X. isplit j i; [congruence|exact X].
    + set (c'' := set_stack _ _). assert (X : Forall (good_frame (upd S i (SWait (nks c i) w)) c'') (FAdded i (nks c i) :: st)).
      { apply GG; [intros j k Hj; subst c''; proj; now rewrite upd_other|subst c''; proj; now rewrite !upd_same]. }
      destruct (busy (cells c d)); [exact X|constructor; [exact I|exact X]].
    + intros j. isplit j i; [|apply Fr]. split; [discriminate|lia].
    + intros j k v. isplit j i; [intros [= <- <-]; exact Ew|apply W].
    + intros j. rewrite !life_app. isplit j i; [rewrite T5; cbn; now rewrite Nat.eqb_refl|]. rewrite advance_other by auto. apply L.
    + intros j. rewrite !fired_app. cbn. rewrite !app_nil_r, Fi. isplit j i; [now rewrite T1|reflexivity].
    + intros j. rewrite !fired_app. cbn. rewrite !app_nil_r, <- V. destruct (did_dec (Own j) d) as [Hd|Hd]; [rewrite <- Hd, dupd_same, Hd, Ev; split; discriminate|now rewrite dupd_other].
    + intros e. specialize (B e). rewrite count_cons in B. cbn in B. dsplit e d.
      * destruct (busy (cells c d)); [rewrite count_cons; exact B|]. rewrite !count_cons, B. cbn. now rewrite did_eqb_refl.
      * rewrite <- B. destruct (busy (cells c d)); [now rewrite count_cons|]. rewrite !count_cons. cbn. rewrite (proj2 (did_eqb_neq d e)) by auto. reflexivity.
    + intros e. dsplit e d; [discriminate|apply B2].
    + intros e. dsplit e d; [discriminate|apply Id].
    + intros j Hj. assert (X : value (cells c (Bad j)) <> None) by (destruct (did_dec (Bad j) d) as [Hd|Hd]; [congruence|rewrite dupd_other in Hj; auto]). apply Bd in X. isplit j i; [congruence|exact X].
    + intros j. destruct (did_dec (Bad j) d) as [Hd|Hd]; [rewrite <- Hd, dupd_same; discriminate|rewrite dupd_other by exact Hd; auto].
    + intros v j Hw' Ew'. destruct (did_dec (Bad j) d) as [Hd|Hd]; [rewrite <- Hd, dupd_same; discriminate|rewrite dupd_other by exact Hd; eauto].
  - assert (Hnb : forall j, d <> Bad j). { intros j Hd. apply (M w j Ew); [exact Hd|congruence]. }
    assert (Hbz : busy (cells c d) = false) by (destruct (busy (cells c d)) eqn:Eb; [apply B2 in Eb; congruence|reflexivity]).
    constructor; proj; auto.
    + intros j. specialize (F j). rewrite count_cons in *. cbn [frame_of] in *. isplit j i; [lia|]. rewrite F. reflexivity.
    + intros j e. assert (X : count (cb_of j) (queue (dupd (cells c) d (Cell None (queue (cells c d) ++ [CGot (nks c i) i w]) (busy (cells c d))) e)) =
        count (cb_of j) (queue (cells c e)) + if (i =? j) && did_eqb d e then 1 else 0).
      { dsplit e d; [rewrite count_app, andb_true_r; unfold count at 2; cbn; destruct (i =? j); reflexivity|]. rewrite (proj2 (did_eqb_neq d e)) by auto. rewrite andb_false_r. lia. }
      rewrite X. isplit j i; [rewrite T3; reflexivity|]. rewrite (proj2 (Nat.eqb_neq i j)) by auto. rewrite Q. cbn. lia.
    + intros k j v e Hi. assert (X : In (CGot k j v) (queue (cells c e)) \/ k = nks c i /\ j = i /\ v = w).
      { dsplit e d; [|auto]. apply in_app_or in Hi as [Hi|[Hi|[]]]; [auto|]. injection Hi as <- <- <-. auto. }
      destruct X as [X|(-> & -> & ->)]; [|now rewrite upd_same]. apply C in X. isplit j i; [congruence|exact X].
    + apply GG; [intros j k Hj; proj; now rewrite upd_other|proj; now rewrite !upd_same].
    + intros j. isplit j i; [|apply Fr]. split; [discriminate|lia].
    + intros j k v. isplit j i; [intros [= <- <-]; exact Ew|apply W].
    + intros j. rewrite !life_app. isplit j i; [rewrite T5; cbn; now rewrite Nat.eqb_refl|]. rewrite advance_other by auto. apply L.
    + intros j. rewrite !fired_app. cbn. rewrite !app_nil_r, Fi. isplit j i; [now rewrite T1|reflexivity].
    + intros j. rewrite !fired_app. cbn. rewrite !app_nil_r, <- V. destruct (did_dec (Own j) d) as [Hd|Hd]; [rewrite <- Hd, dupd_same, Hd, Ev; split; reflexivity|now rewrite dupd_other].
    + intros e. specialize (B e). rewrite count_cons in *. cbn in *. rewrite B. dsplit e d; reflexivity.
    + intros e. dsplit e d; [|apply B2]. congruence.
    + intros e. dsplit e d; [congruence|apply Id].
    + intros j Hj. rewrite dupd_other in Hj by (intros Hd; apply (Hnb j); auto). apply Bd in Hj. isplit j i; [congruence|exact Hj].
    + intros j. rewrite dupd_other by (intros Hd; apply (Hnb j); auto). apply U.
    + intros v j. rewrite dupd_other by (intros Hd; apply (Hnb j); auto). apply M.
Qed.

Lemma inv_gen S c i r st a c' : Inv S c -> stack c = FNext i r :: st -> gen (set_stack c st) i r a = Some c' -> exists S', Inv S' c'.
Proof.
  intros H E Eg. destruct a as [o| |w|w| |e].
  - injection Eg as <-. eexists. exact (inv_yield S c i r st o H E).
  - injection Eg as <-. eexists. exact (inv_drop S c i r st (Bad i) H E).
  - eexists. eapply inv_yieldwait; eauto.
  - injection Eg as <-. exists S. exact (inv_get S c i r st w _ H E).
  - injection Eg as <-. eexists. eapply inv_end; eauto. cbn. now rewrite Nat.eqb_refl.
  - injection Eg as <-. eexists. eapply inv_end; eauto. cbn. now rewrite Nat.eqb_refl.
Qed.

(** ** events which concern no generator *)
Definition neutral (e : event) : Prop := (forall i p, advance i p e = p) /\ forall i, fired (Own i) [e] = [].

Lemma inv_say S c e : Inv S c -> neutral e -> Inv S (say c e).
Proof.
  intros [F Q C G Fr W L Fi V B B2 Id Bd U M] (N1 & N2). constructor; proj; auto.
  - intros i. rewrite life_app, N1. apply L.
  - intros i. rewrite fired_app, N2, app_nil_r. apply Fi.
  - intros i. rewrite fired_app, N2, app_nil_r. apply V.
Qed.

Lemma inv_ret S c d : Inv S c -> Inv S (set_ret c d).
Proof. intros [F Q C G Fr W L Fi V B B2 Id Bd U M]. constructor; proj; auto. Qed.

Lemma inv_result S c w o : Inv S c -> Inv S (set_result c w o).
Proof. intros [F Q C G Fr W L Fi V B B2 Id Bd U M]. constructor; proj; auto. Qed.

(** ** the loop of a Deferred: its cell and the top frame *)
Lemma inv_loop S c d fr fr' st o q (b : bool) : Inv S c -> stack c = fr :: st -> (forall e, runs_of e fr = did_eqb d e) -> (forall i, frame_of i fr = false) ->
  (forall i, count (cb_of i) q = count (cb_of i) (queue (cells c d))) -> (forall f, In f q -> In f (queue (cells c d))) ->
  (if b then exists x, fr' = [x] /\ (forall e, runs_of e x = did_eqb d e) /\ (forall i, frame_of i x = false) /\ good_frame S c x else fr' = [] /\ q = []) ->
  Inv S (set_stack (set_cells c (dupd (cells c) d (Cell (Some o) q b))) (fr' ++ st)).
Proof.
  intros [F Q C G Fr W L Fi V B B2 Id Bd U M] E H1 H2 Hq Hq2 Hb.
  assert (Hbz : busy (cells c d) = true). { specialize (B d). rewrite E, count_cons, H1, did_eqb_refl in B. destruct (busy (cells c d)); [reflexivity|discriminate B]. }
  assert (Hvz : value (cells c d) <> None) by auto.
  rewrite E in *. inversion G as [|x y G1 G2]; subst x y.
  assert (X1 : forall i, count (frame_of i) (fr' ++ st) = count (frame_of i) (fr :: st)).
  { intros i. rewrite count_cons, H2. destruct b; [destruct Hb as (x & -> & _ & Hx & _); cbn [app]; now rewrite count_cons, Hx|destruct Hb as (-> & _); reflexivity]. }
  constructor; proj; auto.
  - intros i. rewrite X1. apply F.
  - intros i e. dsplit e d; [rewrite Hq; apply Q|apply Q].
  - intros k i w e. dsplit e d; [|apply C]. intros Hi. apply (C k i w d). now apply Hq2.
  - assert (GG : Forall (good_frame S (set_stack (set_cells c (dupd (cells c) d (Cell (Some o) q b))) (fr' ++ st))) st) by (eapply good_ext; [exact G2|auto|auto]).
    destruct b; [destruct Hb as (x & -> & _ & Hx & Hg)|destruct Hb as (-> & _); exact GG]. cbn [app]. constructor; [|exact GG]. destruct x; auto.
  - intros i. rewrite <- V. destruct (did_dec (Own i) d) as [<-|Hn]; [rewrite dupd_same; cbn; split; [discriminate|congruence]|now rewrite dupd_other].
  - intros e. specialize (B e). rewrite count_cons, H1 in B. destruct (did_dec e d) as [->|Hn].
    + rewrite dupd_same. cbn [busy]. rewrite did_eqb_refl, Hbz in B. destruct b; [destruct Hb as (x & -> & Hx & _); cbn [app]; rewrite count_cons, Hx, did_eqb_refl; exact B|destruct Hb as (-> & _); cbn [app]; lia].
    + rewrite dupd_other by exact Hn. rewrite <- B. destruct b; [destruct Hb as (x & -> & Hx & _); cbn [app]; rewrite count_cons, Hx; reflexivity|destruct Hb as (-> & _)]. rewrite (proj2 (did_eqb_neq d e)) by auto. reflexivity.
  - intros e. dsplit e d; [discriminate|apply B2].
  - intros e. dsplit e d; [|apply Id]. destruct b; [discriminate|]. intros _ _. apply Hb.
  - intros i Hi. apply Bd. destruct (did_dec (Bad i) d) as [<-|Hn]; [exact Hvz|now rewrite dupd_other in Hi].
  - intros i. destruct (did_dec (Bad i) d) as [<-|Hn]; [rewrite dupd_same; discriminate|rewrite dupd_other by exact Hn; auto].
  - intros w i Hw Ew. destruct (did_dec (Bad i) d) as [<-|Hn]; [rewrite dupd_same; discriminate|rewrite dupd_other by exact Hn; eauto].
Qed.

(** gotResult is called *)
Lemma inv_got S c d st o k i w q : Inv S c -> stack c = FRun d :: st -> value (cells c d) = Some o -> queue (cells c d) = CGot k i w :: q ->
  Inv (upd S i (SRun None_)) (run (set_stack (set_cells c (dupd (cells c) d (Cell (Some o) q true))) st) d o (CGot k i w)).
Proof.
  intros [F Q C G Fr W L Fi V B B2 Id Bd U M] E Ev Eq.
  assert (Hs : S i = SWait k w) by (apply (C k i w d); rewrite Eq; now left).
  assert (Hd : waits c w = d). { specialize (Q i d). rewrite Eq, count_cons, Hs in Q. cbn in Q. rewrite Nat.eqb_refl in Q. destruct (did_eqb (waits c w) d) eqn:Ed; [now apply did_eqb_eq|discriminate Q]. }
  assert (Hi : i < ncalls c) by (destruct (Nat.lt_ge_cases i (ncalls c)) as [H|H]; [exact H|apply Fr in H; congruence]).
  assert (Hbz : busy (cells c d) = true). { specialize (B d). rewrite E, count_cons in B. cbn in B. rewrite did_eqb_refl in B. destruct (busy (cells c d)); [reflexivity|discriminate B]. }
  assert (Hq : count (cb_of i) q = 0). { specialize (Q i d). rewrite Eq, count_cons, Hs, Hd, did_eqb_refl in Q. cbn in Q. rewrite Nat.eqb_refl in Q. lia. }
  assert (QQ : forall x j e, count (cb_of j) (queue (dupd (cells c) d (Cell x q true) e)) = match upd S i (SRun None_) j with SWait _ w => if did_eqb (waits c w) e then 1 else 0 | _ => 0 end).
  { intros x j e. destruct (Nat.eq_dec j i) as [->|Hn].
    - rewrite upd_same. dsplit e d; [exact Hq|]. rewrite Q, Hs, Hd. rewrite (proj2 (did_eqb_neq d e)) by auto. reflexivity.
    - rewrite upd_other by exact Hn. rewrite <- Q. dsplit e d; [|reflexivity]. rewrite Eq, count_cons. cbn. rewrite (proj2 (Nat.eqb_neq i j)) by auto. reflexivity. }
  assert (CC : forall x k' j v e, In (CGot k' j v) (queue (dupd (cells c) d (Cell x q true) e)) -> upd S i (SRun None_) j = SWait k' v).
  { intros x k' j v e Hj. assert (Hj' : In (CGot k' j v) (queue (cells c e))) by (dsplit e d; [rewrite Eq; now right|exact Hj]).
    destruct (Nat.eq_dec j i) as [->|Hn]; [|rewrite upd_other by exact Hn; eauto]. exfalso.
    specialize (QQ x i e). rewrite upd_same in QQ. apply (count_0 _ _ _ QQ) in Hj. cbn in Hj. rewrite Nat.eqb_refl in Hj. discriminate. }
  assert (FF : forall j, upd S i (SRun None_) j = SFree <-> ncalls c <= j).
  { intros j. isplit j i; [split; [discriminate|lia]|apply Fr]. }
  assert (WW : forall j k' v, upd S i (SRun None_) j = SWait k' v -> v < nwaits c). { intros j k' v. isplit j i; [discriminate|apply W]. }
  assert (LL : forall j, life j (log c ++ [Got d i w o]) = Some (phase_of (upd S i (SRun None_) j))).
  { intros j. rewrite life_app, L. cbn. destruct (Nat.eq_dec j i) as [->|Hn]; [rewrite Nat.eqb_refl, upd_same, Hs; cbn; now rewrite Nat.eqb_refl|].
    rewrite (proj2 (Nat.eqb_neq i j)) by auto. now rewrite upd_other. }
  assert (FI : forall j, fired (Own j) (log c ++ [Got d i w o]) = match upd S i (SRun None_) j with SEnd o => [o] | _ => [] end).
  { intros j. rewrite fired_app. cbn. rewrite app_nil_r, Fi. isplit j i; [now rewrite Hs|reflexivity]. }
  assert (VV : forall x j, value (dupd (cells c) d (Cell (Some x) q true) (Own j)) = None <-> fired (Own j) (log c ++ [Got d i w o]) = []).
  { intros x j. rewrite fired_app. cbn. rewrite app_nil_r, <- V. destruct (did_dec (Own j) d) as [<-|Hn]; [rewrite dupd_same, Ev; split; discriminate|now rewrite dupd_other]. }
  assert (BB : forall x j, value (dupd (cells c) d (Cell (Some x) q true) (Bad j)) <> None -> upd S i (SRun None_) j = SDrop).
  { intros x j Hj. assert (Hj' : S j = SDrop) by (apply Bd; destruct (did_dec (Bad j) d) as [<-|Hn]; [congruence|now rewrite dupd_other in Hj]). isplit j i; [congruence|exact Hj']. }
  assert (UU : forall x j, value (dupd (cells c) d (Cell (Some x) q true) (Bad j)) = None -> queue (dupd (cells c) d (Cell (Some x) q true) (Bad j)) = []).
  { intros x j. destruct (did_dec (Bad j) d) as [<-|Hn]; [rewrite dupd_same; discriminate|rewrite dupd_other by exact Hn; auto]. }
  assert (MM : forall x v j, v < nwaits c -> waits c v = Bad j -> value (dupd (cells c) d (Cell (Some x) q true) (Bad j)) <> None).
  { intros x v j Hv' Ev'. destruct (did_dec (Bad j) d) as [<-|Hn]; [rewrite dupd_same; discriminate|rewrite dupd_other by exact Hn; eauto]. }
  assert (B2' : forall x e, busy (dupd (cells c) d (Cell (Some x) q true) e) = true -> value (dupd (cells c) d (Cell (Some x) q true) e) <> None).
  { intros x e. dsplit e d; [discriminate|apply B2]. }
  assert (Id' : forall x e, busy (dupd (cells c) d (Cell (Some x) q true) e) = false -> value (dupd (cells c) d (Cell (Some x) q true) e) <> None -> queue (dupd (cells c) d (Cell (Some x) q true) e) = []).
  { intros x e. dsplit e d; [discriminate|apply Id]. }
  assert (RR : forall x fr e, (forall z, runs_of z fr = did_eqb d z) -> count (runs_of e) (fr :: st) = if busy (dupd (cells c) d (Cell (Some x) q true) e) then 1 else 0).
  { intros x fr e Hfr. specialize (B e). rewrite E, count_cons in B. rewrite count_cons, Hfr. cbn [runs_of] in B. dsplit e d; [rewrite Hbz in B; exact B|exact B]. }
  rewrite E in *. inversion G as [|xx yy G1 G2]; subst xx yy. pose proof (F i) as Fi0. rewrite count_cons, Hs in Fi0. cbn in Fi0.
  cbn [run]. proj. destruct (opens c i k) eqn:Eo.
  - assert (DD : forall e, dupd (dupd (cells c) d (Cell (Some o) q true)) d (Cell (Some None_) (queue (dupd (cells c) d (Cell (Some o) q true) d)) true) e = dupd (cells c) d (Cell (Some None_) q true) e).
    { intros e. dsplit e d; reflexivity. }
    constructor; proj; auto; try (intros; rewrite ?DD in *; eauto; fail).
    + intros j. rewrite count_cons. cbn [frame_of]. specialize (F j). rewrite count_cons in F. cbn [frame_of] in F. isplit j i; [exact Fi0|]. exact F.
    + constructor; [exact I|]. rewrite Forall_forall in *. intros fr Hfr. specialize (G2 fr Hfr). destruct fr as [j r|j k'|j|j|e|e|e]; cbn in *; auto.
      * isplit j i; [congruence|exact G2].
      * isplit j i; [|exact G2]. left. split; [reflexivity|]. destruct G2 as [(X & _)|(v & X & Ho)]; [congruence|]. rewrite Hs in X. injection X as <- _. now rewrite upd_same.
      * isplit j i; [discriminate|exact G2].
      * isplit j i; [discriminate|exact G2].
  - constructor; proj; auto.
    + intros j. rewrite !count_cons. cbn [frame_of]. specialize (F j). rewrite count_cons in F. cbn [frame_of] in F. isplit j i; [lia|]. rewrite (proj2 (Nat.eqb_neq i j)) by auto. exact F.
    + intros k0 i0 w0 d0. apply CC.
    + constructor; [cbn; now rewrite upd_same|]. constructor; [exact I|]. apply (good_rest S c); auto; discriminate.
    + intros e. rewrite count_cons. cbn [runs_of]. apply RR. reflexivity.
    + intros j. apply BB.
    + intros v j. apply MM.
Qed.

(** after addBoth *)
Lemma inv_added S c i k st : Inv S c -> stack c = FAdded i k :: st ->
  (opens c i k = true -> Inv S (set_stack (set_open c i k false) st)) /\ (opens c i k = false -> Inv S (set_stack c (FNext i None_ :: st))).
Proof.
  intros [F Q C G Fr W L Fi V B B2 Id Bd U M] E. rewrite E in *. inversion G as [|xx yy G1 G2]; subst xx yy. cbn in G1. split; intros Eo.
  - destruct G1 as [(_ & X)|(w & Hs & _)]; [congruence|]. pose proof (F i) as Fi0. rewrite count_cons, Hs, Eo in Fi0. cbn in Fi0. rewrite Nat.eqb_refl in Fi0.
    constructor; proj; auto.
    + intros j. destruct (Nat.eq_dec j i) as [->|Hn]; [rewrite Hs, !upd_same; lia|]. rewrite upd_other by exact Hn. specialize (F j). rewrite count_cons in F. cbn in F. rewrite (proj2 (Nat.eqb_neq i j)) in F by auto. exact F.
    + eapply good_ext; [exact G2| |auto]. intros j fr Hi Hj. destruct (Nat.eq_dec j i) as [->|Hn]; [rewrite (count_0 (frame_of i) st fr ltac:(lia) Hi) in Hj; discriminate|]. split; [reflexivity|]. intros k'. proj. now rewrite upd_other.
  - destruct G1 as [(Hs & _)|(w & _ & X)]; [|congruence]. constructor; proj; auto.
    + intros j. specialize (F j). rewrite count_cons in *. exact F.
Qed.

Lemma inv_pop S c fr st : Inv S c -> stack c = fr :: st -> (forall i, frame_of i fr = false) -> (forall d, runs_of d fr = false) -> Inv S (set_stack c st).
Proof.
  intros [F Q C G Fr W L Fi V B B2 Id Bd U M] E H1 H2. rewrite E in *. inversion G as [|xx yy G1 G2]; subst xx yy. constructor; proj; auto.
  - intros i. specialize (F i). rewrite count_cons, H1 in F. exact F.
  - intros d. specialize (B d). rewrite count_cons, H2 in B. exact B.
Qed.

Lemma inv_step S c l c' : Inv S c -> step c l = Some c' -> exists S', Inv S' c'.
Proof.
  intros H Es. unfold step in Es. destruct (stack c) as [|fr st] eqn:E.
  - destruct l as [a|a|o|]; try discriminate Es. eapply inv_user; eauto.
  - destruct fr as [i r|i k|i|i|d|d|d]; destruct l as [a|a|o|]; try discriminate Es.
    + eapply inv_user; eauto.
    + eapply inv_gen; eauto.
    + destruct (inv_added S c i k st H E) as (X & Y). exists S. destruct (opens c i k) eqn:Eo; injection Es as <-; [apply inv_ret|]; auto.
    + injection Es as <-. exists S. apply inv_ret. apply (inv_pop S c (FReturn i)); auto.
    + injection Es as <-. exists S. apply inv_say; [apply (inv_pop S c (FCaller i)); auto|]. split; reflexivity.
    + destruct (value (cells c d)) as [o|] eqn:Ev; [|discriminate Es]. destruct (queue (cells c d)) as [|f q] eqn:Eq; injection Es as <-.
      * exists S. apply (inv_loop S c d (FRun d) [] st o [] false); auto; [now rewrite Eq|intros f []].
      * destruct f as [k i w|]; [eexists; eapply inv_got; eauto|]. exists S. cbn [run].
        apply (inv_say S (set_stack (set_cells c (dupd (cells c) d (Cell (Some o) q true))) ([FUser d] ++ st)) (Told d o)); [|split; reflexivity].
        apply (inv_loop S c d (FRun d) [FUser d] st o q true); auto; [now rewrite Eq|now rewrite Eq; right|].
        exists (FUser d). repeat split.
    + eapply inv_user; eauto.
    + injection Es as <-. exists S.
      apply (inv_say S (set_stack (set_cells c (dupd (cells c) d (Cell (Some o) (queue (cells c d)) true))) ([FRun d] ++ st)) (Answered d o)); [|split; reflexivity].
      apply (inv_loop S c d (FUser d) [FRun d] st o _ true); auto. exists (FRun d). repeat split.
    + injection Es as <-. exists S. apply (inv_loop S c d (FGot d) [FRun d] st None_ _ true); auto. exists (FRun d). repeat split.
Qed.

Lemma exec_app l1 l2 c : exec (l1 ++ l2) c = match exec l1 c with Some c' => exec l2 c' | None => None end.
Proof. revert c. induction l1 as [|l l1 IH]; intros c; cbn; [reflexivity|]. destruct (step c l); [apply IH|reflexivity]. Qed.

Lemma reach_ind (P : config -> Prop) : P init -> (forall c l c', reachable c -> P c -> step c l = Some c' -> P c') -> forall c, reachable c -> P c.
Proof.
  intros H0 Hs c (ls & E). revert c E. induction ls as [|l ls IH] using rev_ind; intros c E; [injection E as <-; exact H0|].
  rewrite exec_app in E. destruct (exec ls init) as [c'|] eqn:E'; [|discriminate E]. cbn in E. destruct (step c' l) as [c''|] eqn:Es; [|discriminate E]. injection E as <-.
  apply (Hs c' l); auto. now exists ls.
Qed.

Lemma inv_reach c : reachable c -> exists S, Inv S c.
Proof. intros H. revert c H. apply reach_ind; [eexists; exact inv_init|]. intros c l c' _ (S & HS) Es. eapply inv_step; eauto. Qed.

(** ** A Deferred has a result once it was fired *)
Lemma fired_say d c e : fired d (log (say c e)) = fired d (log c) ++ fired d [e].
Proof. proj. apply fired_app. Qed.

Definition valued (c : config) : Prop := forall d, value (cells c d) = None <-> fired d (log c) = [].

Lemma valued_fire c d o : valued c -> valued (fire c d o).
Proof.
  intros H e. unfold fire. proj. rewrite fired_app. cbn. destruct (did_dec e d) as [->|Hn].
  - rewrite dupd_same, did_eqb_refl. cbn. split; [discriminate|]. intros X. apply app_eq_nil in X as (_ & X). discriminate X.
  - rewrite dupd_other by exact Hn. rewrite (proj2 (did_eqb_neq d e)) by auto. cbn. rewrite app_nil_r. apply H.
Qed.

Lemma valued_set c c' d o q b : valued c -> value (cells c d) <> None -> (forall e, cells c' e = dupd (cells c) d (Cell (Some o) q b) e) ->
  (forall e, fired e (log c') = fired e (log c)) -> valued c'.
Proof.
  intros H Hv Ec El e. rewrite Ec, El, <- (H e). destruct (did_dec e d) as [->|Hn]; [rewrite dupd_same; cbn; split; [discriminate|congruence]|now rewrite dupd_other].
Qed.

Lemma valued_same c c' : valued c -> (forall e, value (cells c' e) = value (cells c e)) -> (forall e, fired e (log c') = fired e (log c)) -> valued c'.
Proof. intros H Ec El e. rewrite Ec, El. apply H. Qed.

Lemma valued_add c d f : valued c -> valued (addBoth c d f).
Proof.
  intros H. rewrite addBoth_eq. destruct (value (cells c d)) as [o|] eqn:Ev; (eapply valued_same; [exact H| |reflexivity]); intros e; proj; dsplit e d; try reflexivity; now rewrite Ev.
Qed.

Lemma valued_user c a c' : valued c -> user c a = Some c' -> valued c'.
Proof.
  intros H E. destruct a as [n o| |d|d]; cbn in E.
  - destruct (value (cells c (Src n))) eqn:Ev; injection E as <-; [exact H|now apply valued_fire].
  - injection E as <-. exact H.
  - destruct (known c d); [injection E as <-; exact H|discriminate].
  - destruct (known c d); [injection E as <-; now apply valued_add|discriminate].
Qed.

Lemma fired_quiet d l e : (forall o, e <> Fired d o) -> fired d (l ++ [e]) = fired d l.
Proof. intros H. rewrite fired_app. destruct e; cbn; rewrite ?app_nil_r; try reflexivity. destruct (did_eqb d0 d) eqn:E; [|now rewrite app_nil_r]. apply did_eqb_eq in E as ->. now destruct (H o). Qed.

Lemma valued_step c l c' : (exists S, Inv S c) -> valued c -> step c l = Some c' -> valued c'.
Proof.
  intros (S & HS) H Es. unfold step in Es. destruct (stack c) as [|fr st] eqn:E.
  - destruct l as [a|a|o|]; try discriminate Es. eapply valued_user; eauto.
  - destruct fr as [i r|i k|i|i|d|d|d]; destruct l as [a|a|o|]; try discriminate Es.
    + eapply valued_user; eauto.
    + assert (H' : valued (say (set_stack c st) (Acted i a))) by (eapply valued_same; [exact H|reflexivity|intros e; proj; apply fired_quiet; discriminate]).
      destruct a as [o| |w|w| |e]; cbn [gen] in Es.
      * injection Es as <-. exact H'.
      * injection Es as <-. intros e. proj. rewrite !fired_app. cbn. rewrite !app_nil_r. destruct (did_dec e (Bad i)) as [->|Hn].
        -- rewrite dupd_same, Nat.eqb_refl. cbn. split; [discriminate|]. intros X. apply app_eq_nil in X as (_ & X). discriminate X.
        -- rewrite dupd_other by exact Hn. assert (X : did_eqb (Bad i) e = false) by (apply did_eqb_neq; auto). cbn in X. rewrite X, app_nil_r. apply H.
      * destruct (w <? nwaits (set_stack c st)); [injection Es as <-|discriminate]. apply valued_add. exact H'.
      * injection Es as <-. eapply valued_same; [exact H|reflexivity|intros e; proj; apply fired_quiet; discriminate].
      * injection Es as <-. now apply valued_fire.
      * injection Es as <-. now apply valued_fire.
    + destruct (opens c i k); injection Es as <-; exact H.
    + injection Es as <-. exact H.
    + injection Es as <-. eapply valued_same; [exact H|reflexivity|intros e; proj; apply fired_quiet; discriminate].
    + destruct (value (cells c d)) as [o|] eqn:Ev; [|discriminate Es]. destruct (queue (cells c d)) as [|f q] eqn:Eq; injection Es as <-.
      * eapply (valued_set c _ d o [] false); [exact H|congruence|reflexivity|reflexivity].
      * destruct f as [k i w|]; cbn [run]; proj.
        -- destruct (opens c i k).
           ++ eapply (valued_set c _ d None_ q true); [exact H|congruence| |intros e; proj; apply fired_quiet; discriminate]. intros e. proj. dsplit e d; reflexivity.
           ++ eapply (valued_set c _ d o q true); [exact H|congruence|reflexivity|intros e; proj; apply fired_quiet; discriminate].
        -- eapply (valued_set c _ d o q true); [exact H|congruence|reflexivity|intros e; proj; apply fired_quiet; discriminate].
    + eapply valued_user; eauto.
    + injection Es as <-. assert (Hv : value (cells c d) <> None). { apply (I_busy2 _ _ HS). pose proof (I_busy _ _ HS d) as X. rewrite E, count_cons in X. cbn in X. rewrite did_eqb_refl in X. destruct (busy (cells c d)); [reflexivity|discriminate X]. }
      eapply (valued_set c _ d o _ true); [exact H|exact Hv|reflexivity|intros e; proj; apply fired_quiet; discriminate].
    + injection Es as <-. assert (Hv : value (cells c d) <> None). { apply (I_busy2 _ _ HS). pose proof (I_busy _ _ HS d) as X. rewrite E, count_cons in X. cbn in X. rewrite did_eqb_refl in X. destruct (busy (cells c d)); [reflexivity|discriminate X]. }
      eapply (valued_set c _ d None_ _ true); [exact H|exact Hv|reflexivity|reflexivity].
Qed.

Lemma valued_reach c : reachable c -> valued c.
Proof.
  intros H. revert c H. apply reach_ind; [intros d; split; reflexivity|]. intros c l c' Hr HS Es. eapply valued_step; eauto. now apply inv_reach.
Qed.

(** ** What happens to a call *)
Theorem call_life c i : reachable c -> exists p, life i (log c) = Some p /\ fired (Own i) (log c) = match p with Ended o => [o] | _ => [] end.
Proof.
  intros H. destruct (inv_reach c H) as (S & HS). exists (phase_of (S i)). split; [apply (I_life _ _ HS)|]. rewrite (I_fired _ _ HS). now destruct (S i).
Qed.

Theorem call_quiet c i w : reachable c -> stack c = [] -> life i (log c) = Some (Waits w) -> fired (waits c w) (log c) = [].
Proof.
  intros H Es Hl. destruct (inv_reach c H) as (S & HS). rewrite (I_life _ _ HS) in Hl. destruct (S i) as [r|k v|o| |] eqn:E; try discriminate Hl. injection Hl as ->.
  apply (valued_reach c H). destruct (value (cells c (waits c w))) eqn:Ev; [|reflexivity]. exfalso.
  assert (Hb : busy (cells c (waits c w)) = false). { pose proof (I_busy _ _ HS (waits c w)) as X. rewrite Es in X. cbn in X. destruct (busy (cells c (waits c w))); [discriminate X|reflexivity]. }
  pose proof (I_queue _ _ HS i (waits c w)) as X. rewrite E, did_eqb_refl in X. rewrite (I_idle _ _ HS _ Hb) in X by congruence. discriminate X.
Qed.

Theorem call_idle c i r : reachable c -> stack c = [] -> i < ncalls c -> life i (log c) <> Some (Runs r).
Proof.
  intros H Es Hi Hl. destruct (inv_reach c H) as (S & HS). rewrite (I_life _ _ HS) in Hl. destruct (S i) eqn:E; try discriminate Hl.
  - pose proof (I_frames _ _ HS i) as X. rewrite Es, E in X. discriminate X.
  - apply (I_free _ _ HS) in E. lia.
Qed.

(** ** What a call returns *)
Definition above (j : nat) (x : frame) : Prop := match x with FNext i _ => i = j | FAdded i _ => i = j | FReturn i => i = j | _ => False end.
Fixpoint shape (st : list frame) : Prop :=
  match st with [] => True | x :: t => match t with FCaller j :: _ => above j x | _ => True end /\ shape t end.
Definition not_caller (x : frame) : Prop := match x with FCaller _ => False | _ => True end.

Lemma shape_top x y st : shape (x :: st) -> (forall j, above j x -> above j y) -> shape (y :: st).
Proof. cbn. intros (H & H2) Ha. split; [|exact H2]. destruct st as [|[]]; auto. Qed.
Lemma shape_push x y st : shape (y :: st) -> not_caller y -> shape (x :: y :: st).
Proof. intros H Hy. cbn in *. destruct y; (split; [exact I || destruct Hy|exact H]). Qed.
Lemma shape_pop x st : shape (x :: st) -> shape st.
Proof. intros (_ & H). exact H. Qed.
Lemma shape_under x st j st' : shape (x :: st) -> st = FCaller j :: st' -> above j x.
Proof. intros (H & _) ->. exact H. Qed.

Definition gives (l : list event) (i : nat) (d : did) : Prop := d = Own i \/ d = Bad i /\ life i l = Some Dropped.

Record Rets (c : config) : Prop := {
  R_shape : shape (stack c);
  R_top : match stack c with FCaller j :: _ => gives (log c) j (ret c) | _ => True end;
  R_said : forall i d, In (Returned i d) (log c) -> gives (log c) i d
}.

Lemma life_none i l : fold_left (advance i) l None = None.
Proof. induction l as [|e l IH]; [reflexivity|]. cbn. destruct e as [j a|d j w o| | | | |j w r]; cbn; try exact IH; destruct (j =? i); exact IH. Qed.

Lemma life_drop i l : fold_left (advance i) l (Some Dropped) <> None -> fold_left (advance i) l (Some Dropped) = Some Dropped.
Proof.
  induction l as [|e l IH]; [reflexivity|]. cbn. destruct e as [j a|d j w o| | | | |j w r]; cbn; try exact IH; destruct (j =? i); try exact IH; rewrite life_none; congruence.
Qed.

Lemma gives_more l es i d : life i (l ++ es) <> None -> gives l i d -> gives (l ++ es) i d.
Proof.
  intros Hn [->|(-> & Hl)]; [now left|right]. split; [reflexivity|]. unfold life in *. rewrite fold_left_app in *. rewrite Hl in *. now apply life_drop.
Qed.

(** a step which returns nothing *)
Lemma rets_mk c c' es : Rets c -> (exists S, Inv S c') -> log c' = log c ++ es -> (forall i d, In (Returned i d) es -> gives (log c') i d) ->
  shape (stack c') -> (match stack c' with FCaller j :: _ => gives (log c') j (ret c') | _ => True end) -> Rets c'.
Proof.
  intros [A B C] (S & HS) El Hes Hsh Ht. constructor; auto. intros i d Hi. rewrite El in Hi. apply in_app_or in Hi as [Hi|Hi]; [|auto].
  rewrite El. apply gives_more; [|auto]. rewrite <- El, (I_life _ _ HS). discriminate.
Qed.

Lemma add_stack c d f : exists fr, stack (addBoth c d f) = fr ++ stack c /\ (fr = [] \/ fr = [FRun d]) /\ log (addBoth c d f) = log c.
Proof. rewrite addBoth_eq. destruct (value (cells c d)); proj; [destruct (busy (cells c d))|]; [exists []|exists [FRun d]|exists []]; auto. Qed.

Definition free_top (st : list frame) : Prop := match st with FCaller _ :: _ => False | _ => True end.

Lemma shape_on x st : shape st -> free_top st -> shape (x :: st).
Proof. intros H Hf. split; [|exact H]. destruct st as [|[]]; auto; destruct Hf. Qed.

Lemma top_free c : free_top (stack c) -> match stack c with FCaller j :: _ => gives (log c) j (ret c) | _ => True end.
Proof. destruct (stack c) as [|[]]; auto; intros []. Qed.

Lemma rets_user c a c' : Rets c -> (exists S, Inv S c') -> free_top (stack c) -> user c a = Some c' -> Rets c'.
Proof.
  intros R HS Hf E. pose proof (R_shape _ R) as Sh. destruct a as [n o| |d|d]; cbn in E.
  - destruct (value (cells c (Src n))); injection E as <-; [exact R|]. eapply (rets_mk c); [exact R|exact HS|reflexivity| | |].
    + intros i d [Hi|[]]. discriminate Hi.
    + now apply shape_on.
    + exact I.
  - injection E as <-. apply (rets_mk c _ [] R HS); [now rewrite app_nil_r|intros i d []| |exact I].
    split; [reflexivity|]. now apply shape_on.
  - destruct (known c d); [injection E as <-|discriminate]. apply (rets_mk c _ [] R HS); [now rewrite app_nil_r|intros i e []|exact Sh|]. now apply top_free.
  - destruct (known c d); [injection E as <-|discriminate]. destruct (add_stack c d CUser) as (fr & E1 & E2 & E3). apply (rets_mk c _ [] R HS); [now rewrite app_nil_r|intros i e []| |].
    + rewrite E1. destruct E2 as [->| ->]; [exact Sh|]. now apply shape_on.
    + apply top_free. rewrite E1. destruct E2 as [->| ->]; [exact Hf|exact I].
Qed.

Lemma rets_step c l c' : (exists S, Inv S c') -> Rets c -> step c l = Some c' -> Rets c'.
Proof.
  intros HS R Es. pose proof (R_shape _ R) as Sh. unfold step in Es. destruct (stack c) as [|fr st] eqn:E.
  - destruct l as [a|a|o|]; try discriminate Es. eapply rets_user; eauto. now rewrite E.
  - destruct fr as [i r|i k|i|i|d|d|d]; destruct l as [a|a|o|]; try discriminate Es.
    + eapply rets_user; eauto. now rewrite E.
    + destruct a as [o| |w|w| |e]; cbn [gen] in Es.
      * injection Es as <-. eapply (rets_mk c); [exact R|exact HS|reflexivity|intros j d [Hi|[]]; discriminate Hi| |exact I]. now apply (shape_top (FNext i r)).
      * injection Es as <-. eapply (rets_mk c); [exact R|exact HS|proj; now rewrite <- app_assoc|intros j d [Hi|[Hi|[]]]; discriminate Hi|now apply (shape_pop (FNext i r))|].
        proj. destruct st as [|[]]; auto. cbn in Sh. destruct Sh as (<- & _). right. split; [reflexivity|]. destruct HS as (S & HS). pose proof (I_life _ _ HS i) as X. proj. rewrite X. f_equal.
        rewrite !life_app in X. cbn in X. rewrite Nat.eqb_refl in X. destruct (life i (log c)) as [[]|]; congruence.
      * destruct (w <? nwaits (set_stack c st)); [injection Es as <-|discriminate]. match goal with |- Rets (addBoth ?x ?d ?f) => destruct (add_stack x d f) as (fr & E1 & E2 & E3) end.
        eapply (rets_mk c); [exact R|exact HS|rewrite E3; reflexivity|intros j d [Hi|[]]; discriminate Hi| |].
        -- rewrite E1. proj. assert (X : shape (FAdded i (nks c i) :: st)) by now apply (shape_top (FNext i r)). destruct E2 as [->| ->]; [exact X|now apply shape_on].
        -- apply top_free. rewrite E1. destruct E2 as [->| ->]; exact I.
      * injection Es as <-. eapply (rets_mk c); [exact R|exact HS|reflexivity|intros j d [Hi|[]]; discriminate Hi| |exact I]. now apply (shape_top (FNext i r)).
      * injection Es as <-. eapply (rets_mk c); [exact R|exact HS|proj; now rewrite <- app_assoc|intros j d [Hi|[Hi|[]]]; discriminate Hi| |exact I]. proj. apply shape_on; [now apply (shape_top (FNext i r))|exact I].
      * injection Es as <-. eapply (rets_mk c); [exact R|exact HS|proj; now rewrite <- app_assoc|intros j d [Hi|[Hi|[]]]; discriminate Hi| |exact I]. proj. apply shape_on; [now apply (shape_top (FNext i r))|exact I].
    + destruct (opens c i k); injection Es as <-; (apply (rets_mk c _ [] R HS); [proj; now rewrite app_nil_r|intros j e []| |]).
      * now apply (shape_pop (FAdded i k)).
      * proj. destruct st as [|[]]; auto. destruct Sh as (<- & _). now left.
      * now apply (shape_top (FAdded i k)).
      * exact I.
    + injection Es as <-. apply (rets_mk c _ [] R HS); [proj; now rewrite app_nil_r|intros j e []|now apply (shape_pop (FReturn i))|].
      proj. destruct st as [|[]]; auto. destruct Sh as (<- & _). now left.
    + injection Es as <-. pose proof (R_top _ R) as Ht. rewrite E in Ht. eapply (rets_mk c); [exact R|exact HS|reflexivity| |now apply (shape_pop (FCaller i))|].
      * intros j d [[= <- <-]|[]]. proj. apply gives_more; [|exact Ht]. destruct HS as (S & HS). pose proof (I_life _ _ HS i) as X. proj. rewrite X. discriminate.
      * proj. destruct st as [|[]]; auto. destruct Sh as ([] & _).
    + destruct (value (cells c d)) as [o|] eqn:Ev; [|discriminate Es]. destruct (queue (cells c d)) as [|f q] eqn:Eq; injection Es as <-.
      * apply (rets_mk c _ [] R HS); [proj; now rewrite app_nil_r|intros j e []|now apply (shape_pop (FRun d))|]. proj. destruct st as [|[]]; auto. destruct Sh as ([] & _).
      * destruct f as [k i w|]; cbn [run] in *; proj.
        -- destruct (opens c i k).
           ++ eapply (rets_mk c); [exact R|exact HS|reflexivity|intros j e [Hi|[]]; discriminate Hi|exact Sh|exact I].
           ++ eapply (rets_mk c); [exact R|exact HS|reflexivity|intros j e [Hi|[]]; discriminate Hi| |exact I]. proj. apply shape_on; [|exact I]. now apply (shape_top (FRun d)).
        -- eapply (rets_mk c); [exact R|exact HS|reflexivity|intros j e [Hi|[]]; discriminate Hi| |exact I]. proj. now apply (shape_top (FRun d)).
    + eapply rets_user; eauto. now rewrite E.
    + injection Es as <-. eapply (rets_mk c); [exact R|exact HS|reflexivity|intros j e [Hi|[]]; discriminate Hi| |exact I]. proj. now apply (shape_top (FUser d)).
    + injection Es as <-. apply (rets_mk c _ [] R HS); [proj; now rewrite app_nil_r|intros j e []| |exact I]. proj. now apply (shape_top (FGot d)).
Qed.

Lemma rets_reach c : reachable c -> Rets c.
Proof.
  intros H. revert c H. apply reach_ind; [constructor; cbn; auto; intros i d []|]. intros c l c' (ls & Hr) HS Es. eapply rets_step; eauto. apply inv_reach.
  exists (ls ++ [l]). rewrite exec_app, Hr. cbn. now rewrite Es.
Qed.

(** ** Results of waits *)

(** the last result which some gotResult had for w *)
Definition last_got (w : nat) (l : list event) : option outcome :=
  fold_left (fun p e => match e with Got _ _ v o => if v =? w then Some o else p | _ => p end) l None.

Lemma last_got_app w l e : last_got w (l ++ [e]) = match e with Got _ _ v o => if v =? w then Some o else last_got w l | _ => last_got w l end.
Proof. unfold last_got. rewrite fold_left_app. reflexivity. Qed.

Definition reads_ok (l : list event) : Prop :=
  forall a i w r b, l = a ++ Read i w r :: b ->
    r = match last_got w a with None => None | Some (Val v) => Some (Ok v) | Some (Failed e) => Some (Err e) end.

(** d, told by the history *)
Definition current (d : did) (l : list event) : option outcome :=
  fold_left (fun p e => match e with
    | Fired x o => if did_eqb x d then Some o else p
    | Answered x o => if did_eqb x d then Some o else p
    | Got x _ _ _ => if did_eqb x d then Some None_ else p
    | _ => p end) l None.

Lemma current_app d l e : current d (l ++ [e]) = match e with
    | Fired x o => if did_eqb x d then Some o else current d l
    | Answered x o => if did_eqb x d then Some o else current d l
    | Got x _ _ _ => if did_eqb x d then Some None_ else current d l
    | _ => current d l end.
Proof. unfold current. rewrite fold_left_app. reflexivity. Qed.

Definition isgot (d : did) (x : frame) : bool := match x with FGot e => did_eqb e d | _ => false end.
Definition plain (x : frame) : Prop := match x with FGot _ => False | _ => True end.

(** what each event must say, given the events before it *)
Definition event_ok (c : config) (a : list event) (e : event) : Prop :=
  match e with
  | Got d i w o => current d a = Some o /\ w < nwaits c /\ waits c w = d
  | Told d o => current d a = Some o
  | Read i w r => r = match last_got w a with None => None | Some (Val v) => Some (Ok v) | Some (Failed e) => Some (Err e) end
  | _ => True
  end.

Record Heard (c : config) : Prop := {
  H_val : forall d, if existsb (isgot d) (stack c) then current d (log c) = Some None_ else value (cells c d) = current d (log c);
  H_res : forall w, results c w = last_got w (log c);
  H_log : forall a e b, log c = a ++ e :: b -> event_ok c a e
}.

Lemma event_keep c c' a e : (forall w, w < nwaits c -> waits c' w = waits c w) -> nwaits c <= nwaits c' -> event_ok c a e -> event_ok c' a e.
Proof. intros Hw Hn. destruct e; auto. cbn. intros (A & B & C). split; [exact A|]. split; [lia|]. now rewrite Hw. Qed.

Lemma snoc_split {A} (l : list A) x a e b : l ++ [x] = a ++ e :: b -> (b = [] /\ l = a /\ x = e) \/ exists b', b = b' ++ [x] /\ l = a ++ e :: b'.
Proof.
  intros H. destruct b as [|y b] using rev_ind; [left; apply app_inj_tail in H as (-> & ->); auto|right].
  exists b. rewrite app_comm_cons, app_assoc in H. apply app_inj_tail in H as (-> & ->). auto.
Qed.

Lemma heard_log c c' e : (forall a e b, log c = a ++ e :: b -> event_ok c a e) -> (forall w, w < nwaits c -> waits c' w = waits c w) -> nwaits c <= nwaits c' ->
  log c' = log c ++ [e] -> event_ok c' (log c) e -> forall a e b, log c' = a ++ e :: b -> event_ok c' a e.
Proof.
  intros H Hw Hn El He a x b E. rewrite El in E. apply snoc_split in E as [(-> & <- & <-)|(b' & -> & E)]; [exact He|]. eapply event_keep; eauto.
Qed.

Lemma heard_log0 c c' : (forall a e b, log c = a ++ e :: b -> event_ok c a e) -> (forall w, w < nwaits c -> waits c' w = waits c w) -> nwaits c <= nwaits c' ->
  log c' = log c -> forall a e b, log c' = a ++ e :: b -> event_ok c' a e.
Proof. intros H Hw Hn El a x b E. rewrite El in E. eapply event_keep; eauto. Qed.

Lemma heard_say c e : Heard c -> (forall d, current d (log c ++ [e]) = current d (log c)) -> (forall w, last_got w (log c ++ [e]) = last_got w (log c)) -> event_ok c (log c) e -> Heard (say c e).
Proof.
  intros [A B C] Hc Hl He. constructor; [proj|proj|].
  - intros d. rewrite Hc. apply A.
  - intros w. rewrite Hl. apply B.
  - apply (heard_log c _ e); auto.
Qed.

Lemma heard_stack c st : Heard c -> (forall d, existsb (isgot d) st = existsb (isgot d) (stack c)) -> Heard (set_stack c st).
Proof. intros [A B C] Hs. constructor; proj; auto. intros d. rewrite Hs. apply A. Qed.

Lemma heard_push c fr : Heard c -> plain fr -> Heard (push c fr).
Proof. intros H Hp. apply heard_stack; [exact H|]. intros d. destruct fr; auto; destruct Hp. Qed.

(** d is set to o, and the history says so; nobody is in gotResult for d *)
Lemma heard_fire c d o : Heard c -> existsb (isgot d) (stack c) = false -> Heard (fire c d o).
Proof.
  intros [A B C] Hg. unfold fire. constructor; [proj|proj|].
  - intros e. rewrite current_app. cbn [existsb isgot orb]. specialize (A e). destruct (did_dec d e) as [<-|Hn].
    + rewrite Hg, dupd_same, did_eqb_refl. reflexivity.
    + rewrite dupd_other by auto. rewrite (proj2 (did_eqb_neq d e)) by exact Hn. exact A.
  - intros w. rewrite last_got_app. apply B.
  - apply (heard_log c _ (Fired d o)); auto. exact I.
Qed.

Lemma heard_add c d f : Heard c -> Heard (addBoth c d f).
Proof.
  intros H. rewrite addBoth_eq. destruct (value (cells c d)) as [o|] eqn:Ev.
  - apply heard_stack; [|intros e; destruct (busy (cells c d)); reflexivity]. destruct H as [A B C]. constructor; proj; auto. intros e. specialize (A e). dsplit e d; [|exact A]. rewrite <- Ev. exact A.
  - destruct H as [A B C]. constructor; proj; auto. intros e. specialize (A e). dsplit e d; [|exact A]. rewrite <- Ev. exact A.
Qed.

Lemma no_got S c d : Inv S c -> value (cells c d) = None -> existsb (isgot d) (stack c) = false.
Proof.
  intros H Hv. destruct (existsb (isgot d) (stack c)) eqn:E; [|reflexivity]. exfalso. apply existsb_exists in E as (x & Hx & Hg).
  assert (Hc : count (runs_of d) (stack c) <> 0). { intros Z. apply (count_0 _ _ x Z) in Hx. destruct x; try discriminate Hg. cbn in *. congruence. }
  rewrite (I_busy _ _ H) in Hc. destruct (busy (cells c d)) eqn:Eb; [|auto]. now apply (I_busy2 _ _ H) in Eb.
Qed.

Lemma top_no_got S c d fr st : Inv S c -> stack c = fr :: st -> runs_of d fr = true -> existsb (isgot d) st = false.
Proof.
  intros H E Hr. destruct (existsb (isgot d) st) eqn:Ex; [|reflexivity]. exfalso. apply existsb_exists in Ex as (x & Hx & Hg).
  assert (Hc : count (runs_of d) st <> 0). { intros Z. apply (count_0 _ _ x Z) in Hx. destruct x; try discriminate Hg. cbn in *. congruence. }
  pose proof (I_busy _ _ H d) as X. rewrite E, count_cons, Hr in X. destruct (busy (cells c d)); lia.
Qed.

Lemma heard_user S c a c' : Inv S c -> Heard c -> user c a = Some c' -> Heard c'.
Proof.
  intros HS H E. destruct a as [n o| |d|d]; cbn in E.
  - destruct (value (cells c (Src n))) eqn:Ev; injection E as <-; [exact H|]. apply heard_fire; [exact H|]. eapply no_got; eauto.
  - injection E as <-. apply heard_push; [|exact I]. apply heard_push; [|exact I]. destruct H as [A B C]. constructor; proj; auto.
  - destruct (known c d); [injection E as <-|discriminate]. destruct H as [A B C]. constructor; [proj; auto|proj; auto|]. apply (heard_log0 c); auto; proj; [|lia]. intros w Hw. apply upd_other. lia.
  - destruct (known c d); [injection E as <-|discriminate]. now apply heard_add.
Qed.

Lemma heard_step S c l c' : Inv S c -> Heard c -> step c l = Some c' -> Heard c'.
Proof.
  intros HS H Es. unfold step in Es. destruct (stack c) as [|fr st] eqn:E.
  - destruct l as [a|a|o|]; try discriminate Es. eapply heard_user; eauto.
  - assert (Pop : (forall d, isgot d fr = false) -> Heard (set_stack c st)). { intros Hp. apply heard_stack; [exact H|]. intros d. rewrite E. cbn. now rewrite Hp. }
    assert (Say : forall x e, Heard x -> match e with Acted _ _ => True | Returned _ _ => True | _ => False end -> Heard (say x e)).
    { intros x e Hx He. apply heard_say; [exact Hx| | |]; destruct e; try destruct He; intros; try (rewrite current_app; reflexivity); try (rewrite last_got_app; reflexivity); exact I. }
    destruct fr as [i r|i k|i|i|d|d|d]; destruct l as [a|a|o|]; try discriminate Es.
    + eapply heard_user; eauto.
    + specialize (Pop (fun _ => eq_refl)). destruct (top_next _ _ _ _ _ HS E) as (T1 & _). pose proof (Say _ (Acted i a) Pop I) as HA.
      assert (Nown : existsb (isgot (Own i)) st = false). { pose proof (no_got S c (Own i) HS) as X. rewrite E in X. cbn in X. apply X. apply (I_value _ _ HS). rewrite (I_fired _ _ HS), T1. reflexivity. }
      destruct a as [o| |w|w| |e]; cbn [gen] in Es.
      * injection Es as <-. now apply heard_push.
      * injection Es as <-. assert (Hv : value (cells c (Bad i)) = None) by (destruct (value (cells c (Bad i))) eqn:Ev; [|reflexivity]; assert (X : S i = SDrop) by (apply (I_bad _ _ HS); congruence); congruence).
        pose proof (no_got S c _ HS Hv) as X. rewrite E in X. cbn in X.
        destruct HA as [A B C]. constructor; [proj|proj|].
        -- intros e. rewrite current_app. specialize (A e). destruct (did_dec (Bad i) e) as [<-|Hn].
           ++ rewrite X, dupd_same, did_eqb_refl. reflexivity.
           ++ rewrite dupd_other by auto. rewrite (proj2 (did_eqb_neq _ _)) by exact Hn. exact A.
        -- intros w. rewrite last_got_app. apply B.
        -- apply (heard_log (say (set_stack c st) (Acted i GYieldDeferred)) _ (Fired (Bad i) (Failed TypeError))); auto. exact I.
      * destruct (w <? nwaits (set_stack c st)); [injection Es as <-|discriminate]. apply heard_add. apply heard_push; [|exact I]. destruct HA as [A B C]. constructor; proj; auto.
      * injection Es as <-. apply heard_push; [|exact I]. apply heard_say; [exact Pop|intros; now rewrite current_app|intros; now rewrite last_got_app|]. cbn. unfold getResult. cbn. now rewrite (H_res _ H).
      * injection Es as <-. apply heard_fire; [now apply heard_push|exact Nown].
      * injection Es as <-. apply heard_fire; [now apply heard_push|exact Nown].
    + specialize (Pop (fun _ => eq_refl)). destruct (opens c i k); injection Es as <-.
      * destruct Pop as [A B C]. constructor; proj; auto.
      * apply (heard_push (set_stack c st)); auto. exact I.
    + specialize (Pop (fun _ => eq_refl)). injection Es as <-. destruct Pop as [A B C]. constructor; proj; auto.
    + injection Es as <-. apply Say; [|exact I]. now apply Pop.
    + specialize (Pop (fun _ => eq_refl)). assert (Ng : existsb (isgot d) st = false) by (apply (top_no_got S c d _ _ HS E); cbn; apply did_eqb_refl).
      pose proof (H_val _ H d) as Cu. rewrite E in Cu. cbn in Cu. rewrite Ng in Cu.
      destruct (value (cells c d)) as [o|] eqn:Ev; [|discriminate Es]. destruct (queue (cells c d)) as [|f q] eqn:Eq; injection Es as <-.
      * destruct Pop as [A B C]. constructor; proj; auto. intros e. specialize (A e). dsplit e d; [|exact A]. rewrite Ng. exact Cu.
      * assert (P1 : Heard (set_stack (set_cells c (dupd (cells c) d (Cell (Some o) q true))) st)).
        { destruct Pop as [A B C]. constructor; proj; auto. intros e. specialize (A e). dsplit e d; [|exact A]. rewrite Ng. exact Cu. }
        destruct f as [k i w|]; cbn [run]; proj.
        -- assert (Hs : S i = SWait k w) by (apply (I_cb _ _ HS k i w d); rewrite Eq; now left).
           assert (Hd : waits c w = d). { pose proof (I_queue _ _ HS i d) as Q. rewrite Eq, count_cons, Hs in Q. cbn in Q. rewrite Nat.eqb_refl in Q. destruct (did_eqb (waits c w) d) eqn:Ed; [now apply did_eqb_eq|discriminate Q]. }
           assert (Hw : w < nwaits c) by now apply (I_wait _ _ HS i k).
           destruct P1 as [A B C]. proj.
           assert (XR : forall v, upd (results c) w (Some o) v = last_got v (log c ++ [Got d i w o])).
           { intros v. rewrite last_got_app. destruct (Nat.eq_dec v w) as [->|Hn]; [now rewrite upd_same, Nat.eqb_refl|]. rewrite upd_other by exact Hn. rewrite (proj2 (Nat.eqb_neq w v)) by auto. apply B. }
           assert (XE : event_ok c (log c) (Got d i w o)) by (cbn; auto).
           destruct (opens c i k); (constructor; [proj|exact XR|apply (heard_log c _ (Got d i w o)); auto; exact (H_log _ H)]).
           ++ intros e. cbn [existsb isgot orb]. rewrite current_app. specialize (A e). destruct (did_dec d e) as [<-|Hn].
              ** rewrite Ng, dupd_same, did_eqb_refl. reflexivity.
              ** rewrite dupd_other by auto. rewrite (proj2 (did_eqb_neq d e)) by exact Hn. exact A.
           ++ intros e. cbn [existsb isgot orb]. rewrite current_app. specialize (A e). destruct (did_dec d e) as [<-|Hn].
              ** rewrite did_eqb_refl. reflexivity.
              ** rewrite (proj2 (did_eqb_neq d e)) by exact Hn. exact A.
        -- apply heard_push; [|exact I]. apply heard_say; [exact P1|intros; now rewrite current_app|intros; now rewrite last_got_app|]. symmetry. exact Cu.
    + eapply heard_user; eauto.
    + specialize (Pop (fun _ => eq_refl)). assert (Ng : existsb (isgot d) st = false) by (apply (top_no_got S c d _ _ HS E); cbn; apply did_eqb_refl).
      injection Es as <-. destruct Pop as [A B C]. constructor; [proj|proj|].
      * intros e. cbn [existsb isgot orb]. rewrite current_app. specialize (A e). destruct (did_dec d e) as [<-|Hn].
        -- rewrite Ng, dupd_same, did_eqb_refl. reflexivity.
        -- rewrite dupd_other by auto. rewrite (proj2 (did_eqb_neq d e)) by exact Hn. exact A.
      * intros w. rewrite last_got_app. apply B.
      * apply (heard_log c _ (Answered d o)); auto. exact I.
    + assert (Ng : existsb (isgot d) st = false) by (apply (top_no_got S c d _ _ HS E); cbn; apply did_eqb_refl).
      injection Es as <-. destruct H as [A B C]. constructor; proj; auto.
      intros e. specialize (A e). rewrite E in A. cbn [existsb isgot orb] in *. destruct (did_dec d e) as [<-|Hn].
      * rewrite did_eqb_refl in A. cbn in A. rewrite Ng, dupd_same. cbn. now rewrite A.
      * rewrite dupd_other by auto. rewrite (proj2 (did_eqb_neq d e)) in A by exact Hn. exact A.
Qed.

Lemma heard_reach c : reachable c -> Heard c.
Proof.
  intros H. revert c H. apply reach_ind.
  - constructor; cbn; auto. intros a e b E. destruct a; discriminate E.
  - intros c l c' Hr HS Es. destruct (inv_reach c Hr) as (S & HI). eapply heard_step; eauto.
Qed.

(** ** the Deferred of a generator which yields a Deferred *)
Definition bad_ok (c : config) : Prop := forall i, fired (Bad i) (log c) = match life i (log c) with Some Dropped => [Failed TypeError] | _ => [] end.

Lemma bad_say c c' e : (exists S, Inv S c') -> bad_ok c -> log c' = log c ++ [e] -> (forall i o, e <> Fired (Bad i) o) -> (forall i, e <> Acted i GYieldDeferred) -> bad_ok c'.
Proof.
  intros (S & HS) H El H1 H2 i. pose proof (I_life _ _ HS i) as Hl. rewrite El in *. rewrite fired_quiet by (intros o Ho; exact (H1 i o Ho)). rewrite H. rewrite life_app in *.
  destruct (life i (log c)) as [p|] eqn:E; [|destruct e as [j a|d j w o| | | | |j w r]; cbn in *; try discriminate Hl; destruct (j =? i); discriminate Hl].
  assert (X : advance i (Some p) e = Some Dropped <-> p = Dropped).
  { destruct e as [j a|d j w o| | | | |j w r]; cbn in *; try (split; congruence); destruct (j =? i) eqn:Ej; try (split; congruence).
    - apply Nat.eqb_eq in Ej as ->. destruct p; try discriminate Hl; destruct a; split; try congruence; now destruct (H2 i).
    - destruct p; try discriminate Hl. destruct (w0 =? w); split; congruence.
    - destruct p; try discriminate Hl. split; congruence. }
  rewrite Hl in *. destruct p; destruct (phase_of (S i)); try reflexivity; exfalso; (assert (Y : Some Dropped = Some Dropped) by reflexivity; apply X in Y; discriminate Y) || (assert (Y : Dropped = Dropped) by reflexivity; apply X in Y; discriminate Y).
Qed.

Lemma bad_reach c : reachable c -> bad_ok c.
Proof.
  intros H. revert c H. apply reach_ind; [intros i; reflexivity|]. intros c l c' (ls & Hr) H Es.
  assert (HS : exists S, Inv S c') by (apply inv_reach; exists (ls ++ [l]); rewrite exec_app, Hr; cbn; now rewrite Es).
  assert (HS0 : exists S, Inv S c) by (apply inv_reach; now exists ls).
  assert (Us : forall a, user c a = Some c' -> bad_ok c').
  { intros a E. destruct a as [n o| |d|d]; cbn in E.
    - destruct (value (cells c (Src n))); injection E as <-; [exact H|]. eapply bad_say; [exact HS|exact H|reflexivity|discriminate|discriminate].
    - injection E as <-. exact H.
    - destruct (known c d); [injection E as <-; exact H|discriminate].
    - destruct (known c d); [injection E as <-|discriminate]. intros i. destruct (add_stack c d CUser) as (_ & _ & _ & E3). rewrite E3. apply H. }
  unfold step in Es. destruct (stack c) as [|fr st] eqn:E.
  - destruct l as [a|a|o|]; try discriminate Es. eauto.
  - destruct fr as [i r|i k|i|i|d|d|d]; destruct l as [a|a|o|]; try discriminate Es.
    + eauto.
    + destruct a as [o| |w|w| |e]; cbn [gen] in Es.
      * injection Es as <-. eapply bad_say; [exact HS|exact H|reflexivity|discriminate|discriminate].
      * injection Es as <-. destruct HS0 as (S & HS0). destruct (top_next _ _ _ _ _ HS0 E) as (_ & _ & _ & _ & T5). intros j. proj. rewrite !fired_app, !life_app. cbn. rewrite !app_nil_r, H. destruct (Nat.eq_dec i j) as [<-|Hn].
        -- rewrite T5, Nat.eqb_refl. reflexivity.
        -- rewrite (proj2 (Nat.eqb_neq i j)) by exact Hn. now rewrite app_nil_r.
      * destruct (w <? nwaits (set_stack c st)); [injection Es as <-|discriminate]. apply (bad_say c _ (Acted i (GYieldWait w)) HS H); [|discriminate|discriminate]. match goal with |- log (addBoth ?x ?d ?f) = _ => destruct (add_stack x d f) as (fr & E1 & E2 & E3) end. rewrite E3. reflexivity.
      * injection Es as <-. eapply bad_say; [exact HS|exact H|reflexivity|discriminate|discriminate].
      * injection Es as <-. destruct HS0 as (S & HS0). destruct (top_next _ _ _ _ _ HS0 E) as (_ & _ & _ & _ & T5). intros j. unfold fire. proj. rewrite !fired_app, !life_app. cbn. rewrite !app_nil_r, H. destruct (Nat.eq_dec i j) as [<-|Hn]; [rewrite T5, Nat.eqb_refl; reflexivity|]. rewrite (proj2 (Nat.eqb_neq i j)) by exact Hn. reflexivity.
      * injection Es as <-. destruct HS0 as (S & HS0). destruct (top_next _ _ _ _ _ HS0 E) as (_ & _ & _ & _ & T5). intros j. unfold fire. proj. rewrite !fired_app, !life_app. cbn. rewrite !app_nil_r, H. destruct (Nat.eq_dec i j) as [<-|Hn]; [rewrite T5, Nat.eqb_refl; reflexivity|]. rewrite (proj2 (Nat.eqb_neq i j)) by exact Hn. reflexivity.
    + destruct (opens c i k); injection Es as <-; exact H.
    + injection Es as <-. exact H.
    + injection Es as <-. eapply bad_say; [exact HS|exact H|reflexivity|discriminate|discriminate].
    + destruct (value (cells c d)) as [o|] eqn:Ev; [|discriminate Es]. destruct (queue (cells c d)) as [|f q] eqn:Eq; injection Es as <-; [exact H|].
      destruct f as [k i w|]; cbn [run] in *; proj; [destruct (opens c i k)|]; (eapply bad_say; [exact HS|exact H|reflexivity|discriminate|discriminate]).
    + eauto.
    + injection Es as <-. eapply bad_say; [exact HS|exact H|reflexivity|discriminate|discriminate].
    + injection Es as <-. exact H.
Qed.

(** a generator is dropped by yielding a Deferred, and by nothing else *)
Lemma dropped_iff i l : life i l <> None -> (life i l = Some Dropped <-> In (Acted i GYieldDeferred) l).
Proof.
  induction l as [|e l IH] using rev_ind; [intros _; split; [discriminate|intros []]|]. rewrite life_app, in_app_iff. cbn [In]. intros Hn.
  assert (Hl : life i l <> None) by (intros E; rewrite E in Hn; apply Hn; destruct e as [j a|d j w o| | | | |j w r]; cbn; try reflexivity; destruct (j =? i); try reflexivity; destruct a; reflexivity).
  specialize (IH Hl). destruct e as [j a|d j w o| | | | |j w r]; cbn in *; try (rewrite IH; split; [auto|intros [H|[H|[]]]; [exact H|discriminate H]]).
  - destruct (Nat.eqb_spec j i) as [->|Hj].
    + destruct (life i l) as [[]|] eqn:E; try (destruct a; exfalso; now apply Hn). destruct IH as [_ IH].
      destruct a; split; try discriminate; try (intros [H|[H|[]]]; [discriminate (IH H)|discriminate H]); auto.
    + rewrite IH. split; [auto|]. intros [H|[[= H _]|[]]]; [exact H|contradiction].
  - destruct (j =? i).
    + destruct (life i l) as [[]|] eqn:E; try (exfalso; now apply Hn). destruct IH as [_ IH]. destruct (w0 =? w); [|exfalso; now apply Hn]. split; [discriminate|]. intros [H|[H|[]]]; [discriminate (IH H)|discriminate H].
    + rewrite IH. split; [auto|]. intros [H|[H|[]]]; [exact H|discriminate H].
  - assert (E : (if j =? i then match life i l with Some (Runs _) => life i l | _ => None end else life i l) = life i l).
    { destruct (j =? i); [|reflexivity]. destruct (life i l) as [[]|]; try reflexivity; exfalso; now apply Hn. }
    rewrite E, IH. split; [auto|]. intros [H|[H|[]]]; [exact H|discriminate H].
Qed.

Lemma fired_exact c i d : reachable c -> stack c = [] -> In (Returned i d) (log c) -> i < ncalls c -> (forall w, life i (log c) <> Some (Waits w)) ->
  ((exists o, fired d (log c) = [o]) <-> d = Bad i \/ ~ In (Acted i GYieldDeferred) (log c)) /\ (fired d (log c) = [] <-> ~ (exists o, fired d (log c) = [o])).
Proof.
  intros H Hs Hi Hc Hw. destruct (call_life c i H) as (p & El & Ef). assert (Hn : life i (log c) <> None) by congruence. pose proof (dropped_iff i (log c) Hn) as D. rewrite El in D.
  destruct (R_said _ (rets_reach c H) i d Hi) as [->|(-> & Hl)].
  - rewrite Ef. destruct p as [r|w|o|].
    + destruct (call_idle c i r H Hs Hc El).
    + destruct (Hw w El).
    + split; [split; [intros _; right; rewrite <- D; discriminate|eauto]|]. split; [discriminate|]. intros X. destruct X. eauto.
    + split; [split; [intros (o & X); discriminate X|intros [X|X]; [discriminate X|destruct X; now apply D]]|]. split; [intros _ (o & X); discriminate X|reflexivity].
  - rewrite (bad_reach c H i), Hl. split; [split; [auto|eauto]|]. split; [discriminate|]. intros X. destruct X. eauto.
Qed.
