(** * Delayed calls, timeouts, and the test clock

    epsilon/hotfixes/delayedcall_seconds.py, timeoutmixin_calllater.py and
    internet_task_clock.py.  Times are exact integers (any unit): the rounding
    of floating point numbers is not modelled.  The owner of a call (Twisted's
    reactor, Twisted's Clock) is not code of the repository; what is assumed of
    it is written beside each definition. *)

From Coq Require Import ZArith List Bool Arith Lia ZifyBool Permutation Sorted.
From Verif Require Import Py.
Import ListNotations.
Open Scope Z_scope.

(** ** DelayedCall *)

(** delayedcall_seconds.py:19-27.  Simplification: the function, its arguments
    and the creator's stack are left out. *)
Record call := Call { c_time : Z; c_delayed : Z; c_cancelled : bool; c_called : bool }.

(** delayedcall_seconds.py:19-27, __init__ *)
Definition newCall (time : Z) : call := Call time 0 false false.

(** delayedcall_seconds.py:29-36 *)
Definition getTime (c : call) : Z := c_time c + c_delayed c.

(** delayedcall_seconds.py:107-114 *)
Definition active (c : call) : bool := negb (c_cancelled c || c_called c).

(** delayedcall_seconds.py:103-105 *)
Definition activate_delay (c : call) : call := Call (c_time c + c_delayed c) 0 (c_cancelled c) (c_called c).

Section Owner.
  (** the state of the owner, and its two callbacks *)
  Variable S : Type.
  Variable canceller : call -> S -> res S.
  Variable resetter : call -> S -> S.

  (** delayedcall_seconds.py:38-55 *)
  Definition cancel (c : call) (s : S) : call * S * res unit :=
    if c_cancelled c then (c, s, Err AlreadyCancelled)
    else if c_called c then (c, s, Err AlreadyCalled)
    else match canceller c s with
         | Err e => (c, s, Err e)
         | Ok s' => (Call (c_time c) (c_delayed c) true (c_called c), s', Ok tt)
         end.

  (** delayedcall_seconds.py:57-81; [now] is what the seconds function returns *)
  Definition reset (now secondsFromNow : Z) (c : call) (s : S) : call * S * res unit :=
    if c_cancelled c then (c, s, Err AlreadyCancelled)
    else if c_called c then (c, s, Err AlreadyCalled)
    else
      let new_time := now + secondsFromNow in
      if new_time <? c_time c then
        let c' := Call new_time 0 (c_cancelled c) (c_called c) in (c', resetter c' s, Ok tt)
      else (Call (c_time c) (new_time - c_time c) (c_cancelled c) (c_called c), s, Ok tt).

  (** delayedcall_seconds.py:83-101 *)
  Definition delay (secondsLater : Z) (c : call) (s : S) : call * S * res unit :=
    if c_cancelled c then (c, s, Err AlreadyCancelled)
    else if c_called c then (c, s, Err AlreadyCalled)
    else
      let c' := Call (c_time c) (c_delayed c + secondsLater) (c_cancelled c) (c_called c) in
      if c_delayed c' <? 0 then let c'' := activate_delay c' in (c'', resetter c'' s, Ok tt)
      else (c', s, Ok tt).
End Owner.

(** *** In a reactor

    Assumed of the reactor (twisted/internet/base.py, ReactorBase): a call lies
    in a heap under the time it had when it was put there or last moved; the
    resetter moves it to its present time; the canceller leaves it where it is.
    When the reactor looks ([tick]), it takes a call out when the time it lies
    under has come; drops it if cancelled; if it is delayed, activates the delay
    and puts it back, looking again; else marks it as called and calls it. *)
Record held := Held { h_call : call; h_key : option Z }.

Definition in_reactor_cancel (c : call) (k : option Z) : res (option Z) := Ok k.
Definition in_reactor_reset (c : call) (k : option Z) : option Z := Some (c_time c).

Definition fire (c : call) : held := Held (Call (c_time c) (c_delayed c) (c_cancelled c) true) None.

(** the result says whether the function is called *)
Definition tick (now : Z) (h : held) : held * bool :=
  match h_key h with
  | None => (h, false)
  | Some k =>
      if now <? k then (h, false)
      else if c_cancelled (h_call h) then (Held (h_call h) None, false)
      else if 0 <? c_delayed (h_call h) then
        let c := activate_delay (h_call h) in
        if now <? c_time c then (Held c (Some (c_time c)), false) else (fire c, true)
      else (fire (h_call h), true)
  end.

(** what can happen to a call *)
Inductive event := EReset (now s : Z) | EDelay (d : Z) | ECancel | ETick (now : Z).
(** what it answers: an exception or not, or whether it was called *)
Inductive answer := Done | Raised (e : exn) | Called (b : bool).

Definition to_answer (r : res unit) : answer := match r with Ok _ => Done | Err e => Raised e end.
Definition back (x : call * option Z * res unit) : held * answer := (Held (fst (fst x)) (snd (fst x)), to_answer (snd x)).

Definition happen (h : held) (e : event) : held * answer :=
  match e with
  | EReset now s => back (reset _ in_reactor_reset now s (h_call h) (h_key h))
  | EDelay d => back (delay _ in_reactor_reset d (h_call h) (h_key h))
  | ECancel => back (cancel _ in_reactor_cancel (h_call h) (h_key h))
  | ETick now => let (h', b) := tick now h in (h', Called b)
  end.

Fixpoint happens (h : held) (es : list event) : held * list answer :=
  match es with
  | [] => (h, [])
  | e :: es' => let (h1, a) := happen h e in let (h2, l) := happens h1 es' in (h2, a :: l)
  end.

(** a call for the time [t], handed to the reactor *)
Definition scheduled (t : Z) : held := Held (newCall t) (Some t).

(** *** Specification: a call is to be made at a time, made, or cancelled *)
Inductive status := At (t : Z) | Made | Cancelled.
Definition should (s : status) (e : event) : status * answer :=
  match s, e with
  | At t, EReset now d => (At (now + d), Done)
  | At t, EDelay d => (At (t + d), Done)
  | At t, ECancel => (Cancelled, Done)
  | At t, ETick now => if t <=? now then (Made, Called true) else (At t, Called false)
  | _, ETick _ => (s, Called false)
  | Made, _ => (Made, Raised AlreadyCalled)
  | Cancelled, _ => (Cancelled, Raised AlreadyCancelled)
  end.
Fixpoint shoulds (s : status) (es : list event) : status * list answer :=
  match es with
  | [] => (s, [])
  | e :: es' => let (s1, a) := should s e in let (s2, l) := shoulds s1 es' in (s2, a :: l)
  end.

Definition status_of (h : held) : status :=
  if c_cancelled (h_call h) then Cancelled else if c_called (h_call h) then Made else At (getTime (h_call h)).

Definition good (h : held) : Prop :=
  (active (h_call h) = true -> h_key h = Some (c_time (h_call h)) /\ 0 <= c_delayed (h_call h)) /\
  (c_called (h_call h) = true -> h_key h = None).

Lemma happen_ok h e : good h ->
  good (fst (happen h e)) /\ should (status_of h) e = (status_of (fst (happen h e)), snd (happen h e)).
Proof.
  destruct h as [[t d cc ca] k]. intros [G1 G2]. unfold active in G1. cbn in G1, G2. unfold happen, status_of, good.
  destruct e as [now s|x| |now]; cbn [h_call h_key].
  - unfold reset. cbn. destruct cc; cbn in *; [now repeat split|]. destruct ca; cbn in *; [now repeat split|].
    destruct (G1 eq_refl) as [-> Hd]. destruct (now + s <? t) eqn:L; cbn; repeat split; try discriminate; try lia; unfold getTime; cbn; try (f_equal; f_equal); lia.
  - unfold delay. cbn. destruct cc; cbn in *; [now repeat split|]. destruct ca; cbn in *; [now repeat split|].
    destruct (G1 eq_refl) as [-> Hd]. destruct (d + x <? 0) eqn:L; cbn; repeat split; try discriminate; try lia; unfold getTime; cbn; try (f_equal; f_equal); lia.
  - unfold cancel. cbn. destruct cc; cbn in *; [now repeat split|]. destruct ca; cbn in *; [now repeat split|]. now repeat split.
  - unfold tick. cbn. destruct k as [k|].
    + destruct ca; [discriminate (G2 eq_refl)|]. destruct cc; cbn in *.
      * destruct (now <? k); cbn; now repeat split.
      * destruct (G1 eq_refl) as [E Hd]. injection E as ->. unfold getTime, activate_delay. cbn [c_time c_delayed].
        destruct (now <? t) eqn:L1; cbn.
        { replace (t + d <=? now) with false by lia. unfold getTime. cbn. repeat split; auto; discriminate. }
        destruct (0 <? d) eqn:L2; cbn.
        { destruct (now <? t + d) eqn:L3; cbn.
          - replace (t + d <=? now) with false by lia. unfold getTime. cbn. rewrite Z.add_0_r. repeat split; auto; try discriminate; lia.
          - replace (t + d <=? now) with true by lia. repeat split; auto; discriminate. }
        { replace (t + d <=? now) with true by lia. repeat split; auto; discriminate. }
    + destruct cc; cbn in *; [repeat split; auto; discriminate|]. destruct ca; cbn in *; [repeat split; auto; discriminate|].
      destruct (G1 eq_refl) as [E _]. discriminate E.
Qed.

Lemma good_new t : good (scheduled t).
Proof. split; cbn; [intros _; split; [reflexivity|lia]|discriminate]. Qed.

Theorem happens_ok es : forall h, good h ->
  good (fst (happens h es)) /\ shoulds (status_of h) es = (status_of (fst (happens h es)), snd (happens h es)).
Proof.
  induction es as [|e es IH]; intros h G; cbn [happens shoulds]; [split; auto|].
  destruct (happen_ok h e G) as [G' E]. destruct (happen h e) as [h1 a]. cbn [fst snd] in *. rewrite E.
  destruct (IH h1 G') as [G2 E2]. destruct (happens h1 es) as [h2 l]. cbn [fst snd] in *. rewrite E2. auto.
Qed.

Theorem call_history t es : shoulds (At t) es = (status_of (fst (happens (scheduled t) es)), snd (happens (scheduled t) es)).
Proof. pose proof (proj2 (happens_ok es (scheduled t) (good_new t))) as H. cbn [status_of scheduled h_call newCall c_cancelled c_called] in H.
  unfold getTime in H. cbn in H. rewrite Z.add_0_r in H. exact H. Qed.

(** the reactor acts on the call, if it is pending, no later than the time the
    call reports *)
Theorem call_in_time t es : let h := fst (happens (scheduled t) es) in
  active (h_call h) = true -> exists k, h_key h = Some k /\ k <= getTime (h_call h).
Proof.
  intros h Ha. destruct (happens_ok es (scheduled t) (good_new t)) as [[G _] _]. fold h in G. destruct (G Ha) as [E Hd].
  exists (c_time (h_call h)). split; [exact E|]. unfold getTime. lia.
Qed.

(** an operation that raises changes nothing *)
Theorem raise_nothing h e x : snd (happen h e) = Raised x -> fst (happen h e) = h.
Proof.
  destruct h as [[t d cc ca] k]. destruct e as [now s|y| |now]; unfold happen, reset, delay, cancel; cbn;
    try (destruct cc, ca; cbn; intros H; try reflexivity; destruct (_ <? _); cbn in H; discriminate H).
  - destruct cc, ca; cbn; intros H; try reflexivity; discriminate H.
  - destruct (tick now (Held (Call t d cc ca) k)). discriminate.
Qed.

(** ** TimeoutMixin *)

(** timeoutmixin_calllater.py:9-11.  [m_calls] holds every call the mixin ever
    asked the reactor for, in order; [m_call] is the index of the one in
    __timeoutCall. *)
Record mixin := Mixin { m_timeOut : option Z; m_call : option nat; m_calls : list held; m_fired : nat }.
Definition new_mixin (timeOut : option Z) : mixin := Mixin timeOut None [] 0.

Definition update {A} (l : list A) (i : nat) (x : A) : list A := firstn i l ++ x :: skipn (S i) l.

Section Timeout.
  (** does reactor.callLater take this delay?  Twisted's asserts that it is not
      negative. *)
  Variable delay_ok : Z -> bool.

  (** the call in __timeoutCall, told to do something *)
  Definition tell (e : event) (i : nat) (m : mixin) : mixin * answer :=
    match nth_error (m_calls m) i with
    | None => (m, Raised KeyError)
    | Some h => let (h', a) := happen h e in (Mixin (m_timeOut m) (m_call m) (update (m_calls m) i h') (m_fired m), a)
    end.

  (** timeoutmixin_calllater.py:17-20 *)
  Definition resetTimeout (now : Z) (m : mixin) : mixin * answer :=
    match m_call m, m_timeOut m with
    | Some i, Some t => tell (EReset now t) i m
    | _, _ => (m, Done)
    end.

  (** timeoutmixin_calllater.py:22-41, with the callLater of lines 13-14; the
      value returned is [m_timeOut m] *)
  Definition setTimeout (now : Z) (period : option Z) (m : mixin) : mixin * answer :=
    let m1 := Mixin period (m_call m) (m_calls m) (m_fired m) in
    match m_call m, period with
    | Some i, None =>
        match tell ECancel i m1 with
        | (m2, Done) => (Mixin (m_timeOut m2) None (m_calls m2) (m_fired m2), Done)
        | x => x
        end
    | Some i, Some p => tell (EReset now p) i m1
    | None, Some p =>
        if delay_ok p then (Mixin period (Some (length (m_calls m))) (m_calls m ++ [scheduled (now + p)]) (m_fired m), Done)
        else (m1, Raised AssertionError)
    | None, None => (m1, Done)
    end.

  (** The reactor looks at the call [i]; if it is due, __timedOut
      (timeoutmixin_calllater.py:43-45) runs.  It ends by calling
      timeoutConnection, which subclasses override: what that does are further
      steps. *)
  Definition look (now : Z) (i : nat) (m : mixin) : mixin * answer :=
    match tell (ETick now) i m with
    | (m', Called true) => (Mixin (m_timeOut m') None (m_calls m') (S (m_fired m')), Called true)
    | x => x
    end.

  (** timeOut is a public attribute: subclasses and users also assign it *)
  Inductive mstep := MSet (period : option Z) | MReset | MAssign (v : option Z) | MTick.

  (** the reactor looks at all the calls it has been given *)
  Definition look_all (now : Z) (m : mixin) : mixin :=
    fold_left (fun m i => fst (look now i m)) (seq 0 (length (m_calls m))) m.

  Definition mrun (now : Z) (s : mstep) (m : mixin) : mixin * answer :=
    match s with
    | MSet p => setTimeout now p m
    | MReset => resetTimeout now m
    | MAssign v => (Mixin v (m_call m) (m_calls m) (m_fired m), Done)
    | MTick => (look_all now m, Done)
    end.

  Fixpoint mruns (l : list (Z * mstep)) (m : mixin) : mixin :=
    match l with [] => m | (now, s) :: l' => mruns l' (fst (mrun now s m)) end.

  (** *** Specification: the time out, the deadline, the number of timeouts *)
  Record wanted := Wanted { w_timeOut : option Z; w_deadline : option Z; w_fired : nat }.
  Definition wstep (now : Z) (s : mstep) (w : wanted) : wanted :=
    match s with
    | MSet None => Wanted None None (w_fired w)
    | MSet (Some p) =>
        Wanted (Some p) (match w_deadline w with Some _ => Some (now + p) | None => if delay_ok p then Some (now + p) else None end) (w_fired w)
    | MReset => Wanted (w_timeOut w) (match w_deadline w, w_timeOut w with Some _, Some p => Some (now + p) | d, _ => d end) (w_fired w)
    | MAssign v => Wanted v (w_deadline w) (w_fired w)
    | MTick =>
        match w_deadline w with
        | Some d => if d <=? now then Wanted (w_timeOut w) None (S (w_fired w)) else w
        | None => w
        end
    end.
  Fixpoint wsteps (l : list (Z * mstep)) (w : wanted) : wanted :=
    match l with [] => w | (now, s) :: l' => wsteps l' (wstep now s w) end.

  Definition pending (m : mixin) : list Z := flat_map (fun h => match status_of h with At t => [t] | _ => [] end) (m_calls m).
  Definition opt_list {A} (o : option A) : list A := match o with Some a => [a] | None => [] end.

  Definition is_at (h : held) : bool := match status_of h with At _ => true | _ => false end.

  (** *** Proofs *)
  Definition inv (m : mixin) (w : wanted) : Prop :=
    m_timeOut m = w_timeOut w /\ m_fired m = w_fired w /\ Forall good (m_calls m) /\
    match m_call m, w_deadline w with
    | Some i, Some d => exists l h r, m_calls m = l ++ h :: r /\ length l = i /\ status_of h = At d /\
        Forall (fun h => is_at h = false) l /\ Forall (fun h => is_at h = false) r
    | None, None => Forall (fun h => is_at h = false) (m_calls m)
    | _, _ => False
    end.

  Lemma update_app {A} (l : list A) x r y : update (l ++ x :: r) (length l) y = l ++ y :: r.
  Proof.
    unfold update. rewrite firstn_app, Nat.sub_diag, firstn_all, firstn_O, app_nil_r. f_equal. f_equal.
    change (x :: r) with ([x] ++ r). rewrite app_assoc. replace (S (length l)) with (length (l ++ [x])) by (rewrite app_length; cbn; lia).
    rewrite skipn_app, Nat.sub_diag, skipn_all. reflexivity.
  Qed.
  Lemma nth_app {A} (l : list A) x r : nth_error (l ++ x :: r) (length l) = Some x.
  Proof. rewrite nth_error_app2, Nat.sub_diag by lia. reflexivity. Qed.

  Lemma tell_at e l h r t c f : tell e (length l) (Mixin t c (l ++ h :: r) f) = (Mixin t c (l ++ fst (happen h e) :: r) f, snd (happen h e)).
  Proof. unfold tell. cbn [m_calls m_timeOut m_call m_fired]. rewrite nth_app. destruct (happen h e). cbn [fst snd]. now rewrite update_app. Qed.

  Lemma happen_at h e d : good h -> status_of h = At d ->
    good (fst (happen h e)) /\ status_of (fst (happen h e)) = fst (should (At d) e) /\ snd (happen h e) = snd (should (At d) e).
  Proof. intros G E. destruct (happen_ok h e G) as [G' E']. rewrite E in E'. rewrite E'. auto. Qed.

  Lemma good_mid l h r : Forall good (l ++ h :: r) -> Forall good l /\ good h /\ Forall good r.
  Proof. intros H. apply Forall_app in H. destruct H as [A H]. inversion H; subst. auto. Qed.
  Lemma mid_good l h r : Forall good l -> good h -> Forall good r -> Forall good (l ++ h :: r).
  Proof. intros A B C. apply Forall_app. split; [exact A|]. now constructor. Qed.

  Lemma set_inv now p m w : inv m w -> inv (fst (setTimeout now p m)) (wstep now (MSet p) w).
  Proof.
    destruct m as [t c calls f], w as [t' d f']. unfold inv, setTimeout. cbn [m_timeOut m_call m_calls m_fired w_timeOut w_deadline w_fired]. intros (-> & -> & G & H).
    destruct c as [i|], d as [d|]; try contradiction.
    - destruct H as (l & h & r & -> & <- & E & Hl & Hr). destruct (good_mid _ _ _ G) as (G1 & G2 & G3). destruct p as [p|]; rewrite tell_at; cbn [fst snd].
      + destruct (happen_at h (EReset now p) d G2 E) as (A & B & C). cbn [wstep w_deadline w_timeOut w_fired fst m_timeOut m_call m_calls m_fired].
        repeat split; [now apply mid_good|]. exists l, (fst (happen h (EReset now p))), r. repeat split; auto.
      + destruct (happen_at h ECancel d G2 E) as (A & B & C). rewrite C. cbn [wstep should snd w_deadline w_timeOut w_fired fst m_timeOut m_call m_calls m_fired].
        repeat split; [now apply mid_good|]. apply Forall_app. split; [exact Hl|]. constructor; [|exact Hr]. unfold is_at. rewrite B. reflexivity.
    - destruct p as [p|]; cbn [wstep w_deadline w_fired]; [|cbn; auto]. destruct (delay_ok p); cbn; auto. repeat split.
      + apply mid_good; [exact G|apply good_new|constructor].
      + exists calls, (scheduled (now + p)), []. repeat split; auto. unfold status_of, getTime. cbn. now rewrite Z.add_0_r.
  Qed.

  Lemma reset_inv now m w : inv m w -> inv (fst (resetTimeout now m)) (wstep now MReset w).
  Proof.
    destruct m as [t c calls f], w as [t' d f']. unfold inv, resetTimeout. cbn [m_timeOut m_call m_calls m_fired w_timeOut w_deadline w_fired]. intros (-> & -> & G & H).
    destruct c as [i|], d as [d|]; try contradiction; cbn [wstep w_deadline w_timeOut w_fired]; [|cbn; auto].
    destruct t' as [p|]; [|cbn; auto].
    destruct H as (l & h & r & -> & <- & E & Hl & Hr). destruct (good_mid _ _ _ G) as (G1 & G2 & G3). rewrite tell_at.
    destruct (happen_at h (EReset now p) d G2 E) as (A & B & C). cbn [w_deadline w_timeOut w_fired fst m_timeOut m_call m_calls m_fired].
    repeat split; [now apply mid_good|]. exists l, (fst (happen h (EReset now p))), r. repeat split; auto.
  Qed.

  Lemma split_at {A} (l : list A) i x : nth_error l i = Some x -> exists a b, l = a ++ x :: b /\ length a = i.
  Proof. apply nth_error_split. Qed.

  (** looking at a call that is not pending *)
  Lemma happen_not h now : good h -> is_at h = false -> good (fst (happen h (ETick now))) /\ is_at (fst (happen h (ETick now))) = false /\ snd (happen h (ETick now)) = Called false.
  Proof.
    intros G E. destruct (happen_ok h (ETick now) G) as [G' E']. unfold is_at in *. destruct (status_of h) as [d| |]; [discriminate| |]; cbn [should] in E'; pose proof (f_equal fst E') as E1; pose proof (f_equal snd E') as E2; cbn [fst snd] in E1, E2; rewrite <- E1, <- E2; auto.
  Qed.

  Lemma Forall_mid {A} (P : A -> Prop) l h r : Forall P (l ++ h :: r) -> Forall P l /\ P h /\ Forall P r.
  Proof. intros H. apply Forall_app in H. destruct H as [A1 H]. inversion H; subst. auto. Qed.
  Lemma mid_Forall {A} (P : A -> Prop) l h r : Forall P l -> P h -> Forall P r -> Forall P (l ++ h :: r).
  Proof. intros A1 B C. apply Forall_app. split; [exact A1|]. now constructor. Qed.

  Lemma look_inv now i m w : inv m w ->
    inv (fst (look now i m)) (match m_call m with Some j => if (i =? j)%nat then wstep now MTick w else w | None => w end).
  Proof.
    destruct m as [t c calls f], w as [t' d f']. unfold inv. cbn [m_timeOut m_call m_calls m_fired w_timeOut w_deadline w_fired]. intros (-> & -> & G & H).
    unfold look. destruct (nth_error calls i) as [x|] eqn:Ei.
    2:{ unfold tell. cbn [m_calls]. rewrite Ei. cbn [fst m_timeOut m_call m_calls m_fired].
        destruct c as [j|]; [|cbn; auto]. destruct d as [d|]; [|contradiction]. destruct (Nat.eqb_spec i j) as [->|]; [|cbn; auto].
        destruct H as (l & h & r & -> & <- & _). rewrite nth_app in Ei. discriminate. }
    destruct (split_at _ _ _ Ei) as (a & b & -> & <-). rewrite tell_at. destruct (good_mid _ _ _ G) as (G1 & G2 & G3).
    destruct c as [j|], d as [d|]; try contradiction.
    - destruct H as (l & h & r & E & <- & Hs & Hl & Hr). destruct (Nat.eqb_spec (length a) (length l)) as [El|El].
      + assert (E2 : a = l /\ x :: b = h :: r). { clear - E El. revert l El E. induction a as [|y a IH]; intros [|z l] El E; try discriminate El; [auto|]. injection E as -> E. injection El as El. destruct (IH l El E) as [-> ->]. auto. }
        destruct E2 as [<- E2]. injection E2 as <- <-. destruct (happen_at x (ETick now) d G2 Hs) as (A & B & C).
        cbn [wstep w_deadline w_timeOut w_fired]. cbn [should] in B, C. destruct (d <=? now); cbn [fst snd] in B, C; rewrite C; cbn [fst snd m_timeOut m_call m_calls m_fired w_timeOut w_deadline w_fired].
        * repeat split; [now apply mid_good|]. apply mid_Forall; auto. unfold is_at. now rewrite B.
        * repeat split; [now apply mid_good|]. exists a, (fst (happen x (ETick now))), b. repeat split; auto.
      + assert (Hx : is_at x = false).
        { clear - E El Hl Hr. revert l El E Hl. induction a as [|y a IH]; intros [|z l] El E Hl; cbn in E.
          - congruence.
          - injection E as -> _. now inversion Hl.
          - injection E as _ <-. apply Forall_mid in Hr. apply Hr.
          - injection E as _ E. inversion Hl; subst. apply (IH l); auto. cbn in El. lia. }
        destruct (happen_not x now G2 Hx) as (A & B & C). rewrite C. cbn [fst snd m_timeOut m_call m_calls m_fired w_timeOut w_deadline w_fired].
        repeat split; [now apply mid_good|]. set (x' := fst (happen x (ETick now))) in *. clearbody x'. clear - E El Hl Hr B Hs.
        revert l El E Hl. induction a as [|y a IH]; intros [|z l] El E Hl; cbn in E.
        * congruence.
        * injection E as -> ->. exists (x' :: l), h, r. inversion Hl; subst. repeat split; auto.
        * injection E as -> <-. exists [], h, (a ++ x' :: b). repeat split; auto. apply Forall_mid in Hr. destruct Hr as (P1 & P2 & P3). now apply mid_Forall.
        * injection E as -> E. inversion Hl; subst. destruct (IH l ltac:(cbn in El; lia) E ltac:(assumption)) as (l' & h' & r' & E' & L' & S' & F1 & F2).
          exists (z :: l'), h', r'. cbn. rewrite E', L'. repeat split; auto.
    - destruct (Forall_mid _ _ _ _ H) as (P1 & P2 & P3). destruct (happen_not x now G2 P2) as (A & B & C). rewrite C. cbn [fst snd m_timeOut m_call m_calls m_fired w_timeOut w_deadline w_fired].
      repeat split; [now apply mid_good|now apply mid_Forall].
  Qed.

  Lemma looks_idle now l : forall m w, inv m w -> wstep now MTick w = w -> inv (fold_left (fun m i => fst (look now i m)) l m) w.
  Proof.
    induction l as [|i l IH]; intros m w H E; [exact H|]. cbn [fold_left]. apply IH; [|exact E].
    pose proof (look_inv now i m w H) as H'. destruct (m_call m); [destruct (i =? n)%nat; [now rewrite E in H'|exact H']|exact H'].
  Qed.

  Lemma tick_twice now w : wstep now MTick (wstep now MTick w) = wstep now MTick w.
  Proof. destruct w as [t [d|] f]; cbn; [|reflexivity]. destruct (d <=? now) eqn:E; cbn; [reflexivity|]. now rewrite E. Qed.

  Lemma looks_inv now l : forall m w, inv m w -> (forall i, m_call m = Some i -> In i l) -> inv (fold_left (fun m i => fst (look now i m)) l m) (wstep now MTick w).
  Proof.
    induction l as [|i l IH]; intros m w H E.
    - assert (D : w_deadline w = None). { destruct H as (_ & _ & _ & H). destruct (m_call m) as [j|]; [destruct (E j eq_refl)|]. now destruct (w_deadline w). }
      cbn. now rewrite D.
    - cbn [fold_left]. pose proof (look_inv now i m w H) as H'. destruct (m_call m) as [j|] eqn:C.
      + destruct (Nat.eqb_spec i j) as [->|Hn]; [apply looks_idle; [exact H'|apply tick_twice]|]. apply IH; [exact H'|].
        intros k Hk. assert (k = j).
        { clear - H' H C Hk Hn. unfold look in Hk. destruct (tell (ETick now) i m) as [m' a] eqn:T. assert (Cm : m_call m' = Some j).
          { unfold tell in T. destruct (nth_error (m_calls m) i); [|injection T as <- _; exact C]. destruct (happen h (ETick now)). injection T as <- _. exact C. }
          destruct a as [|e|[]]; cbn in Hk; congruence. }
        subst k. destruct (E j eq_refl) as [->|]; [congruence|assumption].
      + apply IH; [exact H'|]. intros k Hk. exfalso.
        unfold look in Hk. destruct (tell (ETick now) i m) as [m' a] eqn:T. assert (Cm : m_call m' = None).
        { unfold tell in T. destruct (nth_error (m_calls m) i); [|injection T as <- _; exact C]. destruct (happen h (ETick now)). injection T as <- _. exact C. }
        destruct a as [|e|[]]; cbn in Hk; congruence.
  Qed.

  Lemma run_inv now s m w : inv m w -> inv (fst (mrun now s m)) (wstep now s w).
  Proof.
    intros H. destruct s as [p| |v|]; cbn [mrun].
    - now apply set_inv.
    - now apply reset_inv.
    - destruct H as (A & B & C & D). unfold inv. cbn. auto.
    - cbn [fst]. apply looks_inv; [exact H|]. intros i Hi. destruct H as (_ & _ & _ & H). rewrite Hi in H. destruct (w_deadline w); [|contradiction].
      destruct H as (l & h & r & E & <- & _). rewrite E, app_length. apply in_seq. cbn. lia.
  Qed.

  Lemma runs_inv l : forall m w, inv m w -> inv (mruns l m) (wsteps l w).
  Proof. induction l as [|[now s] l IH]; intros m w H; [exact H|]. cbn. now apply IH, run_inv. Qed.

  Lemma none_at l : Forall (fun h => is_at h = false) l -> flat_map (fun h => match status_of h with At t => [t] | _ => [] end) l = [].
  Proof. induction 1 as [|h l Hh _ IH]; [reflexivity|]. cbn. unfold is_at in Hh. destruct (status_of h); [discriminate| |]; exact IH. Qed.

  Lemma inv_pending m w : inv m w -> pending m = opt_list (w_deadline w).
  Proof.
    intros (_ & _ & _ & H). unfold pending. destruct (m_call m), (w_deadline w); try contradiction; [|now apply none_at].
    destruct H as (l & h & r & -> & _ & E & Hl & Hr). rewrite flat_map_app. cbn [flat_map]. rewrite E, (none_at l Hl), (none_at r Hr). reflexivity.
  Qed.

  Theorem timeouts t0 l : let m := mruns l (new_mixin t0) in let w := wsteps l (Wanted t0 None 0) in
    pending m = opt_list (w_deadline w) /\ m_timeOut m = w_timeOut w /\ m_fired m = w_fired w.
  Proof.
    intros m w. assert (H : inv m w) by (apply runs_inv; repeat split; constructor). split; [now apply inv_pending|]. split; apply H.
  Qed.

  (** only the reactor's refusal of a delay is ever raised *)
  Theorem timeout_errors t0 l now s e : snd (mrun now s (mruns l (new_mixin t0))) = Raised e ->
    e = AssertionError /\ exists p, s = MSet (Some p) /\ delay_ok p = false.
  Proof.
    assert (H : inv (mruns l (new_mixin t0)) (wsteps l (Wanted t0 None 0))) by (apply runs_inv; repeat split; constructor).
    revert H. generalize (mruns l (new_mixin t0)) (wsteps l (Wanted t0 None 0)). intros [t c calls f] [t' d f'].
    unfold inv. cbn [m_timeOut m_call m_calls m_fired w_timeOut w_deadline w_fired]. intros (-> & -> & G & H) R.
    destruct s as [p| |v|]; cbn [mrun] in R; try discriminate R.
    - unfold setTimeout in R. cbn [m_call m_calls m_fired] in R. destruct c as [i|], d as [d|]; try contradiction.
      + destruct H as (a & h & r & -> & <- & E & _). destruct (good_mid _ _ _ G) as (_ & G2 & _). destruct p as [p|]; rewrite tell_at in R; cbn [fst snd] in R.
        * rewrite (proj2 (proj2 (happen_at h (EReset now p) d G2 E))) in R. discriminate R.
        * rewrite (proj2 (proj2 (happen_at h ECancel d G2 E))) in R. discriminate R.
      + destruct p as [p|]; [|discriminate R]. destruct (delay_ok p) eqn:D; [discriminate R|]. injection R as <-. eauto.
    - unfold resetTimeout in R. cbn [m_call m_timeOut] in R. destruct c as [i|], d as [d|]; try contradiction; [|discriminate R]. destruct t' as [p|]; [|discriminate R].
      destruct H as (a & h & r & -> & <- & E & _). destruct (good_mid _ _ _ G) as (_ & G2 & _). rewrite tell_at in R. cbn [snd] in R.
      rewrite (proj2 (proj2 (happen_at h (EReset now p) d G2 E))) in R. discriminate R.
  Qed.
End Timeout.
