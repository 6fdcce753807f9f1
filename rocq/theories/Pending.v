(** * epsilon/pending.py: PendingEvent *)

From Coq Require Import List Bool Arith Lia Permutation.
Import ListNotations.

Set Implicit Arguments.

(** The Deferreds of one event are numbered in the order in which
    [deferred()] created them, the firing calls in the order in which they
    were made.  A result is a callback value or an errback failure; its
    content is opaque. *)
Inductive result := RCallback (v : nat) | RErrback (v : nat).

Inductive event :=
| EWait (d : nat)                  (* deferred() returned Deferred d *)
| ECall (c : nat) (r : result)     (* firing call c began *)
| EFire (d : nat) (c : nat) (r : result).  (* Deferred d fired, by call c *)

(** The Python stack: loops over the listeners taken by a firing call
    (pending.py:17-18, 25-26), and below a loop's [d.callback(result)] the
    code run by d's own callbacks. *)
Inductive frame := FLoop (ds : list nat) (c : nat) (r : result) | FRun.

Record state := St {
  listeners : list nat;      (* self.listeners *)
  stack : list frame;        (* innermost first *)
  next : nat;                (* Deferreds created so far *)
  calls : nat                (* firing calls so far *)
}.

(** pending.py:6-7 *)
Definition init : state := St [] [] 0 0.

(** user code runs when no loop is innermost *)
Definition user_code (s : state) : Prop :=
  match stack s with FLoop _ _ _ :: _ => False | _ => True end.

(** One step of the program: [user_code] may do anything, in any order, at any
    depth of re-entrancy.  The Deferreds are fired by the event only;
    exceptions of callbacks stay inside their Deferred (Twisted). *)
Inductive step : state -> event -> state -> Prop :=
| S_deferred s :                               (* pending.py:9-12 *)
    user_code s ->
    step s (EWait (next s)) (St (listeners s ++ [next s]) (stack s) (S (next s)) (calls s))
| S_fire s r :                                 (* pending.py:14-18, 20-26 *)
    user_code s ->
    step s (ECall (calls s) r)
         (St [] (FLoop (listeners s) (calls s) r :: stack s) (next s) (S (calls s)))
| S_next s d ds c r st :                       (* pending.py:17-18, 25-26 *)
    stack s = FLoop (d :: ds) c r :: st ->
    step s (EFire d c r) (St (listeners s) (FRun :: FLoop ds c r :: st) (next s) (calls s)).

(** silent steps: a loop ends, or the callbacks of a Deferred return *)
Inductive silent : state -> state -> Prop :=
| S_done s c r st : stack s = FLoop [] c r :: st ->
    silent s (St (listeners s) st (next s) (calls s))
| S_return s st : stack s = FRun :: st ->
    silent s (St (listeners s) st (next s) (calls s)).

(** histories, latest event first *)
Inductive Reach : list event -> state -> Prop :=
| R_init : Reach [] init
| R_step l s e s' : Reach l s -> step s e s' -> Reach (e :: l) s'
| R_silent l s s' : Reach l s -> silent s s' -> Reach l s'.

(** ** Specification on histories *)

Definition waited (d : nat) (l : list event) : Prop := In (EWait d) l.

Fixpoint waitedb (d : nat) (l : list event) : bool :=
  match l with
  | [] => false
  | EWait d' :: t => Nat.eqb d' d || waitedb d t
  | _ :: t => waitedb d t
  end.

(** the first firing call after the creation of [d] *)
Fixpoint first_call (d : nat) (l : list event) : option (nat * result) :=
  match l with
  | [] => None
  | ECall c r :: t => match first_call d t with
                      | Some x => Some x
                      | None => if waitedb d t then Some (c, r) else None
                      end
  | _ :: t => first_call d t
  end.

(** the Deferreds fired *)
Fixpoint fired (l : list event) : list nat :=
  match l with
  | [] => []
  | EFire d _ _ :: t => d :: fired t
  | _ :: t => fired t
  end.

(** ** Invariant *)

Fixpoint pend (st : list frame) : list nat :=
  match st with
  | [] => []
  | FLoop ds _ _ :: t => ds ++ pend t
  | FRun :: t => pend t
  end.

Fixpoint loopcalls (st : list frame) : list nat :=
  match st with
  | [] => []
  | FLoop _ c _ :: t => c :: loopcalls t
  | FRun :: t => loopcalls t
  end.

Lemma loopcalls_in c st : In c (loopcalls st) <-> exists ds r, In (FLoop ds c r) st.
Proof.
  induction st as [|f st IH]; cbn [loopcalls In].
  - split; [tauto|intros (ds & r & [])].
  - destruct f as [ds c' r|]; cbn [In].
    + rewrite IH. split.
      * intros [->|(ds' & r' & H)]; eauto.
      * intros (ds' & r' & [H|H]); [inversion H; auto|eauto].
    + rewrite IH. split.
      * intros (ds' & r' & H); eauto.
      * intros (ds' & r' & [H|H]); [discriminate|eauto].
Qed.

Fixpoint incr (l : list nat) : Prop :=
  match l with [] => True | x :: t => Forall (fun y => x < y) t /\ incr t end.

Lemma incr_app l x : incr l -> Forall (fun y => y < x) l -> incr (l ++ [x]).
Proof.
  induction l as [|y l IH]; intros Hi Hf; cbn; [auto|].
  inversion Hf; subst. destruct Hi as [Ha Hb]. split; auto.
  apply Forall_app. auto.
Qed.

Record Inv (l : list event) (s : state) : Prop := {
  i_perm : Permutation (seq 0 (next s)) (listeners s ++ pend (stack s) ++ fired l);
  i_waited : forall d, waitedb d l = (d <? next s);
  i_listen : forall d, In d (listeners s) -> first_call d l = None;
  i_incr : incr (listeners s);
  i_calls : forall d c r, first_call d l = Some (c, r) -> c < calls s;
  i_loops : forall ds c r, In (FLoop ds c r) (stack s) ->
      c < calls s /\ incr ds /\ (forall d, In d ds -> first_call d l = Some (c, r))
      /\ (forall d r' d', In (EFire d c r') l -> In d' ds -> d < d');
  i_nodup : NoDup (loopcalls (stack s));
  i_fired : forall d c r, In (EFire d c r) l -> first_call d l = Some (c, r);
  i_order : forall l1 l2 d1 d2 c r1 r2,
      l = l1 ++ EFire d1 c r1 :: l2 -> In (EFire d2 c r2) l2 -> d2 < d1;
}.

Lemma waitedb_iff d l : waitedb d l = true <-> waited d l.
Proof.
  unfold waited. induction l as [|e l IH]; cbn [waitedb In]; [split; [discriminate|tauto]|].
  destruct e as [d'|c r|d' c r].
  - rewrite orb_true_iff, IH, Nat.eqb_eq. split.
    + intros [H|H]; [left; now subst|now right].
    + intros [H|H]; [left; now inversion H|now right].
  - rewrite IH. split; [auto|]. intros [H|H]; [discriminate|auto].
  - rewrite IH. split; [auto|]. intros [H|H]; [discriminate|auto].
Qed.

Lemma first_call_waited d l x : first_call d l = Some x -> waitedb d l = true.
Proof.
  induction l as [|e l IH]; cbn [first_call waitedb]; [discriminate|].
  destruct e as [d'|c r|d' c r]; auto.
  - intros H. now rewrite IH, orb_true_r by auto.
  - destruct (first_call d l) as [y|]; [auto|]. destruct (waitedb d l); [auto|discriminate].
Qed.

Lemma fired_in d l : In d (fired l) <-> exists c r, In (EFire d c r) l.
Proof.
  induction l as [|e l IH]; cbn [fired In].
  - split; [tauto|intros (c & r & [])].
  - assert (G : (exists c r, e = EFire d c r \/ In (EFire d c r) l)
      <-> (exists c r, e = EFire d c r) \/ In d (fired l)).
    { rewrite IH. split.
      - intros (c & r & [H|H]); eauto.
      - intros [(c & r & H)|(c & r & H)]; eauto. }
    rewrite G. destruct e as [d'|c r|d' c r]; cbn [In].
    + split; [auto|intros [(c & r & H)|H]; [discriminate|auto]].
    + split; [auto|intros [(c' & r' & H)|H]; [discriminate|auto]].
    + split; intros [H|H]; auto; [left; exists c, r; now subst|].
      destruct H as (c' & r' & H). inversion H; auto.
Qed.

Lemma reach_inv l s : Reach l s -> Inv l s.
Proof.
  induction 1 as [|l s e s' HR IH Hs|l s s' HR IH Hs].
  - constructor; cbn; auto; try tauto; try discriminate; [constructor|].
    intros l1 l2 d1 d2 c r1 r2 E. destruct l1; discriminate.
  - destruct IH as [P W L I C F ND D O].
    destruct Hs as [s Hu|s r Hu|s d ds c r st Hst].
    + (* deferred *)
      assert (Hnf : first_call (next s) l = None).
      { destruct (first_call (next s) l) eqn:E; auto.
        apply first_call_waited in E. rewrite W in E.
        apply Nat.ltb_lt in E. lia. }
      constructor; cbn [listeners stack next calls first_call fired waitedb]; auto.
      * rewrite seq_S. cbn [plus]. rewrite <- app_assoc. cbn [app].
        transitivity (next s :: seq 0 (next s)).
        { symmetry. apply Permutation_cons_append. }
        rewrite P. apply Permutation_middle.
      * intros d. rewrite W. destruct (Nat.eqb_spec (next s) d) as [->|N]; cbn [orb].
        -- symmetry. apply Nat.ltb_lt. lia.
        -- destruct (Nat.ltb_spec d (next s)), (Nat.ltb_spec d (S (next s))); auto; lia.
      * intros d Hd. apply in_app_iff in Hd. destruct Hd as [Hd|[<-|[]]]; auto.
      * apply incr_app; auto. apply Forall_forall. intros y Hy.
        assert (Hin : In y (seq 0 (next s))).
        { apply (Permutation_in y (Permutation_sym P)). apply in_app_iff. auto. }
        apply in_seq in Hin. lia.
      * intros ds c r Hin. destruct (F _ _ _ Hin) as (F1 & F2 & F3 & F4).
        repeat split; auto. intros d r' d' [H|H] Hd'; [discriminate|eauto].
      * intros d c r [H|H]; [discriminate|auto].
      * intros l1 l2 d1 d2 c r1 r2 E. destruct l1; inversion E; subst; eauto.
    + (* fire *)
      constructor; cbn [listeners stack next calls first_call fired waitedb pend]; auto.
      * cbn [app]. rewrite <- app_assoc. exact P.
      * intros d [].
      * exact Logic.I.
      * intros d c r'. destruct (first_call d l) as [[c0 r0]|] eqn:E.
        -- intros E2; inversion E2; subst. specialize (C _ _ _ E). lia.
        -- destruct (waitedb d l); [|discriminate]. intros E2; inversion E2; subst. lia.
      * intros ds c r' [H|H].
        -- inversion H; subst. split; [lia|]. split; [auto|]. split.
           ++ intros d Hd. rewrite (L _ Hd), W.
              assert (Hin : In d (seq 0 (next s))).
              { apply (Permutation_in d (Permutation_sym P)). apply in_app_iff. auto. }
              apply in_seq in Hin. replace (d <? next s) with true; auto.
              symmetry. apply Nat.ltb_lt. lia.
           ++ intros d r'' d' [Hd|Hd] _; [discriminate|].
              pose proof (C _ _ _ (D _ _ _ Hd)). lia.
        -- destruct (F _ _ _ H) as (F1 & F2 & F3 & F4).
           split; [lia|]. split; [auto|]. split.
           ++ intros d Hd. now rewrite (F3 _ Hd).
           ++ intros d r'' d' [Hd|Hd] Hd'; [discriminate|eauto].
      * cbn [loopcalls]. constructor; auto. intros H. apply loopcalls_in in H.
        destruct H as (ds & r' & H). apply F in H. lia.
      * intros d c r' [H|H]; [discriminate|]. now rewrite (D _ _ _ H).
      * intros l1 l2 d1 d2 c r1 r2 E. destruct l1; inversion E; subst; eauto.
    + (* next *)
      rewrite Hst in *.
      destruct (F (d :: ds) c r (or_introl eq_refl)) as (F1 & F2 & F3 & F4).
      constructor; cbn [listeners stack next calls first_call fired waitedb pend]; auto.
      * cbn [pend app] in P. rewrite P. apply Permutation_app_head.
        apply (Permutation_middle (ds ++ pend st) (fired l) d).
      * intros ds' c' r' [H|[H|H]]; [discriminate| |].
        -- inversion H; subst ds' c' r'. destruct F2 as [F2a F2b].
           split; [auto|]. split; [auto|]. split; [intros x Hx; apply F3; now right|].
           intros x r'' x' [Hx|Hx] Hx'.
           ++ inversion Hx; subst. rewrite Forall_forall in F2a. auto.
           ++ apply (F4 x r'' x'); auto. now right.
        -- destruct (F ds' c' r' (or_intror H)) as (G1 & G2 & G3 & G4).
           split; [auto|]. split; [auto|]. split; [auto|].
           intros x r'' x' [Hx|Hx] Hx'; [|eauto].
           inversion Hx; subst.
           (* the same call cannot have two loops: its Deferreds are disjoint *)
           exfalso. cbn [loopcalls] in ND. inversion ND as [|? ? N1 N2]; subst.
           apply N1. apply loopcalls_in. eauto.
      * intros x c' r' [H|H]; [inversion H; subst; apply F3; now left|auto].
      * intros l1 l2 d1 d2 c' r1 r2 E Hin. destruct l1 as [|e l1]; inversion E; subst.
        -- eapply F4; eauto. now left.
        -- eauto.
  - destruct IH as [P W L I C F ND D O].
    destruct Hs as [s c r st Hst|s st Hst]; rewrite Hst in *.
    + constructor; cbn [listeners stack next calls]; auto.
      * intros ds c' r' Hin. apply F. now right.
      * cbn [loopcalls] in ND. now inversion ND.
    + constructor; cbn [listeners stack next calls]; auto.
      intros ds c' r' Hin. apply F. now right.
Qed.

(** ** Consequences *)

Lemma NoDup_app_r {A} (l1 l2 : list A) : NoDup (l1 ++ l2) -> NoDup l2.
Proof. induction l1 as [|x l1 IH]; cbn [app]; auto. inversion 1; auto. Qed.

Theorem fired_once l s : Reach l s -> NoDup (fired l).
Proof.
  intros H. apply reach_inv in H. destruct H as [P _ _ _ _ _ _ _ _].
  assert (N : NoDup (listeners s ++ pend (stack s) ++ fired l)).
  { apply (Permutation_NoDup P). apply seq_NoDup. }
  apply NoDup_app_r in N. now apply NoDup_app_r in N.
Qed.

Theorem fired_by_first_call l s d c r : Reach l s -> In (EFire d c r) l ->
  first_call d l = Some (c, r).
Proof. intros H. apply reach_inv in H. apply (i_fired H). Qed.

Theorem fired_in_order l s l1 l2 d1 d2 c r1 r2 : Reach l s ->
  l = l1 ++ EFire d1 c r1 :: l2 -> In (EFire d2 c r2) l2 -> d2 < d1.
Proof. intros H. apply reach_inv in H. apply (i_order H). Qed.

(** creation order is the numbering *)
Theorem created_in_order l s l1 l2 d1 d2 : Reach l s ->
  l = l1 ++ EWait d1 :: l2 -> In (EWait d2) l2 -> d2 < d1.
Proof.
  intros HR. revert l1 d1 d2 l2. induction HR as [|l s e s' HR IH Hs|l s s' HR IH Hs];
    intros l1 d1 d2 l2 E Hin; [destruct l1; discriminate| |eauto].
  destruct l1 as [|e' l1]; inversion E; subst; [|eauto].
  inversion Hs; subst. apply waitedb_iff in Hin. rewrite (i_waited (reach_inv HR)) in Hin.
  now apply Nat.ltb_lt.
Qed.

(** when no firing call is in progress, a Deferred has fired exactly if there
    was a firing call after its creation *)
Theorem fired_iff_called l s d c r : Reach l s -> stack s = [] ->
  (In (EFire d c r) l <-> first_call d l = Some (c, r)).
Proof.
  intros HR Hst. pose proof (reach_inv HR) as [P W L I C F ND D O]. split; [apply D|].
  intros Hf. pose proof (first_call_waited _ _ Hf) as Hw. rewrite W in Hw. apply Nat.ltb_lt in Hw.
  assert (Hin : In d (listeners s ++ pend (stack s) ++ fired l)).
  { apply (Permutation_in d P). apply in_seq. lia. }
  rewrite Hst in Hin. cbn [pend app] in Hin. apply in_app_iff in Hin. destruct Hin as [Hin|Hin].
  - rewrite (L _ Hin) in Hf. discriminate.
  - apply fired_in in Hin. destruct Hin as (c' & r' & Hin). pose proof (D _ _ _ Hin) as Hd.
    rewrite Hf in Hd. inversion Hd; subst. exact Hin.
Qed.

(** Every firing call in progress can be completed without further user
    actions: the callbacks return, the loops go on. *)
Lemma drain : forall n s l, Reach l s -> length (stack s) + 2 * length (pend (stack s)) <= n ->
  exists l' s', Reach (l' ++ l) s' /\ stack s' = [] /\ (forall e, In e l' -> exists d c r, e = EFire d c r).
Proof.
  induction n as [|n IH]; intros s l HR Hn.
  - exists [], s. split; [exact HR|]. split; [|intros e []].
    destruct (stack s); [auto|cbn in Hn; lia].
  - destruct (stack s) as [|f st] eqn:Hst.
    + exists [], s. split; [exact HR|]. split; [auto|intros e []].
    + destruct f as [[|d ds] c r|].
      * apply (IH (St (listeners s) st (next s) (calls s)) l).
        -- eapply R_silent; [exact HR|]. eapply S_done; eauto.
        -- cbn in *. lia.
      * set (s1 := St (listeners s) (FRun :: FLoop ds c r :: st) (next s) (calls s)).
        assert (R1 : Reach (EFire d c r :: l) s1) by (eapply R_step; [exact HR|now apply S_next]).
        destruct (IH s1 (EFire d c r :: l) R1) as (l' & s' & H1 & H2 & H3).
        { unfold s1. cbn [stack pend length app] in *. lia. }
        exists (l' ++ [EFire d c r]), s'. rewrite <- app_assoc. split; [exact H1|]. split; [auto|].
        intros e He. apply in_app_iff in He. destruct He as [He|[<-|[]]]; eauto.
      * apply (IH (St (listeners s) st (next s) (calls s)) l).
        -- eapply R_silent; [exact HR|]. eapply S_return; eauto.
        -- cbn in *. lia.
Qed.

Theorem all_fire l s : Reach l s ->
  exists l' s', Reach (l' ++ l) s' /\ stack s' = []
    /\ (forall e, In e l' -> exists d c r, e = EFire d c r)
    /\ forall d c r, first_call d l = Some (c, r) -> In (EFire d c r) (l' ++ l).
Proof.
  intros HR. destruct (drain (n := _) HR (le_n _)) as (l' & s' & H1 & H2 & H3).
  exists l', s'. split; [auto|]. split; [auto|]. split; [auto|].
  intros d c r Hf. apply (fired_iff_called d c r H1 H2).
  clear -H3 Hf. induction l' as [|e l' IH]; auto.
  destruct (H3 e (or_introl eq_refl)) as (d' & c' & r' & ->). cbn [first_call app].
  apply IH. intros e He. apply H3. now right.
Qed.

(** ** Executable histories, for examples *)
Inductive move := MWait | MFire (r : result) | MNext | MPop.

Definition is_loop (st : list frame) : bool :=
  match st with FLoop _ _ _ :: _ => true | _ => false end.

Definition exec (ls : list event * state) (m : move) : option (list event * state) :=
  let '(l, s) := ls in
  match m with
  | MWait => if is_loop (stack s) then None else
      Some (EWait (next s) :: l, St (listeners s ++ [next s]) (stack s) (S (next s)) (calls s))
  | MFire r => if is_loop (stack s) then None else
      Some (ECall (calls s) r :: l,
            St [] (FLoop (listeners s) (calls s) r :: stack s) (next s) (S (calls s)))
  | MNext => match stack s with
             | FLoop (d :: ds) c r :: st =>
                 Some (EFire d c r :: l, St (listeners s) (FRun :: FLoop ds c r :: st) (next s) (calls s))
             | _ => None
             end
  | MPop => match stack s with
            | FLoop [] c r :: st => Some (l, St (listeners s) st (next s) (calls s))
            | FRun :: st => Some (l, St (listeners s) st (next s) (calls s))
            | _ => None
            end
  end.

Fixpoint execs (ls : list event * state) (ms : list move) : option (list event * state) :=
  match ms with
  | [] => Some ls
  | m :: t => match exec ls m with Some ls' => execs ls' t | None => None end
  end.

Lemma exec_sound l s m l' s' : Reach l s -> exec (l, s) m = Some (l', s') -> Reach l' s'.
Proof.
  intros HR. unfold exec. destruct m.
  - destruct (is_loop (stack s)) eqn:E; [discriminate|]. intros H; inversion H; subst.
    eapply R_step; [exact HR|apply S_deferred]. unfold user_code, is_loop in *.
    destruct (stack s) as [|[]]; auto. discriminate.
  - destruct (is_loop (stack s)) eqn:E; [discriminate|]. intros H; inversion H; subst.
    eapply R_step; [exact HR|apply S_fire]. unfold user_code, is_loop in *.
    destruct (stack s) as [|[]]; auto. discriminate.
  - destruct (stack s) as [|[[|d ds] c r|] st] eqn:E; try discriminate.
    intros H; inversion H; subst. eapply R_step; [exact HR|now apply S_next].
  - destruct (stack s) as [|[[|d ds] c r|] st] eqn:E; try discriminate;
      intros H; inversion H; subst; eapply R_silent; try exact HR.
    + eapply S_done; eauto.
    + eapply S_return; eauto.
Qed.

Lemma execs_sound ms : forall l s l' s', Reach l s -> execs (l, s) ms = Some (l', s') -> Reach l' s'.
Proof.
  induction ms as [|m ms IH]; intros l s l' s' HR H; cbn [execs] in H.
  - inversion H; now subst.
  - destruct (exec (l, s) m) as [[l1 s1]|] eqn:E; [|discriminate].
    eapply IH; [|exact H]. eapply exec_sound; eauto.
Qed.
