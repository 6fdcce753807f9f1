(** * epsilon/remember.py:24-35: one remembered attribute of one instance, accessed by
    several threads at once, or again while its value is being made *)

From Coq Require Import NArith List Bool Arith Lia.
Import ListNotations.
Open Scope nat_scope.

(** where an access is: not begun or over; in the creation function; back from it with a
    value that is not stored yet.  [None] is Python's None. *)
Inductive place := Idle | Calling | Made (v : option N).

(** The entry of [oself.__dict__]; an absent one and None are the same to the code
    (remember.py:30-31), so they are the same here. *)
Record state := St { mem : option N; at_ : nat -> place }.

(** What happens next: an access begins (each access has a number of its own, also one made
    by the creation function); the creation function called by one returns or raises; one
    stores its value and returns it.  Threads may be switched between any two of these. *)
Inductive event := Begin (t : nat) | Return (t : nat) (v : option N) | Raise (t : nat) | Store (t : nat).

(** what is seen: the creation function is called, an access returns or raises *)
Inductive out := Call (t : nat) | Ret (t : nat) (v : option N) | Raised (t : nat).

Definition put (f : nat -> place) (t : nat) (p : place) : nat -> place := fun x => if x =? t then p else f x.

(** remember.py:24-35 [__get__] *)
Definition step (s : state) (e : event) : state * list out :=
  match e with
  | Begin t =>
      match at_ s t with
      | Idle => match mem s with
                | Some v => (s, [Ret t (Some v)])
                | None => (St (mem s) (put (at_ s) t Calling), [Call t])
                end
      | _ => (s, [])
      end
  | Return t v => match at_ s t with Calling => (St (mem s) (put (at_ s) t (Made v)), []) | _ => (s, []) end
  | Raise t => match at_ s t with Calling => (St (mem s) (put (at_ s) t Idle), [Raised t]) | _ => (s, []) end
  | Store t => match at_ s t with Made v => (St v (put (at_ s) t Idle), [Ret t v]) | _ => (s, []) end
  end.

Fixpoint run (s : state) (es : list event) : state * list out :=
  match es with
  | [] => (s, [])
  | e :: t => let (s1, o1) := step s e in let (s2, o2) := run s1 t in (s2, o1 ++ o2)
  end.

Definition fresh : state := St None (fun _ => Idle).

(** ** Specification *)

(** nobody is making a value *)
Definition quiet (s : state) : Prop := forall t, at_ s t = Idle.

(** no access begins while another is making a value *)
Fixpoint one_at_a_time (s : state) (es : list event) : Prop :=
  match es with
  | [] => True
  | e :: t => (forall x, e = Begin x -> quiet s) /\ one_at_a_time (fst (step s e)) t
  end.

(** the value that was returned last, if any was *)
Definition last_ret (v : option N) (os : list out) : option N :=
  fold_left (fun m o => match o with Ret _ w => w | _ => m end) os v.

(** ** Proofs *)

Lemma put_same f t p : put f t p t = p.
Proof. unfold put. now rewrite Nat.eqb_refl. Qed.
Lemma put_other f t p x : x <> t -> put f t p x = f x.
Proof. unfold put. intros H. destruct (Nat.eqb_spec x t); congruence. Qed.

Lemma last_ret_app v a b : last_ret v (a ++ b) = last_ret (last_ret v a) b.
Proof. apply fold_left_app. Qed.

Theorem mem_last es : forall s, mem (fst (run s es)) = last_ret (mem s) (snd (run s es)).
Proof.
  induction es as [|e es IH]; intros s; cbn [run]; [reflexivity|]. assert (H : mem (fst (step s e)) = last_ret (mem s) (snd (step s e))).
  { destruct e as [t|t v|t|t]; cbn [step]; destruct (at_ s t); cbn; try reflexivity. destruct (mem s) eqn:E; cbn; auto. }
  destruct (step s e) as [s1 o1]. specialize (IH s1). destruct (run s1 es) as [s2 o2]. cbn [fst snd] in *. now rewrite last_ret_app, <- H.
Qed.

Theorem settled s v es : quiet s -> mem s = Some v ->
  mem (fst (run s es)) = Some v /\ quiet (fst (run s es)) /\ Forall (fun o => exists t, o = Ret t (Some v)) (snd (run s es)).
Proof.
  revert s. induction es as [|e es IH]; intros s Q M; cbn [run]; [cbn; auto|].
  assert (H : fst (step s e) = s /\ Forall (fun o => exists t, o = Ret t (Some v)) (snd (step s e))).
  { destruct e as [t|t w|t|t]; cbn [step]; rewrite (Q t); rewrite ?M; cbn; split; eauto. }
  destruct (step s e) as [s1 o1]. cbn [fst snd] in H. destruct H as [-> H]. specialize (IH s Q M). destruct (run s es) as [s2 o2]. cbn [fst snd] in *. destruct IH as (I1 & I2 & I3). split; [exact I1|]. split; [exact I2|]. apply Forall_app. auto.
Qed.

(** what is returned was made *)
Definition made_by (es : list event) (v : option N) : Prop := exists t, In (Return t v) es.

Lemma run_made es : forall s (P : option N -> Prop), (mem s = None \/ P (mem s)) -> (forall t v, at_ s t = Made v -> P v) ->
  forall t v, In (Ret t v) (snd (run s es)) -> P v \/ made_by es v.
Proof.
  induction es as [|e es IH]; intros s P Hm Ha t v; cbn [run]; [intros []|].
  assert (H : (mem (fst (step s e)) = None \/ P (mem (fst (step s e))) \/ made_by [e] (mem (fst (step s e)))) /\
              (forall t v, at_ (fst (step s e)) t = Made v -> P v \/ made_by [e] v) /\ (forall t v, In (Ret t v) (snd (step s e)) -> P v)).
  { destruct e as [x|x w|x|x]; cbn [step]; destruct (at_ s x) as [| |u0] eqn:Ex; cbn [fst snd].
    all: try (split; [tauto|split; [intros t0 v0 H0; left; eauto|intros t0 v0 []]]; fail).
    - destruct (mem s) as [u|] eqn:Em; cbn [fst snd].
      + rewrite Em. split; [tauto|]. split; [intros t0 v0 H0; left; eauto|]. intros t0 v0 [H0|[]]. injection H0 as <- <-. destruct Hm as [X|X]; [discriminate|exact X].
      + cbn [mem]. split; [tauto|]. split; [|intros t0 v0 [H0|[]]; discriminate]. cbn [at_]. intros t0 v0. unfold put. destruct (t0 =? x); [discriminate|]. intros H0. left. eauto.
    - cbn [mem at_]. split; [tauto|]. split; [|intros t0 v0 []]. intros t0 v0. unfold put. destruct (t0 =? x); [intros [= <-]; right; exists x; now left|]. intros H0. left. eauto.
    - cbn [mem at_]. split; [tauto|]. split; [|intros t0 v0 [H0|[]]; discriminate]. intros t0 v0. unfold put. destruct (t0 =? x); [discriminate|]. intros H0. left. eauto.
    - cbn [mem at_]. split; [right; left; eauto|]. split; [|intros t0 v0 [H0|[]]; injection H0 as <- <-; eauto]. intros t0 v0. unfold put. destruct (t0 =? x); [discriminate|]. intros H0. left. eauto. }
  destruct (step s e) as [s1 o1]. cbn [fst snd] in H. destruct H as (H1 & H2 & H3). specialize (IH s1 (fun v => P v \/ made_by [e] v) H1 H2 t v). destruct (run s1 es) as [s2 o2]. cbn [fst snd] in *. intros Hi. apply in_app_iff in Hi as [Hi|Hi]; [left; eauto|].
  destruct (IH Hi) as [[X|(y & [X|[]])]|(y & X)]; [now left|right; exists y; now left|right; exists y; now right].
Qed.

(** if the creation function never returns None: once a value was returned, it is not called
    again *)
Definition something (es : list event) : Prop := forall t, ~ In (Return t None) es.

Lemma run_full es : something es -> forall s v, mem s = Some v -> (forall t, at_ s t <> Made None) ->
  (exists w, mem (fst (run s es)) = Some w) /\ (forall t, ~ In (Call t) (snd (run s es))).
Proof.
  induction es as [|e es IH]; intros He s v M A; cbn [run]; [cbn; split; [eauto|intros t []]|].
  assert (H : (exists w, mem (fst (step s e)) = Some w) /\ (forall t, at_ (fst (step s e)) t <> Made None) /\ (forall t, ~ In (Call t) (snd (step s e)))).
  { destruct e as [x|x w|x|x]; cbn [step]; destruct (at_ s x) as [| |u0] eqn:Ex; cbn [fst snd].
    all: try (split; [eauto|split; [exact A|intros t0 []]]; fail).
    - rewrite M. cbn [fst snd]. split; [eauto|]. split; [exact A|]. intros t0 [H0|[]]. discriminate.
    - cbn [mem at_]. split; [eauto|]. split; [|intros t0 []]. intros t0. unfold put. destruct (t0 =? x); [|apply A]. intros [= ->]. apply (He x). now left.
    - cbn [mem at_]. split; [eauto|]. split; [|intros t0 [H0|[]]; discriminate]. intros t0. unfold put. destruct (t0 =? x); [discriminate|apply A].
    - cbn [mem at_]. split; [destruct u0 as [u|]; [eauto|destruct (A x Ex)]|]. split; [|intros t0 [H0|[]]; discriminate]. intros t0. unfold put. destruct (t0 =? x); [discriminate|apply A]. }
  destruct (step s e) as [s1 o1]. cbn [fst snd] in H. destruct H as ((w & H1) & H2 & H3). specialize (IH (fun t X => He t (or_intror X)) s1 w H1 H2). destruct (run s1 es) as [s2 o2]. cbn [fst snd] in *. destruct IH as [I1 I2]. split; [exact I1|].
  intros t Hi. apply in_app_iff in Hi as [Hi|Hi]; [exact (H3 t Hi)|exact (I2 t Hi)].
Qed.

Lemma no_call_after es : something es -> forall s, (forall t, at_ s t <> Made None) ->
  forall pre t v post, snd (run s es) = pre ++ Ret t v :: post -> forall x, ~ In (Call x) post.
Proof.
  induction es as [|e es IH]; intros He s A pre t v post; cbn [run]; [destruct pre; discriminate|]. assert (He' : something es) by (intros x X; apply (He x); now right).
  assert (H : (forall t, at_ (fst (step s e)) t <> Made None) /\ (snd (step s e) = [] \/ (exists x, snd (step s e) = [Call x]) \/ (exists x, snd (step s e) = [Raised x]) \/ exists x w, snd (step s e) = [Ret x (Some w)] /\ mem (fst (step s e)) = Some w)).
  { destruct e as [x|x w|x|x]; cbn [step]; destruct (at_ s x) as [| |u0] eqn:Ex; cbn [fst snd]; try (split; [exact A|now left]).
    - destruct (mem s) as [u|] eqn:Em; cbn [fst snd]; (split; [try exact A|]).
      + right. right. right. exists x, u. auto.
      + cbn [at_]. intros t0. unfold put. destruct (t0 =? x); [discriminate|apply A].
      + right. left. eauto.
    - cbn [at_]. split; [|now left]. intros t0. unfold put. destruct (t0 =? x); [|apply A]. intros [= ->]. apply (He x). now left.
    - cbn [at_]. split; [|right; right; left; eauto]. intros t0. unfold put. destruct (t0 =? x); [discriminate|apply A].
    - cbn [at_ mem]. destruct u0 as [u|]; [|destruct (A x Ex)]. split; [|right; right; right; exists x, u; auto]. intros t0. unfold put. destruct (t0 =? x); [discriminate|apply A]. }
  destruct (step s e) as [s1 o1]. cbn [fst snd] in H. destruct H as [A1 H]. pose proof (IH He' s1 A1) as K. pose proof (run_full es He' s1) as F. destruct (run s1 es) as [s2 o2]. cbn [fst snd] in *. intros E x Hx.
  destruct H as [-> |[(y & ->)|[(y & ->)|(y & w & -> & M)]]]; cbn [app] in E.
  - exact (K pre t v post E x Hx).
  - destruct pre as [|q pre]; injection E as E1 E2; [discriminate|]. exact (K pre t v post E2 x Hx).
  - destruct pre as [|q pre]; injection E as E1 E2; [discriminate|]. exact (K pre t v post E2 x Hx).
  - apply (proj2 (F w M A1) x). destruct pre as [|q pre]; injection E as E1 E2; [now subst|]. rewrite E2. apply in_app_iff. right. now right.
Qed.

(** while somebody is making a value, alone, nothing is remembered *)
Definition lone (s : state) : Prop := quiet s \/ mem s = None /\ exists t, forall x, x <> t -> at_ s x = Idle.

Lemma step_lone s e : (forall x, e = Begin x -> quiet s) -> lone s -> lone (fst (step s e)).
Proof.
  intros Hb L. assert (One : quiet s \/ exists t, forall x, x <> t -> at_ s x = Idle) by (destruct L as [Q|[_ X]]; auto).
  destruct e as [t|t v|t|t]; cbn [step]; destruct (at_ s t) eqn:Et; cbn [fst]; auto.
  - destruct (mem s) eqn:Em; cbn [fst]; [auto|]. right. split; [reflexivity|]. exists t. cbn [at_]. intros x Hx. rewrite put_other by exact Hx. apply (Hb t eq_refl).
  - destruct L as [Q|(M & t' & Q)]; [rewrite Q in Et; discriminate|]. right. split; [exact M|]. exists t'. cbn [at_]. intros x Hx. destruct (Nat.eq_dec x t) as [->|N]; [rewrite Q in Et by exact Hx; discriminate|]. rewrite put_other by exact N. auto.
  - destruct L as [Q|(M & t' & Q)]; [rewrite Q in Et; discriminate|]. left. intros x. cbn [at_]. destruct (Nat.eq_dec x t) as [->|N]; [apply put_same|]. rewrite put_other by exact N. apply Q. intros ->. rewrite Q in Et by congruence. discriminate.
  - destruct L as [Q|(M & t' & Q)]; [rewrite Q in Et; discriminate|]. left. intros x. cbn [at_]. destruct (Nat.eq_dec x t) as [->|N]; [apply put_same|]. rewrite put_other by exact N. apply Q. intros ->. rewrite Q in Et by congruence. discriminate.
Qed.

Theorem alone_same es : forall s, lone s -> one_at_a_time s es -> exists v, forall t w, In (Ret t (Some w)) (snd (run s es)) -> w = v.
Proof.
  induction es as [|e es IH]; intros s L O; cbn [run]; [exists 0%N; intros t w []|]. destruct O as [Hb O].
  destruct (mem s) as [v|] eqn:M.
  - assert (Q : quiet s) by (destruct L as [Q|[X _]]; [exact Q|congruence]). exists v. pose proof (proj2 (proj2 (settled s v (e :: es) Q M))) as F. rewrite Forall_forall in F. intros t w Hi. destruct (F _ Hi) as (t' & E). now injection E.
  - pose proof (step_lone s e Hb L) as L1. destruct (mem (fst (step s e))) as [v|] eqn:M1.
    + assert (Q1 : quiet (fst (step s e))) by (destruct L1 as [Q|[X _]]; [exact Q|congruence]). pose proof (settled _ v es Q1 M1) as F.
      assert (Ho : forall t w, In (Ret t (Some w)) (snd (step s e)) -> w = v).
      { destruct e as [t|t u|t|t]; cbn [step] in *; destruct (at_ s t); cbn [fst snd] in *; rewrite ?M in *; cbn [fst snd mem] in *; intros t0 w Hi; cbn in Hi; repeat (contradiction || destruct Hi as [Hi|Hi] || discriminate Hi); try congruence. }
      destruct (step s e) as [s1 o1]. cbn [fst snd] in *. destruct (run s1 es) as [s2 o2]. cbn [fst snd] in *. destruct F as (_ & _ & F). rewrite Forall_forall in F. exists v. intros t w Hi. apply in_app_iff in Hi as [Hi|Hi]; [eauto|]. destruct (F _ Hi) as (t' & E). now injection E.
    + assert (Ho : forall t w, ~ In (Ret t (Some w)) (snd (step s e))).
      { destruct e as [t|t u|t|t]; cbn [step] in *; destruct (at_ s t); cbn [fst snd] in *; rewrite ?M in *; cbn [fst snd mem] in *; intros t0 w Hi; cbn in Hi; repeat (contradiction || destruct Hi as [Hi|Hi] || discriminate Hi); try congruence. }
      destruct (IH _ L1 O) as (v & Hv). exists v. destruct (step s e) as [s1 o1]. cbn [fst snd] in *. destruct (run s1 es) as [s2 o2]. cbn [fst snd] in *. intros t w Hi. apply in_app_iff in Hi as [Hi|Hi]; [destruct (Ho t w Hi)|eauto].
Qed.
