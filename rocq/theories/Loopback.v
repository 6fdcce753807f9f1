(** * epsilon/hotfixes/loopbackasync_reentrancy.py

    The hotfix replaces one function of twisted.protocols.loopback; the functions
    around it, [_LoopbackQueue], [_LoopbackTransport] and [_loopbackAsyncBody],
    are Twisted's and are modelled from its published text (they are not in
    /repo).  The two protocols are any functions from what they have received to
    what they do.  Not modelled: producers, what protocols do in
    [connectionLost], code of one protocol that uses the transport of the
    other. *)

From Coq Require Import NArith List Bool Arith Lia.
From Verif Require Import Py.
Import ListNotations.
Open Scope nat_scope.

Inductive side := Srv | Cli.
Definition other (x : side) : side := match x with Srv => Cli | Cli => Srv end.

Definition data := list N.

(** what is in a [_LoopbackQueue]: data, or the None of [loseConnection] *)
Inductive item := Data (b : data) | NoData.

(** what code does with its transport: [write], [loseConnection] *)
Inductive action := Write (b : data) | Lose.

(** [_LoopbackQueue]; [q_note] is [_notificationDeferred], a number that names
    the Deferred *)
Record queue := Q { q_items : list item; q_disc : bool; q_note : option nat }.

(** where the code is: in the reactor; in one of the loops of
    [_loopbackAsyncBody] ([sent] flags as in the code); done *)
Inductive place := Idle | PumpS (serverSent : bool) | PumpC (serverSent clientSent : bool) | FlushS | FlushC | Gone.

(** [to_c] and [to_s] are serverToClient and clientToServer; [turns] the calls
    of [_loopbackAsyncBody] the reactor still has to make; [fired] the Deferreds
    already called back; [raised]: a Deferred was called back twice *)
Record st := St { to_c : queue; to_s : queue; at_ : place; next : nat; fired : list nat; turns : nat; raised : bool;
                  got_c : list data; got_s : list data }.

Inductive out := OWrote (x : side) (b : data) | OLose (x : side) | ODeliver (x : side) (b : data) | OLost (x : side).

(** loopbackasync_reentrancy.py:9-21 [_loopbackAsyncContinue], called when the
    Deferred fires: both queues forget it, and the reactor is asked for one more
    call of [_loopbackAsyncBody] *)
Definition continue_ (s : st) : st :=
  St (Q (q_items (to_c s)) (q_disc (to_c s)) None) (Q (q_items (to_s s)) (q_disc (to_s s)) None)
     (at_ s) (next s) (fired s) (S (turns s)) (raised s) (got_c s) (got_s s).

(** [d.callback(None)]; AlreadyCalledError the second time *)
Definition callback (d : nat) (s : st) : st :=
  if existsb (Nat.eqb d) (fired s)
  then St (to_c s) (to_s s) (at_ s) (next s) (fired s) (turns s) true (got_c s) (got_s s)
  else continue_ (St (to_c s) (to_s s) (at_ s) (next s) (d :: fired s) (turns s) (raised s) (got_c s) (got_s s)).

(** the queue that [x] writes to *)
Definition queue_of (x : side) (s : st) : queue := match x with Srv => to_c s | Cli => to_s s end.
Definition set_queue (x : side) (q : queue) (s : st) : st :=
  match x with
  | Srv => St q (to_s s) (at_ s) (next s) (fired s) (turns s) (raised s) (got_c s) (got_s s)
  | Cli => St (to_c s) q (at_ s) (next s) (fired s) (turns s) (raised s) (got_c s) (got_s s)
  end.

(** [_LoopbackQueue.put] *)
Definition put (x : side) (v : item) (s : st) : st :=
  let q := queue_of x s in
  match q_note q with
  | None => set_queue x (Q (q_items q ++ [v]) (q_disc q) None) s
  | Some d => callback d (set_queue x (Q (q_items q ++ [v]) (q_disc q) None) s)
  end.

(** [_LoopbackTransport.write] and [loseConnection] *)
Definition act (x : side) (a : action) (s : st) : st * list out :=
  match a with
  | Write b => (put x (Data b) s, [OWrote x b])
  | Lose => let q := queue_of x s in (put x NoData (set_queue x (Q (q_items q) true (q_note q)) s), [OLose x])
  end.

Fixpoint acts (x : side) (l : list action) (s : st) : st * list out :=
  match l with
  | [] => (s, [])
  | a :: t => let '(s1, o1) := act x a s in let '(s2, o2) := acts x t s1 in (s2, o1 ++ o2)
  end.

Definition go (p : place) (s : st) : st := St (to_c s) (to_s s) p (next s) (fired s) (turns s) (raised s) (got_c s) (got_s s).

Section Protocols.

(** what the protocol of each side does when data arrives, given all it has
    received *)
Variable rx : side -> list data -> list action.

(** [q.get()] of the queue [x] writes to, then [target.dataReceived] *)
Definition deliver (x : side) (v : item) (rest : list item) (s : st) : st * list out :=
  let s1 := set_queue x (Q rest (q_disc (queue_of x s)) (q_note (queue_of x s))) s in
  match v with
  | Data (c :: b) =>
      match x with
      | Srv => let s2 := St (to_c s1) (to_s s1) (at_ s1) (next s1) (fired s1) (turns s1) (raised s1) (got_c s1 ++ [c :: b]) (got_s s1) in
               let '(s3, o) := acts Cli (rx Cli (got_c s2)) s2 in (s3, ODeliver Cli (c :: b) :: o)
      | Cli => let s2 := St (to_c s1) (to_s s1) (at_ s1) (next s1) (fired s1) (turns s1) (raised s1) (got_c s1) (got_s s1 ++ [c :: b]) in
               let '(s3, o) := acts Srv (rx Srv (got_s s2)) s2 in (s3, ODeliver Srv (c :: b) :: o)
      end
  | _ => (s1, [])
  end.

(** one step of [_loopbackAsyncBody] *)
Definition body (s : st) : option (st * list out) :=
  match at_ s with
  | Idle | Gone => None
  | PumpS sent =>
      match q_items (to_c s) with
      | v :: t => Some (deliver Srv v t (go (PumpS true) s))
      | [] => Some (go (PumpC sent false) s, [])
      end
  | PumpC ssent csent =>
      match q_items (to_s s) with
      | v :: t => Some (deliver Cli v t (go (PumpC ssent true) s))
      | [] =>
          if negb csent && negb ssent
          then Some (St (Q (q_items (to_c s)) (q_disc (to_c s)) (Some (next s))) (Q (q_items (to_s s)) (q_disc (to_s s)) (Some (next s)))
                        Idle (S (next s)) (fired s) (turns s) (raised s) (got_c s) (got_s s), [])
          else if q_disc (to_c s) then Some (go FlushS s, [])
          else if q_disc (to_s s) then Some (go FlushC s, [])
          else Some (go (PumpS false) s, [])
      end
  | FlushS =>
      match q_items (to_c s) with
      | v :: t => Some (deliver Srv v t s)
      | [] => Some (go Gone s, [OLost Srv; OLost Cli])
      end
  | FlushC =>
      match q_items (to_s s) with
      | v :: t => Some (deliver Cli v t s)
      | [] => Some (go Gone s, [OLost Srv; OLost Cli])
      end
  end.

(** other code, called by the reactor, uses a transport; the reactor makes a
    call of [_loopbackAsyncBody] it was asked for; that function goes on *)
Inductive event := EApp (x : side) (a : action) | ETurn | EBody.

Definition step (s : st) (e : event) : option (st * list out) :=
  match e with
  | EApp x a => match at_ s with Idle | Gone => Some (act x a s) | _ => None end
  | ETurn => match at_ s, turns s with
             | Idle, S n => Some (St (to_c s) (to_s s) (PumpS false) (next s) (fired s) n (raised s) (got_c s) (got_s s), [])
             | _, _ => None
             end
  | EBody => body s
  end.

(** [loopbackAsync] after the two [makeConnection]; what the protocols write
    there are the events before the first call of [_loopbackAsyncBody] *)
Definition init : st := St (Q [] false None) (Q [] false None) Idle 0 [] 1 false [] [].

Inductive Run : st -> list out -> Prop :=
| R_init : Run init []
| R_step s o e s' o' : Run s o -> step s e = Some (s', o') -> Run s' (o ++ o').

End Protocols.

(** ** Specification *)

(** the data written by [x], and received by [x], in order; empty writes send
    nothing *)
Fixpoint written (x : side) (o : list out) : list data :=
  match o with
  | [] => []
  | OWrote Srv (c :: b) :: t => match x with Srv => (c :: b) :: written x t | Cli => written x t end
  | OWrote Cli (c :: b) :: t => match x with Cli => (c :: b) :: written x t | Srv => written x t end
  | _ :: t => written x t
  end.
Fixpoint received (x : side) (o : list out) : list data :=
  match o with
  | [] => []
  | ODeliver Srv b :: t => match x with Srv => b :: received x t | Cli => received x t end
  | ODeliver Cli b :: t => match x with Cli => b :: received x t | Srv => received x t end
  | _ :: t => received x t
  end.

Definition prefix {A} (a b : list A) : Prop := exists r, b = a ++ r.

(** [x] was the first to call [loseConnection], after [pre] *)
Definition first_lose (x : side) (pre o : list out) : Prop :=
  exists post, o = pre ++ OLose x :: post /\ forall y, ~ In (OLose y) pre.

(** ** Proofs *)

Fixpoint pend (l : list item) : list data :=
  match l with [] => [] | Data (c :: b) :: t => (c :: b) :: pend t | _ :: t => pend t end.

Lemma pend_app a b : pend (a ++ b) = pend a ++ pend b.
Proof. induction a as [|[[|c d]|] a IH]; cbn [app pend]; [reflexivity|exact IH|now rewrite IH|exact IH]. Qed.
Lemma written_app x a b : written x (a ++ b) = written x a ++ written x b.
Proof. induction a as [|[[] [|c d]|?|?|?] a IH]; cbn [app written]; try reflexivity; try exact IH; destruct x; cbn [app]; rewrite IH; reflexivity. Qed.
Lemma received_app x a b : received x (a ++ b) = received x a ++ received x b.
Proof. induction a as [|[? ?|?|[] ?|?] a IH]; cbn [app received]; try reflexivity; try exact IH; destruct x; cbn [app]; rewrite IH; reflexivity. Qed.

(** what the actions of one side put out *)
Definition own (x : side) (o : out) : Prop := match o with OWrote y _ | OLose y => y = x | _ => False end.

Lemma own_other x o : Forall (own x) o -> written (other x) o = [] /\ (forall y, received y o = []) /\ ~ In (OLose (other x)) o /\
  (forall y b, ~ In (ODeliver y b) o) /\ (forall y, ~ In (OLost y) o).
Proof.
  induction 1 as [|[y b|y|y b|y] o H F (A & B & C & D & E)]; [repeat split; auto|..]; cbn [own] in H; try contradiction; subst.
  - split; [destruct x, b; exact A|]. split; [intros y; exact (B y)|]. split; [intros [H|H]; [discriminate|now apply C]|].
    split; [intros y b' [H|H]; [discriminate|now apply (D y b')]|intros y [H|H]; [discriminate|now apply (E y)]].
  - split; [destruct x; exact A|]. split; [intros y; exact (B y)|]. split; [intros [H|H]; [destruct x; discriminate|now apply C]|].
    split; [intros y b' [H|H]; [discriminate|now apply (D y b')]|intros y [H|H]; [discriminate|now apply (E y)]].
Qed.

Definition quiet (s : st) : Prop := q_note (to_c s) = None /\ q_note (to_s s) = None.

Lemma queue_set x q s : queue_of x (set_queue x q s) = q.
Proof. now destruct x. Qed.

Lemma act_own x a s : Forall (own x) (snd (act x a s)).
Proof. destruct a; cbn; repeat constructor. Qed.

Definition item_of (a : action) : item := match a with Write b => Data b | Lose => NoData end.
Definition loses (a : action) : bool := match a with Lose => true | _ => false end.

Lemma act_quiet x a s : quiet s ->
  fst (act x a s) = set_queue x (Q (q_items (queue_of x s) ++ [item_of a]) (q_disc (queue_of x s) || loses a) None) s.
Proof.
  intros [Hc Hs]. destruct x, a; cbn [act fst loses item_of queue_of]; unfold put; cbn [queue_of set_queue to_c to_s q_note q_items q_disc].
  - rewrite Hc. now rewrite orb_false_r.
  - rewrite Hc. now rewrite orb_true_r.
  - rewrite Hs. now rewrite orb_false_r.
  - rewrite Hs. now rewrite orb_true_r.
Qed.

Lemma act_facts x a s : written x (snd (act x a s)) = pend [item_of a] /\ (In (OLose x) (snd (act x a s)) <-> loses a = true).
Proof.
  destruct a as [[|c b]|]; cbn; destruct x; cbn; split; try reflexivity; split; try discriminate; try tauto; intros [H|[]]; discriminate.
Qed.

Lemma set_set x q q' s : set_queue x q (set_queue x q' s) = set_queue x q s.
Proof. now destruct x. Qed.
Lemma set_quiet x i d s : quiet s -> quiet (set_queue x (Q i d None) s).
Proof. intros [A B]. destruct x; split; auto. Qed.

Lemma acts_quiet x : forall l s, quiet s -> exists its d,
  fst (acts x l s) = set_queue x (Q (q_items (queue_of x s) ++ its) (q_disc (queue_of x s) || d) None) s /\
  Forall (own x) (snd (acts x l s)) /\ written x (snd (acts x l s)) = pend its /\ (In (OLose x) (snd (acts x l s)) <-> d = true).
Proof.
  induction l as [|a l IH]; intros s Hq.
  - exists [], false. cbn [acts fst snd]. rewrite app_nil_r, orb_false_r. split; [|split; [constructor|split; [reflexivity|split; [intros []|discriminate]]]].
    destruct Hq as [A B]. destruct x, s as [[i1 d1 n1] [i2 d2 n2] p n f t r gc gs]; cbn in *; congruence.
  - cbn [acts]. pose proof (act_quiet x a s Hq) as E. pose proof (act_own x a s) as O. pose proof (act_facts x a s) as [W L].
    destruct (act x a s) as [s1 o1]. cbn [fst snd] in *.
    destruct (IH s1) as (its & d & E2 & O2 & W2 & L2); [subst s1; now apply set_quiet|].
    destruct (acts x l s1) as [s2 o2]. cbn [fst snd] in *. exists (item_of a :: its), (loses a || d). subst s1. rewrite queue_set in E2. cbn [q_items q_disc] in E2.
    rewrite set_set, <- app_assoc in E2. cbn [app] in E2. rewrite <- orb_assoc in E2. split; [exact E2|]. split; [now apply Forall_app|].
    rewrite written_app, W, W2, <- pend_app. split; [reflexivity|]. rewrite in_app_iff, L, L2, orb_true_iff. reflexivity.
Qed.

Lemma first_lose_more x pre o o' : first_lose x pre o -> first_lose x pre (o ++ o').
Proof. intros (post & -> & H). exists (post ++ o'). now rewrite <- app_assoc. Qed.

Lemma split_at {A} (P : A -> Prop) (Q : A -> Prop) : (forall a, P a -> ~ Q a) -> forall p q r s a b, p ++ a :: q = r ++ b :: s -> Q a -> Q b ->
  Forall P p -> Forall P r -> p = r /\ a = b /\ q = s.
Proof.
  intros X. induction p as [|c p IH]; intros q r s a b E Qa Qb Fp Fr; destruct r as [|d r]; cbn in E; injection E as E1 E2.
  - subst. auto.
  - subst d. inversion Fr; subst. now apply X in H1.
  - subst c. inversion Fp; subst. now apply X in H1.
  - subst. inversion Fp; inversion Fr; subst. destruct (IH _ _ _ _ _ E2 Qa Qb) as (-> & -> & ->); auto.
Qed.

Definition is_lose (o : out) : Prop := exists x, o = OLose x.
Lemma first_lose_unique x y p q o : first_lose x p o -> first_lose y q o -> x = y /\ p = q.
Proof.
  intros (a & E & H) (b & E' & H'). rewrite E in E'.
  destruct (split_at (fun o => ~ is_lose o) is_lose (fun a H => H) p a q b (OLose x) (OLose y) E') as (-> & E2 & _).
  - now exists x.
  - now exists y.
  - apply Forall_forall. intros o' I (z & ->). now apply (H z).
  - apply Forall_forall. intros o' I (z & ->). now apply (H' z).
  - injection E2 as ->. auto.
Qed.

Lemma first_lose_exists o : (exists x, In (OLose x) o) -> exists x p, first_lose x p o.
Proof.
  induction o as [|a o IH]; intros (x & H); [destruct H|].
  assert (D : is_lose a \/ ~ is_lose a) by (destruct a; [right|left; eauto|right|right]; try (intros (? & ?); discriminate); eexists; reflexivity).
  destruct D as [(y & ->)|N].
  - exists y, [], o. split; [reflexivity|]. intros z [].
  - destruct IH as (y & p & post & -> & Hp). { destruct H as [->|H]; [exfalso; apply N; now exists x|now exists x]. }
    exists y, (a :: p), post. split; [reflexivity|]. intros z [->|I]; [apply N; now exists z|exact (Hp z I)].
Qed.

Lemma first_lose_before x p o o' : (exists y, In (OLose y) o) -> first_lose x p (o ++ o') -> first_lose x p o.
Proof.
  intros H F. destruct (first_lose_exists o H) as (y & q & G). destruct (first_lose_unique _ _ _ _ _ F (first_lose_more y q o o' G)) as [-> ->]. exact G.
Qed.

Lemma written_prefix x p o : prefix p o -> prefix (written x p) (written x o).
Proof. intros (r & ->). exists (written x r). apply written_app. Qed.
Lemma first_prefix x p o : first_lose x p o -> prefix p o.
Proof. intros (r & -> & _). now exists (OLose x :: r). Qed.

(** *** the invariant *)
Definition flows (s : st) (o : list out) : Prop :=
  written Srv o = received Cli o ++ pend (q_items (to_c s)) /\ written Cli o = received Srv o ++ pend (q_items (to_s s)).

Definition notes (s : st) : Prop :=
  raised s = false /\ Forall (fun d => d < next s) (fired s) /\
  match at_ s with
  | Idle => turns s = 1 /\ quiet s \/
            turns s = 0 /\ q_items (to_c s) = [] /\ q_items (to_s s) = [] /\
            exists d, q_note (to_c s) = Some d /\ q_note (to_s s) = Some d /\ d < next s /\ ~ In d (fired s)
  | _ => turns s = 0 /\ quiet s
  end.

Definition flags (s : st) (o : list out) : Prop :=
  (q_disc (to_c s) = true <-> In (OLose Srv) o) /\ (q_disc (to_s s) = true <-> In (OLose Cli) o).

Definition closing (s : st) (o : list out) : Prop :=
  match at_ s with
  | FlushS => In (OLose Srv) o /\ (forall p, first_lose Cli p o -> prefix (written Cli p) (received Srv o)) /\ forall y, ~ In (OLost y) o
  | FlushC => (exists p, first_lose Cli p o) /\ forall y, ~ In (OLost y) o
  | Gone => (exists a b, o = a ++ [OLost Srv; OLost Cli] ++ b /\ (forall y, ~ In (OLost y) (a ++ b)) /\ (forall y c, ~ In (ODeliver y c) b) /\
              exists x p, first_lose x p a /\ prefix (written x p) (received (other x) a))
  | _ => forall y, ~ In (OLost y) o
  end.

Definition empt (s : st) : Prop := match at_ s with PumpC _ false => q_items (to_c s) = [] | _ => True end.

Definition Inv (s : st) (o : list out) : Prop := (flows s o /\ notes s /\ flags s o /\ closing s o) /\ empt s.

Lemma ext_flows x its d n s o o' : flows s o -> Forall (own x) o' -> written x o' = pend its ->
  flows (set_queue x (Q (q_items (queue_of x s) ++ its) d n) s) (o ++ o').
Proof.
  intros [A B] F W. destruct (own_other x o' F) as (W' & R & _).
  destruct x; cbn [set_queue queue_of other] in *; split; cbn [to_c to_s q_items]; rewrite written_app, received_app, ?R, ?W, ?W', ?app_nil_r, ?pend_app;
    rewrite ?A, ?B, ?app_assoc; reflexivity.
Qed.

Lemma ext_flags x its d n s o o' : flags s o -> Forall (own x) o' -> (In (OLose x) o' <-> d = true) ->
  flags (set_queue x (Q its (q_disc (queue_of x s) || d) n) s) (o ++ o').
Proof.
  intros [A B] F W. destruct (own_other x o' F) as (_ & _ & L & _).
  destruct x; cbn [set_queue queue_of other] in *; split; cbn [to_c to_s q_disc]; rewrite in_app_iff, ?orb_true_iff; tauto.
Qed.

Lemma set_at x q s : at_ (set_queue x q s) = at_ s. Proof. now destruct x. Qed.

Lemma ext_closing x q s o o' : closing s o -> Forall (own x) o' -> closing (set_queue x q s) (o ++ o').
Proof.
  unfold closing. rewrite set_at. intros H F. destruct (own_other x o' F) as (_ & R & _ & D & L).
  assert (NL : forall y, ~ In (OLost y) o -> ~ In (OLost y) (o ++ o')) by (intros y Hy I; apply in_app_or in I; destruct I as [I|I]; [now apply Hy|now apply (L y)]).
  destruct (at_ s); try (intros y; apply NL; apply H).
  - destruct H as (I & P & N). split; [apply in_or_app; now left|]. split; [|intros y; apply NL, N].
    intros p Hp. apply first_lose_before in Hp; [|now exists Srv]. rewrite received_app, R, app_nil_r. now apply P.
  - destruct H as ((p & P) & N). split; [exists p; now apply first_lose_more|intros y; apply NL, N].
  - destruct H as (a & b & -> & N & Nd & C). exists a, (b ++ o'). rewrite <- !app_assoc. split; [reflexivity|]. split; [|split; [|exact C]].
    + intros y. rewrite app_assoc. intros I. apply in_app_or in I. destruct I as [I|I]; [now apply (N y)|now apply (L y)].
    + intros y c I. apply in_app_or in I. destruct I as [I|I]; [now apply (Nd y c)|now apply (D y c)].
Qed.

Lemma del_closing s o y b : at_ s <> Gone -> closing s o -> closing s (o ++ [ODeliver y b]).
Proof.
  unfold closing. intros HG H.
  assert (NL : forall z, ~ In (OLost z) o -> ~ In (OLost z) (o ++ [ODeliver y b])) by (intros z Hz I; apply in_app_or in I; destruct I as [I|[I|[]]]; [now apply Hz|discriminate]).
  destruct (at_ s); try (intros z; apply NL; apply H); [| |now destruct HG].
  - destruct H as (I & P & N). split; [apply in_or_app; now left|]. split; [|intros z; apply NL, N].
    intros p Hp. apply first_lose_before in Hp; [|now exists Srv]. destruct (P p Hp) as (r & E). rewrite received_app, E, <- app_assoc. eexists. reflexivity.
  - destruct H as ((p & P) & N). split; [exists p; now apply first_lose_more|intros z; apply NL, N].
Qed.

Definition core (s : st) (o : list out) : Prop :=
  flows s o /\ flags s o /\ closing s o /\ quiet s /\ turns s = 0 /\ raised s = false /\ Forall (fun d => d < next s) (fired s).

Lemma core_inv s o : at_ s <> Idle -> core s o /\ empt s <-> Inv s o.
Proof. intros H. unfold core, Inv, notes. destruct (at_ s); try (now destruct H); tauto. Qed.

Lemma deliver_core rx x v t s o : core s o -> at_ s <> Gone -> q_items (queue_of x s) = v :: t ->
  core (fst (deliver rx x v t s)) (o ++ snd (deliver rx x v t s)) /\ at_ (fst (deliver rx x v t s)) = at_ s.
Proof.
  intros (Hf & Hg & Hc & Hq & Ht & Hr & Hd) HG Hi. unfold deliver.
  set (s1 := set_queue x (Q t (q_disc (queue_of x s)) (q_note (queue_of x s))) s).
  assert (A1 : at_ s1 = at_ s) by apply set_at.
  assert (Q1 : quiet s1) by (destruct Hq as [U V]; unfold s1; destruct x; split; assumption).
  assert (G1 : flags s1 o) by (destruct Hg; unfold s1; destruct x; split; assumption).
  assert (C1 : closing s1 o) by (unfold closing; rewrite A1; exact Hc).
  assert (T1 : turns s1 = 0 /\ raised s1 = false /\ Forall (fun d => d < next s1) (fired s1)) by (unfold s1; destruct x; auto).
  assert (skip : pend [v] = [] -> core s1 (o ++ []) /\ at_ s1 = at_ s).
  { intros E. rewrite app_nil_r. split; [|exact A1]. repeat split; try tauto; try apply G1; try apply Q1; destruct Hf as [F1 F2]; unfold s1; destruct x; cbn [queue_of set_queue to_c to_s q_items] in *;
      rewrite ?Hi in *; try assumption; change (v :: t) with ([v] ++ t) in *; rewrite pend_app, E in *; assumption. }
  destruct v as [[|c b]|]; [apply skip; reflexivity| |apply skip; reflexivity]. clear skip.
  assert (D : forall s2, to_c s2 = to_c s1 -> to_s s2 = to_s s1 -> at_ s2 = at_ s1 -> next s2 = next s1 -> fired s2 = fired s1 -> turns s2 = turns s1 -> raised s2 = raised s1 ->
     forall l, core (fst (acts (other x) l s2)) (o ++ ODeliver (other x) (c :: b) :: snd (acts (other x) l s2)) /\ at_ (fst (acts (other x) l s2)) = at_ s).
  { intros s2 E1 E2 E3 E4 E5 E6 E7 l.
    assert (Q2 : quiet s2) by (unfold quiet; rewrite E1, E2; exact Q1).
    assert (F2 : flows s2 (o ++ [ODeliver (other x) (c :: b)])).
    { unfold flows. rewrite E1, E2, !written_app, !received_app. destruct Hf as [U V]. unfold s1. destruct x; cbn [queue_of set_queue to_c to_s q_items other written received app] in *;
        rewrite Hi in *; cbn [pend] in *; rewrite !app_nil_r; rewrite U, V, <- ?app_assoc; split; reflexivity. }
    assert (G2 : flags s2 (o ++ [ODeliver (other x) (c :: b)])).
    { unfold flags. rewrite E1, E2. destruct G1 as [U V]. rewrite !in_app_iff. cbn [In]. split; [rewrite U|rewrite V]; (split; [tauto|intros [I|[I|[]]]; [exact I|discriminate]]). }
    assert (C2 : closing s2 (o ++ [ODeliver (other x) (c :: b)])) by (apply del_closing; [congruence|unfold closing; rewrite E3; exact C1]).
    destruct (acts_quiet (other x) l s2 Q2) as (its & d & E & O & W & L). rewrite E, set_at.
    change (ODeliver (other x) (c :: b) :: snd (acts (other x) l s2)) with ([ODeliver (other x) (c :: b)] ++ snd (acts (other x) l s2)). rewrite app_assoc.
    split; [|congruence]. split; [now apply ext_flows|]. split; [now apply ext_flags|]. split; [now apply ext_closing|]. split; [now apply set_quiet|].
    destruct T1 as (T & R & Fd). rewrite <- E4, <- E5, <- E6, <- E7 in *. destruct (other x); auto. }
  destruct x; cbn [other] in D.
  - specialize (D (St (to_c s1) (to_s s1) (at_ s1) (next s1) (fired s1) (turns s1) (raised s1) (got_c s1 ++ [c :: b]) (got_s s1)) eq_refl eq_refl eq_refl eq_refl eq_refl eq_refl eq_refl
      (rx Cli (got_c s1 ++ [c :: b]))). cbn [got_c]. destruct (acts Cli _ _) as [s3 o3]. cbn [fst snd] in *. exact D.
  - specialize (D (St (to_c s1) (to_s s1) (at_ s1) (next s1) (fired s1) (turns s1) (raised s1) (got_c s1) (got_s s1 ++ [c :: b])) eq_refl eq_refl eq_refl eq_refl eq_refl eq_refl eq_refl
      (rx Srv (got_s s1 ++ [c :: b]))). cbn [got_s]. destruct (acts Srv _ _) as [s3 o3]. cbn [fst snd] in *. exact D.
Qed.

Lemma go_core p s o : (match at_ s with FlushS | FlushC | Gone => False | _ => True end) -> (match p with FlushS | FlushC | Gone => False | _ => True end) ->
  core s o -> core (go p s) o.
Proof.
  intros A B (Hf & Hg & Hc & Hq & Ht & Hr & Hd). repeat split; try tauto; try apply Hf; try apply Hg; try apply Hq.
  unfold closing in *. cbn [go at_]. destruct (at_ s); try contradiction; destruct p; try contradiction; exact Hc.
Qed.

Theorem inv_step rx s o e s' o' : Inv s o -> step rx s e = Some (s', o') -> Inv s' (o ++ o').
Proof.
  intros H E. destruct e as [x a| |]; cbn [step] in E.
  - (* other code *)
    pose proof (act_own x a s) as O. pose proof (act_facts x a s) as [W L].
    assert (Hact : act x a s = (s', o')) by (destruct (at_ s); congruence). rewrite Hact in *. cbn [snd] in *.
    assert (At : at_ s = Idle \/ at_ s = Gone) by (destruct (at_ s); try discriminate; auto). clear E.
    destruct H as [(Hf & (Hr & Hd & Hn) & Hg & Hc) _].
    assert (Qc : quiet s -> Inv s' (o ++ o')).
    { intros Hq. pose proof (act_quiet x a s Hq) as E. rewrite Hact in E. cbn [fst] in E. subst s'.
      split; [|unfold empt; rewrite set_at; destruct At as [-> | ->]; exact Logic.I].
      split; [now apply ext_flows|]. split; [|split; [now apply ext_flags|now apply ext_closing]].
      unfold notes. rewrite set_at. destruct At as [At|At]; rewrite At in *.
      - assert (T : turns s = 1). { destruct Hn as [[T _]|(_ & _ & _ & d & N & _)]; [exact T|]. destruct Hq. congruence. }
        split; [now destruct x|]. split; [now destruct x|]. left. split; [now destruct x|now apply set_quiet].
      - split; [now destruct x|]. split; [now destruct x|]. split; [now destruct x|now apply set_quiet]. }
    destruct At as [At|At]; rewrite At in Hn; [destruct Hn as [[_ Hq]|(T & I1 & I2 & d & N1 & N2 & Hlt & Hnf)]|destruct Hn as [_ Hq]]; auto.
    (* the Deferred fires *)
    assert (Nf : existsb (Nat.eqb d) (fired s) = false).
    { apply not_true_is_false. intros X. apply existsb_exists in X. destruct X as (z & Z & E). apply Nat.eqb_eq in E. now subst z. }
    set (t := St (Q (q_items (to_c s)) (q_disc (to_c s)) None) (Q (q_items (to_s s)) (q_disc (to_s s)) None) Idle (next s) (d :: fired s) 1 false (got_c s) (got_s s)).
    assert (E : s' = set_queue x (Q (q_items (queue_of x t) ++ [item_of a]) (q_disc (queue_of x t) || loses a) None) t).
    { unfold act, put in Hact. destruct x, a; cbn [queue_of set_queue to_c to_s q_note q_items q_disc] in Hact; rewrite ?N1, ?N2 in Hact; cbv zeta in Hact;
        unfold callback in Hact; cbn [fired] in Hact; rewrite Nf in Hact; unfold continue_ in Hact; cbn [to_c to_s at_ next fired turns raised got_c got_s q_items q_disc q_note] in Hact;
        rewrite ?Hr, ?T, ?At in Hact; injection Hact as <- _; cbn [queue_of set_queue t to_c to_s at_ next fired turns raised got_c got_s q_items q_disc q_note loses item_of];
        rewrite ?orb_false_r, ?orb_true_r; reflexivity. }
    assert (Ft : flows t o) by exact Hf. assert (Gt : flags t o) by exact Hg.
    assert (Ct : closing t o) by (unfold closing in *; rewrite At in Hc; exact Hc).
    subst s'. split; [|unfold empt; rewrite set_at; exact Logic.I]. split; [now apply ext_flows|]. split; [|split; [now apply ext_flags|now apply ext_closing]].
    unfold notes. rewrite set_at. cbn [t at_]. split; [now destruct x|]. split; [|left; split; [now destruct x|apply set_quiet; now split]].
    assert (Fd : Forall (fun d0 => d0 < next t) (fired t)) by (cbn [t next fired]; now constructor). now destruct x.
  - (* the reactor's turn *)
    destruct (at_ s) eqn:At; try discriminate. destruct (turns s) as [|n] eqn:T; [discriminate|]. injection E as <- <-. rewrite app_nil_r.
    destruct H as [(Hf & (Hr & Hd & Hn) & Hg & Hc) _]. rewrite At, T in Hn. destruct Hn as [[Tn Hq]|(Tn & _)]; [|discriminate]. injection Tn as ->.
    split; [|exact Logic.I]. split; [exact Hf|]. split; [split; [exact Hr|split; [exact Hd|split; [reflexivity|exact Hq]]]|]. split; [exact Hg|].
    unfold closing in *. cbn [at_]. rewrite At in Hc. exact Hc.
  - (* the body *)
    unfold body in E. assert (Hni : at_ s <> Idle) by (intros X; rewrite X in E; discriminate).
    apply (core_inv s o Hni) in H. destruct H as [C Em]. unfold empt in Em.
    assert (Del : forall x v t s0, core s0 o -> at_ s0 <> Gone -> at_ s0 <> Idle -> (forall a, at_ s0 <> PumpC a false) -> q_items (queue_of x s0) = v :: t ->
        deliver rx x v t s0 = (s', o') -> Inv s' (o ++ o')).
    { intros x v t s0 C0 G0 I0 P0 Q0 D0. destruct (deliver_core rx x v t s0 o C0 G0 Q0) as [D A]. rewrite D0 in D, A. cbn [fst snd] in D, A.
      apply core_inv; [congruence|]. split; [exact D|]. unfold empt. destruct (at_ s') as [| |a [|]| | |]; try exact Logic.I. now destruct (P0 a). }
    destruct (at_ s) as [|sent|ss cs| | |] eqn:At; try discriminate.
    + destruct (q_items (to_c s)) as [|v t] eqn:I.
      * injection E as <- <-. rewrite app_nil_r. apply core_inv; [discriminate|]. split; [|exact I]. apply go_core; [now rewrite At|exact Logic.I|exact C].
      * injection E as E. apply (Del Srv v t _ (go_core (PumpS true) s o ltac:(now rewrite At) Logic.I C)); try discriminate; assumption.
    + destruct (q_items (to_s s)) as [|v t] eqn:I.
      2:{ injection E as E. apply (Del Cli v t _ (go_core (PumpC ss true) s o ltac:(now rewrite At) Logic.I C)); try discriminate; assumption. }
      pose proof C as (Hf & Hg & Hc & Hq & Ht & Hr & Hd). unfold closing in Hc. rewrite At in Hc.
      destruct (negb cs && negb ss) eqn:NS.
      * injection E as <- <-. rewrite app_nil_r. destruct cs; [discriminate|]. split; [|exact Logic.I]. split; [destruct Hf as [F1 F2]; split; [exact F1|rewrite I in F2; exact F2]|]. split; [|split; [exact Hg|exact Hc]].
        split; [exact Hr|]. split; [cbn [next fired]; eapply Forall_impl; [|exact Hd]; cbn; lia|]. cbn [at_]. right. split; [exact Ht|].
        cbn [to_c to_s q_items q_note next fired]. split; [exact Em|]. split; [reflexivity|]. exists (next s). repeat split; auto.
        intros X. rewrite Forall_forall in Hd. apply Hd in X. lia.
      * destruct Hg as [G1 G2]. destruct Hf as [F1 F2]. rewrite I in F2. cbn [pend] in F2. rewrite app_nil_r in F2.
        assert (Mk : forall p, p <> Idle -> (forall a, p <> PumpC a false) -> closing (go p s) o -> Inv (go p s) o).
        { intros p P1 P2 Cp. apply core_inv; [exact P1|]. split; [|unfold empt; cbn [go at_]; destruct p as [| |a [|]| | |]; try exact Logic.I; now destruct (P2 a)].
          destruct C as (? & ? & _ & ? & ? & ? & ?). unfold core. repeat split; try tauto; try apply H; try apply H0; apply H1. }
        destruct (q_disc (to_c s)) eqn:D1; [|destruct (q_disc (to_s s)) eqn:D2]; injection E as <- <-; rewrite app_nil_r; apply Mk; try discriminate; unfold closing; cbn [go at_].
        -- split; [now apply G1|]. split; [|exact Hc]. intros p Hp. rewrite <- F2. apply written_prefix, (first_prefix Cli), Hp.
        -- split; [|exact Hc]. destruct (first_lose_exists o) as (x & p & P); [exists Cli; now apply G2|]. exists p. destruct x; [|exact P]. exfalso.
           assert (X : false = true); [|discriminate]. apply G1. destruct P as (post & -> & _). apply in_or_app. right. now left.
        -- exact Hc.
    + destruct (q_items (to_c s)) as [|v t] eqn:I; [|injection E as E; apply (Del Srv v t s C); try (rewrite At; discriminate); assumption].
      injection E as <- <-. apply core_inv; [discriminate|]. split; [|exact Logic.I].
      destruct C as (Hf & Hg & Hc & Hq & Ht & Hr & Hd). unfold closing in Hc. rewrite At in Hc. destruct Hc as (L & P & N).
      split; [destruct Hf as [F1 F2]; split; cbn [go to_c to_s]; rewrite written_app, received_app, !app_nil_r; [exact F1|exact F2]|].
      split; [destruct Hg as [G1 G2]; split; cbn [go to_c to_s]; [rewrite G1|rewrite G2]; rewrite in_app_iff; cbn; split; try tauto; intros [X|[X|[X|[]]]]; try discriminate; exact X|].
      split; [|split; [exact Hq|auto]]. unfold closing. cbn [go at_]. exists o, []. rewrite app_nil_r. split; [reflexivity|]. split; [rewrite app_nil_r; exact N|]. split; [intros y c []|].
      destruct (first_lose_exists o) as ([|] & p & F); [now exists Srv| |].
      * exists Srv, p. split; [exact F|]. cbn [other]. destruct Hf as [F1 _]. rewrite I in F1. cbn [pend] in F1. rewrite app_nil_r in F1. rewrite <- F1. apply written_prefix, (first_prefix Srv), F.
      * exists Cli, p. split; [exact F|]. now apply P.
    + destruct (q_items (to_s s)) as [|v t] eqn:I; [|injection E as E; apply (Del Cli v t s C); try (rewrite At; discriminate); assumption].
      injection E as <- <-. apply core_inv; [discriminate|]. split; [|exact Logic.I].
      destruct C as (Hf & Hg & Hc & Hq & Ht & Hr & Hd). unfold closing in Hc. rewrite At in Hc. destruct Hc as ((p & F) & N).
      split; [destruct Hf as [F1 F2]; split; cbn [go to_c to_s]; rewrite written_app, received_app, !app_nil_r; [exact F1|exact F2]|].
      split; [destruct Hg as [G1 G2]; split; cbn [go to_c to_s]; [rewrite G1|rewrite G2]; rewrite in_app_iff; cbn; split; try tauto; intros [X|[X|[X|[]]]]; try discriminate; exact X|].
      split; [|split; [exact Hq|auto]]. unfold closing. cbn [go at_]. exists o, []. rewrite app_nil_r. split; [reflexivity|]. split; [rewrite app_nil_r; exact N|]. split; [intros y c []|].
      exists Cli, p. split; [exact F|]. destruct Hf as [_ F2]. rewrite I in F2. cbn [pend] in F2. rewrite app_nil_r in F2. cbn [other]. rewrite <- F2. apply written_prefix, (first_prefix Cli), F.
Qed.

Theorem inv_run rx s o : Run rx s o -> Inv s o.
Proof.
  induction 1 as [|s o e s' o' _ IH E].
  - split; [|exact Logic.I]. split; [split; reflexivity|]. split; [split; [reflexivity|split; [constructor|left; split; [reflexivity|split; reflexivity]]]|].
    split; [split; split; (discriminate || intros [])|intros y []].
  - exact (inv_step rx s o e s' o' IH E).
Qed.

Lemma run_prefix rx s o x : Run rx s o -> prefix (received x o) (written (other x) o).
Proof. intros R. destruct (inv_run _ _ _ R) as [([F1 F2] & _) _]. destruct x; cbn [other]; [rewrite F2|rewrite F1]; eexists; reflexivity. Qed.

Lemma run_once rx s o : Run rx s o -> raised s = false /\ turns s <= 1.
Proof.
  intros R. destruct (inv_run _ _ _ R) as [(_ & (Hr & _ & H) & _) _]. split; [exact Hr|]. destruct (at_ s); [destruct H as [[T _]|[T _]]|..]; try (destruct H as [T _]); lia.
Qed.

Lemma app_silent rx s x a s' o' : step rx s (EApp x a) = Some (s', o') -> o' = [match a with Write b => OWrote x b | Lose => OLose x end].
Proof. cbn [step]. destruct (at_ s); intros E; try discriminate; injection E as E; destruct a; cbn [act] in E; injection E as _ <-; reflexivity. Qed.

Lemma run_live rx s o : Run rx s o -> at_ s <> Gone ->
  (exists e s' o', (e = ETurn \/ e = EBody) /\ step rx s e = Some (s', o')) \/
  forall x, received x o = written (other x) o.
Proof.
  intros R G. destruct (inv_run _ _ _ R) as [([F1 F2] & (_ & _ & H) & _) _]. destruct (at_ s) eqn:At.
  - destruct H as [[T _]|(_ & I1 & I2 & _)].
    + left. exists ETurn. cbn [step]. rewrite At, T. do 2 eexists. split; [now left|reflexivity].
    + right. rewrite I1, app_nil_r in F1. rewrite I2, app_nil_r in F2. intros [|]; cbn [other]; congruence.
  - left. exists EBody. cbn [step]. unfold body. rewrite At. destruct (q_items (to_c s)) as [|v t]; [do 2 eexists; split; [now right|reflexivity]|].
    destruct (deliver _ _ _ _ _) as [s' o'] eqn:E. exists s', o'. split; [now right|reflexivity].
  - left. exists EBody. cbn [step]. unfold body. rewrite At. destruct (q_items (to_s s)) as [|v t].
    + destruct (negb _ && _); [|destruct (q_disc _); [|destruct (q_disc _)]]; do 2 eexists; (split; [now right|reflexivity]).
    + destruct (deliver _ _ _ _ _) as [s' o'] eqn:E. exists s', o'. split; [now right|reflexivity].
  - left. exists EBody. cbn [step]. unfold body. rewrite At. destruct (q_items (to_c s)) as [|v t]; [do 2 eexists; split; [now right|reflexivity]|].
    destruct (deliver _ _ _ _ _) as [s' o'] eqn:E. exists s', o'. split; [now right|reflexivity].
  - left. exists EBody. cbn [step]. unfold body. rewrite At. destruct (q_items (to_s s)) as [|v t]; [do 2 eexists; split; [now right|reflexivity]|].
    destruct (deliver _ _ _ _ _) as [s' o'] eqn:E. exists s', o'. split; [now right|reflexivity].
  - now destruct G.
Qed.

Lemma lost_gone rx s o y : Run rx s o -> In (OLost y) o -> at_ s = Gone.
Proof.
  intros R I. destruct (inv_run _ _ _ R) as [(_ & _ & _ & C) _]. unfold closing in C. destruct (at_ s); try reflexivity; exfalso.
  - now apply (C y). - now apply (C y). - now apply (C y). - destruct C as (_ & _ & C); now apply (C y). - destruct C as (_ & C); now apply (C y).
Qed.

Lemma run_lost rx s o y : Run rx s o -> In (OLost y) o ->
  exists a b, o = a ++ [OLost Srv; OLost Cli] ++ b /\ (forall z, ~ In (OLost z) (a ++ b)) /\ (forall z c, ~ In (ODeliver z c) b) /\
    exists x p, first_lose x p a /\ prefix (written x p) (received (other x) a).
Proof. intros R I. pose proof (lost_gone _ _ _ _ R I) as G. destruct (inv_run _ _ _ R) as [(_ & _ & _ & C) _]. unfold closing in C. rewrite G in C. exact C. Qed.

Lemma deliver_shape rx x v t s : quiet s -> snd (deliver rx x v t s) = [] \/
  exists c w, snd (deliver rx x v t s) = ODeliver (other x) c :: w /\ Forall (own (other x)) w.
Proof.
  intros [Q1 Q2]. unfold deliver. destruct v as [[|c b]|]; [now left| |now left]. right. exists (c :: b).
  destruct x; cbn [set_queue queue_of to_c to_s at_ next fired turns raised got_c got_s q_items q_note q_disc other].
  - match goal with |- context [acts Cli ?l ?s0] => destruct (acts_quiet Cli l s0) as (its & d & _ & O & _); [split; cbn; assumption|]; destruct (acts Cli l s0) as [s3 o3] end. now exists o3.
  - match goal with |- context [acts Srv ?l ?s0] => destruct (acts_quiet Srv l s0) as (its & d & _ & O & _); [split; cbn; assumption|]; destruct (acts Srv l s0) as [s3 o3] end. now exists o3.
Qed.

(** a call of [dataReceived] ends before the next one begins *)
Lemma body_shape rx s o s' o' : Run rx s o -> step rx s EBody = Some (s', o') ->
  o' = [] \/ o' = [OLost Srv; OLost Cli] \/ exists x c w, o' = ODeliver x c :: w /\ Forall (own x) w.
Proof.
  intros R E. destruct (inv_run _ _ _ R) as [(_ & (_ & _ & H) & _) _]. cbn [step] in E. unfold body in E.
  assert (D : forall x v t s0, quiet s0 -> Some (deliver rx x v t s0) = Some (s', o') -> o' = [] \/ o' = [OLost Srv; OLost Cli] \/ exists x c w, o' = ODeliver x c :: w /\ Forall (own x) w).
  { intros x v t s0 Hq Ed. injection Ed as Ed. destruct (deliver_shape rx x v t s0 Hq) as [X|(c & w & X & F)]; rewrite Ed in X; cbn [snd] in X; [now left|right; right; eauto]. }
  destruct (at_ s) eqn:At; try discriminate; destruct H as [_ Hq].
  - destruct (q_items (to_c s)); [injection E as <- <-; now left|]. exact (D _ _ _ _ (Hq : quiet (go _ s)) E).
  - destruct (q_items (to_s s)); [|exact (D _ _ _ _ (Hq : quiet (go _ s)) E)]. left.
    destruct (negb _ && _); [|destruct (q_disc _); [|destruct (q_disc _)]]; injection E as <- <-; reflexivity.
  - destruct (q_items (to_c s)); [injection E as <- <-; right; now left|]. exact (D _ _ _ _ Hq E).
  - destruct (q_items (to_s s)); [injection E as <- <-; right; now left|]. exact (D _ _ _ _ Hq E).
Qed.
