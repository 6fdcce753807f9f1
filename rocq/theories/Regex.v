(** * Python's re: backtracking matching

    Not code of /repo.  The constructs the patterns in epsilon/extime.py use
    (VERBOSE patterns: white space and comments dropped): classes of
    characters, sequences, alternatives, greedy [?], greedy [*] of a class of
    characters, groups, [$] without MULTILINE, and [\b].  [^] at the start of
    a pattern that is used with [match] adds nothing.  Alternatives are tried
    in order, repetitions longest first, and the first way that lets the whole
    pattern match is taken. *)

From Coq Require Import NArith List Bool.
From Verif Require Import Py.
Import ListNotations.

Inductive re :=
| Cls (p : N -> bool)
| Seq (a b : re)
| Alt (a b : re)
| Opt (a : re)
| Star (p : N -> bool)
| Cap (n : nat) (a : re)
| Eos
| Wb.

(** groups, the last one set first *)
Definition caps := list (nat * str).

Fixpoint group (n : nat) (c : caps) : option str :=
  match c with
  | [] => None
  | (m, t) :: c' => if Nat.eqb n m then Some t else group n c'
  end.

(** [$] matches at the end, and before a newline at the end *)
Definition at_end (s : str) : bool := match s with [] => true | [c] => N.eqb c 10 | _ => false end.

Section Match.

(** whether a character belongs to [\w] *)
Variable word : N -> bool.

Definition owordc (o : option N) : bool := match o with Some c => word c | None => false end.
Definition at_boundary (p : option N) (s : str) : bool := xorb (owordc p) (owordc (hd_error s)).

Definition last_of (t : str) (p : option N) : option N := match rev t with [] => p | c :: _ => Some c end.

(** what a continuation is given: the text matched, the character before the
    position, the rest, the groups *)
Fixpoint star {R} (f : N -> bool) (t : str) (p : option N) (s : str) (c : caps)
         (k : str -> option N -> str -> caps -> option R) : option R :=
  match s with
  | x :: s' =>
    if f x then
      match star f (t ++ [x]) (Some x) s' c k with Some r => Some r | None => k t p s c end
    else k t p s c
  | [] => k t p s c
  end.

Fixpoint mt {R} (r : re) (p : option N) (s : str) (c : caps)
         (k : str -> option N -> str -> caps -> option R) : option R :=
  match r with
  | Cls f => match s with x :: s' => if f x then k [x] (Some x) s' c else None | [] => None end
  | Seq a b => mt a p s c (fun t1 p1 s1 c1 => mt b p1 s1 c1 (fun t2 p2 s2 c2 => k (t1 ++ t2) p2 s2 c2))
  | Alt a b => match mt a p s c k with Some x => Some x | None => mt b p s c k end
  | Opt a => match mt a p s c k with Some x => Some x | None => k [] p s c end
  | Star f => star f [] p s c k
  | Cap n a => mt a p s c (fun t p1 s1 c1 => k t p1 s1 ((n, t) :: c1))
  | Eos => if at_end s then k [] p s c else None
  | Wb => if at_boundary p s then k [] p s c else None
  end.

(** pattern.match(s): the text matched and the groups *)
Definition pmatch (r : re) (s : str) : option (str * caps) :=
  mt r None s [] (fun t _ _ c => Some (t, c)).

(** ** What a pattern may match *)

Inductive derives : re -> option N -> str -> caps -> str -> option N -> str -> caps -> Prop :=
| D_cls f p x s c : f x = true -> derives (Cls f) p (x :: s) c [x] (Some x) s c
| D_seq a b p s c t1 p1 s1 c1 t2 p2 s2 c2 :
    derives a p s c t1 p1 s1 c1 -> derives b p1 s1 c1 t2 p2 s2 c2 ->
    derives (Seq a b) p s c (t1 ++ t2) p2 s2 c2
| D_left a b p s c t p1 s1 c1 : derives a p s c t p1 s1 c1 -> derives (Alt a b) p s c t p1 s1 c1
| D_right a b p s c t p1 s1 c1 : derives b p s c t p1 s1 c1 -> derives (Alt a b) p s c t p1 s1 c1
| D_some a p s c t p1 s1 c1 : derives a p s c t p1 s1 c1 -> derives (Opt a) p s c t p1 s1 c1
| D_none a p s c : derives (Opt a) p s c [] p s c
| D_star f p t s c : Forall (fun x => f x = true) t -> derives (Star f) p (t ++ s) c t (last_of t p) s c
| D_cap n a p s c t p1 s1 c1 : derives a p s c t p1 s1 c1 -> derives (Cap n a) p s c t p1 s1 ((n, t) :: c1)
| D_eos p s c : at_end s = true -> derives Eos p s c [] p s c
| D_wb p s c : at_boundary p s = true -> derives Wb p s c [] p s c.

Lemma last_of_snoc t x p : last_of (t ++ [x]) p = Some x.
Proof. unfold last_of. now rewrite rev_app_distr. Qed.

Lemma star_sound R f s : forall t p c (k : str -> option N -> str -> caps -> option R) x,
  star f t p s c k = Some x ->
  exists u s1, s = u ++ s1 /\ Forall (fun y => f y = true) u /\ k (t ++ u) (last_of u p) s1 c = Some x.
Proof.
  induction s as [|y s IH]; intros t p c k x H; cbn [star] in H.
  - exists [], []. rewrite (app_nil_r t). split; [reflexivity|]. split; [apply Forall_nil|exact H].
  - destruct (f y) eqn:Ey.
    + destruct (star f (t ++ [y]) (Some y) s c k) as [z|] eqn:E.
      * injection H as ->. destruct (IH _ _ _ _ _ E) as (u & s1 & -> & Hu & Hk). exists (y :: u), s1.
        split; [reflexivity|]. split; [now constructor|]. rewrite <- app_assoc in Hk. cbn [app] in Hk.
        replace (last_of (y :: u) p) with (last_of u (Some y)); [exact Hk|].
        unfold last_of. cbn [rev]. destruct (rev u); reflexivity.
      * exists [], (y :: s). rewrite (app_nil_r t). split; [reflexivity|]. split; [apply Forall_nil|exact H].
    + exists [], (y :: s). rewrite (app_nil_r t). split; [reflexivity|]. split; [apply Forall_nil|exact H].
Qed.

Theorem mt_sound R r : forall p s c (k : str -> option N -> str -> caps -> option R) x,
  mt r p s c k = Some x -> exists t p1 s1 c1, derives r p s c t p1 s1 c1 /\ k t p1 s1 c1 = Some x.
Proof.
  induction r as [f|a IHa b IHb|a IHa b IHb|a IHa|f|n a IHa| |]; intros p s c k x H; cbn [mt] in H.
  - destruct s as [|y s]; [discriminate|]. destruct (f y) eqn:E; [|discriminate].
    do 4 eexists. split; [constructor; exact E|exact H].
  - apply IHa in H. destruct H as (t1 & p1 & s1 & c1 & D1 & H). apply IHb in H. destruct H as (t2 & p2 & s2 & c2 & D2 & H).
    do 4 eexists. split; [econstructor; eassumption|exact H].
  - destruct (mt a p s c k) as [y|] eqn:E.
    + injection H as ->. apply IHa in E. destruct E as (t1 & p1 & s1 & c1 & D1 & E). do 4 eexists. split; [apply D_left; exact D1|exact E].
    + apply IHb in H. destruct H as (t1 & p1 & s1 & c1 & D1 & H). do 4 eexists. split; [apply D_right; exact D1|exact H].
  - destruct (mt a p s c k) as [y|] eqn:E.
    + injection H as ->. apply IHa in E. destruct E as (t1 & p1 & s1 & c1 & D1 & E). do 4 eexists. split; [apply D_some; exact D1|exact E].
    + do 4 eexists. split; [apply D_none|exact H].
  - apply star_sound in H. destruct H as (u & s1 & -> & Hu & Hk). do 4 eexists. split; [apply D_star; exact Hu|exact Hk].
  - apply IHa in H. destruct H as (t1 & p1 & s1 & c1 & D1 & H). do 4 eexists. split; [apply D_cap; exact D1|exact H].
  - destruct (at_end s) eqn:E; [|discriminate]. do 4 eexists. split; [constructor; exact E|exact H].
  - destruct (at_boundary p s) eqn:E; [|discriminate]. do 4 eexists. split; [constructor; exact E|exact H].
Qed.

Lemma star_complete R f u : forall t p s1 c (k : str -> option N -> str -> caps -> option R),
  Forall (fun y => f y = true) u -> k (t ++ u) (last_of u p) s1 c <> None -> star f t p (u ++ s1) c k <> None.
Proof.
  induction u as [|y u IH]; intros t p s1 c k Hu Hk.
  - rewrite app_nil_r in Hk. cbn [app] in *. destruct s1 as [|z s1]; [exact Hk|]. cbn [star]. destruct (f z); [|exact Hk].
    destruct (star f (t ++ [z]) (Some z) s1 c k); [discriminate|exact Hk].
  - cbn [app star]. rewrite (Forall_inv Hu). destruct (star f (t ++ [y]) (Some y) (u ++ s1) c k) eqn:E; [discriminate|].
    exfalso. eapply IH; [exact (Forall_inv_tail Hu)| |exact E]. rewrite <- app_assoc. cbn [app].
    replace (last_of u (Some y)) with (last_of (y :: u) p); [exact Hk|]. unfold last_of. cbn [rev]. destruct (rev u); reflexivity.
Qed.

Theorem mt_complete r p s c t p1 s1 c1 : derives r p s c t p1 s1 c1 ->
  forall R (k : str -> option N -> str -> caps -> option R), k t p1 s1 c1 <> None -> mt r p s c k <> None.
Proof.
  induction 1 as [f p x s c E|a b p s c t1 p1 s1 c1 t2 p2 s2 c2 _ IH1 _ IH2|a b p s c t p1 s1 c1 _ IH|a b p s c t p1 s1 c1 _ IH
    |a p s c t p1 s1 c1 _ IH|a p s c|f p t s c Hf|n a p s c t p1 s1 c1 _ IH|p s c E|p s c E]; intros R k Hk; cbn [mt].
  - now rewrite E.
  - apply IH1. apply IH2. exact Hk.
  - specialize (IH R k Hk). destruct (mt a p s c k); [discriminate|contradiction].
  - specialize (IH R k Hk). destruct (mt a p s c k); [discriminate|exact IH].
  - specialize (IH R k Hk). destruct (mt a p s c k); [discriminate|contradiction].
  - destruct (mt a p s c k); [discriminate|exact Hk].
  - apply star_complete; [exact Hf|exact Hk].
  - apply IH. exact Hk.
  - now rewrite E.
  - now rewrite E.
Qed.

(** a pattern matches if and only if it derives a prefix *)
Corollary pmatch_iff r s : (exists m, pmatch r s = Some m) <-> (exists t p1 s1 c1, derives r None s [] t p1 s1 c1).
Proof.
  split.
  - intros [m H]. apply mt_sound in H. destruct H as (t & p1 & s1 & c1 & D & _). eauto.
  - intros (t & p1 & s1 & c1 & D). destruct (pmatch r s) as [m|] eqn:E; [eauto|]. exfalso.
    eapply (mt_complete _ _ _ _ _ _ _ _ D); [|exact E]. discriminate.
Qed.

Lemma pmatch_derives r s t c : pmatch r s = Some (t, c) -> exists p1 s1, derives r None s [] t p1 s1 c.
Proof. intros H. apply mt_sound in H. destruct H as (t' & p1 & s1 & c1 & D & E). injection E as <- <-. eauto. Qed.

Lemma derives_text r p s c t p1 s1 c1 : derives r p s c t p1 s1 c1 -> s = t ++ s1.
Proof. induction 1; subst; cbn; try reflexivity; try assumption. now rewrite app_assoc. Qed.

End Match.
