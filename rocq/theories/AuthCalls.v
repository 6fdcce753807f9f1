(** * epsilon/ampauth.py: calls in flight while the peer logs in

    CredReceiver is an AMP: its own callRemote, and that of the avatars which become
    the receiver of boxes, are BoxDispatchers of Twisted's (twisted/protocols/amp.py,
    not in /repo): every dispatcher numbers its calls from 1 ([_nextTag]; the number
    is written in hexadecimal, which is left out here), keeps the Deferred under the
    number, and fires the Deferred of the number in an answer ([_answerReceived]); an
    answer with a number it does not know is a KeyError in dataReceived, on which the
    transport drops the connection.  All of them write to the one connection; boxes
    that arrive go to the receiver at that moment.  Avatars are new dispatchers.
    The peer answers the requests in any order, each at most once. *)

From Coq Require Import List Bool Arith Lia Permutation.
Import ListNotations.

(** a dispatcher: [_counter], [_outstandingRequests] (number of the call, call) *)
Record disp := Disp { d_count : nat; d_out : list (nat * nat) }.

(** The dispatchers: the CredReceiver itself (0) and the avatars in the order of the
    logins; which of them receives boxes; the requests the peer has and has not
    answered; whether the connection is up; the number of calls made *)
Record conn := Conn { disps : list disp; cur : nat; sent : list (nat * nat); up : bool; ncalls : nat }.

Definition conn0 : conn := Conn [Disp 0 []] 0 [] true 0.

Inductive event :=
| Call (i : nat)       (* dispatcher i: callRemote *)
| Login                (* a login succeeds *)
| Answer (k : nat)     (* the peer's answer to the k-th request it has arrives *)
| Lost.                (* the connection is lost *)

Inductive out :=
| Fired (c : nat) (answer_to : nat)   (* the Deferred of call c fires with the answer to a call *)
| Failed (c : nat)                    (* the Deferred of call c fails *)
| Unknown.                            (* KeyError: the connection is dropped *)

Definition at_ (l : list disp) (i : nat) : disp := nth i l (Disp 0 []).
Fixpoint put (l : list disp) (i : nat) (d : disp) : list disp :=
  match l, i with [], _ => [] | _ :: t, 0 => d :: t | x :: t, S j => x :: put t j d end.

Fixpoint find_call (l : list (nat * nat)) (tag : nat) : option nat :=
  match l with [] => None | (t, c) :: r => if t =? tag then Some c else find_call r tag end.
Definition drop_tag (l : list (nat * nat)) (tag : nat) : list (nat * nat) := filter (fun p => negb (fst p =? tag)) l.
Fixpoint drop_nth {A} (l : list A) (k : nat) : list A :=
  match l, k with [], _ => [] | _ :: t, 0 => t | x :: t, S j => x :: drop_nth t j end.

(** AMP.connectionLost: stopReceivingBoxes of the receiver, which fails its calls;
    ampauth.py:221-228 then logs out *)
Definition lose (s : conn) : conn * list out :=
  (Conn (put (disps s) (cur s) (Disp (d_count (at_ (disps s) (cur s))) [])) (cur s) [] false (ncalls s),
   map (fun p => Failed (snd p)) (d_out (at_ (disps s) (cur s)))).

(** Nothing is modelled after the end of the connection. *)
Definition step (s : conn) (e : event) : conn * list out :=
  if negb (up s) then (s, []) else
  match e with
  | Call i =>
      if i <? length (disps s) then
        let d := at_ (disps s) i in
        let tag := S (d_count d) in
        (Conn (put (disps s) i (Disp tag (d_out d ++ [(tag, ncalls s)]))) (cur s) (sent s ++ [(tag, ncalls s)]) true (S (ncalls s)), [])
      else (s, [])
  (** ampauth.py:189-201 [_login]: [self.boxReceiver = avatar] *)
  | Login => (Conn (disps s ++ [Disp 0 []]) (length (disps s)) (sent s) true (ncalls s), [])
  | Answer k =>
      match nth_error (sent s) k with
      | None => (s, [])
      | Some (tag, c') =>
          let d := at_ (disps s) (cur s) in
          let s1 := Conn (disps s) (cur s) (drop_nth (sent s) k) true (ncalls s) in
          match find_call (d_out d) tag with
          | Some c => (Conn (put (disps s) (cur s) (Disp (d_count d) (drop_tag (d_out d) tag))) (cur s) (drop_nth (sent s) k) true (ncalls s), [Fired c c'])
          | None => let '(s2, o) := lose s1 in (s2, Unknown :: o)
          end
      end
  | Lost => lose s
  end.

Fixpoint run (s : conn) (l : list event) : conn * list out :=
  match l with [] => (s, []) | e :: r => let '(s1, o1) := step s e in let '(s2, o2) := run s1 r in (s2, o1 ++ o2) end.

(** ** Specification *)

(** the calls whose Deferreds have fired or failed *)
Definition settled (o : list out) : list nat := flat_map (fun x => match x with Fired c _ => [c] | Failed c => [c] | Unknown => [] end) o.

(** Quiet logins: a login succeeds only while no request is unanswered, and only the
    dispatcher of the latest login makes calls ([logins] so far, [open] requests). *)
Fixpoint quiet (logins open : nat) (l : list event) : Prop :=
  match l with
  | [] => True
  | Call i :: r => i = logins /\ quiet logins (S open) r
  | Login :: r => open = 0 /\ quiet (S logins) 0 r
  | Answer k :: r => quiet logins (if k <? open then open - 1 else open) r
  | Lost :: r => True
  end.

(** the number of calls made in a history that has not ended *)
Fixpoint calls (l : list event) : nat :=
  match l with [] => 0 | Call _ :: r => S (calls r) | _ :: r => calls r end.

(** ** Lemmas *)

Lemma put_length l i d : length (put l i d) = length l.
Proof. revert i. induction l as [|x l IH]; intros [|i]; cbn; auto. Qed.
Lemma at_put l i j d : i < length l -> at_ (put l i d) j = if i =? j then d else at_ l j.
Proof.
  unfold at_. revert i j. induction l as [|x l IH]; intros i j H; [cbn in H; lia|]. destruct i as [|i], j as [|j]; cbn; auto. apply IH. cbn in H. lia.
Qed.
Lemma at_app l d j : j <= length l -> at_ (l ++ [d]) j = if j =? length l then d else at_ l j.
Proof.
  intros H. unfold at_. destruct (Nat.eqb_spec j (length l)) as [->|N]; [now rewrite nth_middle|]. apply app_nth1. lia.
Qed.

Lemma drop_nth_nth {A} (l : list A) k x : nth_error l k = Some x -> exists a b, l = a ++ x :: b /\ drop_nth l k = a ++ b.
Proof.
  revert k. induction l as [|y l IH]; intros [|k] H; try discriminate.
  - injection H as ->. exists [], l. now split.
  - cbn in H. destruct (IH k H) as (a & b & -> & E). exists (y :: a), b. split; [reflexivity|]. cbn. now rewrite E.
Qed.

Lemma find_In l tag c : find_call l tag = Some c -> In (tag, c) l.
Proof. induction l as [|[t x] l IH]; cbn; [discriminate|]. destruct (Nat.eqb_spec t tag) as [->|N]; [intros [= ->]; now left|auto]. Qed.
Lemma find_mid a b tag c : ~ In tag (map fst a) -> find_call (a ++ (tag, c) :: b) tag = Some c.
Proof. induction a as [|[t x] a IH]; cbn; intros H; [now rewrite Nat.eqb_refl|]. destruct (Nat.eqb_spec t tag) as [->|N]; [tauto|]. apply IH. tauto. Qed.
Lemma drop_out l tag : ~ In tag (map fst l) -> drop_tag l tag = l.
Proof.
  induction l as [|[t x] l IH]; cbn; intros H; [reflexivity|]. destruct (Nat.eqb_spec t tag) as [->|N]; [tauto|]. cbn. f_equal. apply IH. tauto.
Qed.
Lemma drop_mid a b tag c : NoDup (map fst (a ++ (tag, c) :: b)) -> drop_tag (a ++ (tag, c) :: b) tag = a ++ b.
Proof.
  intros H. rewrite map_app in H. cbn in H. pose proof (NoDup_remove_2 _ _ _ H) as N. rewrite in_app_iff in N.
  unfold drop_tag. rewrite filter_app. cbn. rewrite Nat.eqb_refl. cbn. fold (drop_tag a tag) (drop_tag b tag). rewrite !drop_out; tauto.
Qed.

(** *** every call at most once *)

(** the unsettled calls of all dispatchers *)
Definition waiting (l : list disp) : list nat := flat_map (fun d => map snd (d_out d)) l.

Record inv (s : conn) (o : list out) : Prop := {
  i_cur : cur s < length (disps s);
  i_tags : forall d, In d (disps s) -> NoDup (map fst (d_out d)) /\ forall t, In t (map fst (d_out d)) -> t <= d_count d;
  i_once : NoDup (waiting (disps s) ++ settled o);
  i_all : forall c, In c (waiting (disps s) ++ settled o) <-> c < ncalls s }.

Lemma split_at l i : i < length l -> exists a b, l = a ++ at_ l i :: b /\ length a = i /\ forall d, put l i d = a ++ d :: b.
Proof.
  revert i. induction l as [|x l IH]; intros i H; [cbn in H; lia|]. destruct i as [|i].
  - exists [], l. now repeat split.
  - destruct (IH i) as (a & b & E & L & P); [cbn in H; lia|]. exists (x :: a), b. split; [cbn; now f_equal|]. split; [cbn; lia|]. intros d. cbn. now rewrite P.
Qed.

Lemma waiting_split a d b : waiting (a ++ d :: b) = waiting a ++ map snd (d_out d) ++ waiting b.
Proof. unfold waiting. now rewrite flat_map_app. Qed.

Lemma settled_app a b : settled (a ++ b) = settled a ++ settled b.
Proof. apply flat_map_app. Qed.
Lemma settled_failed l : settled (map (fun p : nat * nat => Failed (snd p)) l) = map snd l.
Proof. induction l as [|[t c] l IH]; [reflexivity|]. cbn. now f_equal. Qed.

Lemma inv_perm s o s' o' : inv s o -> cur s' < length (disps s') ->
  (forall d, In d (disps s') -> NoDup (map fst (d_out d)) /\ forall t, In t (map fst (d_out d)) -> t <= d_count d) ->
  ncalls s' = ncalls s -> Permutation (waiting (disps s) ++ settled o) (waiting (disps s') ++ settled o') -> inv s' o'.
Proof.
  intros [A B C D] A' B' N P. split; auto.
  - eapply Permutation_NoDup; eassumption.
  - intros c. rewrite N, <- D. split; apply Permutation_in; [apply Permutation_sym|]; exact P.
Qed.

Lemma lose_inv s o : inv s o -> inv (fst (lose s)) (o ++ snd (lose s)).
Proof.
  intros H. pose proof H as [A B C D]. destruct (split_at _ _ A) as (a & b & E & L & P). cbn [lose fst snd]. eapply inv_perm; [exact H| | | |]; cbn [disps cur ncalls].
  - now rewrite put_length.
  - intros d Hd. rewrite P in Hd. apply in_app_iff in Hd as [Hd|[<-|Hd]].
    + apply B. rewrite E. apply in_app_iff. now left.
    + cbn. split; [constructor|tauto].
    + apply B. rewrite E. apply in_app_iff. right. now right.
  - reflexivity.
  - rewrite P. rewrite E at 1. rewrite !waiting_split, settled_app, settled_failed. cbn [d_out map app]. rewrite <- !app_assoc.
    set (m := map snd (d_out (at_ (disps s) (cur s)))). apply Permutation_app_head.
    transitivity (m ++ waiting b ++ settled o); [reflexivity|]. rewrite (Permutation_app_comm m). now rewrite <- app_assoc.
Qed.

Lemma drop_perm l tag c : NoDup (map fst l) -> In (tag, c) l -> Permutation (map snd l) (c :: map snd (drop_tag l tag)).
Proof.
  intros N H. apply in_split in H as (a & b & ->). rewrite (drop_mid _ _ _ _ N). rewrite !map_app. cbn. apply Permutation_sym, Permutation_middle.
Qed.
Lemma drop_sub l tag : NoDup (map fst l) -> NoDup (map fst (drop_tag l tag)) /\ forall t, In t (map fst (drop_tag l tag)) -> In t (map fst l).
Proof.
  induction l as [|[t c] l IH]; cbn; intros N; [split; [constructor|tauto]|]. inversion N; subst. destruct (IH H2) as [I1 I2]. destruct (t =? tag); cbn [negb].
  - split; [exact I1|]. intros u Hu. right. auto.
  - cbn. split; [constructor; auto|]. intros u [->|Hu]; [now left|right; auto].
Qed.

Lemma step_inv s o e : inv s o -> inv (fst (step s e)) (o ++ snd (step s e)).
Proof.
  intros H. pose proof H as [A B C D]. unfold step. destruct (negb (up s)); [cbn; now rewrite app_nil_r|]. destruct e as [i| |k|].
  - destruct (Nat.ltb_spec i (length (disps s))) as [Hi|Hi]; [|cbn; now rewrite app_nil_r]. cbn [fst snd]. rewrite app_nil_r.
    destruct (split_at _ _ Hi) as (a & b & E & L & P). set (d := at_ (disps s) i) in *. split; cbn [disps cur ncalls].
    + now rewrite put_length.
    + intros d' Hd. rewrite P in Hd. apply in_app_iff in Hd as [Hd|[<-|Hd]].
      * apply B. rewrite E. apply in_app_iff. now left.
      * cbn [d_out d_count]. destruct (B d) as [B1 B2]; [rewrite E; apply in_app_iff; right; now left|]. rewrite map_app. cbn. split.
        -- eapply Permutation_NoDup; [apply Permutation_cons_append|]. constructor; [|exact B1]. intros X. apply B2 in X. lia.
        -- intros t. rewrite in_app_iff. intros [X|[<-|[]]]; [apply B2 in X; lia|lia].
      * apply B. rewrite E. apply in_app_iff. right. now right.
    + assert (Q : Permutation (ncalls s :: waiting (disps s) ++ settled o) (waiting (put (disps s) i (Disp (S (d_count d)) (d_out d ++ [(S (d_count d), ncalls s)]))) ++ settled o)).
      { rewrite P. clear - E. rewrite E at 1. rewrite !waiting_split. cbn [d_out]. rewrite map_app. cbn [map snd]. rewrite <- !app_assoc. cbn [app].
        rewrite !app_assoc. apply Permutation_cons_app. now rewrite <- !app_assoc. }
      eapply Permutation_NoDup; [exact Q|]. constructor; [|exact C]. intros X. apply D in X. lia.
    + intros c. assert (Q : Permutation (ncalls s :: waiting (disps s) ++ settled o) (waiting (put (disps s) i (Disp (S (d_count d)) (d_out d ++ [(S (d_count d), ncalls s)]))) ++ settled o)).
      { rewrite P. clear - E. rewrite E at 1. rewrite !waiting_split. cbn [d_out]. rewrite map_app. cbn [map snd]. rewrite <- !app_assoc. cbn [app].
        rewrite !app_assoc. apply Permutation_cons_app. now rewrite <- !app_assoc. }
      split.
      * intros X. apply (Permutation_in _ (Permutation_sym Q)) in X as [<-|X]; [lia|]. apply D in X. lia.
      * intros X. apply (Permutation_in _ Q). destruct (Nat.eq_dec (ncalls s) c) as [->|N]; [now left|]. right. apply D. lia.
  - cbn [fst snd]. rewrite app_nil_r. eapply inv_perm; [exact H| | | |]; cbn [disps cur ncalls].
    + rewrite app_length. cbn. lia.
    + intros d Hd. apply in_app_iff in Hd as [Hd|[<-|[]]]; [now apply B|]. cbn. split; [constructor|tauto].
    + reflexivity.
    + unfold waiting. rewrite flat_map_app. cbn. now rewrite app_nil_r.
  - destruct (nth_error (sent s) k) as [[tag c']|]; [|cbn; now rewrite app_nil_r].
    destruct (find_call (d_out (at_ (disps s) (cur s))) tag) as [c|] eqn:F.
    + cbn [fst snd]. destruct (split_at _ _ A) as (a & b & E & L & P). set (d := at_ (disps s) (cur s)) in *.
      destruct (B d) as [B1 B2]; [rewrite E; apply in_app_iff; right; now left|]. destruct (drop_sub _ tag B1) as [D1 D2].
      eapply inv_perm; [exact H| | | |]; cbn [disps cur ncalls].
      * now rewrite put_length.
      * intros d' Hd. rewrite P in Hd. apply in_app_iff in Hd as [Hd|[<-|Hd]].
        -- apply B. rewrite E. apply in_app_iff. now left.
        -- cbn [d_out d_count]. split; [exact D1|]. auto.
        -- apply B. rewrite E. apply in_app_iff. right. now right.
      * reflexivity.
      * rewrite P. rewrite E at 1. rewrite !waiting_split, settled_app. cbn [d_out settled flat_map app]. rewrite (drop_perm _ _ _ B1 (find_In _ _ _ F)).
        rewrite <- !app_assoc. apply Permutation_app_head. cbn [app]. rewrite (app_assoc _ (waiting b)), (app_assoc _ (settled o)). etransitivity; [apply Permutation_cons_append|]. now rewrite <- !app_assoc.
    + pose proof (lose_inv (Conn (disps s) (cur s) (drop_nth (sent s) k) true (ncalls s)) o) as X.
      destruct (lose (Conn (disps s) (cur s) (drop_nth (sent s) k) true (ncalls s))) as [s2 o2]. cbn [fst snd] in *.
      assert (Y : inv s2 (o ++ o2)) by (apply X; split; assumption). destruct Y as [Y1 Y2 Y3 Y4]. split; auto; rewrite settled_app in *; exact Y3 || exact Y4.
  - now apply lose_inv.
Qed.

Lemma run_inv l : forall s o, inv s o -> inv (fst (run s l)) (o ++ snd (run s l)).
Proof.
  induction l as [|e l IH]; intros s o H; cbn; [now rewrite app_nil_r|]. pose proof (step_inv s o e H) as H1. destruct (step s e) as [s1 o1].
  specialize (IH s1 (o ++ o1) H1). destruct (run s1 l) as [s2 o2]. cbn [fst snd] in *. now rewrite app_assoc.
Qed.

Lemma inv0 : inv conn0 [].
Proof. split; cbn; [lia| |constructor|intros c; split; [tauto|lia]]. intros d [<-|[]]. cbn. split; [constructor|tauto]. Qed.

(** *** after a login the others are never told *)

Lemma step_old s e c i : i < length (disps s) -> i <> cur s -> In c (map snd (d_out (at_ (disps s) i))) ->
  let s' := fst (step s e) in i < length (disps s') /\ i <> cur s' /\ In c (map snd (d_out (at_ (disps s') i))).
Proof.
  intros Hi Hc H. cbv zeta. unfold step. destruct (negb (up s)); [auto|]. destruct e as [j| |k|].
  - destruct (Nat.ltb_spec j (length (disps s))) as [Hj|Hj]; [|auto]. cbn [fst disps cur]. rewrite put_length, at_put by exact Hj.
    destruct (Nat.eqb_spec j i) as [->|N]; [|auto]. cbn [d_out]. rewrite map_app, in_app_iff. auto.
  - cbn [fst disps cur]. rewrite app_length. cbn. split; [lia|]. split; [lia|]. rewrite at_app by lia. destruct (Nat.eqb_spec i (length (disps s))); [lia|exact H].
  - destruct (nth_error (sent s) k) as [[tag c']|]; [|auto]. destruct (find_call (d_out (at_ (disps s) (cur s))) tag).
    + cbn [fst disps cur]. rewrite put_length. split; [exact Hi|]. split; [exact Hc|].
      destruct (Nat.lt_ge_cases (cur s) (length (disps s))) as [L|L]; [rewrite at_put by exact L; destruct (Nat.eqb_spec (cur s) i); [congruence|exact H]|].
      assert (X : put (disps s) (cur s) = fun _ => disps s).
      { clear - L. revert L. generalize (cur s) (disps s). intros n l. revert n. induction l as [|x l IH]; intros n L; [destruct n; reflexivity|]. destruct n; [cbn in L; lia|]. cbn. rewrite IH; [reflexivity|cbn in L; lia]. }
      now rewrite X.
    + unfold lose. cbn [fst disps cur]. rewrite put_length. split; [exact Hi|]. split; [exact Hc|].
      destruct (Nat.lt_ge_cases (cur s) (length (disps s))) as [L|L]; [rewrite at_put by exact L; destruct (Nat.eqb_spec (cur s) i); [congruence|exact H]|].
      assert (X : put (disps s) (cur s) = fun _ => disps s).
      { clear - L. revert L. generalize (cur s) (disps s). intros n l. revert n. induction l as [|x l IH]; intros n L; [destruct n; reflexivity|]. destruct n; [cbn in L; lia|]. cbn. rewrite IH; [reflexivity|cbn in L; lia]. }
      now rewrite X.
  - unfold lose. cbn [fst disps cur]. rewrite put_length. split; [exact Hi|]. split; [exact Hc|].
      destruct (Nat.lt_ge_cases (cur s) (length (disps s))) as [L|L]; [rewrite at_put by exact L; destruct (Nat.eqb_spec (cur s) i); [congruence|exact H]|].
      assert (X : put (disps s) (cur s) = fun _ => disps s).
      { clear - L. revert L. generalize (cur s) (disps s). intros n l. revert n. induction l as [|x l IH]; intros n L; [destruct n; reflexivity|]. destruct n; [cbn in L; lia|]. cbn. rewrite IH; [reflexivity|cbn in L; lia]. }
      now rewrite X.
Qed.

Lemma run_old l : forall s c i, i < length (disps s) -> i <> cur s -> In c (map snd (d_out (at_ (disps s) i))) ->
  let s' := fst (run s l) in In c (waiting (disps s')).
Proof.
  induction l as [|e l IH]; intros s c i Hi Hc H; cbv zeta.
  - cbn. unfold waiting. apply in_flat_map. exists (at_ (disps s) i). split; [now apply nth_In|exact H].
  - cbn. destruct (step_old s e c i Hi Hc H) as (A & B & C). destruct (step s e) as [s1 o1]. cbn [fst] in *. specialize (IH s1 c i A B C). cbv zeta in IH.
    destruct (run s1 l). exact IH.
Qed.

Lemma run_app l1 : forall l2 s, run s (l1 ++ l2) = let '(s1, o1) := run s l1 in let '(s2, o2) := run s1 l2 in (s2, o1 ++ o2).
Proof.
  induction l1 as [|e l1 IH]; intros l2 s; cbn; [now destruct (run s l2)|]. destruct (step s e) as [s1 o1]. rewrite IH. destruct (run s1 l1) as [s2 o2]. destruct (run s2 l2) as [s3 o3].
  now rewrite app_assoc.
Qed.

Lemma run_down l : forall s, up s = false -> run s l = (s, []).
Proof. induction l as [|e l IH]; intros s H; cbn; [reflexivity|]. unfold step. rewrite H. cbn. now rewrite IH. Qed.

Lemma NoDup_disj {A} (a b : list A) x : NoDup (a ++ b) -> In x a -> In x b -> False.
Proof.
  intros N X Y. apply in_split in Y as (b1 & b2 & ->). rewrite app_assoc in N. apply NoDup_remove_2 in N. apply N. apply in_app_iff. left. apply in_app_iff. now left.
Qed.

(** *** 1. each call at most once, and every call made waits or is settled *)
Theorem settled_once l : NoDup (settled (snd (run conn0 l))) /\ forall c, In c (settled (snd (run conn0 l))) -> c < ncalls (fst (run conn0 l)).
Proof.
  pose proof (run_inv l conn0 [] inv0) as [A B C D]. cbn [app] in *. split.
  - clear - C. induction (waiting (disps (fst (run conn0 l)))) as [|x w IH]; [exact C|]. cbn in C. inversion C; subst. auto.
  - intros c H. apply D. apply in_app_iff. now right.
Qed.

(** *** 2. what is unsettled when a login succeeds is never settled *)
Theorem login_strands l1 l2 c : c < ncalls (fst (run conn0 l1)) ->
  (In c (settled (snd (run conn0 (l1 ++ Login :: l2)))) <-> In c (settled (snd (run conn0 l1)))).
Proof.
  intros Hc. pose proof (run_inv (l1 ++ Login :: l2) conn0 [] inv0) as J. pose proof (run_inv l1 conn0 [] inv0) as I. rewrite run_app in *. destruct (run conn0 l1) as [s1 o1] eqn:E1. cbn [fst snd app] in *.
  destruct (run s1 (Login :: l2)) as [s2 o2] eqn:E2. cbn [fst snd] in *. rewrite settled_app, in_app_iff. split; [|auto]. intros [H|H]; [exact H|].
  destruct I as [IA IB IC ID]. apply ID in Hc. apply in_app_iff in Hc as [W|S]; [|exact S]. exfalso. cbn [run] in E2. unfold step in E2.
  destruct (up s1) eqn:U; cbn [negb] in E2; [|rewrite (run_down l2 s1 U) in E2; injection E2 as <- <-; destruct H].
  unfold waiting in W. apply in_flat_map in W as (d & Hd & W). apply (In_nth _ _ (Disp 0 [])) in Hd as (i & Hi & <-).
  pose proof (run_old l2 (Conn (disps s1 ++ [Disp 0 []]) (length (disps s1)) (sent s1) true (ncalls s1)) c i) as R. cbn [disps cur] in R.
  destruct (run (Conn (disps s1 ++ [Disp 0 []]) (length (disps s1)) (sent s1) true (ncalls s1)) l2) as [s3 o3]. injection E2 as <- <-. cbn [fst app] in *.
  destruct J as [JA JB JC JD]. eapply NoDup_disj; [exact JC| |rewrite settled_app; apply in_app_iff; right; exact H].
  apply R; [rewrite app_length; cbn; lia|lia|]. rewrite at_app by lia. destruct (Nat.eqb_spec i (length (disps s1))); [lia|]. exact W.
Qed.

(** *** 3. quiet logins: every answer reaches its call *)
Record qinv (s : conn) (logins open : nat) : Prop := {
  q_up : up s = true; q_cur : cur s = logins; q_len : length (disps s) = S logins;
  q_sent : sent s = d_out (at_ (disps s) logins); q_open : length (sent s) = open;
  q_old : forall i, i < logins -> d_out (at_ (disps s) i) = [] }.

Definition right (x : out) : Prop := match x with Fired c c' => c = c' | Failed _ => True | Unknown => False end.

Lemma quiet_right l : forall s o logins open, inv s o -> qinv s logins open -> quiet logins open l -> Forall right (snd (run s l)).
Proof.
  induction l as [|e l IH]; intros s o logins open I Q H; cbn; [constructor|]. pose proof (step_inv s o e I) as I1. destruct Q as [Qu Qc Ql Qs Qo Qd]. revert I1. unfold step. rewrite Qu. cbn [negb]. destruct e as [i| |k|].
  - cbn in H. destruct H as [-> H]. destruct (Nat.ltb_spec logins (length (disps s))) as [L|L]; [|lia]. cbn [fst snd]. intros I1.
    match type of I1 with inv ?t _ => specialize (IH t _ logins (S open) I1) end. match goal with |- context [run ?t l] => destruct (run t l) as [s2 o2] end. cbn [snd fst app] in *. apply IH; [|exact H].
    split; cbn [up cur disps sent]; auto.
    + now rewrite put_length.
    + rewrite at_put, Nat.eqb_refl by exact L. cbn. now rewrite Qs.
    + rewrite app_length. cbn. lia.
    + intros i Hi. rewrite at_put by exact L. destruct (Nat.eqb_spec logins i); [lia|auto].
  - cbn in H. destruct H as [-> H]. cbn [fst snd]. intros I1.
    match type of I1 with inv ?t _ => specialize (IH t _ (S logins) 0 I1) end. match goal with |- context [run ?t l] => destruct (run t l) as [s2 o2] end. cbn [snd fst app] in *. apply IH; [|exact H].
    assert (Z : sent s = []) by (destruct (sent s); [reflexivity|discriminate Qo]).
    split; cbn [up cur disps sent]; auto.
    + rewrite app_length. cbn. lia.
    + rewrite at_app by lia. rewrite <- Ql, Nat.eqb_refl. exact Z.
    + intros i Hi. rewrite at_app by lia. destruct (Nat.eqb_spec i (length (disps s))); [lia|]. destruct (Nat.eq_dec i logins) as [->|N]; [congruence|apply Qd; lia].
  - cbn [quiet] in H. destruct (nth_error (sent s) k) as [[tag c']|] eqn:N.
    + destruct (drop_nth_nth _ _ _ N) as (a & b & Es & Ed). rewrite Qc in *. rewrite <- Qs, Es.
      assert (ND : NoDup (map fst (a ++ (tag, c') :: b))).
      { destruct I as [_ IB _ _]. destruct (IB (at_ (disps s) logins)) as [X _]; [apply nth_In; lia|]. now rewrite <- Qs, Es in X. }
      assert (F : find_call (a ++ (tag, c') :: b) tag = Some c').
      { apply find_mid. intros X. rewrite map_app in ND. cbn in ND. apply NoDup_remove_2 in ND. apply ND, in_app_iff. now left. }
      rewrite F, (drop_mid _ _ _ _ ND). cbn [fst snd]. intros I1. assert (K : k < open) by (rewrite <- Qo; apply nth_error_Some; congruence).
      apply Nat.ltb_lt in K. rewrite K in H. rewrite <- Es, Ed in *.
      match type of I1 with inv ?t _ => specialize (IH t _ logins (open - 1) I1) end. match goal with |- context [run ?t l] => destruct (run t l) as [s2 o2] end. cbn [snd fst app] in *. constructor; [reflexivity|]. apply IH; [|exact H].
      split; cbn [up cur disps sent]; auto.
      * now rewrite put_length.
      * rewrite at_put, Nat.eqb_refl by lia. reflexivity.
      * rewrite <- Qo, Es, !app_length. cbn. lia.
      * intros i Hi. rewrite at_put by lia. destruct (Nat.eqb_spec logins i); [lia|auto].
    + cbn [fst snd]. intros I1. assert (K : open <= k) by (rewrite <- Qo; now apply nth_error_None). apply Nat.ltb_ge in K. rewrite K in H.
      specialize (IH s _ logins open I1). destruct (run s l) as [s2 o2]. cbn [snd app] in *. apply IH; [split; auto|exact H].
  - intros _. destruct (lose s) as [s1 o1] eqn:E. assert (U : up s1 = false) by (unfold lose in E; injection E as <- _; reflexivity).
    rewrite (run_down l s1 U). cbn [snd]. rewrite app_nil_r. unfold lose in E. injection E as _ <-. apply Forall_forall. intros x Hx. apply in_map_iff in Hx as (p & <- & _). exact Logic.I.
Qed.

Theorem quiet_answers l : quiet 0 0 l -> forall x, In x (snd (run conn0 l)) -> x <> Unknown /\ forall c c', x = Fired c c' -> c' = c.
Proof.
  intros H x Hx. assert (Q : qinv conn0 0 0) by (split; auto; intros i Hi; lia). pose proof (quiet_right l conn0 [] 0 0 inv0 Q H) as F.
  rewrite Forall_forall in F. apply F in Hx. split; [intros ->; exact Hx|]. intros c c' ->. symmetry. exact Hx.
Qed.

Lemma quiet_end l : forall s o logins open, inv s o -> qinv s logins open -> quiet logins open l -> ~ In Lost l ->
  let s' := fst (run s l) in ncalls s' = ncalls s + calls l /\ exists n m, qinv s' n m.
Proof.
  induction l as [|e l IH]; intros s o logins open I Q H NL; cbv zeta; [cbn; split; [lia|eauto]|]. cbn [run]. pose proof (step_inv s o e I) as I1. pose proof Q as [Qu Qc Ql Qs Qo Qd]. revert I1. unfold step. rewrite Qu. cbn [negb]. assert (NL' : ~ In Lost l) by (intros X; apply NL; now right). destruct e as [i| |k|].
  - cbn in H. destruct H as [-> H]. destruct (Nat.ltb_spec logins (length (disps s))) as [L|L]; [|lia]. cbn [fst snd]. intros I1.
    match type of I1 with inv ?t _ => specialize (IH t _ logins (S open) I1) end. match goal with |- context [run ?t l] => destruct (run t l) as [s2 o2] end. cbn [snd fst app ncalls calls] in *. rewrite <- plus_n_Sm. apply IH; auto.
    split; cbn [up cur disps sent]; auto.
    + now rewrite put_length.
    + rewrite at_put, Nat.eqb_refl by exact L. cbn. now rewrite Qs.
    + rewrite app_length. cbn. lia.
    + intros i Hi. rewrite at_put by exact L. destruct (Nat.eqb_spec logins i); [lia|auto].
  - cbn in H. destruct H as [-> H]. cbn [fst snd]. intros I1.
    match type of I1 with inv ?t _ => specialize (IH t _ (S logins) 0 I1) end. match goal with |- context [run ?t l] => destruct (run t l) as [s2 o2] end. cbn [snd fst app ncalls calls] in *. apply IH; auto.
    assert (Z : sent s = []) by (destruct (sent s); [reflexivity|discriminate Qo]).
    split; cbn [up cur disps sent]; auto.
    + rewrite app_length. cbn. lia.
    + rewrite at_app by lia. rewrite <- Ql, Nat.eqb_refl. exact Z.
    + intros i Hi. rewrite at_app by lia. destruct (Nat.eqb_spec i (length (disps s))); [lia|]. destruct (Nat.eq_dec i logins) as [->|N]; [congruence|apply Qd; lia].
  - cbn [quiet] in H. destruct (nth_error (sent s) k) as [[tag c']|] eqn:N.
    + destruct (drop_nth_nth _ _ _ N) as (a & b & Es & Ed). rewrite Qc in *. rewrite <- Qs, Es.
      assert (ND : NoDup (map fst (a ++ (tag, c') :: b))).
      { destruct I as [_ IB _ _]. destruct (IB (at_ (disps s) logins)) as [X _]; [apply nth_In; lia|]. now rewrite <- Qs, Es in X. }
      assert (F : find_call (a ++ (tag, c') :: b) tag = Some c').
      { apply find_mid. intros X. rewrite map_app in ND. cbn in ND. apply NoDup_remove_2 in ND. apply ND, in_app_iff. now left. }
      rewrite F, (drop_mid _ _ _ _ ND). cbn [fst snd]. intros I1. assert (K : k < open) by (rewrite <- Qo; apply nth_error_Some; congruence).
      apply Nat.ltb_lt in K. rewrite K in H. rewrite <- Es, Ed in *.
      match type of I1 with inv ?t _ => specialize (IH t _ logins (open - 1) I1) end. match goal with |- context [run ?t l] => destruct (run t l) as [s2 o2] end. cbn [snd fst app ncalls calls] in *. apply IH; auto.
      split; cbn [up cur disps sent]; auto.
      * now rewrite put_length.
      * rewrite at_put, Nat.eqb_refl by lia. reflexivity.
      * rewrite <- Qo, Es, !app_length. cbn. lia.
      * intros i Hi. rewrite at_put by lia. destruct (Nat.eqb_spec logins i); [lia|auto].
    + cbn [fst snd]. intros I1. assert (K : open <= k) by (rewrite <- Qo; now apply nth_error_None). apply Nat.ltb_ge in K. rewrite K in H.
      specialize (IH s _ logins open I1). destruct (run s l) as [s2 o2]. cbn [snd fst app calls] in *. apply IH; auto.
  - exfalso. apply NL. now left.
Qed.

(** When the connection is lost, every call has been settled exactly once. *)
Theorem quiet_all l : quiet 0 0 l -> ~ In Lost l -> Permutation (settled (snd (run conn0 (l ++ [Lost])))) (seq 0 (calls l)).
Proof.
  intros H NL. assert (Q : qinv conn0 0 0) by (split; auto; intros i Hi; lia). destruct (quiet_end l conn0 [] 0 0 inv0 Q H NL) as (N & n & m & Qe).
  pose proof (run_inv (l ++ [Lost]) conn0 [] inv0) as I. rewrite run_app in *. destruct (run conn0 l) as [s1 o1]. cbn [fst snd app run ncalls conn0] in *. unfold step in *. destruct Qe as [Qu Qc Ql Qs Qo Qd]. rewrite Qu in *. cbn [negb] in *.
  destruct (lose s1) as [s2 o2] eqn:E. cbn [fst snd] in *. rewrite app_nil_r in *. unfold lose in E. injection E as <- <-. destruct I as [IA IB IC ID]. cbn [disps ncalls] in *.
  set (o := o1 ++ _) in *. assert (W : waiting (put (disps s1) (cur s1) (Disp (d_count (at_ (disps s1) (cur s1))) [])) = []).
  { destruct (waiting _) as [|c w] eqn:W; [reflexivity|]. exfalso. assert (X : In c (c :: w)) by now left. rewrite <- W in X. unfold waiting in X. apply in_flat_map in X as (d & Hd & X).
    apply (In_nth _ _ (Disp 0 [])) in Hd as (i & Hi & <-). rewrite put_length, Ql in Hi. change (nth i ?l (Disp 0 [])) with (at_ l i) in X. rewrite at_put in X by lia.
    destruct (Nat.eqb_spec (cur s1) i); [destruct X|]. rewrite Qd in X by lia. destruct X. }
  rewrite W in *. cbn [app] in *. apply NoDup_Permutation; [exact IC|apply seq_NoDup|]. intros c. rewrite ID, in_seq. lia.
Qed.
