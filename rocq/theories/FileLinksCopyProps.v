(** * C130: what a copy of a tree with links holds *)

From Coq Require Import NArith String List Bool Arith Lia.
From Verif Require Import Py PyStr PySplit FilePath FileTree FileTreeMore FileLinks FileLinksCopy FileWalk.
Import ListNotations.
Open Scope list_scope.

(** When nothing fails, the destination is a new name in a directory, and the
    tree seen at the source through its links is [copyable] (it ends, it has
    nothing but files and directories, and the destination is not in it), the
    copy ends normally; the destination then holds, under every list of names,
    what is seen there in the source, as files and directories; and nothing
    else has changed. *)
Theorem C130_copy : forall B fates k f t p q0 c n, (0 < k)%nat -> (forall t, fates t = Run) -> okl f ->
  dget f q0 = Some LDir -> name c -> dget f (q0 ++ [c]) = None -> copyable B f p (q0 ++ [c]) n ->
  forall fuel, (n <= fuel)%nat ->
  let out := lcopyTo B fates k fuel p (q0 ++ [c]) (f, t) in
  snd out = Ok tt /\
  (forall r, Forall name r -> dget (fst (fst out)) ((q0 ++ [c]) ++ r) = view B f (p ++ r)) /\
  (forall l, ~ below (q0 ++ [c]) l -> dget (fst (fst out)) l = dget f l).
Proof.
  intros B fates k f t p q0 c n Hk calm Hf Hq Hc Hnew Can fuel Hfu.
  assert (New : forall r, dget f ((q0 ++ [c]) ++ r) = None).
  { intros r. destruct r as [|x r]; [now rewrite app_nil_r|]. apply (lno_below f _ (x :: r) Hf); [rewrite Hnew; discriminate|discriminate]. }
  destruct (copy_fills B fates calm k Hk f Hf p (q0 ++ [c]) New n Can fuel [] q0 c f t) as (g & t' & E & _ & F & V).
  - constructor.
  - rewrite app_nil_r. apply (can_start _ _ _ _ _ Can).
  - apply below_refl.
  - exact Hc.
  - split; [exact Hf|apply lframe_refl].
  - exact Hq.
  - exact New.
  - cbn. lia.
  - rewrite app_nil_r in E. cbv zeta. rewrite E. cbn [fst snd]. split; [reflexivity|]. split; [|exact F]. intros r Hr. rewrite (V r Hr), app_nil_r. reflexivity.
Qed.
Print Assumptions C130_copy.

(** That the tree seen ends need not be asked: with a limit on the links
    followed it always does. *)
Theorem C130_any : forall B fates k f t p q0 c, (0 < k)%nat -> (forall t, fates t = Run) -> okl f ->
  dget f q0 = Some LDir -> name c -> dget f (q0 ++ [c]) = None ->
  (view B f p = Some LDir \/ exists b, view B f p = Some (LFile b)) ->
  (forall r l x, Forall name r -> goes B f true (p ++ r) = Ok l -> dget f l = Some LDir -> dget f (l ++ [x]) <> None ->
     view B f (p ++ r ++ [x]) = Some LDir \/ exists b, view B f (p ++ r ++ [x]) = Some (LFile b)) ->
  (forall r l, Forall name r -> goes B f true (p ++ r) = Ok l -> dget f l = Some LDir -> ~ below l (q0 ++ [c])) ->
  exists depth, forall fuel, (depth <= fuel)%nat ->
  let out := lcopyTo B fates k fuel p (q0 ++ [c]) (f, t) in
  snd out = Ok tt /\
  (forall r, Forall name r -> dget (fst (fst out)) ((q0 ++ [c]) ++ r) = view B f (p ++ r)) /\
  (forall l, ~ below (q0 ++ [c]) l -> dget (fst (fst out)) l = dget f l).
Proof.
  intros B fates k f t p q0 c Hk calm Hf Hq Hc Hnew H1 H2 H3. destruct (view_ends B f Hf) as (n & Hn). exists n. intros fuel Hfu.
  apply (C130_copy B fates k f t p q0 c n Hk calm Hf Hq Hc Hnew); [|exact Hfu]. split; [exact H1|exact H2|exact (Hn p)|exact H3].
Qed.
Print Assumptions C130_any.

(** ** /a holds a link to the directory /d, which holds a file and a link to it *)

Definition a_ : str := lit "a".
Definition b_ : str := lit "b".
Definition d_ : str := lit "d".
Definition l_ : str := lit "l".
Definition n_ : str := lit "n".
Definition linked : lfs :=
  [([], LDir); ([a_], LDir); ([a_; l_], LLink false [lit ".."; d_]); ([d_], LDir); ([d_; n_], LFile [3; 4; 5]%N); ([d_; b_], LLink true [d_; n_])].

Lemma linked_sees r l b e : Forall name r -> find linked true 40 [] ([a_] ++ r) = Ok (l, b) -> dget linked l = Some e ->
  In (r, l, e) [([], [a_], LDir); ([l_], [d_], LDir); ([l_; n_], [d_; n_], LFile [3; 4; 5]%N); ([l_; b_], [d_; n_], LFile [3; 4; 5]%N)].
Proof.
  intros Hr H He. cbn [app] in H. rewrite find_cons in H. change (dget linked []) with (Some LDir) in H. cbn [app] in H. change (eqb a_ (lit ".")) with false in H. change (eqb a_ (lit "..")) with false in H.
  change (dget linked [a_]) with (Some LDir) in H. destruct r as [|x r].
  { rewrite find_nil in H. injection H as <- _. change (dget linked [a_]) with (Some LDir) in He. injection He as <-. now left. }
  inversion Hr as [|? ? Hx Hr1]; subst. rewrite find_cons in H. change (dget linked [a_]) with (Some LDir) in H. destruct (name_not_dot x Hx) as [E1 E2]. rewrite E1, E2 in H. cbn [app] in H.
  destruct (dget linked [a_; x]) as [ee|] eqn:E.
  2:{ destruct r; cbn [isnil] in H; [|discriminate]. injection H as <- _. congruence. }
  apply dget_In in E. assert (Ex : x = l_ /\ ee = LLink false [lit ".."; d_]) by (repeat (destruct E as [E|E]; [try discriminate E; injection E as <- <-; now split|]); destruct E). destruct Ex as [-> ->].
  clear E. cbn [orb app] in H. rewrite find_cons in H. change (dget linked [a_]) with (Some LDir) in H. change (eqb (lit "..") (lit ".")) with false in H. change (eqb (lit "..") (lit "..")) with true in H. cbn [removelast a_] in H.
  rewrite find_cons in H. change (dget linked []) with (Some LDir) in H. change (eqb d_ (lit ".")) with false in H. change (eqb d_ (lit "..")) with false in H. cbn [app] in H. change (dget linked [d_]) with (Some LDir) in H.
  destruct r as [|y r].
  { rewrite find_nil in H. injection H as <- _. change (dget linked [d_]) with (Some LDir) in He. injection He as <-. right. now left. }
  inversion Hr1 as [|? ? Hy Hr2]; subst. rewrite find_cons in H. change (dget linked [d_]) with (Some LDir) in H. destruct (name_not_dot y Hy) as [E1' E2']. rewrite E1', E2' in H. cbn [app] in H.
  destruct (dget linked [d_; y]) as [ee|] eqn:E.
  2:{ destruct r; cbn [isnil] in H; [|discriminate]. injection H as <- _. congruence. }
  apply dget_In in E. assert (Ey : y = n_ /\ ee = LFile [3; 4; 5]%N \/ y = b_ /\ ee = LLink true [d_; n_]) by (repeat (destruct E as [E|E]; [try discriminate E; injection E as <- <-; auto|]); destruct E).
  destruct Ey as [[-> ->]|[-> ->]].
  - destruct r as [|z r].
    + rewrite find_nil in H. injection H as <- _. change (dget linked [d_; n_]) with (Some (LFile [3; 4; 5]%N)) in He. injection He as <-. right. right. now left.
    + rewrite find_cons in H. change (dget linked [d_; n_]) with (Some (LFile [3; 4; 5]%N)) in H. discriminate.
  - destruct r as [|z r].
    + vm_compute in H. injection H as <- _. change (dget linked [[100]; [110]]%N) with (Some (LFile [3; 4; 5]%N)) in He. injection He as <-. right. right. right. now left.
    + cbn [orb app] in H. rewrite find_cons in H. change (dget linked []) with (Some LDir) in H. change (eqb d_ (lit ".")) with false in H. change (eqb d_ (lit "..")) with false in H. cbn [app] in H. change (dget linked [d_]) with (Some LDir) in H.
      rewrite find_cons in H. change (dget linked [d_]) with (Some LDir) in H. change (eqb n_ (lit ".")) with false in H. change (eqb n_ (lit "..")) with false in H. cbn [app] in H. change (dget linked [d_; n_]) with (Some (LFile [3; 4; 5]%N)) in H.
      rewrite find_cons in H. change (dget linked [d_; n_]) with (Some (LFile [3; 4; 5]%N)) in H. discriminate.
Qed.

Example C130_nonvacuous :
  copyable 40 linked [a_] [b_] 3 /\ dget linked [] = Some LDir /\ dget linked ([] ++ [b_]) = None /\
  lcopyTo 40 (fun _ => Run) 2 3 [a_] ([] ++ [b_]) (linked, 0%nat) =
    ((linked ++ [([b_], LDir); ([b_; l_], LDir); ([b_; l_; n_], LFile [3; 4; 5]%N); ([b_; l_; b_], LFile [3; 4; 5]%N)], 26%nat), Ok tt).
Proof.
  split; [|split; [reflexivity|]; split; [reflexivity|vm_compute; reflexivity]].
  assert (Go : forall r l e, Forall name r -> goes 40 linked true ([a_] ++ r) = Ok l -> dget linked l = Some e ->
    In (r, l, e) [([], [a_], LDir); ([l_], [d_], LDir); ([l_; n_], [d_; n_], LFile [3; 4; 5]%N); ([l_; b_], [d_; n_], LFile [3; 4; 5]%N)]).
  { intros r l e Hr G He. unfold goes in G. destruct (find linked true 40 [] ([a_] ++ r)) as [[l0 b0]|] eqn:F; [|discriminate]. injection G as ->. now apply (linked_sees r l b0 e Hr F). }
  split.
  - left. reflexivity.
  - intros r l x Hr G Hl Hx. specialize (Go r l LDir Hr G Hl). destruct (dget linked (l ++ [x])) as [e|] eqn:E; [|congruence]. apply dget_In in E.
    repeat (destruct Go as [Go|Go]; [injection Go as <- <-|]); try discriminate; try destruct Go.
    + assert (x = l_) as -> by (repeat (destruct E as [E|E]; [try discriminate E; now injection E|]); destruct E). left. vm_compute. reflexivity.
    + assert (x = n_ \/ x = b_) as [->| ->] by (repeat (destruct E as [E|E]; [try discriminate E; injection E; auto|]); destruct E); right; eexists; vm_compute; reflexivity.
  - intros r Hr V. unfold view in V. destruct (goes 40 linked true ([a_] ++ r)) as [l|] eqn:G; [|congruence]. destruct (dget linked l) as [e|] eqn:E; [|congruence].
    specialize (Go r l e Hr G E). repeat (destruct Go as [Go|Go]; [injection Go as <- _ _; cbn; lia|]). destruct Go.
  - intros r l Hr G Hl. specialize (Go r l LDir Hr G Hl). intros (u & Eu). repeat (destruct Go as [Go|Go]; [injection Go as <- <-; discriminate Eu|]). try destruct Go. all: discriminate.
Qed.
