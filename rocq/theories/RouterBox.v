(** * epsilon/amprouter.py: the boxes themselves

    Boxes are dictionaries that the router changes in place: sendBox puts the remote name
    into the caller's box, ampBoxReceived takes the name out of the box it is given.
    AmpRouter.v has boxes as values; here they are objects in a store. *)
From Coq Require Import NArith String List Bool Arith Lia.
From Verif Require Import Py PyStr PyNum AmpRouter.
Import ListNotations.
Open Scope nat_scope.

Definition store := list box.
Inductive bop :=
| BSend (rid i : nat)        (* route.sendBox(box) *)
| BReceive (i : nat)         (* router.ampBoxReceived(box) *)
| BOther (o : op).           (* anything else: [OSend] and [OReceive] with boxes of their own *)

(** amprouter.py:85-93 [Route.sendBox]: the name is put into the box before the sender is
    looked at.  amprouter.py:183-189 [Router.ampBoxReceived]: the name is taken out of the
    box before the route is looked for.  Simplification: the receivers and the sender do
    not change the box they are given. *)
Definition bstep (s : rstate) (st : store) (o : bop) : res ret * rstate * store * list event :=
  match o with
  | BSend rid i =>
      match nth_error (routes_made s) rid, nth_error st i with
      | Some r, Some b =>
          match r_remote r with
          | None => (Err RouteNotConnected, s, st, [])
          | Some rem =>
              let b' := match rem with Some n => dset b ROUTE n | None => b end in
              let st' := upd_nth st i b' in
              match sender s with
              | None => (Err AttributeError, s, st', [])
              | Some sn => (Ok RNone, s, st', [ESend sn b'])
              end
          end
      | _, _ => (Err (OtherExn 1), s, st, [])      (* no such objects: not possible *)
      end
  | BReceive i =>
      match nth_error st i with
      | Some b => let '(x, ev) := ampBoxReceived s b in (x, s, upd_nth st i (ddel b ROUTE), ev)
      | None => (Err (OtherExn 1), s, st, [])
      end
  | BOther o => let '(x, s', ev) := step s o in (x, s', st, ev)
  end.

Record bentry := { b_op : bop; b_res : res ret; b_ev : list event }.
Fixpoint brun (s : rstate) (st : store) (l : list bop) : rstate * store * list bentry :=
  match l with
  | [] => (s, st, [])
  | o :: l' => let '(x, s', st', ev) := bstep s st o in
               let '(s2, st2, h) := brun s' st' l' in (s2, st2, {| b_op := o; b_res := x; b_ev := ev |} :: h)
  end.

(** ** Specification, on the calls made and what they did, the first call first *)
(** the name the route [rid] is connected to, [o] being the latest call that concerns it *)
Definition connected_by (rid : nat) (cur : option rname) (o : bop) : option rname :=
  match o with BOther (OConnect j rem) => if Nat.eqb j rid then Some rem else cur | _ => cur end.
Definition connected_to (rid : nat) (l : list bop) : option rname := fold_left (connected_by rid) l None.
(** The name in box [i]: that of the latest route with a name the box was sent through,
    unless it was received since. *)
Fixpoint name_in (i : nat) (before : list bop) (cur : option str) (l : list bop) : option str :=
  match l with
  | [] => cur
  | o :: l' =>
      name_in i (before ++ [o])
        match o with
        | BSend rid j => if Nat.eqb j i then match connected_to rid before with Some (Some n) => Some n | _ => cur end else cur
        | BReceive j => if Nat.eqb j i then None else cur
        | BOther _ => cur
        end l'
  end.

(** ** Proofs *)
Definition remote_of (s : rstate) (rid : nat) : option rname := match nth_error (routes_made s) rid with Some r => r_remote r | None => None end.

(** routes are used only once they exist *)
Definition exists_route (s : rstate) (o : bop) : Prop := match o with BSend rid _ | BOther (OConnect rid _) => rid < length (routes_made s) | _ => True end.

Lemma upd_length {A} (l : list A) i x : length (upd_nth l i x) = length l.
Proof. unfold upd_nth. rewrite app_length. rewrite <- (firstn_skipn i l) at 3. rewrite app_length. f_equal. destruct (skipn i l); reflexivity. Qed.
Lemma upd_other {A} (l : list A) i j x : j <> i -> nth_error (upd_nth l i x) j = nth_error l j.
Proof.
  intros N. destruct (Nat.lt_ge_cases i (length l)) as [L|L].
  - rewrite upd_nth_nth by exact L. destruct (Nat.eqb_spec j i); [contradiction|reflexivity].
  - unfold upd_nth. rewrite skipn_all2, firstn_all2, app_nil_r by lia. reflexivity.
Qed.
Lemma upd_same {A} (l : list A) i x : i < length l -> nth_error (upd_nth l i x) i = Some x.
Proof. intros L. rewrite upd_nth_nth by exact L. now rewrite Nat.eqb_refl. Qed.

Lemma step_remote s o x s' ev rid : step s o = (x, s', ev) -> (match o with OConnect j _ => j < length (routes_made s) | _ => True end) ->
  remote_of s' rid = connected_by rid (remote_of s rid) (BOther o).
Proof.
  intros E L. destruct o; cbn [connected_by]; cbn [step] in E.
  - injection E as <- <- <-. reflexivity.
  - unfold bindRoute in E. set (p := match name with Some n => (n, s) | None => let '(i, s1) := createRouteIdentifier s in (Some i, s1) end) in E.
    assert (P : routes_made (snd p) = routes_made s) by (unfold p; destruct name; reflexivity). destruct p as [nm s0]. cbn [snd] in P. rewrite P in E.
    assert (Q : forall s2, routes_made s2 = routes_made s ++ [{| r_recv := recv; r_local := nm; r_remote := None |}] -> remote_of s2 rid = remote_of s rid).
    { intros s2 E2. unfold remote_of. rewrite E2. destruct (Nat.lt_ge_cases rid (length (routes_made s))) as [Hl|Hl]; [now rewrite nth_error_app1|].
      rewrite nth_error_app2 by exact Hl. rewrite (proj2 (nth_error_None (routes_made s) rid) Hl). destruct (rid - length (routes_made s)) as [|[|]]; reflexivity. }
    destruct (started s0); [injection E as <- <- <-; now apply Q|]. destruct (unstarted s0); injection E as <- <- <-; [now apply Q|]. unfold remote_of. now rewrite P.
  - destruct (nth_error (routes_made s) rid0) as [r|] eqn:N; [|apply nth_error_None in N; lia]. unfold connectTo in E. injection E as <- <- <-. unfold remote_of. cbn [set_made routes_made].
    destruct (Nat.eqb_spec rid0 rid) as [->|D]; [now rewrite upd_same|]. rewrite upd_other by auto. reflexivity.
  - destruct (nth_error (routes_made s) rid0) as [r|]; [|injection E as <- <- <-; reflexivity]. unfold unbind in E. destruct (started s); [|injection E as <- <- <-; reflexivity]. destruct (din _ _); injection E as <- <- <-; reflexivity.
  - unfold startReceivingBoxes in E. destruct (unstarted s); injection E as <- <- <-; reflexivity.
  - destruct (ampBoxReceived s b). injection E as <- <- <-. reflexivity.
  - unfold stopReceivingBoxes in E. destruct (started s); injection E as <- <- <-; reflexivity.
  - destruct (nth_error (routes_made s) rid0); [|injection E as <- <- <-; reflexivity]. destruct (sendBox s r b). injection E as <- <- <-. reflexivity.
  - destruct (nth_error (routes_made s) rid0); [|injection E as <- <- <-; reflexivity]. destruct (unhandledError s f). injection E as <- <- <-. reflexivity.
Qed.

(** routes are used only once they exist, all along *)
Fixpoint feasible (s : rstate) (st : store) (l : list bop) : Prop :=
  match l with [] => True | o :: l' => exists_route s o /\ let '(_, s', st', _) := bstep s st o in feasible s' st' l' end.

Lemma bstep_remote s st o x s' st' ev rid : bstep s st o = (x, s', st', ev) -> exists_route s o -> remote_of s' rid = connected_by rid (remote_of s rid) o.
Proof.
  intros E L. destruct o as [j i|i|o]; cbn [bstep] in E.
  - destruct (nth_error (routes_made s) j) as [r|]; [|injection E as <- <- <- <-; reflexivity]. destruct (nth_error st i); [|injection E as <- <- <- <-; reflexivity]. destruct (r_remote r); [|injection E as <- <- <- <-; reflexivity]. destruct (sender s); injection E as <- <- <- <-; reflexivity.
  - destruct (nth_error st i); [|injection E as <- <- <- <-; reflexivity]. destruct (ampBoxReceived s b). injection E as <- <- <- <-. reflexivity.
  - destruct (step s o) as [[y s1] e1] eqn:E1. injection E as <- <- <- <-. eapply step_remote; [exact E1|]. destruct o; auto.
Qed.

Lemma box_step s st o x s' st' ev i b0 : bstep s st o = (x, s', st', ev) -> exists_route s o -> nth_error st i = Some b0 -> wf_dict b0 ->
  exists b1, nth_error st' i = Some b1 /\ wf_dict b1 /\ (forall k, k <> ROUTE -> dget b1 k = dget b0 k) /\
    dget b1 ROUTE = match o with
                    | BSend rid j => if Nat.eqb j i then match remote_of s rid with Some (Some n) => Some n | _ => dget b0 ROUTE end else dget b0 ROUTE
                    | BReceive j => if Nat.eqb j i then None else dget b0 ROUTE
                    | BOther _ => dget b0 ROUTE
                    end.
Proof.
  intros E L Hi W. assert (Same : exists b1, nth_error st i = Some b1 /\ wf_dict b1 /\ (forall k, k <> ROUTE -> dget b1 k = dget b0 k) /\ dget b1 ROUTE = dget b0 ROUTE) by (exists b0; auto).
  destruct o as [rid j|j|o]; cbn [bstep] in E.
  - unfold remote_of. destruct (nth_error (routes_made s) rid) as [r|] eqn:Er; [|cbn in L; apply nth_error_None in Er; lia].
    destruct (nth_error st j) as [b|] eqn:Ej.
    2: { injection E as <- <- <- <-. destruct (Nat.eqb_spec j i) as [->|]; [congruence|]. exact Same. }
    destruct (r_remote r) as [rem|] eqn:Em. 2: { injection E as <- <- <- <-. destruct (Nat.eqb j i); exact Same. }
    assert (E2 : st' = upd_nth st j match rem with Some n => dset b ROUTE n | None => b end) by (destruct (sender s); injection E as <- <- <- <-; reflexivity).
    destruct (Nat.eqb_spec j i) as [->|D].
    + assert (b0 = b) by congruence. subst b0. rewrite E2. eexists. split; [apply upd_same; apply nth_error_Some; congruence|]. destruct rem as [n|]; [|auto].
      split; [now apply wf_dset|]. split; [intros k Hk; now rewrite dget_dset_neq|]. apply dget_dset_eq.
    + rewrite E2, upd_other by auto. exact Same.
  - destruct (nth_error st j) as [b|] eqn:Ej.
    2: { injection E as <- <- <- <-. destruct (Nat.eqb_spec j i) as [->|]; [congruence|]. exact Same. }
    destruct (ampBoxReceived s b) as [y e]. injection E as <- <- <- <-. destruct (Nat.eqb_spec j i) as [->|D].
    + assert (b0 = b) by congruence. subst b0. eexists. split; [apply upd_same; apply nth_error_Some; congruence|]. split; [now apply wf_ddel|]. split; [intros k Hk; now rewrite dget_ddel_neq|]. now apply dget_ddel_eq.
    + rewrite upd_other by auto. exact Same.
  - destruct (step s o) as [[y s1] e1]. injection E as <- <- <- <-. exact Same.
Qed.

Lemma brun_box l : forall s st before i b0, feasible s st l -> (forall rid, remote_of s rid = connected_to rid before) -> nth_error st i = Some b0 -> wf_dict b0 ->
  let '(s', st', _) := brun s st l in
  (forall rid, remote_of s' rid = connected_to rid (before ++ l)) /\
  exists b1, nth_error st' i = Some b1 /\ wf_dict b1 /\ (forall k, k <> ROUTE -> dget b1 k = dget b0 k) /\ dget b1 ROUTE = name_in i before (dget b0 ROUTE) l.
Proof.
  induction l as [|o l IH]; intros s st before i b0 F R Hi W; cbn [brun].
  - rewrite app_nil_r. split; [exact R|]. exists b0. auto.
  - cbn [feasible] in F. destruct F as [Fo F]. destruct (bstep s st o) as [[[x s'] st'] ev] eqn:E.
    destruct (box_step _ _ _ _ _ _ _ i b0 E Fo Hi W) as (b1 & B1 & B2 & B3 & B4).
    assert (R' : forall rid, remote_of s' rid = connected_to rid (before ++ [o])).
    { intros rid. rewrite (bstep_remote _ _ _ _ _ _ _ rid E Fo), R. unfold connected_to. rewrite fold_left_app. reflexivity. }
    specialize (IH s' st' (before ++ [o]) i b1 F R' B1 B2). destruct (brun s' st' l) as [[s2 st2] h]. destruct IH as (I1 & b2 & I2 & I3 & I4 & I5). split; [rewrite app_assoc_reverse in I1; exact I1|].
    exists b2. split; [exact I2|]. split; [exact I3|]. split; [intros k Hk; rewrite I4, B3; auto|]. rewrite I5. cbn [name_in]. f_equal. rewrite B4. destruct o as [rid j|j|o]; [now rewrite R|reflexivity|reflexivity].
Qed.

(** The calls made are those of AmpRouter.v, for the box as it is at that moment. *)
Lemma bsend_as_send s st rid i b x s' st' ev : nth_error st i = Some b -> bstep s st (BSend rid i) = (x, s', st', ev) -> step s (OSend rid b) = (x, s', ev).
Proof.
  intros Hi. cbn [bstep step]. rewrite Hi. destruct (nth_error (routes_made s) rid) as [r|]; [|intros E; injection E as <- <- <- <-; reflexivity]. unfold sendBox. destruct (r_remote r); [|intros E; injection E as <- <- <- <-; reflexivity]. destruct (sender s); intros E; injection E as <- <- <- <-; reflexivity.
Qed.
Lemma breceive_as_receive s st i b x s' st' ev : nth_error st i = Some b -> bstep s st (BReceive i) = (x, s', st', ev) -> step s (OReceive b) = (x, s', ev).
Proof. intros Hi. cbn [bstep step]. rewrite Hi. destruct (ampBoxReceived s b). intros E; injection E as <- <- <- <-; reflexivity. Qed.
