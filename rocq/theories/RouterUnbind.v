(** * Unbinding routes: what [Route.unbind] of amprouter.py:64-68 does

    The model is that of AmpRouter.v; this file only has proofs. *)

From Coq Require Import NArith String List Bool Arith Lia Sorted.
From Verif Require Import Py PyStr PyNum AmpRouter.
Import ListNotations.
Open Scope nat_scope.

Theorem unbind_spec h s rid recv nm : Reach h s -> route_info h rid = Some (recv, nm) ->
  exists s', step s (OUnbind rid) =
    (if running h then match bound h nm with Some _ => Ok RNone | None => Err KeyError end else Err TypeError, s', []) /\
    ((running h = false \/ bound h nm = None) -> s' = s).
Proof.
  intros HR Hi. pose proof (reach_inv h s HR) as [I1 I2 I3 I4 I5 I6 I7].
  destruct (I1 rid) as [[H1 H2]|(r & H1 & H2 & H3)]; [congruence|]. rewrite Hi in H2. injection H2 as -> ->.
  cbn [step]. rewrite H1. unfold unbind. destruct (started s) as [d|] eqn:Es.
  - assert (Hr : running h = true) by (destruct (running h); intuition congruence).
    rewrite Hr. destruct (I7 d) as (W & G & M & So & L); [unfold table; now rewrite Es|].
    specialize (G (r_local r)). unfold din. rewrite <- G. destruct (dget d (r_local r)) as [x|]; eexists; split; try reflexivity.
    intros [X|X]; discriminate.
  - assert (Hr : running h = false) by (apply I3; auto). rewrite Hr. eexists; split; reflexivity.
Qed.

(** the routes of the other names, and the names of the other routes *)
Lemma unbound h s rid recv nm s' : Reach h s -> route_info h rid = Some (recv, nm) -> step s (OUnbind rid) = (Ok RNone, s', []) ->
  let h' := {| e_op := OUnbind rid; e_res := Ok RNone; e_ev := [] |} :: h in
  Reach h' s' /\ running h' = running h /\ (forall r, route_info h' r = route_info h r) /\
  forall n, bound h' n = if eqb nm n then None else bound h n.
Proof.
  intros HR Hi Hs h'. split; [exact (Reach_step _ _ _ _ _ _ HR Hs)|]. split; [reflexivity|]. split; [reflexivity|].
  intros n. unfold h'. cbn [bound]. now rewrite Hi.
Qed.

Theorem unbind_receive h s rid recv nm s' b : Reach h s -> route_info h rid = Some (recv, nm) -> wf_dict b ->
  step s (OUnbind rid) = (Ok RNone, s', []) ->
  (dget b (lit "_route") = nm -> step s' (OReceive b) = (Err KeyError, s', [])) /\
  (dget b (lit "_route") <> nm -> exists r ev, step s (OReceive b) = (r, s, ev) /\ step s' (OReceive b) = (r, s', ev)).
Proof.
  intros HR Hi Hb Hs. destruct (unbound _ _ _ _ _ _ HR Hi Hs) as (R' & Hrun & Hinf & Hbd). set (h' := _ :: h) in *.
  destruct (receive_spec _ _ _ R' Hb) as [E' _]. destruct (receive_spec _ _ _ HR Hb) as [E _].
  change ROUTE with (lit "_route") in *. rewrite Hbd, Hrun in E'.
  assert (Hr : running h = true).
  { destruct (unbind_spec _ _ _ _ _ HR Hi) as (s2 & E2 & _). rewrite Hs in E2. destruct (running h); [reflexivity|discriminate]. }
  rewrite Hr in E, E'. split.
  - intros X. rewrite X in E'. rewrite (proj2 (eqb_eq nm nm)) in E' by reflexivity. exact E'.
  - intros X. rewrite (proj2 (eqb_neq nm _)) in E' by congruence. rewrite E, E'. do 2 eexists. split; [reflexivity|].
    destruct (bound h _); [rewrite Hinf|]; reflexivity.
Qed.
