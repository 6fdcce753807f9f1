(** * Property C176: unbinding routes *)

From Coq Require Import NArith String List Bool Arith.
From Verif Require Import Py PyStr PyNum AmpRouter RouterUnbind.
Import ListNotations.
Open Scope nat_scope.

(** The full claim: a route that is bound can be unbound, and then the boxes
    for every other route still get to it. *)
Definition C176_full : Prop := forall h s rid recv nm, Reach h s -> route_info h rid = Some (recv, nm) -> bound h nm = Some rid ->
  exists s', step s (OUnbind rid) = (Ok RNone, s', []).
Definition C176_others_full : Prop := forall h s rid recv nm s' b other, Reach h s -> route_info h rid = Some (recv, nm) -> wf_dict b ->
  step s (OUnbind rid) = (Ok RNone, s', []) -> bound h (dget b (lit "_route")) = Some other -> other <> rid ->
  exists r ev, step s (OReceive b) = (r, s, ev) /\ step s' (OReceive b) = (r, s', ev).

(** False: before the router is started TypeError is raised; and if another
    route took the name, that one is unbound. *)
Definition early : list op := [OBind 10 (Some (Some (lit "x")))].
Definition taken : list op := [OBind 10 (Some (Some (lit "x"))); OStart 5; OBind 11 (Some (Some (lit "x")))].
Theorem C176_early_refuted : bound (fst (run early)) (Some (lit "x")) = Some 0 /\
  step (snd (run early)) (OUnbind 0) = (Err TypeError, snd (run early), []) /\ ~ C176_full.
Proof.
  split; [reflexivity|]. split; [reflexivity|]. intros F.
  destruct (F (fst (run early)) (snd (run early)) 0 10 (Some (lit "x"))) as [s' E]; [apply run_reach|reflexivity|reflexivity|discriminate].
Qed.
Print Assumptions C176_early_refuted.

Theorem C176_others_refuted : exists s', step (snd (run taken)) (OUnbind 0) = (Ok RNone, s', []) /\
  step (snd (run taken)) (OReceive [(lit "_route", lit "x")]) = (Ok RNone, snd (run taken), [EBox 11 []]) /\
  step s' (OReceive [(lit "_route", lit "x")]) = (Err KeyError, s', []) /\ ~ C176_others_full.
Proof.
  eexists. split; [reflexivity|]. split; [reflexivity|]. split; [reflexivity|]. intros F.
  destruct (F (fst (run taken)) (snd (run taken)) 0 10 (Some (lit "x"))
              (snd (fst (step (snd (run taken)) (OUnbind 0)))) [(lit "_route", lit "x")] 1) as (r & ev & E1 & E2).
  - apply run_reach.
  - reflexivity.
  - repeat constructor. intros [].
  - reflexivity.
  - reflexivity.
  - discriminate.
  - vm_compute in E1, E2. congruence.
Qed.
Print Assumptions C176_others_refuted.

(** What holds: on a running router the route is unbound if its name is bound;
    otherwise KeyError (TypeError if the router is not running), and nothing
    changes.  Nobody is called. *)
Theorem C176_unbind_partial : forall h s rid recv nm, Reach h s -> route_info h rid = Some (recv, nm) ->
  exists s', step s (OUnbind rid) =
    (if running h then match bound h nm with Some _ => Ok RNone | None => Err KeyError end else Err TypeError, s', []) /\
    ((running h = false \/ bound h nm = None) -> s' = s).
Proof. exact unbind_spec. Qed.
Print Assumptions C176_unbind_partial.

(** Boxes with the name of the route are then refused with KeyError, all
    others are treated as before. *)
Theorem C176_receive_partial : forall h s rid recv nm s' b, Reach h s -> route_info h rid = Some (recv, nm) -> wf_dict b ->
  step s (OUnbind rid) = (Ok RNone, s', []) ->
  (dget b (lit "_route") = nm -> step s' (OReceive b) = (Err KeyError, s', [])) /\
  (dget b (lit "_route") <> nm -> exists r ev, step s (OReceive b) = (r, s, ev) /\ step s' (OReceive b) = (r, s', ev)).
Proof. exact unbind_receive. Qed.
Print Assumptions C176_receive_partial.

(** two routes; one is unbound, twice *)
Definition two : list op := [OBind 10 (Some (Some (lit "x"))); OStart 5; OBind 11 (Some (Some (lit "y")))].
Example C176_nonvacuous : running (fst (run two)) = true /\ route_info (fst (run two)) 0 = Some (10, Some (lit "x")) /\
  exists s', step (snd (run two)) (OUnbind 0) = (Ok RNone, s', []) /\ step s' (OUnbind 0) = (Err KeyError, s', []) /\
    step s' (OReceive [(lit "_route", lit "y")]) = (Ok RNone, s', [EBox 11 []]).
Proof. split; [reflexivity|]. split; [reflexivity|]. eexists. repeat split. Qed.
