(** * epsilon/modal.py: what else is in the body of a modal class *)

From Coq Require Import NArith String List Bool Arith Lia.
From Verif Require Import Py Modal.
Import ListNotations.
Open Scope nat_scope.

Set Implicit Arguments.

(** [getattr(cls, name)]: a ModalMethod has no unbound form (modal.py:26-28).
    Simplification: the metaclass defines nothing of its own under the name; for
    [__doc__], [type.__doc__] asks the entry of the class's own dictionary the same. *)
Definition class_getattr (mro : list cdict) (name : str) : res value :=
  match lookup mro name with
  | None => Err AttributeError
  | Some (KVal v) => Ok v
  | Some (KMode d) => Ok (VModeClass d)
  | Some (KModal _ _) => Err AttributeError
  end.

(** ** Specification *)

(** Python binds [__doc__] in every class, to a text or None: neither can be called *)
Definition python_modes (attrs : dict str attr) : Prop :=
  forall k m, dget attrs k = Some (AMode m) -> exists i, dget m (lit "__doc__") = Some (MOther i).

(** ** Proofs *)

Lemma own_entry bases a d ma im n : wf_dict a -> Forall (fun kv => match snd kv with AMode m => wf_dict m | _ => True end) a ->
  required (lit "modeAttribute") bases a = Ok ma -> required (lit "initialMode") bases a = Ok im -> build bases a = Ok d -> n <> lit "initialMode" ->
  if mode_defines a n
  then exists ms, dget d n = Some (KModal ms ma) /\ forall k, dget ms k = impl_of a k n
  else forall v, dget a n = Some v -> dget d n = Some (to_cattr v).
Proof.
  intros Hw Hm Hma Him Hb Hn. destruct (build_get _ Hw Hm Hma Hb) as (im' & Him' & _ & _ & Hg). assert (im' = im) by congruence. subst im'.
  specialize (Hg n). pose proof (required_src _ _ _ Him) as Hsrc.
  assert (Emd : mode_defines (dset a (lit "initialMode") (AVal (VStr im))) n = mode_defines a n).
  { destruct Hsrc as [Hs|Hs]; eapply mode_defines_dset; eauto. Unshelve. exact (VObj 0). }
  rewrite Emd in Hg. rewrite lookup_dset_other in Hg by auto. destruct (mode_defines a n).
  - destruct Hg as (ms & E & Hk). exists ms. split; [exact E|]. intros k. rewrite Hk. unfold impl_of. rewrite dget_dset.
    destruct (eqb_spec k (lit "initialMode")) as [->|]; auto. destruct Hsrc as [->| ->]; reflexivity.
  - intros v Ev. now rewrite Ev in Hg.
Qed.

Section Class.
  Variables (bases : list pycls) (a : dict str attr) (d : cdict) (ma im : str) (rest : list cdict).
  Hypothesis Hw : wf_dict a.
  Hypothesis Hm : Forall (fun kv => match snd kv with AMode m => wf_dict m | _ => True end) a.
  Hypothesis Hma : required (lit "modeAttribute") bases a = Ok ma.
  Hypothesis Him : required (lit "initialMode") bases a = Ok im.
  Hypothesis Hb : build bases a = Ok d.

  Theorem kept n v : n <> lit "initialMode" -> dget a n = Some (AVal v) -> mode_defines a n = false ->
    class_getattr (d :: rest) n = Ok v /\ forall fuel inst, dget inst n = None -> getattr (S fuel) (d :: rest) inst n = Ok v.
  Proof.
    intros Hn Hv Hd. pose proof (own_entry _ Hw Hm Hma Him Hb Hn) as E. rewrite Hd in E. specialize (E _ Hv).
    unfold class_getattr. cbn [lookup getattr]. rewrite E. cbn [to_cattr]. split; [reflexivity|]. intros fuel inst ->. reflexivity.
  Qed.

  Theorem replaced n : n <> lit "initialMode" -> mode_defines a n = true ->
    class_getattr (d :: rest) n = Err AttributeError /\
    forall fuel inst x, dget inst n = None -> getattr fuel (d :: rest) inst n = Ok x ->
      exists i k m, x = VBound i /\ dget a k = Some (AMode m) /\ dget m n = Some (MFun i).
  Proof.
    intros Hn Hd. pose proof (own_entry _ Hw Hm Hma Him Hb Hn) as E. rewrite Hd in E. destruct E as (ms & E & Hk).
    unfold class_getattr. cbn [lookup]. rewrite E. split; [reflexivity|]. intros fuel inst x Hi G. destruct fuel as [|fuel]; [discriminate|].
    cbn [getattr lookup] in G. rewrite Hi, E in G. destruct (getattr fuel (d :: rest) inst ma) as [[s| | | |]|]; try discriminate.
    rewrite Hk in G. unfold impl_of in G. destruct (dget a s) as [[m|v]|] eqn:Es; try discriminate. destruct (dget m n) as [[i|i]|] eqn:En; try discriminate.
    cbn in G. injection G as <-. exists i, s, m. auto.
  Qed.

  Theorem doc k m : python_modes a -> dget a k = Some (AMode m) ->
    class_getattr (d :: rest) (lit "__doc__") = Err AttributeError /\
    forall fuel inst, dget inst (lit "__doc__") = None -> exists e, getattr fuel (d :: rest) inst (lit "__doc__") = Err e.
  Proof.
    intros Hp Hk. assert (Hd : mode_defines a (lit "__doc__") = true).
    { unfold mode_defines. rewrite andb_true_iff. split; [|reflexivity]. destruct (Hp _ _ Hk) as (i & Ei). apply existsb_exists. exists (k, AMode m).
      split; [now apply dget_In|]. cbn [snd]. unfold din. now rewrite Ei. }
    destruct (replaced (n := lit "__doc__") ltac:(discriminate) Hd) as [A B]. split; [exact A|]. intros fuel inst Hi.
    destruct (getattr fuel (d :: rest) inst (lit "__doc__")) as [x|e] eqn:G; [|eauto]. destruct (B _ _ _ Hi G) as (i & k' & m' & _ & E1 & E2).
    destruct (Hp _ _ E1) as (j & Ej). congruence.
  Qed.
End Class.

(** ** Another mode attribute than [mode] (modal.py:94, 105-107) *)
Theorem other_attribute bases a d ma im rest n inst : wf_dict a -> Forall (fun kv => match snd kv with AMode m => wf_dict m | _ => True end) a ->
  required (lit "modeAttribute") bases a = Ok ma -> required (lit "initialMode") bases a = Ok im -> build bases a = Ok d ->
  ma <> lit "mode" -> ma <> lit "initialMode" -> mode_defines a ma = false -> dget a ma = None -> lookup rest ma = None ->
  n <> lit "initialMode" -> mode_defines a n = true -> dget inst n = None -> dget inst ma = None ->
  forall fuel, getattr (S fuel) (d :: rest) inst ma = Err AttributeError /\ getattr (S (S fuel)) (d :: rest) inst n = Err AttributeError.
Proof.
  intros Hw Hm Hma Him Hb N1 N2 Hd Ha Hr Nn Hn In1 In2 fuel.
  assert (E : dget d ma = None).
  { destruct (build_get _ Hw Hm Hma Hb) as (im' & Him' & _ & _ & Hg). assert (im' = im) by congruence. subst im'. specialize (Hg ma).
    assert (Emd : mode_defines (dset a (lit "initialMode") (AVal (VStr im))) ma = mode_defines a ma).
    { pose proof (required_src _ _ _ Him) as Hsrc. destruct Hsrc as [Hs|Hs]; eapply mode_defines_dset; eauto. Unshelve. exact (VObj 0). }
    rewrite Emd, Hd in Hg. rewrite lookup_dset_other in Hg by auto. rewrite Ha in Hg. destruct (eqb_spec ma (lit "mode")); [contradiction|exact Hg]. }
  assert (G : forall f, getattr (S f) (d :: rest) inst ma = Err AttributeError) by (intros f; cbn [getattr lookup]; now rewrite In2, E, Hr).
  split; [apply G|]. pose proof (own_entry _ Hw Hm Hma Him Hb Nn) as O. rewrite Hn in O. destruct O as (ms & O & _).
  change (getattr (S (S fuel)) (d :: rest) inst n) with (match dget inst n with Some v => Ok v | None => match lookup (d :: rest) n with
    | None => Err AttributeError | Some (KVal v) => Ok v | Some (KMode d) => Ok (VModeClass d)
    | Some (KModal methods modeAttribute) => match getattr (S fuel) (d :: rest) inst modeAttribute with Err e => Err e
        | Ok (VStr m) => match dget methods m with Some md => bind md | None => Err AttributeError end
        | Ok (VUnhashable _) => Err TypeError | Ok _ => Err AttributeError end end end).
  rewrite In1. cbn [lookup]. rewrite O, G. reflexivity.
Qed.
