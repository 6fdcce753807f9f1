(** * epsilon/modal.py: where modeAttribute and initialMode come from

    _getInheritedAttribute goes through the bases depth first; attribute access
    on a class goes through the MRO.  Here classes have an identity, and the
    MRO is computed. *)

From Coq Require Import NArith String List Bool Arith Lia.
From Verif Require Import Py PyStr Modal.
Import ListNotations.
Open Scope nat_scope.

(** A class: its identity, its [__dict__] and its [__bases__].  [object], which
    is last in every MRO and has neither attribute, is left out. *)
Inductive cls := Cls (id : nat) (d : cdict) (bases : list cls).

Definition self (c : cls) : nat * cdict := match c with Cls i d _ => (i, d) end.
Definition bases_of (c : cls) : list cls := match c with Cls _ _ bs => bs end.

(** the class as modal.py:66-80 sees it *)
Fixpoint erase (c : cls) : pycls :=
  match c with Cls _ d bs => PyCls (map erase bs) d end.

(** ** type.mro() (CPython, Objects/typeobject.c, mro_implementation and pmerge) *)
Notation entry := (nat * cdict)%type.
Definition nonempty (l : list entry) : bool := match l with [] => false | _ => true end.
Definition in_tail (x : entry) (l : list entry) : bool :=
  existsb (fun y => Nat.eqb (fst y) (fst x)) (tl l).
(** the first head that is in no tail *)
Fixpoint pick (all ls : list (list entry)) : option entry :=
  match ls with
  | [] => None
  | (h :: _) :: t => if existsb (in_tail h) all then pick all t else Some h
  | [] :: t => pick all t
  end.
Definition drop (x : entry) (l : list entry) : list entry :=
  match l with y :: t => if Nat.eqb (fst y) (fst x) then t else l | [] => [] end.
Fixpoint merge (n : nat) (ls : list (list entry)) : option (list entry) :=
  match n with
  | O => None
  | S n =>
      match filter nonempty ls with
      | [] => Some []
      | l :: t => match pick (l :: t) (l :: t) with
                  | None => None      (* TypeError *)
                  | Some x => option_map (cons x) (merge n (map (drop x) (l :: t)))
                  end
      end
  end.
Fixpoint mro (c : cls) : option (list entry) :=
  match c with
  | Cls i d bs =>
      match (fix go l := match l with
                         | [] => Some []
                         | b :: t => match mro b, go t with Some x, Some y => Some (x :: y) | _, _ => None end
                         end) bs with
      | None => None
      | Some ls => option_map (cons (i, d)) (merge (S (length (concat ls))) (ls ++ [map self bs]))
      end
  end.

(** ** Specification *)

(** what [C.name] is *)
Definition class_attr (name : str) (c : cls) : option cattr :=
  match mro c with Some m => lookup (map snd m) name | None => None end.

(** the class and its ancestors, depth first *)
Fixpoint family (c : cls) : list entry :=
  match c with Cls i d bs => (i, d) :: flat_map family bs end.

(** no class is reached in two ways *)
Definition tree (c : cls) : Prop := NoDup (map fst (family c)).

(** ** Proofs *)

Lemma cls_tree_ind (P : cls -> Prop) : (forall i d bs, Forall P bs -> P (Cls i d bs)) -> forall c, P c.
Proof.
  intros H. fix IH 1. intros [i d bs]. apply H. induction bs as [|b t IHt]; constructor; auto.
Qed.

Lemma nodup_app (a b : list nat) : NoDup (a ++ b) -> NoDup a /\ NoDup b.
Proof.
  induction a as [|x a IH]; cbn [app]; intros H; [split; [constructor|exact H]|]. apply NoDup_cons_iff in H as [H1 H2].
  destruct (IH H2) as [I1 I2]. split; [|exact I2]. constructor; [|exact I1]. intros C. apply H1, in_or_app. now left.
Qed.

Lemma merge_filter n ls : merge n (filter nonempty ls) = merge n ls.
Proof.
  destruct n as [|n]; [reflexivity|]. cbn [merge].
  assert (E : forall l : list (list entry), filter nonempty (filter nonempty l) = filter nonempty l).
  { induction l as [|[|x l] t IHt]; cbn [filter nonempty]; auto. now rewrite IHt. }
  now rewrite E.
Qed.

Lemma merge_nil n ls : merge n ([] :: ls) = merge n ls.
Proof. destruct n; reflexivity. Qed.

Definition full (Ls : list (entry * list entry)) : list (list entry) := map (fun p => fst p :: snd p) Ls.

Lemma not_tail x l : ~ In (fst x) (map fst (tl l)) -> in_tail x l = false.
Proof.
  intros H. unfold in_tail. destruct (existsb _ _) eqn:E; [|reflexivity]. apply existsb_exists in E as (y & Hy & E).
  apply Nat.eqb_eq in E. exfalso. apply H. rewrite <- E. now apply in_map.
Qed.

Lemma drop_other x l : ~ In (fst x) (map fst l) -> drop x l = l.
Proof.
  intros H. destruct l as [|y t]; [reflexivity|]. cbn [drop]. destruct (Nat.eqb_spec (fst y) (fst x)) as [E|]; [|reflexivity].
  exfalso. apply H. now left.
Qed.

Lemma map_drop x (Ls : list (entry * list entry)) : ~ In (fst x) (map fst (concat (full Ls))) -> map (drop x) (full Ls) = full Ls.
Proof.
  induction Ls as [|[h t] Ls IH]; intros H; [reflexivity|]. unfold full in *. cbn [map concat] in *. rewrite map_app, in_app_iff in H.
  rewrite IH by tauto. rewrite drop_other by tauto. reflexivity.
Qed.

Lemma heads_in x (Ls : list (entry * list entry)) : In x (map fst (map fst Ls)) -> In x (map fst (concat (full Ls))).
Proof.
  induction Ls as [|[h t] Ls IH]; [intros []|]. unfold full in *. cbn [map concat fst snd]. rewrite map_app, in_app_iff. cbn [map fst]. intros [E|H]; [left; now left|]. right. auto.
Qed.

Lemma tails_false x (Ls : list (entry * list entry)) : ~ In (fst x) (map fst (concat (full Ls))) -> existsb (in_tail x) (full Ls) = false.
Proof.
  induction Ls as [|[h t] Ls IH]; intros H; [reflexivity|]. unfold full in *. cbn [map concat] in *. rewrite map_app, in_app_iff in H.
  cbn [existsb]. rewrite IH by tauto. rewrite not_tail; [reflexivity|]. cbn [tl fst snd map] in *. cbn [In] in H. tauto.
Qed.

Lemma filter_full (Ls : list (entry * list entry)) : filter nonempty (full Ls) = full Ls.
Proof. induction Ls as [|[h t] Ls IH]; [reflexivity|]. unfold full in *. cbn [map filter nonempty]. now rewrite IH. Qed.

(** merging lists without common members is putting them together *)
Lemma merge_apart n : forall X Ls, NoDup (map fst (X ++ concat (full Ls))) -> length (X ++ concat (full Ls)) < n ->
  merge n (X :: full Ls ++ [map fst Ls]) = Some (X ++ concat (full Ls)).
Proof.
  induction n as [|n IH]; intros X Ls Hn Hl; [lia|].
  destruct X as [|x X].
  - destruct Ls as [|[h t] Ls]; [reflexivity|]. change (full ((h, t) :: Ls)) with ((h :: t) :: full Ls) in *. cbn [map concat fst snd app] in *.
    cbn [merge filter nonempty]. rewrite filter_app, filter_full. cbn [filter nonempty].
    apply NoDup_cons_iff in Hn as [Hh Hn]. rewrite map_app, in_app_iff in Hh.
    cbn [pick existsb]. rewrite (not_tail h (h :: t)) by (cbn [tl]; tauto). cbn [orb].
    rewrite existsb_app, tails_false by tauto. cbn [existsb orb]. rewrite (not_tail h (h :: map fst Ls)).
    2:{ cbn [tl]. intros H. apply Hh. right. now apply heads_in. }
    cbn [orb option_map map]. rewrite map_app, map_drop by tauto. cbn [map drop]. rewrite Nat.eqb_refl.
    rewrite (IH t Ls Hn); [reflexivity|]. cbn [length] in Hl. lia.
  - cbn [app] in *. rewrite map_cons in Hn. apply NoDup_cons_iff in Hn as [Hh Hn]. rewrite map_app, in_app_iff in Hh.
    cbn [merge filter nonempty]. rewrite filter_app, filter_full.
    cbn [pick existsb]. rewrite (not_tail x (x :: X)) by (cbn [tl]; tauto). cbn [orb].
    rewrite existsb_app, tails_false by tauto. cbn [orb].
    assert (Ht : existsb (in_tail x) (filter nonempty [map fst Ls]) = false).
    { destruct Ls as [|[h t] Ls]; [reflexivity|]. cbn [map filter nonempty existsb]. rewrite not_tail; [reflexivity|].
      intros H. apply Hh. right. apply heads_in. cbn [map tl fst] in *. now right. }
    rewrite Ht. cbn [option_map map]. rewrite map_app, map_drop by tauto.
    assert (Hd : map (drop x) (filter nonempty [map fst Ls]) = filter nonempty [map fst Ls]).
    { destruct Ls as [|[h t] Ls]; [reflexivity|]. cbn [map filter nonempty]. rewrite drop_other; [reflexivity|].
      intros H. apply Hh. right. now apply heads_in. }
    rewrite Hd. cbn [drop]. rewrite Nat.eqb_refl. cbn [length] in Hl.
    rewrite <- merge_filter.
    replace (filter nonempty (X :: full Ls ++ filter nonempty [map fst Ls])) with (filter nonempty (X :: full Ls ++ [map fst Ls])).
    + rewrite merge_filter, (IH X Ls Hn ltac:(lia)). reflexivity.
    + change (X :: full Ls ++ filter nonempty [map fst Ls]) with ((X :: full Ls) ++ filter nonempty [map fst Ls]).
      change (X :: full Ls ++ [map fst Ls]) with ((X :: full Ls) ++ [map fst Ls]). rewrite !filter_app. now destruct Ls.
Qed.

Theorem mro_tree c : tree c -> mro c = Some (family c).
Proof.
  induction c as [i d bs IH] using cls_tree_ind. intros Ht. unfold tree in Ht. cbn [family map fst] in Ht. apply NoDup_cons_iff in Ht as [_ Ht]. cbn [mro family].
  assert (Hg : (fix go l := match l with
                         | [] => Some []
                         | b :: t => match mro b, go t with Some x, Some y => Some (x :: y) | _, _ => None end
                         end) bs = Some (map family bs)).
  { induction IH as [|b t Hb _ IHt]; [reflexivity|]. cbn [flat_map] in Ht. rewrite map_app in Ht.
    assert (Hl : tree b) by exact (proj1 (nodup_app _ _ Ht)).
    assert (Hr : NoDup (map fst (flat_map family t))) by exact (proj2 (nodup_app _ _ Ht)).
    rewrite (Hb Hl), (IHt Hr). reflexivity. }
  rewrite Hg. set (Ls := map (fun b => (self b, flat_map family (bases_of b))) bs).
  assert (E1 : map family bs = full Ls).
  { unfold full, Ls. rewrite map_map. apply map_ext. intros [? ? ?]. reflexivity. }
  assert (E2 : map self bs = map fst Ls) by (unfold Ls; rewrite map_map; reflexivity).
  assert (E3 : flat_map family bs = concat (full Ls)) by (rewrite <- E1; apply flat_map_concat_map).
  rewrite E1, E2, E3 in *.
  pose proof (merge_apart (S (length (concat (full Ls)))) [] Ls Ht ltac:(cbn [app]; lia)) as M.
  rewrite merge_nil in M.
  exact (f_equal (option_map (cons (i, d))) M).
Qed.

Lemma lookup_app a b name : lookup (a ++ b) name = match lookup a name with Some v => Some v | None => lookup b name end.
Proof. induction a as [|d t IH]; [reflexivity|]. cbn [app lookup]. rewrite IH. now destruct (dget d name). Qed.

Lemma family_found name bs : Forall (fun c => lookup (map snd (family c)) name = inherited name (erase c)) bs ->
  lookup (map snd (flat_map family bs)) name = from_bases name (map erase bs).
Proof.
  induction 1 as [|b t Hb _ IH]; [reflexivity|]. cbn [flat_map map from_bases]. rewrite map_app, lookup_app, Hb, IH. reflexivity.
Qed.

Lemma inherited_eq name bs d : inherited name (PyCls bs d) = match dget d name with Some v => Some v | None => from_bases name bs end.
Proof.
  cbn [inherited]. destruct (dget d name); [reflexivity|]. induction bs as [|b t IH]; [reflexivity|]. cbn [from_bases].
  destruct (inherited name b); [reflexivity|]. exact IH.
Qed.

Lemma family_inherited name c : lookup (map snd (family c)) name = inherited name (erase c).
Proof.
  induction c as [i d bs IH] using cls_tree_ind. cbn [erase]. rewrite inherited_eq. cbn [family map snd lookup].
  destruct (dget d name); [reflexivity|]. now apply family_found.
Qed.

(** without diamonds the attribute found is that of the class *)
Theorem tree_agrees name bs i d : tree (Cls i d bs) ->
  class_attr name (Cls i d bs) = match dget d name with Some v => Some v | None => from_bases name (map erase bs) end.
Proof. intros Ht. unfold class_attr. rewrite (mro_tree _ Ht), family_inherited. cbn [erase]. apply inherited_eq. Qed.

(** the finished class has what was found for it in its own body *)
Theorem mode_attribute i bs a d ma : wf_dict a -> Forall (fun kv => match snd kv with AMode m => wf_dict m | _ => True end) a ->
  mode_defines a (lit "modeAttribute") = false -> build (map erase bs) a = Ok d ->
  required (lit "modeAttribute") (map erase bs) a = Ok ma -> tree (Cls i d bs) ->
  class_attr (lit "modeAttribute") (Cls i d bs) = Some (KVal (VStr ma)).
Proof.
  intros Hw Hm Hd Hb Hr Ht. rewrite (tree_agrees _ _ _ _ Ht). destruct (build_get _ Hw Hm Hr Hb) as (im & Him & Hw' & Hm' & Hg).
  specialize (Hg (lit "modeAttribute")).
  assert (Emd : mode_defines (dset a (lit "initialMode") (AVal (VStr im))) (lit "modeAttribute") = mode_defines a (lit "modeAttribute")).
  { destruct (required_src _ _ _ Him) as [Hs|Hs]; eapply mode_defines_dset; eauto. Unshelve. exact (VObj 0). }
  rewrite Emd in Hg.
  rewrite Hd, lookup_dset_other in Hg by discriminate. unfold required in Hr.
  destruct (dget a (lit "modeAttribute")) as [x|].
  - rewrite Hg. destruct (to_cattr x) as [[]| |]; try discriminate. now injection Hr as ->.
  - rewrite Hg. change (eqb (lit "modeAttribute") (lit "mode")) with false. cbv iota.
    destruct (from_bases _ _) as [[[]| |]|]; try discriminate. now injection Hr as ->.
Qed.

(** ** Specification: what a class can be made from *)

(** the class or one of its ancestors binds the name to [v] *)
Inductive bound (name : str) (v : cattr) : pycls -> Prop :=
| B_own bs d : dget d name = Some v -> bound name v (PyCls bs d)
| B_up bs d b : In b bs -> bound name v b -> bound name v (PyCls bs d).

(** the body or an ancestor does *)
Definition defined (name : str) (v : cattr) (bases : list pycls) (attrs : dict str attr) : Prop :=
  (exists a, dget attrs name = Some a /\ to_cattr a = v) \/ exists b, In b bases /\ bound name v b.

(** ** Proofs *)

Lemma pycls_tree_ind (P : pycls -> Prop) : (forall bs d, Forall P bs -> P (PyCls bs d)) -> forall c, P c.
Proof. intros H. fix IH 1. intros [bs d]. apply H. induction bs as [|b t IHt]; constructor; auto. Qed.

Lemma from_some name bs v : Forall (fun c => forall v, inherited name c = Some v -> bound name v c) bs ->
  from_bases name bs = Some v -> exists b, In b bs /\ bound name v b.
Proof.
  induction 1 as [|b t Hb _ IH]; [discriminate|]. cbn [from_bases]. destruct (inherited name b) as [w|] eqn:E.
  - intros X. injection X as ->. exists b. split; [now left|auto].
  - intros X. destruct (IH X) as (c & C1 & C2). exists c. split; [now right|exact C2].
Qed.

Lemma from_none name bs v : Forall (fun c => inherited name c = None -> ~ bound name v c) bs ->
  from_bases name bs = None -> ~ exists b, In b bs /\ bound name v b.
Proof.
  induction 1 as [|b t Hb _ IH]; [intros _ (c & [] & _)|]. cbn [from_bases]. destruct (inherited name b) as [w|] eqn:E; [discriminate|].
  intros X (c & [<-|C] & Hc); [now apply Hb|]. apply (IH X). exists c. now split.
Qed.

Lemma inherited_some name c : forall v, inherited name c = Some v -> bound name v c.
Proof.
  induction c as [bs d IH] using pycls_tree_ind. intros v. rewrite inherited_eq. destruct (dget d name) as [w|] eqn:E.
  - intros X. injection X as ->. now constructor.
  - intros X. destruct (from_some _ _ _ IH X) as (b & H1 & H2). econstructor 2; eassumption.
Qed.

Lemma inherited_none name v c : inherited name c = None -> ~ bound name v c.
Proof.
  induction c as [bs d IH] using pycls_tree_ind. rewrite inherited_eq. destruct (dget d name) as [w|] eqn:E; [discriminate|].
  intros X B. inversion B as [? ? H|? ? b H1 H2]; subst; [congruence|]. apply (from_none _ _ _ IH X). exists b. now split.
Qed.

Lemma required_iff name bases attrs : (forall v, defined name v bases attrs -> exists s, v = KVal (VStr s)) ->
  ((exists s, required name bases attrs = Ok s) /\ exists v, defined name v bases attrs) \/
  (required name bases attrs = Err TypeError /\ forall v, ~ defined name v bases attrs).
Proof.
  intros Hs. unfold required. destruct (dget attrs name) as [a|] eqn:E.
  - assert (D : defined name (to_cattr a) bases attrs) by (left; now exists a). destruct (Hs _ D) as [s ->]. left. split; eauto.
  - destruct (from_bases name bases) as [v|] eqn:F.
    + assert (D : defined name v bases attrs).
      { right. apply (from_some name bases v); [|exact F]. apply Forall_forall. intros c _. apply inherited_some. }
      destruct (Hs _ D) as [s ->]. left. split; eauto.
    + right. split; [reflexivity|]. intros v [(a & A & _)|B]; [congruence|]. revert B. apply from_none; [|exact F].
      apply Forall_forall. intros c _. apply inherited_none.
Qed.

Theorem made_iff bases attrs :
  (forall n v, In n [lit "modeAttribute"; lit "initialMode"] -> defined n v bases attrs -> exists s, v = KVal (VStr s)) ->
  ((exists d, build bases attrs = Ok d) /\ forall n, In n [lit "modeAttribute"; lit "initialMode"] -> exists v, defined n v bases attrs) \/
  (build bases attrs = Err TypeError /\ exists n, In n [lit "modeAttribute"; lit "initialMode"] /\ forall v, ~ defined n v bases attrs).
Proof.
  intros Hs. unfold build.
  destruct (required_iff (lit "modeAttribute") bases attrs ltac:(intros v; apply Hs; now left)) as [[[s ->] M]|[-> M]].
  2:{ right. split; [reflexivity|]. exists (lit "modeAttribute"). split; [now left|exact M]. }
  cbn [rbind].
  destruct (required_iff (lit "initialMode") bases attrs ltac:(intros v; apply Hs; right; now left)) as [[[i ->] I]|[-> I]].
  2:{ right. split; [reflexivity|]. exists (lit "initialMode"). split; [right; now left|exact I]. }
  left. split; [eexists; reflexivity|]. intros n [<-|[<-|[]]]; assumption.
Qed.

(** the initial mode is always in the class's own dictionary *)
Theorem initial_mode i bs a d ma im m : wf_dict a -> Forall (fun kv => match snd kv with AMode m => wf_dict m | _ => True end) a ->
  mode_defines a (lit "initialMode") = false -> build (map erase bs) a = Ok d ->
  required (lit "modeAttribute") (map erase bs) a = Ok ma -> required (lit "initialMode") (map erase bs) a = Ok im ->
  mro (Cls i d bs) = Some m -> class_attr (lit "initialMode") (Cls i d bs) = Some (KVal (VStr im)).
Proof.
  intros Hw Hm Hd Hb Hr Hi Hmro. unfold class_attr. rewrite Hmro. cbn [mro] in Hmro.
  destruct (_ bs) as [ls|]; [|discriminate]. destruct (merge _ _) as [t|]; [|discriminate]. injection Hmro as <-. cbn [map snd lookup].
  destruct (build_get _ Hw Hm Hr Hb) as (im' & Him & Hw' & Hm' & Hg). rewrite Hi in Him. injection Him as <-.
  specialize (Hg (lit "initialMode")).
  assert (Emd : mode_defines (dset a (lit "initialMode") (AVal (VStr im))) (lit "initialMode") = mode_defines a (lit "initialMode")).
  { destruct (required_src _ _ _ Hi) as [Hs|Hs]; eapply mode_defines_dset; eauto. Unshelve. exact (VObj 0). }
  rewrite Emd, Hd, dget_dset_eq in Hg. now rewrite Hg.
Qed.

(** a mode attribute named in the body is the class's *)
Theorem mode_attribute_own i bs a d ma m : wf_dict a -> Forall (fun kv => match snd kv with AMode m => wf_dict m | _ => True end) a ->
  mode_defines a (lit "modeAttribute") = false -> build (map erase bs) a = Ok d ->
  dget a (lit "modeAttribute") = Some (AVal (VStr ma)) -> mro (Cls i d bs) = Some m ->
  class_attr (lit "modeAttribute") (Cls i d bs) = Some (KVal (VStr ma)).
Proof.
  intros Hw Hm Hd Hb Ho Hmro.
  assert (Hr : required (lit "modeAttribute") (map erase bs) a = Ok ma) by (unfold required; now rewrite Ho).
  unfold class_attr. rewrite Hmro. cbn [mro] in Hmro.
  destruct (_ bs) as [ls|]; [|discriminate]. destruct (merge _ _) as [t|]; [|discriminate]. injection Hmro as <-. cbn [map snd lookup].
  destruct (build_get _ Hw Hm Hr Hb) as (im & Him & Hw' & Hm' & Hg). specialize (Hg (lit "modeAttribute")).
  assert (Emd : mode_defines (dset a (lit "initialMode") (AVal (VStr im))) (lit "modeAttribute") = mode_defines a (lit "modeAttribute")).
  { destruct (required_src _ _ _ Him) as [Hs|Hs]; eapply mode_defines_dset; eauto. Unshelve. exact (VObj 0). }
  rewrite Emd, Hd, lookup_dset_other, Ho in Hg by discriminate. now rewrite Hg.
Qed.
