(** * epsilon/modal.py: modal classes *)

From Coq Require Import NArith String List Bool Arith Lia.
From Verif Require Import Py.
Import ListNotations.
Open Scope nat_scope.

Set Implicit Arguments.

(** What a mode class binds a name to: a callable (an identity), or an object
    that cannot be called (such as [__doc__ = None]). *)
Inductive mdef := MFun (i : nat) | MOther (i : nat).

(** An attribute in the namespace given to the metaclass: a subclass of
    [mode], described by its own [__dict__], or any other object. *)
Inductive value :=
| VStr (s : str)
| VObj (n : nat)              (* any other hashable object *)
| VUnhashable (n : nat)
| VModeClass (d : dict str mdef)
| VBound (i : nat).           (* MethodType(callable i, the instance) *)

Inductive attr := AMode (d : dict str mdef) | AVal (v : value).

(** An entry of a finished class's [__dict__]. *)
Inductive cattr :=
| KVal (v : value)
| KMode (d : dict str mdef)
| KModal (methods : dict str mdef) (modeAttribute : str).  (* modal.py:21-24 *)

Definition cdict := dict str cattr.

(** A class with its bases. *)
Inductive pycls := PyCls (bases : list pycls) (d : cdict).

(** modal.py:66-80 [_getInheritedAttribute], on a finished class: depth first
    through the bases.  [None] is the TypeError. *)
Fixpoint inherited (name : str) (c : pycls) : option cattr :=
  match c with
  | PyCls bases d =>
      match dget d name with
      | Some v => Some v
      | None => (fix go bs := match bs with
                              | [] => None
                              | b :: t => match inherited name b with
                                          | Some v => Some v
                                          | None => go t
                                          end
                              end) bases
      end
  end.

Fixpoint from_bases (name : str) (bases : list pycls) : option cattr :=
  match bases with
  | [] => None
  | b :: t => match inherited name b with Some v => Some v | None => from_bases name t end
  end.

Definition to_cattr (a : attr) : cattr :=
  match a with AMode d => KMode d | AVal v => KVal v end.

(** the call at modal.py:96 and 97.  Simplification: an attribute which is not
    a string (a later TypeError of [getattr]) is rejected here. *)
Definition required (name : str) (bases : list pycls) (attrs : dict str attr) : res str :=
  match (match dget attrs name with
         | Some a => Some (to_cattr a)
         | None => from_bases name bases
         end) with
  | Some (KVal (VStr s)) => Ok s
  | _ => Err TypeError
  end.

(** modal.py:108 *)
Definition excluded : list str := [lit "__module__"; lit "__file__"; lit "__name__"].

(** modal.py:107-109, one mode class: [implementations.setdefault(m, {})[k] = f] *)
Definition add_mode (k : str) (impls : dict str (dict str mdef)) (d : dict str mdef)
  : dict str (dict str mdef) :=
  fold_left (fun acc mf =>
    if memb (fst mf) excluded then acc
    else dset acc (fst mf)
           (dset (match dget acc (fst mf) with Some x => x | None => [] end) k (snd mf)))
    d impls.

(** modal.py:102-109 *)
Definition implementations (attrs : dict str attr) : dict str (dict str mdef) :=
  fold_left (fun acc kv => match snd kv with AMode d => add_mode (fst kv) acc d | AVal _ => acc end)
            attrs [].

(** modal.py:104, 110 *)
Definition keep_attrs (initialMode : str) (attrs : dict str attr) : cdict :=
  fold_left (fun acc kv => dset acc (fst kv) (to_cattr (snd kv)))
            attrs [(lit "mode", KVal (VStr initialMode))].

(** modal.py:95-115 [ModalType.__new__]: the new class's dictionary.  The
    entries which [type.__new__] adds are not modelled. *)
Definition build (bases : list pycls) (attrs : dict str attr) : res cdict :=
  rbind (required (lit "modeAttribute") bases attrs) (fun modeAttribute =>
  rbind (required (lit "initialMode") bases attrs) (fun initialMode =>
  let attrs := dset attrs (lit "initialMode") (AVal (VStr initialMode)) in
  Ok (fold_left (fun acc md => dset acc (fst md) (KModal (snd md) modeAttribute))
                (implementations attrs) (keep_attrs initialMode attrs)))).

(** Attribute lookup on a class: the first dictionary of the MRO which has the
    name.  The MRO is given (its computation is Python's). *)
Fixpoint lookup (mro : list cdict) (name : str) : option cattr :=
  match mro with
  | [] => None
  | d :: t => match dget d name with Some v => Some v | None => lookup t name end
  end.

(** [types.MethodType(func, instance)]: TypeError if it is not callable *)
Definition bind (m : mdef) : res value :=
  match m with MFun i => Ok (VBound i) | MOther _ => Err TypeError end.

(** [getattr(instance, name)]: the instance dictionary, then the class; a
    ModalMethod has [__get__] only, so it comes second too (modal.py:26-42).
    [fuel] is the recursion limit.  Simplification: ordinary functions found on
    the class are not bound but returned as values; no other descriptors. *)
Fixpoint getattr (fuel : nat) (mro : list cdict) (inst : dict str value) (name : str) : res value :=
  match fuel with
  | O => Err RuntimeError
  | S f =>
      match dget inst name with
      | Some v => Ok v
      | None =>
          match lookup mro name with
          | None => Err AttributeError
          | Some (KVal v) => Ok v
          | Some (KMode d) => Ok (VModeClass d)
          | Some (KModal methods modeAttribute) =>
              match getattr f mro inst modeAttribute with
              | Err e => Err e
              | Ok (VStr m) => match dget methods m with
                               | Some md => bind md
                               | None => Err AttributeError
                               end
              | Ok (VUnhashable _) => Err TypeError
              | Ok _ => Err AttributeError
              end
          end
      end
  end.

Section Transition.
  (** What calling a method of the instance does: it may raise, and may change
      the instance.  The calls made are recorded. *)
  Variable behave : nat -> dict str value -> res unit * dict str value.
  Variable fuel : nat.
  Variable mro : list cdict.

  (** [self.name()] *)
  Definition call_method (inst : dict str value) (name : str)
    : res unit * dict str value * list nat :=
    match getattr fuel mro inst name with
    | Err e => (Err e, inst, [])
    | Ok (VBound i) => let '(r, inst') := behave i inst in (r, inst', [i])
    | Ok _ => (Err TypeError, inst, [])
    end.

  (** modal.py:131-134 [Modal.transitionTo] *)
  Definition transitionTo (inst : dict str value) (stateName : str)
    : res unit * dict str value * list nat :=
    match call_method inst (lit "__exit__") with
    | (Err e, inst1, ev1) => (Err e, inst1, ev1)
    | (Ok _, inst1, ev1) =>
        let inst2 := dset inst1 (lit "mode") (VStr stateName) in
        let '(r, inst3, ev2) := call_method inst2 (lit "__enter__") in
        (r, inst3, ev1 ++ ev2)
    end.

  (** a history of transitions which stops at the first exception *)
  Fixpoint transitions (inst : dict str value) (ms : list str)
    : res unit * dict str value * list nat :=
    match ms with
    | [] => (Ok tt, inst, [])
    | m :: t => match transitionTo inst m with
                | (Err e, inst1, ev1) => (Err e, inst1, ev1)
                | (Ok _, inst1, ev1) =>
                    let '(r, inst2, ev2) := transitions inst1 t in (r, inst2, ev1 ++ ev2)
                end
    end.
End Transition.

(** ** Specification, on the source of the classes *)

(** some mode class in the namespace defines the method *)
Definition mode_defines (attrs : dict str attr) (meth : str) : bool :=
  existsb (fun kv => match snd kv with AMode d => din d meth | AVal _ => false end) attrs
  && negb (memb meth [lit "__module__"; lit "__file__"; lit "__name__"]).

(** a class of the MRO: made by the metaclass from the namespace [attrs] with
    mode attribute [ma], or (like [object]) an ordinary one *)
Definition class_of (ma : str) (attrs : dict str attr) (d : cdict) : Prop :=
  wf_dict attrs /\ Forall (fun kv => match snd kv with AMode m => wf_dict m | _ => True end) attrs /\
  ((exists bases, required (lit "modeAttribute") bases attrs = Ok ma /\ build bases attrs = Ok d)
   \/ (Forall (fun kv => match snd kv with AMode _ => False | _ => True end) attrs
       /\ d = map (fun kv => (fst kv, to_cattr (snd kv))) attrs)).

(** the first class of the MRO which binds the name, in its body or in one of
    its modes *)
Fixpoint owner (srcs : list (dict str attr)) (name : str) : option (dict str attr) :=
  match srcs with
  | [] => None
  | attrs :: t => if mode_defines attrs name || din attrs name then Some attrs else owner t name
  end.

(** the implementation of [meth] in the mode class [m] of a class body *)
Definition impl_in (attrs : dict str attr) (m meth : str) : res value :=
  match dget attrs m with
  | Some (AMode d) => match dget d meth with
                      | Some (MFun i) => Ok (VBound i)
                      | Some (MOther _) => Err TypeError
                      | None => Err AttributeError
                      end
  | _ => Err AttributeError
  end.

(** the mode class an instance's class shows under a name *)
Fixpoint src_lookup (srcs : list (dict str attr)) (m : str) : option attr :=
  match srcs with
  | [] => None
  | attrs :: t => match dget attrs m with Some a => Some a | None => src_lookup t m end
  end.

(** ** Proofs *)

Lemma fold_dset_get {V W : Type} (f : str * W -> V) (l : dict str W) : wf_dict l -> forall acc n,
  dget (fold_left (fun a kv => dset a (fst kv) (f kv)) l acc) n
  = match dget l n with Some v => Some (f (n, v)) | None => dget acc n end.
Proof.
  induction l as [|[k v] l IH]; intros Hw acc n; cbn [fold_left dget]; auto.
  inversion Hw as [|? ? Hk Hw']; subst. rewrite IH by auto. cbn [fst].
  rewrite dget_dset. destruct (eqb_spec n k) as [->|N]; [|auto].
  replace (dget l k) with (@None W); auto. symmetry. now apply dget_None.
Qed.

Lemma add_mode_get k : forall (d : dict str mdef) impls m, wf_dict d ->
  dget (add_mode k impls d) m
  = if memb m excluded then dget impls m
    else match dget d m with
         | Some f => Some (dset (match dget impls m with Some x => x | None => [] end) k f)
         | None => dget impls m
         end.
Proof.
  unfold add_mode. induction d as [|[n f] d IH]; intros impls m Hw; cbn [fold_left fst snd].
  - cbn [dget]. now destruct (memb m excluded).
  - inversion Hw as [|? ? Hn Hw']; subst. rewrite IH by auto. cbn [dget].
    destruct (memb n excluded) eqn:En.
    + destruct (eqb_spec m n) as [->|N]; [now rewrite En|reflexivity].
    + destruct (eqb_spec m n) as [->|N].
      * rewrite En. replace (dget d n) with (@None mdef); [now rewrite dget_dset_eq|].
        symmetry. now apply dget_None.
      * rewrite dget_dset_neq by auto. reflexivity.
Qed.

Definition impl_of (attrs : dict str attr) (k m : str) : option mdef :=
  match dget attrs k with Some (AMode d) => dget d m | _ => None end.

Definition modes_wf (attrs : dict str attr) : Prop :=
  Forall (fun kv => match snd kv with AMode m => wf_dict m | _ => True end) attrs.

Lemma implementations_aux m : memb m excluded = false -> forall attrs, wf_dict attrs -> modes_wf attrs ->
  forall acc, (forall ms k, dget acc m = Some ms -> In k (keys attrs) -> dget ms k = None) ->
  let r := dget (fold_left (fun acc kv => match snd kv with
                            | AMode d => add_mode (fst kv) acc d | AVal _ => acc end) attrs acc) m in
  (existsb (fun kv => match snd kv with AMode d => din d m | AVal _ => false end) attrs = false ->
     r = dget acc m)
  /\ (existsb (fun kv => match snd kv with AMode d => din d m | AVal _ => false end) attrs = true ->
      exists ms, r = Some ms)
  /\ (forall ms, r = Some ms -> forall k, dget ms k =
        match impl_of attrs k m with
        | Some f => Some f
        | None => match dget acc m with Some x => dget x k | None => None end
        end).
Proof.
  intros Hm. induction attrs as [|[k a] t IH]; intros Hw Hmw acc Hacc; cbv zeta; cbn [fold_left].
  - cbn [existsb]. split; [auto|]. split; [discriminate|].
    intros ms E k. cbn. now rewrite E.
  - inversion Hw as [|? ? Hk Hw']; subst. inversion Hmw as [|? ? Ha Hmw']; subst.
    cbn [fst snd] in *.
    assert (Hnone : forall k', impl_of ((k, a) :: t) k' m =
              if eqb k' k then match a with AMode d => dget d m | _ => None end
              else impl_of t k' m).
    { intros k'. unfold impl_of. cbn [dget]. now destruct (eqb k' k). }
    assert (Hkt : impl_of t k m = None).
    { unfold impl_of. replace (dget t k) with (@None attr); auto. symmetry. now apply dget_None. }
    set (acc' := match a with AMode d => add_mode k acc d | AVal _ => acc end).
    assert (Eacc : dget acc' m = match a with
        | AMode d => match dget d m with
            | Some f => Some (dset (match dget acc m with Some x => x | None => [] end) k f)
            | None => dget acc m end
        | AVal _ => dget acc m end).
    { unfold acc'. destruct a as [d|v]; auto. rewrite add_mode_get by auto. now rewrite Hm. }
    destruct (IH Hw' Hmw' acc') as (I1 & I2 & I3).
    { intros ms k' E Hin. rewrite Eacc in E.
      assert (Hne : k' <> k) by (intros ->; auto).
      destruct a as [d|v].
      - destruct (dget d m) as [f|].
        + inversion E; subst. rewrite dget_dset_neq by auto.
          destruct (dget acc m) as [x|] eqn:Ex; [|reflexivity].
          apply (Hacc x k'); auto. now right.
        + apply (Hacc ms k'); auto. now right.
      - apply (Hacc ms k'); auto. now right. }
    cbv zeta in I1, I2, I3. cbn [existsb snd].
    split; [|split].
    + intros E. apply orb_false_iff in E. destruct E as [E1 E2]. rewrite (I1 E2), Eacc.
      destruct a as [d|v]; auto. unfold din in E1. destruct (dget d m); [discriminate|auto].
    + intros E. destruct (existsb _ t) eqn:Et; [now apply I2|]. rewrite orb_false_r in E.
      rewrite (I1 eq_refl), Eacc. destruct a as [d|v]; [|discriminate].
      unfold din in E. destruct (dget d m) as [f|]; [eauto|discriminate].
    + intros ms E k'. rewrite (I3 ms E k'), Hnone, Eacc.
      destruct (eqb_spec k' k) as [->|N].
      * rewrite Hkt. destruct a as [d|v].
        -- destruct (dget d m) as [f|]; [now rewrite dget_dset_eq|reflexivity].
        -- reflexivity.
      * destruct (impl_of t k' m); auto. destruct a as [d|v]; auto.
        destruct (dget d m) as [f|]; auto. rewrite dget_dset_neq by auto.
        destruct (dget acc m); reflexivity.
Qed.

Lemma add_mode_excluded k m : memb m excluded = true -> forall (d : dict str mdef) impls,
  dget (add_mode k impls d) m = dget impls m.
Proof.
  intros Hm. unfold add_mode. induction d as [|[n f] d IH]; intros impls; cbn [fold_left fst snd]; auto.
  rewrite IH. destruct (memb n excluded) eqn:En; auto.
  rewrite dget_dset_neq; auto. intros ->. congruence.
Qed.

Lemma implementations_excluded m : memb m excluded = true -> forall attrs acc,
  dget (fold_left (fun acc kv => match snd kv with
                            | AMode d => add_mode (fst kv) acc d | AVal _ => acc end) attrs acc) m
  = dget acc m.
Proof.
  intros Hm. induction attrs as [|[k a] t IH]; intros acc; cbn [fold_left]; auto.
  rewrite IH. cbn [fst snd]. destruct a; auto. now apply add_mode_excluded.
Qed.

Lemma implementations_spec attrs m : wf_dict attrs -> modes_wf attrs ->
  match dget (implementations attrs) m with
  | None => mode_defines attrs m = false
  | Some ms => mode_defines attrs m = true /\ forall k, dget ms k = impl_of attrs k m
  end.
Proof.
  intros Hw Hm. unfold mode_defines, implementations. fold excluded.
  destruct (memb m excluded) eqn:Ee.
  - rewrite implementations_excluded by auto. cbn [dget]. now rewrite andb_false_r.
  - cbn [negb]. rewrite andb_true_r.
    destruct (@implementations_aux m Ee attrs Hw Hm []) as (I1 & I2 & I3); [discriminate|].
    cbv zeta in I1, I2, I3.
    destruct (dget _ m) as [ms|] eqn:E.
    + split.
      * destruct (existsb _ attrs); auto. discriminate (I1 eq_refl).
      * intros k. rewrite (I3 ms eq_refl k). cbn [dget]. now destruct (impl_of attrs k m).
    + destruct (existsb _ attrs); auto. destruct (I2 eq_refl). discriminate.
Qed.

Lemma wf_implementations attrs : wf_dict (implementations attrs).
Proof.
  unfold implementations.
  assert (G : forall l acc, wf_dict acc ->
    wf_dict (fold_left (fun acc kv => match snd kv with
               | AMode d => add_mode (fst kv) acc d | AVal _ => acc end) l acc)).
  { induction l as [|[k a] t IH]; intros acc Ha; cbn [fold_left]; auto. apply IH.
    cbn [fst snd]. destruct a as [d|v]; auto. unfold add_mode. clear -Ha.
    revert acc Ha. induction d as [|[n f] d IHd]; intros acc Ha; cbn [fold_left fst snd]; auto.
    apply IHd. destruct (memb n excluded); eauto with dict. }
  apply G. constructor.
Qed.

(** the dictionary of a class made by the metaclass *)
Lemma build_get bases attrs d ma : wf_dict attrs -> modes_wf attrs ->
  required (lit "modeAttribute") bases attrs = Ok ma ->
  build bases attrs = Ok d ->
  exists im, required (lit "initialMode") bases attrs = Ok im /\
  let attrs' := dset attrs (lit "initialMode") (AVal (VStr im)) in
  wf_dict attrs' /\ modes_wf attrs' /\
  forall n,
  if mode_defines attrs' n
  then exists ms, dget d n = Some (KModal ms ma) /\ forall k, dget ms k = impl_of attrs' k n
  else dget d n = match dget attrs' n with
                  | Some a => Some (to_cattr a)
                  | None => if eqb n (lit "mode") then Some (KVal (VStr im)) else None
                  end.
Proof.
  intros Hw Hm Hma. unfold build. rewrite Hma. cbn [rbind].
  destruct (required (lit "initialMode") bases attrs) as [im|e]; [|discriminate].
  cbn [rbind]. intros E; inversion E; subst d. exists im. split; auto. cbv zeta.
  set (attrs' := dset attrs (lit "initialMode") (AVal (VStr im))).
  assert (Hw' : wf_dict attrs') by (unfold attrs'; eauto with dict).
  assert (Hm' : modes_wf attrs').
  { unfold attrs', modes_wf in *. clear -Hm. induction attrs as [|[k a] t IH]; cbn [dset].
    - constructor; [exact I|constructor].
    - inversion Hm; subst. destruct (eqb (lit "initialMode") k); constructor; auto. exact I. }
  split; auto. split; auto. intros n.
  assert (G : dget (fold_left (fun acc md => dset acc (fst md) (KModal (snd md) ma))
                 (implementations attrs') (keep_attrs im attrs')) n
          = match dget (implementations attrs') n with
            | Some ms => Some (KModal ms ma)
            | None => dget (keep_attrs im attrs') n end).
  { rewrite (fold_dset_get (fun md => KModal (snd md) ma)) by apply wf_implementations.
    reflexivity. }
  rewrite G. clear G.
  pose proof (implementations_spec n Hw' Hm') as Hi.
  destruct (dget (implementations attrs') n) as [ms|].
  - destruct Hi as [-> Hi]. eauto.
  - rewrite Hi. unfold keep_attrs.
    rewrite (fold_dset_get (fun kv => to_cattr (snd kv))) by auto.
    destruct (dget attrs' n); auto.
Qed.

Lemma lookup_dset_other attrs n im : n <> lit "initialMode" ->
  dget (dset attrs (lit "initialMode") (AVal (VStr im))) n = dget attrs n.
Proof. intros. now rewrite dget_dset_neq by auto. Qed.

Lemma mode_defines_dset attrs n im v0 : wf_dict attrs ->
  dget attrs (lit "initialMode") = Some (AVal v0) \/ dget attrs (lit "initialMode") = None ->
  mode_defines (dset attrs (lit "initialMode") (AVal (VStr im))) n = mode_defines attrs n.
Proof.
  intros Hw Hi. unfold mode_defines. f_equal. revert Hi. clear Hw.
  induction attrs as [|[k a] t IH]; intros Hi; cbn [dset existsb snd]; auto.
  cbn [dget] in Hi. destruct (eqb (lit "initialMode") k); cbn [existsb snd].
  - destruct Hi as [Hi|Hi]; [|discriminate]. inversion Hi; subst. reflexivity.
  - now rewrite IH.
Qed.

(** what the required attribute says about the namespace *)
Lemma required_src name bases attrs s : required name bases attrs = Ok s ->
  dget attrs name = Some (AVal (VStr s)) \/ dget attrs name = None.
Proof.
  unfold required. destruct (dget attrs name) as [[d|v]|]; cbn [to_cattr]; auto.
  - discriminate.
  - destruct v; try discriminate. intros E; inversion E; subst. auto.
Qed.

(** the class attribute found for a name bound by a mode of the owner *)
Lemma lookup_modal ma : forall srcs mro n attrs,
  Forall2 (class_of ma) srcs mro -> n <> lit "mode" -> n <> lit "initialMode" ->
  owner srcs n = Some attrs -> mode_defines attrs n = true ->
  exists ms, lookup mro n = Some (KModal ms ma) /\ forall k, dget ms k = impl_of attrs k n.
Proof.
  induction srcs as [|a srcs IH]; intros mro n attrs Hf Hnm Hni Ho Hd; [discriminate|].
  inversion Hf as [|? d ? mro' Hc Hf']; subst. cbn [owner lookup] in *.
  destruct Hc as (Hw & Hm & Hc).
  destruct Hc as [(bases & Hma & Hb)|(Hplain & ->)].
  - destruct (build_get _ Hw Hm Hma Hb) as (im & Him & Hw' & Hm' & Hg).
    specialize (Hg n). pose proof (required_src _ _ _ Him) as Hsrc.
    assert (Emd : mode_defines (dset a (lit "initialMode") (AVal (VStr im))) n = mode_defines a n).
    { destruct Hsrc as [Hs|Hs]; eapply mode_defines_dset; eauto. Unshelve. exact (VObj 0). }
    rewrite Emd in Hg. rewrite lookup_dset_other in Hg by auto.
    destruct (mode_defines a n) eqn:Ea.
    + cbn [orb] in Ho. inversion Ho; subst a. destruct Hg as (ms & -> & Hk).
      exists ms. split; auto. intros k. rewrite Hk. unfold impl_of. rewrite dget_dset.
      destruct (eqb_spec k (lit "initialMode")) as [->|]; auto.
      destruct Hsrc as [->| ->]; reflexivity.
    + cbn [orb] in Ho. unfold din in Ho. destruct (dget a n) as [x|] eqn:Ex.
      * inversion Ho; subst. congruence.
      * rewrite Hg. destruct (eqb_spec n (lit "mode")); [congruence|]. eauto.
  - assert (Ha : mode_defines a n = false).
    { unfold mode_defines. replace (existsb _ a) with false; auto. symmetry.
      clear -Hplain. induction Hplain as [|[k x] t Hx Ht IHt]; auto.
      cbn [existsb snd] in *. destruct x; [tauto|auto]. }
    rewrite Ha in Ho. cbn [orb] in Ho. unfold din in Ho.
    assert (Eg : dget (map (fun kv => (fst kv, to_cattr (snd kv))) a) n
                 = option_map to_cattr (dget a n)).
    { clear. induction a as [|[k x] t IHt]; cbn [map dget fst snd]; auto.
      destruct (eqb n k); auto. }
    rewrite Eg. destruct (dget a n) eqn:Ex; cbn [option_map]; [|eauto].
    inversion Ho; subst. congruence.
Qed.

Lemma dispatch fuel ma srcs mro inst n attrs m :
  Forall2 (class_of ma) srcs mro -> n <> lit "mode" -> n <> lit "initialMode" ->
  dget inst n = None ->
  owner srcs n = Some attrs -> mode_defines attrs n = true ->
  getattr fuel mro inst ma = Ok (VStr m) ->
  getattr (S fuel) mro inst n = impl_in attrs m n.
Proof.
  intros Hf H1 H2 Hi Ho Hd Hg. destruct (lookup_modal Hf H1 H2 Ho Hd) as (ms & Hl & Hk).
  cbn [getattr]. rewrite Hi, Hl, Hg, Hk. unfold impl_of, impl_in.
  now destruct (dget attrs m) as [[d|v]|].
Qed.

(** a missing mode attribute, or one that is no mode of the owner *)
Lemma dispatch_no_mode fuel ma srcs mro inst n attrs e :
  Forall2 (class_of ma) srcs mro -> n <> lit "mode" -> n <> lit "initialMode" ->
  dget inst n = None ->
  owner srcs n = Some attrs -> mode_defines attrs n = true ->
  getattr fuel mro inst ma = Err e -> getattr (S fuel) mro inst n = Err e.
Proof.
  intros Hf H1 H2 Hi Ho Hd Hg. destruct (lookup_modal Hf H1 H2 Ho Hd) as (ms & Hl & Hk).
  cbn [getattr]. now rewrite Hi, Hl, Hg.
Qed.

(** the mode of an instance *)
Lemma mode_set fuel mro inst m : getattr (S fuel) mro (dset inst (lit "mode") (VStr m)) (lit "mode")
  = Ok (VStr m).
Proof. cbn [getattr]. now rewrite dget_dset_eq. Qed.

Lemma mode_initial fuel srcs mro a im bases d :
  class_of (lit "mode") a d ->
  required (lit "modeAttribute") bases a = Ok (lit "mode") ->
  build bases a = Ok d -> required (lit "initialMode") bases a = Ok im ->
  mode_defines a (lit "mode") = false -> dget a (lit "mode") = None ->
  mro = d :: srcs ->
  getattr (S fuel) mro [] (lit "mode") = Ok (VStr im).
Proof.
  intros (Hw & Hm & _) Hma Hb Him Hmd Hn ->.
  destruct (build_get _ Hw Hm Hma Hb) as (im' & Him' & _ & _ & Hg).
  assert (im' = im) by congruence. subst im'. specialize (Hg (lit "mode")).
  assert (Emd : mode_defines (dset a (lit "initialMode") (AVal (VStr im))) (lit "mode") = false).
  { etransitivity; [|exact Hmd]. destruct (required_src _ _ _ Him) as [Hs|Hs].
    - now apply mode_defines_dset with (v0 := VStr im); auto.
    - now apply mode_defines_dset with (v0 := VObj 0); auto. }
  rewrite Emd in Hg. rewrite lookup_dset_other in Hg by discriminate. rewrite Hn in Hg.
  cbn [getattr dget lookup]. rewrite Hg. reflexivity.
Qed.

(** ** Transitions *)

Section TransProofs.
  Variable behave : nat -> dict str value -> res unit * dict str value.
  Variable fuel : nat.
  Variable srcs : list (dict str attr).
  Variable mro : list cdict.
  Hypothesis Hclass : Forall2 (class_of (lit "mode")) srcs mro.

  Definition ENTER := lit "__enter__".
  Definition EXIT := lit "__exit__".

  (** the class owning a name defines it in its modes *)
  Variables (ae ax : dict str attr).
  Hypothesis Hoe : owner srcs ENTER = Some ae.
  Hypothesis Hde : mode_defines ae ENTER = true.
  Hypothesis Hox : owner srcs EXIT = Some ax.
  Hypothesis Hdx : mode_defines ax EXIT = true.

  (** the instance is in mode [m] and does not shadow the two methods *)
  Definition in_mode (inst : dict str value) (m : str) : Prop :=
    getattr (S fuel) mro inst (lit "mode") = Ok (VStr m)
    /\ dget inst ENTER = None /\ dget inst EXIT = None.

  Lemma in_mode_dset inst m m' : in_mode inst m -> in_mode (dset inst (lit "mode") (VStr m')) m'.
  Proof.
    intros (A & B & C). split; [apply mode_set|].
    rewrite !dget_dset_neq by discriminate. auto.
  Qed.

  Lemma get_exit inst m : in_mode inst m ->
    getattr (S (S fuel)) mro inst EXIT = impl_in ax m EXIT.
  Proof.
    intros (A & B & C). eapply dispatch; eauto; discriminate.
  Qed.

  Lemma get_enter inst m : in_mode inst m ->
    getattr (S (S fuel)) mro inst ENTER = impl_in ae m ENTER.
  Proof.
    intros (A & B & C). eapply dispatch; eauto; discriminate.
  Qed.

  (** the methods called keep the mode and do not shadow the two methods *)
  Definition keeps (i : nat) : Prop := forall inst m, in_mode inst m ->
    fst (behave i inst) = Ok tt /\ in_mode (snd (behave i inst)) m.

  Lemma transition_ok inst m m' x e :
    in_mode inst m -> impl_in ax m EXIT = Ok (VBound x) -> impl_in ae m' ENTER = Ok (VBound e) ->
    keeps x -> keeps e ->
    exists inst', transitionTo behave (S (S fuel)) mro inst m' = (Ok tt, inst', [x; e])
      /\ in_mode inst' m'.
  Proof.
    intros Hm Hx He Kx Ke. unfold transitionTo, call_method.
    change (lit "__exit__") with EXIT. change (lit "__enter__") with ENTER.
    rewrite (get_exit Hm), Hx.
    destruct (behave x inst) as [r1 inst1] eqn:B1.
    destruct (Kx _ _ Hm) as [K1 K2]. rewrite B1 in K1, K2. cbn [fst snd] in K1, K2. subst r1.
    pose proof (in_mode_dset m' K2) as Hm2.
    rewrite (get_enter Hm2), He.
    destruct (behave e (dset inst1 (lit "mode") (VStr m'))) as [r3 inst3] eqn:B3.
    destruct (Ke _ _ Hm2) as [K3 K4]. rewrite B3 in K3, K4. cbn [fst snd] in K3, K4. subst r3.
    exists inst3. split; auto.
  Qed.

  (** the calls along a chain of modes *)
  Inductive chain_calls : str -> list str -> list nat -> Prop :=
  | CC_nil m : chain_calls m [] []
  | CC_cons m m' ms x e ev :
      impl_in ax m EXIT = Ok (VBound x) -> impl_in ae m' ENTER = Ok (VBound e) ->
      keeps x -> keeps e -> chain_calls m' ms ev ->
      chain_calls m (m' :: ms) (x :: e :: ev).

  Lemma transitions_ok inst m ms ev : in_mode inst m -> chain_calls m ms ev ->
    exists inst', transitions behave (S (S fuel)) mro inst ms = (Ok tt, inst', ev)
      /\ in_mode inst' (last ms m).
  Proof.
    intros Hm Hc. revert inst Hm. induction Hc as [m|m m' ms x e ev Hx He Kx Ke Hc IH]; intros inst Hm.
    - exists inst. auto.
    - cbn [transitions]. destruct (transition_ok m' Hm Hx He Kx Ke) as (inst1 & E & Hm1).
      rewrite E. destruct (IH inst1 Hm1) as (inst2 & E2 & Hm2). rewrite E2.
      exists inst2. split; auto.
      replace (last (m' :: ms) m) with (last ms m'); auto.
      clear. revert m m'. induction ms as [|y ms IH]; intros m m'; auto.
      change (last (m' :: y :: ms) m) with (last (y :: ms) m).
      now rewrite <- (IH m y), <- (IH m' y).
  Qed.

  (** an exception from [__exit__], or its absence, leaves the mode *)
  Lemma exit_fails inst m m' : in_mode inst m ->
    (forall e, impl_in ax m EXIT = Err e ->
       transitionTo behave (S (S fuel)) mro inst m' = (Err e, inst, []))
    /\ (forall x e inst1, impl_in ax m EXIT = Ok (VBound x) -> behave x inst = (Err e, inst1) ->
        transitionTo behave (S (S fuel)) mro inst m' = (Err e, inst1, [x])).
  Proof.
    intros Hm. unfold transitionTo, call_method. change (lit "__exit__") with EXIT.
    rewrite (get_exit Hm). split.
    - intros e ->. reflexivity.
    - intros x e inst1 -> ->. reflexivity.
  Qed.

  Lemma enter_missing inst m m' x inst1 e : in_mode inst m ->
    impl_in ax m EXIT = Ok (VBound x) -> behave x inst = (Ok tt, inst1) -> in_mode inst1 m ->
    impl_in ae m' ENTER = Err e ->
    transitionTo behave (S (S fuel)) mro inst m'
      = (Err e, dset inst1 (lit "mode") (VStr m'), [x]).
  Proof.
    intros Hm Hx Hb Hm1 He. unfold transitionTo, call_method.
    change (lit "__exit__") with EXIT. change (lit "__enter__") with ENTER.
    rewrite (get_exit Hm), Hx, Hb.
    rewrite (get_enter (in_mode_dset m' Hm1)), He. reflexivity.
  Qed.
End TransProofs.

(** changing the mode of one instance *)
Definition heap := nat -> dict str value.
Definition set_mode (h : heap) (i : nat) (m : str) : heap :=
  fun j => if Nat.eqb j i then dset (h i) (lit "mode") (VStr m) else h j.

Lemma set_mode_other fuel mro h i j m n : j <> i ->
  getattr fuel mro (set_mode h i m j) n = getattr fuel mro (h j) n.
Proof. intros H. unfold set_mode. destruct (Nat.eqb_spec j i); congruence. Qed.
