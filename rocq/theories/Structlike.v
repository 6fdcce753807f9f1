(** * epsilon/structlike.py: records *)

From Coq Require Import NArith String List Bool Arith Lia Permutation Sorted ListDec.
From Verif Require Import Py PyStr.
Import ListNotations.
Open Scope nat_scope.

(** ** StructBehavior.__init__ *)

Section Init.
  Context {V : Type}.

  (** structlike.py:79-82: positional values become keyword values; [zip]
      stops at the shorter list *)
  Fixpoint bind_positional (names : list str) (args : list V) (kw : dict str V)
    : res (dict str V) :=
    match names, args with
    | n :: ns, v :: vs =>
        if din kw n then Err TypeError
        else bind_positional ns vs (dset kw n v)
    | _, _ => Ok kw
    end.

  (** structlike.py:85-87: defaults, aligned to the end of the name list *)
  Definition fill_defaults (names : list str) (defaults : list V) (kw : dict str V)
    : dict str V :=
    fold_left (fun acc p => if din acc (fst p) then acc else dset acc (fst p) (snd p))
              (combine (rev names) (rev defaults)) kw.

  (** structlike.py:89-92: one attribute per name, popped from the keywords.
      [attrs] is the instance dictionary being filled by [setattr]. *)
  Fixpoint set_attributes (names : list str) (kw attrs : dict str V)
    : res (dict str V * dict str V) :=
    match names with
    | [] => Ok (kw, attrs)
    | n :: ns =>
        match dget kw n with
        | None => Err TypeError
        | Some v => set_attributes ns (ddel kw n) (dset attrs n v)
        end
    end.

  (** structlike.py:70-95, [StructBehavior.__init__]; the result is the
      instance dictionary.  By line 70 a keyword argument [self] is refused by Python
      itself.  Simplification: no name is one of the special attributes of an object
      ([__class__], [__dict__], [__names__] and so on), so [setattr] stores it. *)
  Definition struct_init (names : list str) (defaults args : list V) (kw : dict str V)
    : res (dict str V) :=
    if din kw (lit "self") then Err TypeError
    else if length names <? length args then Err TypeError
    else
      rbind (bind_positional names args kw) (fun kw1 =>
      let kw2 := fill_defaults names defaults kw1 in
      rbind (set_attributes names kw2 []) (fun p =>
      match fst p with
      | [] => Ok (snd p)
      | _ => Err TypeError
      end)).
End Init.

(** ** record *)

(** structlike.py:160-175: the default values, which must be given without
    gaps from some attribute to the end; [kw] loses the defaults consumed *)
Fixpoint collect_defaults {V} (names : list str) (kw : dict str V) (defaults : list V)
  : res (dict str V * list V) :=
  match names with
  | [] => Ok (kw, defaults)
  | n :: ns =>
      match dget kw n with
      | None => match defaults with
                | [] => collect_defaults ns kw []
                | _ => Err TypeError
                end
      | Some v => collect_defaults ns (ddel kw n) (defaults ++ [v])
      end
  end.

(** structlike.py:149-182, [record]: the names and defaults of the class
    created.  The class name is not modelled. *)
Definition record_def {V} (a : list str) (kw : dict str V)
  : res (list str * list V) :=
  rbind (match a with
         | [s] => Ok (split_ws s)
         | [] => match kw with
                 | [] => Err TypeError
                 | _ => Ok (sorted_str (keys kw))
                 end
         | _ => Err TypeError
         end) (fun names =>
  rbind (collect_defaults names kw []) (fun p =>
  match fst p with
  | [] => Ok (names, snd p)
  | _ => Err TypeError
  end)).

(** ** Specification of argument binding *)

(** The value Python's call rules select for the [i]-th parameter [n]: the
    positional argument, else the keyword argument, else the default (defaults
    belong to the last parameters). *)
Definition selected {V} (names : list str) (defaults args : list V) (kw : dict str V)
  (i : nat) (n : str) : option V :=
  match nth_error args i with
  | Some v => Some v
  | None =>
      match dget kw n with
      | Some v => Some v
      | None => nth_error (rev defaults) (length names - 1 - i)
      end
  end.

Record call_ok {V} (names : list str) (defaults args : list V) (kw : dict str V) : Prop := {
  ok_count : length args <= length names;
  ok_once : forall i n, nth_error names i = Some n -> i < length args -> ~ In n (keys kw);
  ok_all : forall i n, nth_error names i = Some n -> selected names defaults args kw i n <> None;
  ok_known : forall n, In n (keys kw) -> In n names;
  (* the instance itself is the argument [self] of every constructor *)
  ok_self : ~ In (lit "self") (keys kw)
}.

(** ** Proofs about __init__ *)

Section InitProofs.
  Context {V : Type}.

  Lemma bind_positional_ok (names : list str) : forall (args : list V) kw,
    NoDup names -> wf_dict kw ->
    (forall i n, nth_error names i = Some n -> i < length args -> ~ In n (keys kw)) ->
    exists kw', bind_positional names args kw = Ok kw'
      /\ wf_dict kw'
      /\ forall n, dget kw' n = match dget (combine names args) n with
                                | Some v => Some v
                                | None => dget kw n
                                end.
  Proof.
    induction names as [|n ns IH]; intros args kw Hnd Hw Hni.
    - exists kw. cbn. auto.
    - destruct args as [|v vs]; cbn [bind_positional combine].
      + exists kw. cbn. auto.
      + inversion Hnd as [|? ? Hnn Hnd']; subst.
        assert (Hn : ~ In n (keys kw)) by (apply (Hni 0 n); cbn; auto; lia).
        apply din_false in Hn. rewrite Hn.
        destruct (IH vs (dset kw n v)) as (kw' & E & Hw' & Hg); [auto|eauto with dict| |].
        { intros i m Hm Hi Hin. apply keys_dset in Hin as [->|Hin].
          - apply Hnn. eapply nth_error_In; eauto.
          - apply (Hni (S i) m); cbn; auto; lia. }
        exists kw'. split; [auto|]. split; [auto|].
        intros m. rewrite Hg. cbn [dget].
        destruct (eqb_spec m n) as [->|Hmn].
        * rewrite dget_dset_eq.
          replace (dget (combine ns vs) n) with (@None V); auto.
          symmetry. apply dget_None. intros Hin. apply Hnn.
          unfold keys in Hin. clear -Hin. revert vs Hin.
          induction ns as [|x ns IHs]; intros [|y vs] Hin; cbn in *; try tauto.
          destruct Hin; eauto.
        * rewrite dget_dset_neq by auto. reflexivity.
  Qed.

  Lemma bind_positional_err (names : list str) : forall (args : list V) kw i n,
    nth_error names i = Some n -> i < length args -> In n (keys kw) ->
    bind_positional names args kw = Err TypeError.
  Proof.
    induction names as [|m ns IH]; intros args kw i n Hn Hi Hin.
    - destruct i; discriminate.
    - destruct args as [|v vs]; [cbn in Hi; lia|]. cbn [bind_positional].
      destruct (din kw m) eqn:Hm; auto.
      destruct i as [|i]; cbn in Hn.
      + inversion Hn; subst. apply din_keys in Hin. congruence.
      + apply (IH vs (dset kw m v) i n); auto.
        * cbn in Hi; lia.
        * apply keys_dset. auto.
  Qed.

  (** duplicate names can never be bound *)
  Lemma bind_positional_dup (names : list str) : forall (args : list V) kw i j n,
    i < j -> nth_error names i = Some n -> nth_error names j = Some n ->
    j < length args -> bind_positional names args kw = Err TypeError.
  Proof.
    induction names as [|m ns IH]; intros args kw i j n Hij Hi Hj Hl.
    - destruct i; discriminate.
    - destruct args as [|v vs]; [cbn in Hl; lia|]. cbn [bind_positional].
      destruct (din kw m) eqn:Hm; auto.
      destruct j as [|j]; [lia|]. cbn in Hj, Hl.
      destruct i as [|i]; cbn in Hi.
      + inversion Hi; subst.
        apply (bind_positional_err ns vs (dset kw n v) j n); auto; [lia|].
        apply keys_dset; auto.
      + apply (IH vs _ i j n); auto; lia.
  Qed.

  Lemma fill_aux_get (l : list (str * V)) : forall kw n,
    dget (fold_left (fun acc p => if din acc (fst p) then acc
                                  else dset acc (fst p) (snd p)) l kw) n
    = match dget kw n with Some v => Some v | None => dget l n end.
  Proof.
    induction l as [|[k v] l IH]; intros kw n; cbn [fold_left fst snd].
    - destruct (dget kw n); auto.
    - rewrite IH. cbn [dget]. destruct (din kw k) eqn:Hk.
      + unfold din in Hk. destruct (dget kw n) eqn:E; auto.
        destruct (eqb_spec n k) as [->|]; auto. rewrite E in Hk. discriminate.
      + rewrite dget_dset. destruct (eqb_spec n k) as [->|Hn].
        * unfold din in Hk. destruct (dget kw k); [discriminate|auto].
        * auto.
  Qed.

  Lemma fill_aux_wf (l : list (str * V)) : forall kw, wf_dict kw ->
    wf_dict (fold_left (fun acc p => if din acc (fst p) then acc
                                  else dset acc (fst p) (snd p)) l kw).
  Proof.
    induction l as [|[k v] l IH]; intros kw Hw; cbn [fold_left fst snd]; auto.
    apply IH. destruct (din kw k); eauto with dict.
  Qed.

  Lemma dget_combine_nth (names : list str) : forall (vs : list V) i n,
    NoDup names -> nth_error names i = Some n ->
    dget (combine names vs) n = nth_error vs i.
  Proof.
    induction names as [|m ns IH]; intros vs i n Hnd Hn.
    - destruct i; discriminate.
    - inversion Hnd as [|? ? Hni Hnd']; subst.
      destruct vs as [|v vs]; cbn [combine].
      + cbn. destruct i; auto.
      + cbn [dget]. destruct i as [|i]; cbn in Hn.
        * inversion Hn; subst. now rewrite eqb_refl.
        * destruct (eqb_spec n m) as [->|Hnm].
          -- exfalso; apply Hni; eapply nth_error_In; eauto.
          -- cbn. auto.
  Qed.

  Lemma dget_combine_notin (names : list str) (vs : list V) n :
    ~ In n names -> dget (combine names vs) n = None.
  Proof.
    intros Hn. apply dget_None. intros Hin. apply Hn.
    unfold keys in Hin. clear Hn. revert vs Hin.
    induction names as [|x ns IHs]; intros [|y vs] Hin; cbn in *; try tauto.
    destruct Hin; eauto.
  Qed.

  Lemma nth_error_rev_at {A} (l : list A) i x : nth_error l i = Some x ->
    nth_error (rev l) (length l - 1 - i) = Some x.
  Proof.
    intros Hx. assert (Hi : i < length l) by (apply nth_error_Some; congruence).
    assert (H : nth_error (rev l) (length l - 1 - i) =
                nth_error l (length l - 1 - (length l - 1 - i))).
    { destruct l as [|d t]; [cbn in Hi; lia|]. set (l := d :: t) in *.
      rewrite (nth_error_nth' (rev l) d) by (rewrite rev_length; lia).
      rewrite rev_nth by lia. rewrite (nth_error_nth' l d) by lia.
      f_equal. f_equal. lia. }
    rewrite H. rewrite <- Hx. f_equal. lia.
  Qed.


  Lemma set_attributes_ok (names : list str) : forall (kw attrs : dict str V),
    NoDup names -> wf_dict kw ->
    (forall n, In n names -> In n (keys kw)) ->
    (forall n, In n names -> ~ In n (keys attrs)) ->
    exists kw' attrs',
      set_attributes names kw attrs = Ok (kw', attrs')
      /\ (forall n, In n (keys kw') <-> In n (keys kw) /\ ~ In n names)
      /\ keys attrs' = keys attrs ++ names
      /\ (forall n, dget attrs' n = if memb n names then dget kw n else dget attrs n).
  Proof.
    induction names as [|n ns IH]; intros kw attrs Hnd Hw Hin Hni.
    - exists kw, attrs. cbn. repeat split; auto; try tauto. now rewrite app_nil_r.
    - inversion Hnd as [|? ? Hnn Hnd']; subst. cbn [set_attributes].
      assert (Hn : In n (keys kw)) by (apply Hin; cbn; auto).
      destruct (dget kw n) as [v|] eqn:E; [|apply dget_None in E; tauto].
      destruct (IH (ddel kw n) (dset attrs n v)) as (kw' & attrs' & E1 & Hk & Hka & Hg).
      + auto.
      + eauto with dict.
      + intros m Hm. apply keys_ddel; auto. split; [congruence|].
        apply Hin; cbn; auto.
      + intros m Hm Hc. apply keys_dset in Hc as [->|Hc]; auto.
        apply (Hni m); cbn; auto.
      + exists kw', attrs'. split; [auto|]. split; [|split].
        * intros m. rewrite Hk, keys_ddel by auto. cbn. intuition congruence.
        * rewrite Hka, keys_dset_new by (apply Hni; cbn; auto).
          unfold keys. rewrite map_app. cbn. now rewrite <- app_assoc.
        * intros m. rewrite Hg. cbn [memb].
          destruct (eqb_spec m n) as [->|Hmn]; cbn [orb].
          -- apply memb_not_In in Hnn. rewrite Hnn, dget_dset_eq. auto.
          -- rewrite dget_ddel_neq, dget_dset_neq by auto. auto.
  Qed.

  Lemma set_attributes_missing (names : list str) : forall (kw attrs : dict str V) n,
    NoDup names -> In n names -> dget kw n = None ->
    set_attributes names kw attrs = Err TypeError.
  Proof.
    induction names as [|m ns IH]; intros kw attrs n Hnd Hin Hg; [destruct Hin|].
    inversion Hnd as [|? ? Hnn Hnd']; subst. cbn [set_attributes].
    destruct (dget kw m) as [v|] eqn:E; auto.
    destruct Hin as [->|Hin]; [congruence|].
    apply (IH _ _ n); auto. rewrite dget_ddel_neq; auto. congruence.
  Qed.

  (** duplicate names: the second occurrence has nothing left to pop *)
  Lemma set_attributes_dup (names : list str) : forall (kw attrs : dict str V),
    ~ NoDup names -> wf_dict kw -> set_attributes names kw attrs = Err TypeError.
  Proof.
    assert (Hmiss : forall (names : list str) (kw attrs : dict str V) n,
              In n names -> wf_dict kw -> dget kw n = None ->
              set_attributes names kw attrs = Err TypeError).
    { clear. induction names as [|m ns IH]; intros kw attrs n Hin Hw Hg; [destruct Hin|].
      cbn [set_attributes]. destruct (dget kw m) as [v|] eqn:E; auto.
      destruct Hin as [->|Hin]; [congruence|].
      apply (IH _ _ n); eauto with dict. rewrite dget_ddel by auto.
      destruct (eqb n m); auto. }
    induction names as [|m ns IH]; intros kw attrs Hnd Hw.
    - exfalso; apply Hnd; constructor.
    - cbn [set_attributes]. destruct (dget kw m) as [v|] eqn:E; auto.
      destruct (in_dec eqdec m ns) as [Hi|Hi].
      + apply (Hmiss _ _ _ m); eauto with dict.
      + apply IH; eauto with dict. intros Hc; apply Hnd; constructor; auto.
  Qed.

  Lemma bind_positional_wf (names : list str) : forall (args : list V) kw kw',
    wf_dict kw -> bind_positional names args kw = Ok kw' -> wf_dict kw'.
  Proof.
    induction names as [|n ns IH]; intros [|v vs] kw kw' Hw; cbn [bind_positional];
      intros E; try (inversion E; subst; auto; fail).
    destruct (din kw n); [discriminate|]. eapply IH in E; eauto with dict.
  Qed.

  Lemma bind_positional_typeerror (names : list str) : forall (args : list V) kw e,
    bind_positional names args kw = Err e -> e = TypeError.
  Proof.
    induction names as [|n ns IH]; intros [|v vs] kw e; cbn [bind_positional];
      intros E; try discriminate.
    destruct (din kw n); [congruence|]. eapply IH; eauto.
  Qed.

  Lemma dget_combine_some (names : list str) : forall (args : list V) n v,
    dget (combine names args) n = Some v -> In n names.
  Proof.
    intros args n v E. destruct (in_dec eqdec n names) as [|Hn]; auto.
    rewrite (dget_combine_notin names args n) in E; [discriminate|auto].
  Qed.

  (** what the keyword dictionary holds after the first two loops *)
  Lemma filled_selected names defaults (args : list V) kw kw1 i n :
    NoDup names ->
    (forall n, dget kw1 n = match dget (combine names args) n with
                                | Some v => Some v
                                | None => dget kw n
                                end) ->
    nth_error names i = Some n ->
    dget (fill_defaults names defaults kw1) n = selected names defaults args kw i n.
  Proof.
    intros Hnd Hg Hi. unfold fill_defaults. rewrite fill_aux_get, Hg. unfold selected.
    rewrite (dget_combine_nth names args i n) by auto.
    destruct (nth_error args i); auto. destruct (dget kw n); auto.
    apply dget_combine_nth; auto using NoDup_rev, nth_error_rev_at.
  Qed.

  Lemma fill_notin names defaults (args : list V) kw kw1 n :
    (forall n, dget kw1 n = match dget (combine names args) n with
                                | Some v => Some v
                                | None => dget kw n
                                end) ->
    ~ In n names ->
    dget (fill_defaults names defaults kw1) n = dget kw n.
  Proof.
    intros Hg Hn. unfold fill_defaults. rewrite fill_aux_get, Hg.
    rewrite dget_combine_notin by auto.
    destruct (dget kw n); auto. apply dget_combine_notin. now rewrite <- in_rev.
  Qed.

  Theorem struct_init_ok names defaults (args : list V) kw :
    NoDup names -> wf_dict kw -> call_ok names defaults args kw ->
    exists attrs, struct_init names defaults args kw = Ok attrs
      /\ keys attrs = names
      /\ forall i n, nth_error names i = Some n ->
           dget attrs n = selected names defaults args kw i n.
  Proof.
    intros Hnd Hw [Hc Ho Ha Hk Hself]. unfold struct_init. apply din_false in Hself. rewrite Hself.
    destruct (Nat.ltb_spec (length names) (length args)) as [|_]; [lia|].
    destruct (bind_positional_ok names args kw Hnd Hw Ho) as (kw1 & E1 & Hw1 & Hg1).
    rewrite E1. cbn [rbind].
    set (kw2 := fill_defaults names defaults kw1).
    assert (Hw2 : wf_dict kw2) by (apply fill_aux_wf; auto).
    assert (Hin : forall n, In n names -> In n (keys kw2)).
    { intros n Hn. apply In_nth_error in Hn as [i Hi].
      destruct (dget kw2 n) eqn:E; [eauto with dict|].
      exfalso. apply (Ha i n Hi). rewrite <- E. symmetry.
      apply filled_selected; auto. }
    destruct (set_attributes_ok names kw2 [] Hnd Hw2 Hin) as (kw' & attrs & E2 & Hkw & Hka & Hga).
    { cbn. tauto. }
    rewrite E2. cbn [rbind fst snd].
    destruct kw' as [|[k v] kw'].
    - exists attrs. split; auto. split; [exact Hka|].
      intros i n Hi. rewrite Hga.
      assert (Hn : In n names) by (eapply nth_error_In; eauto).
      apply memb_In in Hn. rewrite Hn. apply filled_selected; auto.
    - exfalso. destruct (Hkw k) as [Hkw1 _]. destruct Hkw1 as [H1 H2]; [cbn; auto|].
      apply H2. apply Hk.
      destruct (dget kw k) eqn:E; [eauto with dict|].
      exfalso. assert (Hg2 : dget kw2 k = None) by (unfold kw2; erewrite fill_notin; eauto).
      apply dget_None in Hg2. auto.
  Qed.

  (** a dictionary is never left with an unknown keyword *)
  Theorem struct_init_err names defaults (args : list V) kw :
    wf_dict kw -> ~ (NoDup names /\ call_ok names defaults args kw) ->
    struct_init names defaults args kw = Err TypeError.
  Proof.
    intros Hw Hno. unfold struct_init. destruct (din kw (lit "self")) eqn:Hself; [reflexivity|]. apply din_false in Hself.
    destruct (Nat.ltb_spec (length names) (length args)) as [|Hc]; auto.
    destruct (bind_positional names args kw) as [kw1|e] eqn:E1; cbn [rbind];
      [|f_equal; eapply bind_positional_typeerror; eauto].
    assert (Hw1 : wf_dict kw1) by (eapply bind_positional_wf; eauto).
    set (kw2 := fill_defaults names defaults kw1).
    assert (Hw2 : wf_dict kw2) by (apply fill_aux_wf; auto).
    assert (Hdec : NoDup names \/ ~ NoDup names).
    { destruct (ListDec.NoDup_dec (A:=str) eqdec names); auto. }
    destruct Hdec as [Hnd|Hnd]; [|rewrite set_attributes_dup; auto].
    destruct (set_attributes names kw2 []) as [[kw' attrs]|e] eqn:E2; cbn [rbind fst snd].
    2:{ f_equal. clear -E2. revert E2. generalize (@nil (str * V)) as a0. generalize kw2.
        induction names as [|n ns IH]; intros d a0; cbn [set_attributes]; [discriminate|].
        destruct (dget d n); [apply IH|congruence]. }
    destruct kw' as [|p kw']; auto.
    exfalso. apply Hno. split; auto.
    assert (Ho : forall i n, nth_error names i = Some n -> i < length args -> ~ In n (keys kw)).
    { intros i n Hi Hl Hin. rewrite (bind_positional_err names args kw i n) in E1; auto.
      discriminate. }
    destruct (bind_positional_ok names args kw Hnd Hw Ho) as (kw1' & E1' & _ & Hg1).
    rewrite E1 in E1'. inversion E1'; subst kw1'.
    assert (Ha : forall i n, nth_error names i = Some n ->
              selected names defaults args kw i n <> None).
    { intros i n Hi Hs. rewrite <- (filled_selected names defaults args kw kw1 i n) in Hs; auto.
      rewrite (set_attributes_missing names _ _ n) in E2; auto; try discriminate.
      eapply nth_error_In; eauto. }
    constructor; auto.
    intros n Hn. destruct (in_dec eqdec n names) as [|Hnn]; auto. exfalso.
    assert (Hin : forall n, In n names -> In n (keys kw2)).
    { intros m Hm. apply In_nth_error in Hm as [i Hi].
      destruct (dget kw2 m) eqn:E; [eauto with dict|].
      exfalso. apply (Ha i m Hi). rewrite <- E. symmetry. apply filled_selected; auto. }
    destruct (set_attributes_ok names kw2 [] Hnd Hw2 Hin) as (kw' & attrs' & E2' & Hkw & _ & _).
    { cbn. tauto. }
    rewrite E2 in E2'. inversion E2'; subst kw'.
    apply (Hkw n). split; auto.
    destruct (dget kw2 n) eqn:E; [eauto with dict|].
    exfalso. unfold kw2 in E. rewrite (fill_notin names defaults args kw kw1) in E; auto.
    apply dget_None in E. auto.
  Qed.
End InitProofs.

(** ** Proofs about record *)

(** The specification: defaults were given for exactly a duplicate-free suffix
    of the names. *)
Definition defaults_fit {V} (names : list str) (kw : dict str V) (defaults : list V) : Prop :=
  exists pre suf, names = pre ++ suf
    /\ (forall n, In n pre -> ~ In n (keys kw))
    /\ NoDup suf
    /\ (forall n, In n (keys kw) <-> In n suf)
    /\ map Some defaults = map (dget kw) suf.

Section RecordProofs.
  Context {V : Type}.

  Lemma collect_tail (names : list str) : forall (kw : dict str V) d ds,
    wf_dict kw ->
    match collect_defaults names kw (d :: ds) with
    | Ok (kw', out) =>
        NoDup names
        /\ (forall n, In n (keys kw') <-> In n (keys kw) /\ ~ In n names)
        /\ (forall n, In n names -> In n (keys kw))
        /\ exists vs, out = (d :: ds) ++ vs /\ map Some vs = map (dget kw) names
    | Err e => e = TypeError /\ ~ (NoDup names /\ forall n, In n names -> In n (keys kw))
    end.
  Proof.
    induction names as [|n ns IH]; intros kw d ds Hw; cbn [collect_defaults].
    - repeat split; try constructor; cbn; try tauto.
      exists []. rewrite app_nil_r. auto.
    - destruct (dget kw n) as [v|] eqn:E.
      + specialize (IH (ddel kw n) d (ds ++ [v]) (wf_ddel _ Hw)).
        cbn [app]. destruct (collect_defaults ns (ddel kw n) (d :: ds ++ [v])) as [[kw' out]|e].
        * destruct IH as (Hnd & Hk & Hin & vs & Eo & Ev).
          assert (Hni : ~ In n ns).
          { intros Hc. apply Hin in Hc. apply keys_ddel in Hc as [Hc _]; auto. }
          split; [constructor; auto|]. split; [|split].
          -- intros m. rewrite Hk, keys_ddel by auto. cbn. intuition congruence.
          -- intros m [->|Hm]; [eauto with dict|].
             apply Hin in Hm. apply keys_ddel in Hm as [_ Hm]; auto.
          -- exists (v :: vs). split.
             ++ rewrite Eo. cbn. now rewrite <- app_assoc.
             ++ cbn. rewrite E, Ev. f_equal. apply map_ext_in. intros m Hm.
                apply dget_ddel_neq. congruence.
        * destruct IH as [-> Hno]. split; auto. intros [Hnd Hin].
          inversion Hnd; subst. apply Hno. split; auto. intros m Hm.
          apply keys_ddel; auto. split; [congruence|]. apply Hin; cbn; auto.
      + split; auto. intros [_ Hin]. apply dget_None in E. apply E, Hin. cbn; auto.
  Qed.

  Lemma collect_head (names : list str) : forall (kw : dict str V),
    wf_dict kw ->
    match collect_defaults names kw [] with
    | Ok ([], out) => defaults_fit names kw out
    | Ok (_, _) => ~ exists out, defaults_fit names kw out
    | Err e => e = TypeError /\ ~ exists out, defaults_fit names kw out
    end.
  Proof.
    induction names as [|n ns IH]; intros kw Hw; cbn [collect_defaults].
    - destruct kw as [|[k v] kw].
      + exists [], []. cbn. repeat split; try constructor; auto; tauto.
      + intros (out & pre & suf & E & _ & _ & Hk & _).
        symmetry in E. apply app_eq_nil in E as [-> ->].
        apply (Hk k). cbn; auto.
    - destruct (dget kw n) as [v|] eqn:E.
      + pose proof (collect_tail ns (ddel kw n) v [] (wf_ddel _ Hw)) as IHt.
        cbn [app]. assert (Hn : In n (keys kw)) by eauto with dict.
        assert (Hfit : forall out, defaults_fit (n :: ns) kw out ->
                  NoDup (n :: ns) /\ (forall m, In m (keys kw) <-> In m (n :: ns))).
        { intros out (pre & suf & Es & Hp & Hnd & Hk & Ev).
          destruct pre as [|p pre].
          - cbn in Es. subst suf. auto.
          - exfalso. cbn in Es. inversion Es; subst. apply (Hp p); cbn; auto. }
        destruct (collect_defaults ns (ddel kw n) [v]) as [[kw' out]|e].
        * destruct IHt as (Hnd & Hk & Hin & vs & Eo & Ev).
          assert (Hni : ~ In n ns).
          { intros Hc. apply Hin in Hc. apply keys_ddel in Hc as [Hc _]; auto. }
          destruct kw' as [|[k w] kw'].
          -- exists [], (n :: ns). cbn [app]. split; auto. split; [cbn; tauto|].
             split; [constructor; auto|]. split.
             ++ intros m. split.
                ** intros Hm. destruct (in_dec eqdec m (n :: ns)) as [|Hmn]; auto.
                   exfalso. apply (Hk m). cbn in Hmn. split; [|tauto].
                   apply keys_ddel; [auto|]. split; [intros ->; tauto|auto].
                ** intros [->|Hm]; auto. apply Hin in Hm.
                   apply keys_ddel in Hm as [_ Hm]; auto.
             ++ subst out. cbn. rewrite E, Ev. f_equal. apply map_ext_in.
                intros m Hm. apply dget_ddel_neq. congruence.
          -- intros [out' Hf]. apply Hfit in Hf as [_ Hf].
             destruct (Hk k) as [Hk1 _]. destruct Hk1 as [H1 H2]; [cbn; auto|].
             apply keys_ddel in H1 as [H1 H3]; auto. apply Hf in H3.
             destruct H3 as [H3|H3]; [congruence|tauto].
        * destruct IHt as [-> Hno]. split; auto. intros [out Hf].
          apply Hfit in Hf as [Hnd Hk]. inversion Hnd; subst. apply Hno. split; auto.
          intros m Hm. apply keys_ddel; auto. split; [congruence|]. apply Hk. cbn; auto.
      + specialize (IH kw Hw). apply dget_None in E.
        assert (Hiff : forall out, defaults_fit (n :: ns) kw out <-> defaults_fit ns kw out).
        { intros out; split.
          - intros (pre & suf & Es & Hp & Hnd & Hk & Ev).
            destruct pre as [|p pre].
            + cbn in Es. subst suf. exfalso. apply E, Hk. cbn; auto.
            + cbn in Es. inversion Es; subst. exists pre, suf. repeat split; auto; try apply Hk.
              intros m Hm. apply Hp. cbn; auto.
          - intros (pre & suf & Es & Hp & Hnd & Hk & Ev).
            exists (n :: pre), suf. subst ns. repeat split; auto; try apply Hk.
            intros m [->|Hm]; auto. }
        destruct (collect_defaults ns kw []) as [[[|p kw'] out]|e].
        * now apply Hiff.
        * intros [out' Hf]. apply IH. exists out'. now apply Hiff.
        * destruct IH as [-> IH]. split; auto. intros [out' Hf]. apply IH. exists out'.
          now apply Hiff.
  Qed.

  Lemma defaults_fit_unique names (kw : dict str V) o1 o2 :
    defaults_fit names kw o1 -> defaults_fit names kw o2 -> o1 = o2.
  Proof.
    intros (p1 & s1 & E1 & Hp1 & _ & Hk1 & Hv1) (p2 & s2 & E2 & Hp2 & _ & Hk2 & Hv2).
    assert (Hs : s1 = s2).
    { clear Hv1 Hv2. revert p2 E2 Hp2. subst names. 
      induction p1 as [|x p1 IH]; intros p2 E2 Hp2.
      - destruct p2 as [|y p2]; auto. cbn in E2. exfalso. subst s1.
        apply (Hp2 y); [cbn; auto|]. apply Hk1. cbn; auto.
      - destruct p2 as [|y p2].
        + exfalso. cbn in E2. subst s2. apply (Hp1 x); [cbn; auto|]. apply Hk2. cbn; auto.
        + cbn in E2. inversion E2; subst. apply (IH) with (p2 := p2); auto.
          * intros m Hm. apply Hp1. cbn; auto.
          * intros m Hm. apply Hp2. cbn; auto. }
    subst s2. rewrite <- Hv2 in Hv1. clear -Hv1.
    revert o2 Hv1. induction o1 as [|x o1 IH]; intros [|y o2] H; cbn in H; try discriminate; auto.
    inversion H; subst. f_equal; auto.
  Qed.

  Theorem record_def_string s (kw : dict str V) out : wf_dict kw ->
    (record_def [s] kw = Ok (split_ws s, out) <-> defaults_fit (split_ws s) kw out)
    /\ ((forall o, ~ defaults_fit (split_ws s) kw o) <-> record_def [s] kw = Err TypeError).
  Proof.
    intros Hw. unfold record_def. cbn [rbind].
    pose proof (collect_head (split_ws s) kw Hw) as H.
    destruct (collect_defaults (split_ws s) kw []) as [[[|p kw'] o]|e]; cbn [rbind fst snd].
    - split; split.
      + intros E; inversion E; subst; auto.
      + intros Hf. rewrite (defaults_fit_unique _ _ _ _ H Hf). auto.
      + intros Hno. exfalso; eapply Hno; eauto.
      + discriminate.
    - split; split; try discriminate; auto.
      + intros Hf. exfalso; apply H; eauto.
      + intros _ o' Hf. apply H; eauto.
    - destruct H as [-> H]. split; split; try discriminate; auto.
      + intros Hf. exfalso; apply H; eauto.
      + intros _ o' Hf. apply H; eauto.
  Qed.

  Theorem record_def_kw (kw : dict str V) : wf_dict kw -> kw <> [] ->
    exists names out, record_def [] kw = Ok (names, out)
      /\ Permutation (keys kw) names
      /\ Sorting.Sorted.StronglySorted (fun a b => str_ltb a b = true) names
      /\ map Some out = map (dget kw) names.
  Proof.
    intros Hw Hne. unfold record_def.
    replace (match kw with [] => Err TypeError | _ :: _ => Ok (sorted_str (keys kw)) end)
      with (Ok (sorted_str (keys kw))) by (destruct kw; congruence).
    cbn [rbind].
    pose proof (sorted_str_perm (keys kw)) as Hp.
    pose proof (collect_head (sorted_str (keys kw)) kw Hw) as H.
    assert (Hnd : NoDup (sorted_str (keys kw))) by (eapply Permutation_NoDup; eauto).
    assert (Hfit : forall l, map Some l = map (dget kw) (sorted_str (keys kw)) ->
       defaults_fit (sorted_str (keys kw)) kw l).
    { intros l Hl. exists [], (sorted_str (keys kw)). cbn [app].
      split; [auto|]. split; [cbn; tauto|]. split; [auto|]. split; [|auto].
      intros n; split.
      - intros Hn. eapply Permutation_in; eauto.
      - intros Hn. eapply Permutation_in; [symmetry|]; eauto. }
    assert (Hex : exists l, map Some l = map (dget kw) (sorted_str (keys kw))).
    { assert (Hin : forall n, In n (sorted_str (keys kw)) -> In n (keys kw))
        by (intros n Hn; eapply Permutation_in; [symmetry|]; eauto).
      clear -Hin. induction (sorted_str (keys kw)) as [|x t IH].
      - exists []; auto.
      - destruct IH as [l Hl]; [intros; apply Hin; cbn; auto|].
        destruct (dget kw x) as [v|] eqn:E.
        + exists (v :: l). cbn. now rewrite E, Hl.
        + apply dget_None in E. exfalso. apply E, Hin. cbn; auto. }
    destruct Hex as [l Hl]. specialize (Hfit l Hl).
    assert (Hss : Sorting.Sorted.StronglySorted (fun a b => str_ltb a b = true) (sorted_str (keys kw))).
    { pose proof (sorted_str_sorted (keys kw)) as Hs.
      apply Sorting.Sorted.Sorted_StronglySorted.
      { intros a b c; apply str_ltb_trans. }
      clear -Hs Hnd. induction Hs as [|a l Hs IH Hr]; constructor.
      - apply IH. now inversion Hnd.
      - destruct Hr as [|b l' Hr]; constructor.
        destruct (str_trichotomy a b) as [(?&?&?)|[(?&?&?)|(?&?&?)]]; auto.
        + subst. inversion Hnd as [|? ? Hni ?]; subst. cbn in Hni; tauto.
        + congruence. }
    destruct (collect_defaults (sorted_str (keys kw)) kw []) as [[[|p kw'] o]|e];
      cbn [rbind fst snd].
    - exists (sorted_str (keys kw)), o. repeat split; auto.
      rewrite <- (defaults_fit_unique _ _ _ _ Hfit H); auto.
    - exfalso; apply H; eauto.
    - destruct H as [_ H]. exfalso; apply H; eauto.
  Qed.

  Lemma record_def_nothing : record_def (V:=V) [] [] = Err TypeError.
  Proof. reflexivity. Qed.

  Lemma record_def_too_many a b l (kw : dict str V) : record_def (a :: b :: l) kw = Err TypeError.
  Proof. reflexivity. Qed.
End RecordProofs.

(** ** repr *)

(** What an attribute may hold, as far as [repr] is concerned: a value whose
    own [repr] returns or raises without looking at any record ([VAtom]); a
    record, by identity ([VRef]); a builtin list ([VList]); an object whose
    [__repr__] calls [repr] on a value and substitutes a fixed text when that
    raises ([VTry]).  Simplification: other containers are not modelled, and a
    list cannot contain itself (CPython guards that case on its own). *)
Inductive value :=
| VAtom (r : res str)
| VRef (i : nat)
| VList (l : list value)
| VTry (v : value) (alt : str).

(** A record instance: [__class__.__name__], [__names__] and the instance
    dictionary. *)
Record obj := { o_class : str; o_names : list str; o_attrs : dict str value }.

Definition heap := list obj.

(** [getattr(self, n, None)], structlike.py:111 *)
Definition field (o : obj) (n : str) : value :=
  match dget (o_attrs o) n with Some v => v | None => VAtom (Ok (lit "None")) end.

(** The result of a computation with bounded fuel: [None] is "out of fuel",
    which no Python construct can catch.  The interpreter's own recursion limit
    is not modelled. *)
Definition fres A := option (res A).

(** the dictionary [_RecursiveReprer.active]; an ID is the object's index *)
Definition active_t := dict nat nat.

Section Repr.
  Variable h : heap.

  (** left-to-right list comprehension of [repr]s, stopping at an exception *)
  Definition repr_seq (rv : value -> active_t -> fres str * active_t) :=
    fix go (l : list value) (act : active_t) : fres (list str) * active_t :=
      match l with
      | [] => (Some (Ok []), act)
      | v :: t =>
          match rv v act with
          | (Some (Ok s), act1) =>
              match go t act1 with
              | (Some (Ok ss), act2) => (Some (Ok (s :: ss)), act2)
              | r => r
              end
          | (Some (Err e), act1) => (Some (Err e), act1)
          | (None, act1) => (None, act1)
          end
      end.

  (** [repr(v)] given the [repr] of records *)
  Definition repr_value (robj : nat -> active_t -> fres str * active_t) :=
    fix rv (v : value) (act : active_t) : fres str * active_t :=
      match v with
      | VAtom r => (Some r, act)
      | VRef i => robj i act
      | VList l =>
          match repr_seq rv l act with
          | (Some (Ok ss), act1) =>
              (Some (Ok (lit "[" ++ join (lit ", ") ss ++ lit "]")), act1)
          | (Some (Err e), act1) => (Some (Err e), act1)
          | (None, act1) => (None, act1)
          end
      | VTry w alt =>
          match rv w act with
          | (Some (Err _), act1) => (Some (Ok alt), act1)
          | r => r
          end
      end.

  (** structlike.py:108-112, the text of [_recordrepr] *)
  Definition record_text (o : obj) (ss : list str) : str :=
    o_class o ++ lit "("
      ++ join (lit ", ") (map (fun p => fst p ++ lit "=" ++ snd p) (combine (o_names o) ss))
      ++ lit ")".

  (** structlike.py:98-114 [StructBehavior.__repr__] inside an existing
      context, with structlike.py:21-33 [recursiveRepr]; the [del] in the
      [finally] clause would raise KeyError (replacing any result) if the entry
      were gone. *)
  Fixpoint repr_obj (fuel : nat) (i : nat) (act : active_t) : fres str * active_t :=
    match fuel with
    | O => (None, act)
    | S fuel' =>
        match nth_error h i with
        | None => (Some (Err (OtherExn 0%N)), act) (* no such object *)
        | Some o =>
            if din act i then (Some (Ok (o_class o ++ lit "(...)")), act)
            else
              let act1 := dset act i i in
              let (r, act2) := repr_seq (repr_value (repr_obj fuel'))
                                 (map (field o) (o_names o)) act1 in
              if din act2 i then
                (match r with
                 | Some (Ok ss) => Some (Ok (record_text o ss))
                 | Some (Err e) => Some (Err e)
                 | None => None
                 end, ddel act2 i)
              else (Some (Err KeyError), act2)
        end
    end.

  (** structlike.py:57-62 [_contextualize] when no context is present: a fresh
      [_RecursiveReprer] *)
  Definition repr_top (fuel : nat) (i : nat) : fres str := fst (repr_obj fuel i []).
End Repr.

(** *** Specification of repr

    [Renders h path v r]: rendering [v] while the records [path] are being
    rendered gives [r].  A record on the path is abbreviated; nothing else is.  A name
    without an attribute shows as None. *)
Definition shown (o : obj) (n : str) : value :=
  match dget (o_attrs o) n with Some v => v | None => VAtom (Ok (lit "None")) end.

Inductive Renders (h : heap) : list nat -> value -> res str -> Prop :=
| R_atom p r : Renders h p (VAtom r) r
| R_again p i o : In i p -> nth_error h i = Some o ->
    Renders h p (VRef i) (Ok (o_class o ++ lit "(...)"))
| R_record p i o ss : ~ In i p -> nth_error h i = Some o ->
    RendersAll h (i :: p) (map (shown o) (o_names o)) (Ok ss) ->
    Renders h p (VRef i) (Ok (o_class o ++ lit "(" ++ join (lit ", ") (map (fun ns => fst ns ++ lit "=" ++ snd ns) (combine (o_names o) ss)) ++ lit ")"))
| R_record_err p i o e : ~ In i p -> nth_error h i = Some o ->
    RendersAll h (i :: p) (map (shown o) (o_names o)) (Err e) ->
    Renders h p (VRef i) (Err e)
| R_list p l ss : RendersAll h p l (Ok ss) ->
    Renders h p (VList l) (Ok (lit "[" ++ join (lit ", ") ss ++ lit "]"))
| R_list_err p l e : RendersAll h p l (Err e) -> Renders h p (VList l) (Err e)
| R_try_ok p v alt s : Renders h p v (Ok s) -> Renders h p (VTry v alt) (Ok s)
| R_try_err p v alt e : Renders h p v (Err e) -> Renders h p (VTry v alt) (Ok alt)
with RendersAll (h : heap) : list nat -> list value -> res (list str) -> Prop :=
| RA_nil p : RendersAll h p [] (Ok [])
| RA_cons p v l s ss : Renders h p v (Ok s) -> RendersAll h p l (Ok ss) ->
    RendersAll h p (v :: l) (Ok (s :: ss))
| RA_err p v l e : Renders h p v (Err e) -> RendersAll h p (v :: l) (Err e)
| RA_later p v l s e : Renders h p v (Ok s) -> RendersAll h p l (Err e) ->
    RendersAll h p (v :: l) (Err e).

(** every reference points to an object of the heap *)
Inductive closed_value (h : heap) : value -> Prop :=
| CV_atom r : closed_value h (VAtom r)
| CV_ref i : i < length h -> closed_value h (VRef i)
| CV_list l : Forall (closed_value h) l -> closed_value h (VList l)
| CV_try v alt : closed_value h v -> closed_value h (VTry v alt).

Definition closed_heap (h : heap) : Prop :=
  forall o, In o h -> forall n v, dget (o_attrs o) n = Some v -> closed_value h v.

(** *** Proofs *)

Section ValueInd.
  Variable P : value -> Prop.
  Hypothesis Ha : forall r, P (VAtom r).
  Hypothesis Hr : forall i, P (VRef i).
  Hypothesis Hl : forall l, Forall P l -> P (VList l).
  Hypothesis Ht : forall v alt, P v -> P (VTry v alt).
  Fixpoint value_ind' (v : value) : P v :=
    match v with
    | VAtom r => Ha r
    | VRef i => Hr i
    | VList l => Hl l ((fix go l : Forall P l :=
                          match l with
                          | [] => Forall_nil _
                          | x :: t => Forall_cons _ (value_ind' x) (go t)
                          end) l)
    | VTry w alt => Ht w alt (value_ind' w)
    end.
End ValueInd.

Section ReprProofs.
  Variable h : heap.

  Lemma dset_ddel_new (act : active_t) i : din act i = false ->
    ddel (dset act i i) i = act.
  Proof.
    intros Hn. apply din_false in Hn. rewrite keys_dset_new by auto.
    induction act as [|[k v] act IH]; cbn [ddel app].
    - now rewrite eqb_refl.
    - cbn in Hn. destruct (eqb_spec i k) as [->|]; [tauto|].
      f_equal. apply IH. tauto.
  Qed.

  Lemma din_dset_eq (act : active_t) i : din (dset act i i) i = true.
  Proof. unfold din. now rewrite dget_dset_eq. Qed.

  (** the guard is restored whatever happens *)
  Lemma repr_seq_active (rv : value -> active_t -> fres str * active_t) l :
    (forall v, In v l -> forall act, snd (rv v act) = act) ->
    forall act, snd (repr_seq rv l act) = act.
  Proof.
    induction l as [|v l IH]; intros Hv act; cbn; auto.
    pose proof (Hv v (or_introl eq_refl) act) as E.
    destruct (rv v act) as [[[s|e]|] act1]; cbn in E; subst act1; auto.
    specialize (IH (fun w Hw => Hv w (or_intror Hw)) act).
    destruct (repr_seq rv l act) as [[[ss|e]|] act2]; cbn in IH; subst act2; auto.
  Qed.

  Lemma repr_value_list robj l act :
    repr_value robj (VList l) act =
      match repr_seq (repr_value robj) l act with
      | (Some (Ok ss), act1) =>
          (Some (Ok (lit "[" ++ join (lit ", ") ss ++ lit "]")), act1)
      | (Some (Err e), act1) => (Some (Err e), act1)
      | (None, act1) => (None, act1)
      end.
  Proof. reflexivity. Qed.

  Lemma repr_value_try robj w alt act :
    repr_value robj (VTry w alt) act =
      match repr_value robj w act with
      | (Some (Err _), act1) => (Some (Ok alt), act1)
      | r => r
      end.
  Proof. reflexivity. Qed.

  Lemma repr_value_active robj :
    (forall i act, snd (robj i act) = act) ->
    forall v act, snd (repr_value robj v act) = act.
  Proof.
    intros Ho v. induction v as [r|i|l IH|v alt IH] using value_ind'; intros act.
    - reflexivity.
    - apply Ho.
    - rewrite repr_value_list. assert (E : snd (repr_seq (repr_value robj) l act) = act).
      { apply repr_seq_active. rewrite Forall_forall in IH. auto. }
      destruct (repr_seq _ l act) as [[[ss|e]|] act1]; cbn in *; auto.
    - rewrite repr_value_try. specialize (IH act).
      destruct (repr_value robj v act) as [[[ss|e]|] act1]; cbn in *; auto.
  Qed.

  Theorem repr_obj_active fuel : forall i act, snd (repr_obj h fuel i act) = act.
  Proof.
    induction fuel as [|fuel IH]; intros i act; cbn [repr_obj]; auto.
    destruct (nth_error h i) as [o|]; auto.
    destruct (din act i) eqn:Hd; auto.
    assert (E : snd (repr_seq (repr_value (repr_obj h fuel)) (map (field o) (o_names o))
                       (dset act i i)) = dset act i i).
    { apply repr_seq_active. intros v _. apply repr_value_active. auto. }
    destruct (repr_seq _ _ (dset act i i)) as [r act2]. cbn in E. subst act2.
    rewrite din_dset_eq. cbn. now apply dset_ddel_new.
  Qed.

  Definition free (act : active_t) : nat :=
    length (filter (fun i => negb (din act i)) (seq 0 (length h))).

  Lemma filter_lt_length {A} (f g : A -> bool) (l : list A) x :
    (forall y, g y = true -> f y = true) -> In x l -> f x = true -> g x = false ->
    length (filter g l) < length (filter f l).
  Proof.
    intros Hfg. assert (Hle : forall l, length (filter g l) <= length (filter f l)).
    { clear -Hfg. induction l as [|y l IH]; cbn; auto.
      destruct (g y) eqn:E; [rewrite (Hfg y E); cbn; lia|]. destruct (f y); cbn; lia. }
    induction l as [|y l IH]; cbn; [tauto|]. intros [->|Hin] Hf Hg.
    - rewrite Hf, Hg. cbn. specialize (Hle l). lia.
    - specialize (IH Hin Hf Hg). destruct (g y) eqn:E; [rewrite (Hfg y E); cbn; lia|].
      destruct (f y); cbn; lia.
  Qed.

  Lemma filter_length_le {A} (f : A -> bool) (l : list A) : length (filter f l) <= length l.
  Proof. induction l as [|x l IHl]; cbn; auto. destruct (f x); cbn; lia. Qed.

  Lemma free_dset act i : i < length h -> din act i = false ->
    free (dset act i i) < free act.
  Proof.
    intros Hi Hd. unfold free. apply filter_lt_length with (x := i).
    - intros y. unfold din. rewrite dget_dset. destruct (eqb_spec y i); cbn; [discriminate|auto].
    - apply in_seq. lia.
    - now rewrite Hd.
    - now rewrite din_dset_eq.
  Qed.

  (** enough fuel gives the specified text *)
  Lemma repr_seq_renders (rv : value -> active_t -> fres str * active_t) act p l :
    (forall v, In v l -> exists r, rv v act = (Some r, act) /\ Renders h p v r) ->
    exists r, repr_seq rv l act = (Some r, act) /\ RendersAll h p l r.
  Proof.
    induction l as [|v l IH]; intros Hv; cbn.
    - eexists; split; [reflexivity|constructor].
    - destruct (Hv v (or_introl eq_refl)) as (r & E & Hr). rewrite E.
      destruct IH as (rs & Es & Hrs); [intros; apply Hv; cbn; auto|].
      destruct r as [s|e].
      + rewrite Es. destruct rs; eexists; (split; [reflexivity|]).
        * constructor; auto.
        * eapply RA_later; eauto.
      + eexists; split; [reflexivity|]. now constructor.
  Qed.

  Lemma repr_value_renders robj act p :
    (forall i, i < length h -> exists r, robj i act = (Some r, act) /\ Renders h p (VRef i) r) ->
    forall v, closed_value h v ->
    exists r, repr_value robj v act = (Some r, act) /\ Renders h p v r.
  Proof.
    intros Ho v. induction v as [r|i|l IH|v alt IH] using value_ind'; intros Hc.
    - eexists; split; [reflexivity|constructor].
    - inversion Hc; subst. cbn. auto.
    - rewrite repr_value_list. inversion Hc as [| |? Hf|]; subst.
      destruct (repr_seq_renders (repr_value robj) act p l) as (r & E & Hr).
      { rewrite Forall_forall in *. intros v Hv. apply IH; auto. }
      rewrite E.
      destruct r; eexists; (split; [reflexivity|]); constructor; auto.
    - rewrite repr_value_try. inversion Hc; subst. destruct IH as (r & E & Hr); auto. rewrite E.
      destruct r; eexists; (split; [reflexivity|]).
      + constructor; auto.
      + eapply R_try_err; eauto.
  Qed.

  Theorem repr_obj_renders : closed_heap h -> forall fuel i act p,
    i < length h -> free act < fuel -> (forall j, In j p <-> din act j = true) ->
    exists r, repr_obj h fuel i act = (Some r, act) /\ Renders h p (VRef i) r.
  Proof.
    intros Hch. induction fuel as [|fuel IH]; intros i act p Hi Hf Hp; [lia|].
    assert (Hact : snd (repr_obj h (S fuel) i act) = act) by apply repr_obj_active.
    cbn [repr_obj] in *.
    destruct (nth_error h i) as [o|] eqn:Eo; [|apply nth_error_None in Eo; lia].
    destruct (din act i) eqn:Hd.
    - eexists; split; [reflexivity|]. apply R_again; auto. now apply Hp.
    - destruct (repr_seq_renders (repr_value (repr_obj h fuel)) (dset act i i) (i :: p)
                  (map (field o) (o_names o))) as (r & E & Hr).
      + intros v Hv. apply repr_value_renders.
        * intros j Hj. apply IH; auto.
          -- pose proof (free_dset act i Hi Hd). lia.
          -- intros k. cbn. rewrite Hp. unfold din. rewrite dget_dset.
             destruct (eqb_spec k i) as [->|Hk].
             ++ tauto.
             ++ split; [intros [?|?]; congruence|auto].
        * apply in_map_iff in Hv as (n & <- & _). unfold field.
          destruct (dget (o_attrs o) n) eqn:En; [|constructor].
          eapply Hch; eauto. eapply nth_error_In; eauto.
      + rewrite E in *. rewrite din_dset_eq in *. cbn in Hact.
        assert (Hni : ~ In i p) by (rewrite Hp; congruence).
        destruct r as [ss|e]; eexists; (split; [f_equal; exact Hact|]).
        * eapply R_record; eauto.
        * eapply R_record_err; eauto.
  Qed.

  Theorem renders_functional :
    (forall p v r, Renders h p v r -> forall r', Renders h p v r' -> r = r').
  Proof.
    fix IH 4.
    assert (IHs : forall p l r, RendersAll h p l r -> forall r', RendersAll h p l r' -> r = r').
    { fix IHs 4. intros p l r [] r' H'; inversion H'; subst; auto;
        repeat match goal with
          | H1 : Renders h ?p ?v ?a, H2 : Renders h ?p ?v ?b |- _ =>
              assert (a = b) by (eapply IH; [exact H1|exact H2]); clear H2
          | H1 : RendersAll h ?p ?v ?a, H2 : RendersAll h ?p ?v ?b |- _ =>
              assert (a = b) by (eapply IHs; [exact H1|exact H2]); clear H2
          end; congruence. }
    intros p v r [] r' H'; inversion H'; subst; auto; try tauto;
      repeat match goal with
          | H1 : nth_error h ?i = Some ?a, H2 : nth_error h ?i = Some ?b |- _ =>
              assert (a = b) by congruence; subst b; clear H2
          | H1 : Renders h ?p ?v ?a, H2 : Renders h ?p ?v ?b |- _ =>
              assert (a = b) by (eapply IH; [exact H1|exact H2]); clear H2
          | H1 : RendersAll h ?p ?v ?a, H2 : RendersAll h ?p ?v ?b |- _ =>
              assert (a = b) by (eapply IHs; [exact H1|exact H2]); clear H2
          end; congruence.
  Qed.

  Theorem repr_top_renders i : closed_heap h -> i < length h ->
    exists r, (forall fuel, length h < fuel -> repr_top h fuel i = Some r)
      /\ Renders h [] (VRef i) r.
  Proof.
    intros Hch Hi.
    assert (Hlen : free [] <= length h).
    { unfold free. pose proof (seq_length (length h) 0) as El.
      pose proof (filter_length_le (fun i => negb (din (V:=nat) [] i)) (seq 0 (length h))).
      lia. }
    assert (Hdet : forall fuel, length h < fuel ->
              exists r, repr_obj h fuel i [] = (Some r, []) /\ Renders h [] (VRef i) r).
    { intros fuel Hf. apply repr_obj_renders; auto; [lia|]. cbn. intuition discriminate. }
    destruct (Hdet (S (length h))) as (r & E & Hr); [lia|].
    exists r. split; auto. intros fuel Hf. destruct (Hdet fuel Hf) as (r' & E' & Hr').
    unfold repr_top. rewrite E'. cbn. f_equal. eapply renders_functional; eauto.
  Qed.
End ReprProofs.
