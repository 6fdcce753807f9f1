(** * epsilon/descriptor.py, epsilon/remember.py, epsilon/hotfix.py *)

From Coq Require Import NArith String List Bool Arith Lia.
From Verif Require Import Py PyStr.
Import ListNotations.
Open Scope nat_scope.

Set Implicit Arguments.

(** ** descriptor.py *)

Section Descriptor.
  Definition value := nat.
  Definition idict := dict str value.          (* an instance's [__dict__] *)
  Definition heap := nat -> idict.

  Definition hset (h : heap) (i : nat) (d : idict) : heap :=
    fun j => if Nat.eqb j i then d else h j.

  (** descriptor.py:135-141 [RequiredAttribute.get] *)
  Definition ra_get (name : str) (self : idict) : res value :=
    match dget self name with None => Err AttributeError | Some v => Ok v end.

  (** descriptor.py:142-143 [RequiredAttribute.set] *)
  Definition ra_set (name : str) (self : idict) (v : value) : idict := dset self name v.

  (** the class of the instances: which attributes are required attributes,
      with the name given to [requiredAttribute] *)
  Variable descs : dict str str.

  Inductive op := OGet (i : nat) (a : str) | OSet (i : nat) (a : str) (v : value) | ODel (i : nat) (a : str).

  (** Attribute access on an instance: descriptor.py:54-72 when the class binds
      the name to a required attribute ([attribute] defines [__get__],
      [__set__] and [__delete__], so it comes before the instance
      dictionary; 88-93 the default [delete]); else the dictionary. *)
  Definition step (h : heap) (o : op) : res (option value) * heap :=
    match o with
    | OGet i a =>
        match dget descs a with
        | Some n => (match ra_get n (h i) with Ok v => Ok (Some v) | Err e => Err e end, h)
        | None => (match dget (h i) a with Some v => Ok (Some v) | None => Err AttributeError end, h)
        end
    | OSet i a v =>
        match dget descs a with
        | Some n => (Ok None, hset h i (ra_set n (h i) v))
        | None => (Ok None, hset h i (dset (h i) a v))
        end
    | ODel i a =>
        match dget descs a with
        | Some n => (Err AttributeError, h)
        | None => if din (h i) a then (Ok None, hset h i (ddel (h i) a)) else (Err AttributeError, h)
        end
    end.

  Fixpoint run (h : heap) (ops : list op) : list (res (option value)) * heap :=
    match ops with
    | [] => ([], h)
    | o :: t => let '(r, h1) := step h o in
                let '(rs, h2) := run h1 t in (r :: rs, h2)
    end.

  (** *** Specification *)

  (** the last value assigned to attribute [a] of instance [i] in a list of
      operations (earliest first), starting from [v0] *)
  Fixpoint last_set (i : nat) (a : str) (ops : list op) (v0 : option value) : option value :=
    match ops with
    | [] => v0
    | OSet j b v :: t => last_set i a t (if Nat.eqb j i && eqb b a then Some v else v0)
    | _ :: t => last_set i a t v0
    end.

  (** what each operation on the required attribute [a] returns *)
  Definition expected (i : nat) (a : str) (before : list op) (v0 : option value) : res (option value) :=
    match last_set i a before v0 with Some v => Ok (Some v) | None => Err AttributeError end.

  (** every required attribute is stored under its own name *)
  Definition own_names : Prop := forall a n, dget descs a = Some n -> n = a.

  (** *** Proofs *)
  Lemma step_key h o i a : own_names -> din descs a = true ->
    dget (snd (step h o) i) a = last_set i a [o] (dget (h i) a).
  Proof.
    intros Hown Hd. unfold din in Hd.
    destruct (dget descs a) as [na|] eqn:Ea; [|discriminate].
    pose proof (Hown _ _ Ea); subst na.
    destruct o as [j b|j b v|j b]; cbn [step last_set].
    - destruct (dget descs b); reflexivity.
    - destruct (dget descs b) as [n|] eqn:Eb.
      + pose proof (Hown _ _ Eb); subst n. cbn [snd]. unfold hset, ra_set.
        rewrite Nat.eqb_sym. destruct (Nat.eqb_spec j i) as [->|N]; cbn [andb]; auto.
        rewrite dget_dset. destruct (eqb_spec a b) as [->|N]; [now rewrite eqb_refl|].
        destruct (eqb_spec b a); congruence.
      + cbn [snd]. unfold hset. assert (a <> b) by congruence.
        rewrite Nat.eqb_sym. destruct (Nat.eqb_spec j i) as [->|N]; cbn [andb]; auto.
        rewrite dget_dset_neq by auto. destruct (eqb_spec b a); congruence.
    - destruct (dget descs b) as [n|] eqn:Eb; [reflexivity|].
      destruct (din (h j) b); [|reflexivity]. cbn [snd]. unfold hset.
      assert (a <> b) by congruence.
      destruct (Nat.eqb_spec i j) as [->|N]; auto. now rewrite dget_ddel_neq by auto.
  Qed.

  Lemma last_set_cons i a o ops v0 :
    last_set i a (o :: ops) v0 = last_set i a ops (last_set i a [o] v0).
  Proof. destruct o; reflexivity. Qed.

  Lemma run_key i a : own_names -> din descs a = true -> forall ops h,
    dget (snd (run h ops) i) a = last_set i a ops (dget (h i) a).
  Proof.
    intros Hown Hd. induction ops as [|o ops IH]; intros h; cbn [run]; auto.
    destruct (step h o) as [r h1] eqn:Es. destruct (run h1 ops) as [rs h2] eqn:Er.
    specialize (IH h1). rewrite Er in IH. cbn [snd] in *.
    rewrite last_set_cons, IH. f_equal.
    pose proof (step_key h o i a Hown Hd) as K. now rewrite Es in K.
  Qed.

  Theorem required_history : own_names -> forall ops i a h,
    din descs a = true ->
    let h' := snd (run h ops) in
    fst (step h' (OGet i a)) = expected i a ops (dget (h i) a)
    /\ snd (step h' (OGet i a)) = h'
    /\ fst (step h' (ODel i a)) = Err AttributeError
    /\ snd (step h' (ODel i a)) = h'.
  Proof.
    intros Hown ops i a h Hd. cbv zeta. cbn [step].
    pose proof Hd as Hd'. unfold din in Hd'.
    destruct (dget descs a) as [na|] eqn:Ea; [|discriminate].
    pose proof (Hown _ _ Ea); subst na. cbn [fst snd].
    repeat split. unfold ra_get, expected. rewrite (@run_key i a Hown Hd ops h).
    now destruct (last_set i a ops (dget (h i) a)).
  Qed.

  (** operations on other instances do not matter *)
  Definition op_inst (o : op) : nat := match o with OGet i _ | OSet i _ _ | ODel i _ => i end.

  Lemma step_other h o i : op_inst o <> i -> snd (step h o) i = h i.
  Proof.
    destruct o as [j b|j b v|j b]; cbn [op_inst step]; intros N.
    - destruct (dget descs b); reflexivity.
    - destruct (dget descs b); cbn [snd]; unfold hset; destruct (Nat.eqb_spec i j); congruence.
    - destruct (dget descs b); [reflexivity|]. destruct (din (h j) b); [|reflexivity].
      cbn [snd]; unfold hset; destruct (Nat.eqb_spec i j); congruence.
  Qed.

  Lemma required_isolated : forall ops h i,
    Forall (fun o => op_inst o <> i) ops -> snd (run h ops) i = h i.
  Proof.
    induction ops as [|o ops IH]; intros h i Hf; cbn [run]; auto.
    inversion Hf; subst. destruct (step h o) as [r h1] eqn:Es.
    destruct (run h1 ops) as [rs h2] eqn:Er. cbn [snd].
    specialize (IH h1 i). rewrite Er in IH. cbn [snd] in IH. rewrite IH by auto.
    pose proof (@step_other h o i) as K. rewrite Es in K. apply K. auto.
  Qed.
End Descriptor.

(** ** remember.py *)

Section Remember.
  (** [None] is the Python None *)
  Definition rvalue := option nat.
  Definition rdict := dict str rvalue.
  Definition rheap := nat -> rdict.

  (** a remembered attribute: the [__name__] and identity of its function *)
  Record rem := { r_name : str; r_fun : nat }.

  (** What the creation function does: calls are numbered over the history,
      so that each call may behave differently. *)
  Variable create : nat -> nat -> rdict -> res rvalue * rdict.
  Variable rems : dict str rem.

  Definition PREFIX := lit "_remembered_".

  Record rstate := { rs_heap : rheap; rs_calls : nat }.

  Definition rset (h : rheap) (i : nat) (d : rdict) : rheap :=
    fun j => if Nat.eqb j i then d else h j.

  (** remember.py:24-35 [remembered.__get__]; the boolean says whether the
      creation function was called *)
  Definition rem_get (s : rstate) (i : nat) (r : rem) : res rvalue * rstate * bool :=
    let remembername := PREFIX ++ r_name r in
    match match dget (rs_heap s i) remembername with Some v => v | None => None end with
    | Some v => (Ok (Some v), s, false)
    | None =>
        let '(res, d) := create (r_fun r) (rs_calls s) (rs_heap s i) in
        match res with
        | Err e => (Err e, {| rs_heap := rset (rs_heap s) i d; rs_calls := S (rs_calls s) |}, true)
        | Ok v => (Ok v, {| rs_heap := rset (rs_heap s) i (dset d remembername v);
                            rs_calls := S (rs_calls s) |}, true)
        end
    end.

  Inductive rop := RGet (i : nat) (a : str) | RSet (i : nat) (a : str) (v : rvalue).

  (** attribute access: [remembered] defines [__get__] only, so an entry of the
      instance dictionary wins *)
  Definition rstep (s : rstate) (o : rop) : res rvalue * rstate * bool :=
    match o with
    | RGet i a =>
        match dget (rs_heap s i) a with
        | Some v => (Ok v, s, false)
        | None => match dget rems a with
                  | Some r => rem_get s i r
                  | None => (Err AttributeError, s, false)
                  end
        end
    | RSet i a v => (Ok None, {| rs_heap := rset (rs_heap s) i (dset (rs_heap s i) a v);
                                 rs_calls := rs_calls s |}, false)
    end.

  Fixpoint rrun (s : rstate) (ops : list rop) : list (res rvalue * bool) * rstate :=
    match ops with
    | [] => ([], s)
    | o :: t => let '(r, s1, c) := rstep s o in
                let '(rs, s2) := rrun s1 t in ((r, c) :: rs, s2)
    end.

  (** *** Specification: the environment *)

  (** no two remembered attributes are made from functions of the same name *)
  Definition names_distinct : Prop := forall a b ra rb,
    dget rems a = Some ra -> dget rems b = Some rb -> r_name ra = r_name rb -> a = b.

  (** creation functions leave the private entries and the attribute alone *)
  Definition create_safe : Prop := forall f k d n,
    prefixb PREFIX n = true \/ din rems n = true -> dget (snd (create f k d)) n = dget d n.

  (** assignments of other attributes *)
  Definition safe_op (o : rop) : Prop :=
    match o with
    | RGet _ _ => True
    | RSet _ a _ => prefixb PREFIX a = false /\ dget rems a = None
    end.

  (** *** Proofs *)
  Lemma prefixb_app (p s : str) : prefixb p (p ++ s) = true.
  Proof. induction p as [|c p IH]; cbn [prefixb app]; auto. now rewrite N.eqb_refl. Qed.

  Definition cached (s : rstate) (i : nat) (r : rem) (v : nat) : Prop :=
    dget (rs_heap s i) (PREFIX ++ r_name r) = Some (Some v).

  Lemma cached_get s i a r v : dget rems a = Some r -> dget (rs_heap s i) a = None ->
    cached s i r v -> rstep s (RGet i a) = (Ok (Some v), s, false).
  Proof.
    intros Ha Hi Hc. cbn [rstep]. rewrite Hi, Ha. unfold rem_get. rewrite Hc. reflexivity.
  Qed.

  Lemma step_keeps s o i a r v : names_distinct -> create_safe ->
    dget rems a = Some r -> prefixb PREFIX a = false -> safe_op o ->
    dget (rs_heap s i) a = None -> cached s i r v ->
    let s' := snd (fst (rstep s o)) in
    dget (rs_heap s' i) a = None /\ cached s' i r v.
  Proof.
    intros Hn Hc Ha Hp Ho Hi Hv. cbv zeta. unfold cached in *.
    assert (Hpa : prefixb PREFIX (PREFIX ++ r_name r) = true) by apply prefixb_app.
    assert (Hda : din rems a = true) by (unfold din; now rewrite Ha).
    destruct o as [j b|j b w]; cbn [rstep].
    - destruct (dget (rs_heap s j) b) as [w|] eqn:Eb; [now cbn|].
      destruct (dget rems b) as [rb|] eqn:Erb; [|now cbn].
      unfold rem_get. destruct (match dget (rs_heap s j) (PREFIX ++ r_name rb) with
                                Some v0 => v0 | None => None end) as [u|] eqn:Eu; [now cbn|].
      pose proof (fun n => Hc (r_fun rb) (rs_calls s) (rs_heap s j) n) as HC.
      destruct (create (r_fun rb) (rs_calls s) (rs_heap s j)) as [[w|e] d]; cbn [fst snd rs_heap];
        cbn [snd] in HC; unfold rset.
      + destruct (Nat.eqb_spec i j) as [->|N]; [|auto].
        assert (Hne : r_name rb <> r_name r).
        { intros E. assert (b = a) by (eapply Hn; eauto). subst b.
          rewrite Erb in Ha. inversion Ha; subst rb. rewrite Hv in Eu. discriminate. }
        assert (Hna : a <> PREFIX ++ r_name rb).
        { intros ->. rewrite prefixb_app in Hp. discriminate. }
        rewrite !dget_dset_neq; auto.
        * rewrite !HC by auto. auto.
        * intros E. apply app_inv_head in E. auto.
      + destruct (Nat.eqb_spec i j) as [->|N]; [|auto]. rewrite !HC by auto. auto.
    - cbn [fst snd rs_heap]. unfold rset. destruct (Nat.eqb_spec i j) as [->|N]; [|auto].
      destruct Ho as [Ho1 Ho2].
      assert (N1 : a <> b) by congruence.
      assert (N2 : PREFIX ++ r_name r <> b) by (intros <-; rewrite Hpa in Ho1; discriminate).
      rewrite !dget_dset_neq; auto.
  Qed.

  Lemma run_keeps i a r v : names_distinct -> create_safe ->
    dget rems a = Some r -> prefixb PREFIX a = false ->
    forall ops s, Forall safe_op ops -> dget (rs_heap s i) a = None -> cached s i r v ->
    dget (rs_heap (snd (rrun s ops)) i) a = None /\ cached (snd (rrun s ops)) i r v.
  Proof.
    intros Hn Hc Ha Hp. induction ops as [|o ops IH]; intros s Hf Hi Hv; cbn [rrun]; auto.
    inversion Hf; subst. pose proof (@step_keeps s o i a r v Hn Hc Ha Hp) as K.
    destruct (rstep s o) as [[x s1] c]. cbv zeta in K. cbn [fst snd] in K.
    destruct K as [K1 K2]; auto.
    specialize (IH s1). destruct (rrun s1 ops) as [rs s2]. cbn [snd] in *. auto.
  Qed.

  (** after an access that returned something other than None, every later
      access returns it and calls nothing *)
  Theorem remembered_once : names_distinct -> create_safe ->
    forall a r, dget rems a = Some r -> prefixb PREFIX a = false ->
    forall i s ops v c s1, dget (rs_heap s i) a = None -> Forall safe_op ops ->
    rstep s (RGet i a) = (Ok (Some v), s1, c) ->
    fst (fst (rstep (snd (rrun s1 ops)) (RGet i a))) = Ok (Some v)
    /\ snd (rstep (snd (rrun s1 ops)) (RGet i a)) = false.
  Proof.
    intros Hn Hc a r Ha Hp i s ops v c s1 Hi Hf Hg.
    assert (H1 : dget (rs_heap s1 i) a = None /\ cached s1 i r v).
    { cbn [rstep] in Hg. rewrite Hi, Ha in Hg. unfold rem_get in Hg.
      destruct (match dget (rs_heap s i) (PREFIX ++ r_name r) with Some v0 => v0 | None => None end)
        as [u|] eqn:Eu.
      - inversion Hg; subst. split; auto. unfold cached.
        destruct (dget (rs_heap s1 i) (PREFIX ++ r_name r)) as [w|]; [now subst w|discriminate].
      - pose proof (fun n => Hc (r_fun r) (rs_calls s) (rs_heap s i) n) as HC.
        destruct (create (r_fun r) (rs_calls s) (rs_heap s i)) as [[w|e] d]; [|discriminate].
        inversion Hg; subst. cbn [rs_heap snd] in *. unfold cached, rset. cbn [rs_heap].
        rewrite Nat.eqb_refl.
        assert (Hna : a <> PREFIX ++ r_name r).
        { intros E. rewrite E, prefixb_app in Hp. discriminate. }
        rewrite dget_dset_neq, dget_dset_eq by auto. split; auto.
        rewrite HC; auto. right. unfold din. now rewrite Ha. }
    destruct H1 as [H1 H2].
    destruct (@run_keeps i a r v Hn Hc Ha Hp ops s1 Hf H1 H2) as [K1 K2].
    rewrite (@cached_get _ i a r v Ha K1 K2). auto.
  Qed.

  (** the first access on a fresh instance calls the function, on that
      instance, and returns its result *)
  Theorem remembered_first : forall a r i s, dget rems a = Some r ->
    rs_heap s i = [] ->
    fst (fst (rstep s (RGet i a))) = fst (create (r_fun r) (rs_calls s) [])
    /\ snd (rstep s (RGet i a)) = true.
  Proof.
    intros a r i s Ha Hi. cbn [rstep]. rewrite Hi. cbn [dget]. rewrite Ha. unfold rem_get.
    rewrite Hi. cbn [dget]. destruct (create (r_fun r) (rs_calls s) []) as [[w|e] d]; auto.
  Qed.

  (** *** Specification: which value counts *)

  (** the first value other than None that an access on instance [i] gave, of
      an attribute made from a function called [n] *)
  Fixpoint kept (i : nat) (n : str) (h : list (rop * (res rvalue * bool))) : option nat :=
    match h with
    | [] => None
    | (RGet j b, (Ok (Some v), _)) :: t =>
        if Nat.eqb j i && match dget rems b with Some rb => eqb (r_name rb) n | None => false end
        then Some v else kept i n t
    | _ :: t => kept i n t
    end.

  (** how many accesses called a creation function *)
  Fixpoint ncalls (h : list (rop * (res rvalue * bool))) : nat :=
    match h with
    | [] => 0
    | (_, (_, c)) :: t => (if c then 1 else 0) + ncalls t
    end.

  (** *** Proofs *)
  Definition slot (s : rstate) (i : nat) (n : str) : option nat :=
    match dget (rs_heap s i) (PREFIX ++ n) with Some v => v | None => None end.

  Definition unshadowed (s : rstate) : Prop :=
    forall i a r, dget rems a = Some r -> dget (rs_heap s i) a = None.

  Lemma step_slot s o : create_safe ->
    (forall a r, dget rems a = Some r -> prefixb PREFIX a = false) ->
    safe_op o -> unshadowed s ->
    let '(x, s', c) := rstep s o in
    unshadowed s' /\ rs_calls s' = (if c then 1 else 0) + rs_calls s
    /\ forall i n, slot s' i n = match slot s i n with
                                  | Some v => Some v
                                  | None => kept i n [(o, (x, c))]
                                  end.
  Proof.
    intros Hc Hp Ho Hu. destruct o as [j b|j b w]; cbn [rstep].
    - destruct (dget rems b) as [rb|] eqn:Erb.
      + rewrite (Hu j b rb Erb). unfold rem_get. change (match dget (rs_heap s j) (PREFIX ++ r_name rb) with Some v => v | None => None end)
          with (slot s j (r_name rb)).
        destruct (slot s j (r_name rb)) as [u|] eqn:Eu.
        * cbv beta iota. split; [exact Hu|split; [reflexivity|]]. intros i n. cbn [kept]. rewrite Erb.
          destruct (Nat.eqb_spec j i) as [<-|N]; cbn [andb].
          -- destruct (eqb_spec (r_name rb) n) as [<-|N]; [now rewrite Eu|].
             now destruct (slot s j n).
          -- now destruct (slot s i n).
        * pose proof (fun n => Hc (r_fun rb) (rs_calls s) (rs_heap s j) n) as HC.
          destruct (create (r_fun rb) (rs_calls s) (rs_heap s j)) as [[w|e] d];
            cbn [snd] in HC.
          -- cbv beta iota. split; [|split; [reflexivity|]].
             ++ intros i a r Ha. cbn [rs_heap]. unfold rset.
                destruct (Nat.eqb_spec i j) as [->|N]; [|eauto].
                rewrite dget_dset_neq.
                ** rewrite HC; [eauto|]. right. unfold din. now rewrite Ha.
                ** intros ->. specialize (Hp _ _ Ha). rewrite prefixb_app in Hp. discriminate.
             ++ intros i n. unfold slot in *. cbn [rs_heap kept]. unfold rset. rewrite Erb.
                destruct (Nat.eqb_spec j i) as [<-|N].
                ** rewrite Nat.eqb_refl. cbn [andb].
                   destruct (eqb_spec (r_name rb) n) as [<-|N].
                   --- rewrite dget_dset_eq, Eu. now destruct w.
                   --- rewrite dget_dset_neq by (intros E; apply app_inv_head in E; auto).
                       rewrite HC by (left; apply prefixb_app).
                       destruct (dget (rs_heap s j) (PREFIX ++ n)) as [[|]|]; now destruct w.
                ** destruct (Nat.eqb_spec i j) as [->|_]; [congruence|]. cbn [andb].
                   destruct (dget (rs_heap s i) (PREFIX ++ n)) as [[|]|]; now destruct w.
          -- cbv beta iota. split; [|split; [reflexivity|]].
             ++ intros i a r Ha. cbn [rs_heap]. unfold rset.
                destruct (Nat.eqb_spec i j) as [->|N]; [|eauto].
                rewrite HC; [eauto|]. right. unfold din. now rewrite Ha.
             ++ intros i n. unfold slot in *. cbn [rs_heap kept]. unfold rset.
                destruct (Nat.eqb_spec i j) as [->|N].
                ** rewrite HC by (left; apply prefixb_app).
                   now destruct (dget (rs_heap s j) (PREFIX ++ n)) as [[|]|].
                ** now destruct (dget (rs_heap s i) (PREFIX ++ n)) as [[|]|].
      + destruct (dget (rs_heap s j) b) as [w|].
        * cbv beta iota. split; [exact Hu|split; [reflexivity|]]. intros i n. cbn [kept]. rewrite Erb, Bool.andb_false_r.
          destruct w; now destruct (slot s i n).
        * cbv beta iota. split; [exact Hu|split; [reflexivity|]]. intros i n. cbn [kept]. now destruct (slot s i n).
    - destruct Ho as [Ho1 Ho2]. cbv beta iota. split; [|split; [reflexivity|]].
      + intros i a r Ha. cbn [rs_heap]. unfold rset.
        destruct (Nat.eqb_spec i j) as [->|N]; [|eauto].
        rewrite dget_dset_neq by congruence. eauto.
      + intros i n. unfold slot. cbn [rs_heap kept]. unfold rset.
        destruct (Nat.eqb_spec i j) as [->|N].
        * rewrite dget_dset_neq.
          -- now destruct (dget (rs_heap s j) (PREFIX ++ n)) as [[|]|].
          -- intros <-. rewrite prefixb_app in Ho1. discriminate.
        * now destruct (dget (rs_heap s i) (PREFIX ++ n)) as [[|]|].
  Qed.

  Lemma kept_cons i n x h : kept i n (x :: h) = match kept i n [x] with
                                                | Some v => Some v | None => kept i n h end.
  Proof.
    destruct x as [[j b|j b w] [[[v|]|e] c]]; cbn [kept]; try reflexivity.
    destruct (_ && _); reflexivity.
  Qed.

  Lemma run_slot : create_safe ->
    (forall a r, dget rems a = Some r -> prefixb PREFIX a = false) ->
    forall ops s, Forall safe_op ops -> unshadowed s ->
    let '(out, s') := rrun s ops in
    unshadowed s' /\ rs_calls s' = ncalls (combine ops out) + rs_calls s
    /\ forall i n, slot s' i n = match slot s i n with
                                  | Some v => Some v
                                  | None => kept i n (combine ops out)
                                  end.
  Proof.
    intros Hc Hp. induction ops as [|o ops IH]; intros s Hf Hu; cbn [rrun combine].
    - cbv beta iota. split; [exact Hu|split; [reflexivity|]]. intros i n. cbn [kept]. now destruct (slot s i n).
    - inversion Hf as [|? ? Ho Hf']; subst. pose proof (@step_slot s o Hc Hp Ho Hu) as K.
      destruct (rstep s o) as [[x s1] c]. destruct K as [K1 [K2 K3]].
      specialize (IH s1 Hf' K1). destruct (rrun s1 ops) as [rs s2].
      destruct IH as [I1 [I2 I3]]. split; [exact I1|]. cbn [combine ncalls]. split.
      + rewrite I2, K2. destruct c; cbn; rewrite ?Nat.add_succ_r; reflexivity.
      + intros i n. rewrite I3, K3, (kept_cons i n _ (combine ops rs)). now destruct (slot s i n).
  Qed.

  (** every access, after any history: the first value other than None that was
      made for a function of that name, or a call *)
  Theorem remembered_exact : create_safe ->
    (forall a r, dget rems a = Some r -> prefixb PREFIX a = false) ->
    forall ops out s, Forall safe_op ops ->
    rrun {| rs_heap := fun _ => []; rs_calls := 0 |} ops = (out, s) ->
    forall i a r, dget rems a = Some r ->
    match kept i (r_name r) (combine ops out) with
    | Some v => rstep s (RGet i a) = (Ok (Some v), s, false)
    | None => fst (fst (rstep s (RGet i a)))
              = fst (create (r_fun r) (ncalls (combine ops out)) (rs_heap s i))
              /\ snd (rstep s (RGet i a)) = true
    end.
  Proof.
    intros Hc Hp ops out s Hf Hr i a r Ha.
    pose proof (@run_slot Hc Hp ops {| rs_heap := fun _ => []; rs_calls := 0 |} Hf) as K.
    rewrite Hr in K. destruct K as [K1 [K2 K3]].
    { intros j b rb _. reflexivity. }
    specialize (K3 i (r_name r)). cbn [rs_calls] in K2. rewrite Nat.add_0_r in K2.
    unfold slot at 2 in K3. cbn [rs_heap dget] in K3.
    rewrite <- K3, <- K2. cbn [rstep]. rewrite (K1 i a r Ha), Ha. unfold rem_get.
    change (match dget (rs_heap s i) (PREFIX ++ r_name r) with Some v => v | None => None end)
      with (slot s i (r_name r)). destruct (slot s i (r_name r)) as [v|]; [reflexivity|].
    destruct (create (r_fun r) (rs_calls s) (rs_heap s i)) as [[w|e] d]; split; reflexivity.
  Qed.
End Remember.

(** ** hotfix.py *)

Section Hotfix.
  (** hotfix.py:17-80: the fixes, all of the package 'twisted' *)
  Definition TWISTED := lit "twisted".
  Definition known : list str :=
    [lit "filepath_copyTo"; lit "timeoutmixin_calllater"; lit "delayedcall_seconds";
     lit "deferredgenerator_tfailure"; lit "proto_helpers_stringtransport";
     lit "internet_task_Clock"; lit "trial_assertwarns"; lit "plugin_package_paths";
     lit "loopbackasync_reentrancy"].

  (** The environment of one call: whether the detection code of a fix finds
      it needed (or raises), and what the installer does. *)
  Record henv := { detect : str -> res bool; install : str -> res unit }.

  Definition hname := (str * str)%type.

  (** hotfix.py:11-82 [require].  The list is [_alreadyInstalled]; the third
      component lists the installers run. *)
  Definition require (env : henv) (inst : list hname) (pn fn : str)
    : res unit * list hname * list hname :=
    if memb (pn, fn) inst then (Ok tt, inst, [])
    else if eqb pn TWISTED && memb fn known then
      match detect env fn with
      | Err e => (Err e, inst, [])
      | Ok false => (Ok tt, (pn, fn) :: inst, [])
      | Ok true => match install env fn with
                   | Err e => (Err e, inst, [(pn, fn)])
                   | Ok _ => (Ok tt, (pn, fn) :: inst, [(pn, fn)])
                   end
      end
    else (Err NoSuchHotfix, inst, []).

  (** a history of calls, earliest first: results and installers run *)
  Fixpoint requires (inst : list hname) (calls : list (henv * hname))
    : list (res unit * list hname) * list hname :=
    match calls with
    | [] => ([], inst)
    | (env, (pn, fn)) :: t =>
        let '(r, inst1, ev) := require env inst pn fn in
        let '(rs, inst2) := requires inst1 t in ((r, ev) :: rs, inst2)
    end.

  (** installers that completed *)
  Definition completed (p : hname) (rs : list (res unit * list hname)) : nat :=
    length (filter (fun x => match x with (Ok _, ev) => memb p ev | _ => false end) rs).
  Definition started (p : hname) (rs : list (res unit * list hname)) : nat :=
    length (filter (fun x => memb p (snd x)) rs).

  Lemma require_known env inst pn fn : memb (pn, fn) inst = true ->
    require env inst pn fn = (Ok tt, inst, []).
  Proof. intros E. unfold require. now rewrite E. Qed.

  Lemma memb_same (p : hname) : memb p [p] = true.
  Proof. cbn [memb]. now rewrite eqb_refl. Qed.

  Lemma memb_one (p q : hname) : memb p [q] = true -> p = q.
  Proof. intros H. apply memb_In in H. destruct H as [->|[]]. reflexivity. Qed.

  (** what one call does to the record *)
  Lemma require_record env inst pn fn r inst' ev :
    require env inst pn fn = (r, inst', ev) ->
    (forall q, memb q inst = true -> memb q inst' = true)
    /\ (forall q, memb q inst' = true -> memb q inst = true \/ (q = (pn, fn) /\ r = Ok tt))
    /\ (r = Ok tt -> memb (pn, fn) inst' = true)
    /\ (forall e, r = Err e -> inst' = inst)
    /\ (ev = [] \/ (ev = [(pn, fn)] /\ memb (pn, fn) inst = false)).
  Proof.
    unfold require. destruct (memb (pn, fn) inst) eqn:Em.
    - intros E; inversion E; subst. repeat split; auto.
    - destruct (eqb pn TWISTED && memb fn known).
      + destruct (detect env fn) as [[|]|e].
        * destruct (install env fn) as [[]|e']; intros E; inversion E; subst.
          -- split; [intros q H; cbn [memb]; rewrite H; apply orb_true_r|].
             split; [|split; [|split]].
             ++ intros q H. cbn [memb] in H. destruct (eqb_spec q (pn, fn)); auto.
             ++ intros _. cbn [memb]. now rewrite eqb_refl.
             ++ discriminate.
             ++ auto.
          -- repeat split; auto. discriminate.
        * intros E; inversion E; subst.
          split; [intros q H; cbn [memb]; rewrite H; apply orb_true_r|].
          split; [|split; [|split]].
          ++ intros q H. cbn [memb] in H. destruct (eqb_spec q (pn, fn)); auto.
          ++ intros _. cbn [memb]. now rewrite eqb_refl.
          ++ discriminate.
          ++ auto.
        * intros E; inversion E; subst. repeat split; auto. discriminate.
      + intros E; inversion E; subst. repeat split; auto. discriminate.
  Qed.

  (** once recorded, never started again *)
  Lemma recorded_quiet p : forall calls inst, memb p inst = true ->
    started p (fst (requires inst calls)) = 0 /\ completed p (fst (requires inst calls)) = 0.
  Proof.
    induction calls as [|[env [pn fn]] t IH]; intros inst Hm; cbn [requires]; auto.
    destruct (require env inst pn fn) as [[r inst1] ev] eqn:Er.
    destruct (require_record _ _ _ _ Er) as (R1 & R2 & R3 & R4 & R5).
    specialize (IH inst1 (R1 _ Hm)). destruct (requires inst1 t) as [rs inst2]. cbn [fst] in *.
    assert (Hev : memb p ev = false).
    { destruct R5 as [->|[-> Hf]]; auto. destruct (memb p [(pn, fn)]) eqn:E; auto.
      apply memb_one in E. subst p. discriminate (eq_trans (eq_sym Hm) Hf). }
    unfold started, completed in *. cbn [filter snd]. rewrite Hev.
    destruct r as [[]|e]; cbn [length]; auto.
  Qed.

  Theorem completed_once p : forall calls inst,
    completed p (fst (requires inst calls)) <= 1.
  Proof.
    induction calls as [|[env [pn fn]] t IH]; intros inst; cbn [requires]; auto.
    destruct (require env inst pn fn) as [[r inst1] ev] eqn:Er.
    destruct (require_record _ _ _ _ Er) as (R1 & R2 & R3 & R4 & R5).
    specialize (IH inst1). pose proof (@recorded_quiet p t inst1) as Q.
    destruct (requires inst1 t) as [rs inst2]. cbn [fst] in *.
    unfold completed in *. cbn [filter].
    destruct r as [[]|e]; [|auto].
    destruct (memb p ev) eqn:Ev; [|auto].
    destruct R5 as [->|[-> Hf]]; [discriminate|]. apply memb_one in Ev. subst p.
    destruct Q as [_ Q]; auto. cbn [length]. lia.
  Qed.

  (** the record after a history: exactly the names some call returned for *)
  Theorem recorded_iff p : forall calls inst,
    memb p (snd (requires inst calls)) = true <->
    memb p inst = true \/
    exists k env, nth_error calls k = Some (env, p)
      /\ option_map fst (nth_error (fst (requires inst calls)) k) = Some (Ok tt).
  Proof.
    induction calls as [|[env [pn fn]] t IH]; intros inst; cbn [requires].
    - cbn [snd]. split; [auto|]. intros [H|(k & env & H & _)]; auto. destruct k; discriminate.
    - destruct (require env inst pn fn) as [[r inst1] ev] eqn:Er.
      destruct (require_record _ _ _ _ Er) as (R1 & R2 & R3 & R4 & R5).
      specialize (IH inst1). destruct (requires inst1 t) as [rs inst2]. cbn [fst snd] in *.
      rewrite IH. split.
      + intros [H|(k & env' & H1 & H2)].
        * destruct (R2 _ H) as [H0|[-> ->]]; auto. right. exists 0, env. auto.
        * right. exists (S k), env'. auto.
      + intros [H|(k & env' & H1 & H2)]; [left; auto|].
        destruct k as [|k]; cbn [nth_error option_map fst] in *.
        * inversion H1; inversion H2; subst. left. auto.
        * right. exists k, env'. auto.
  Qed.

  Theorem unknown_raises env inst pn fn :
    memb (pn, fn) inst = false -> pn <> TWISTED \/ ~ In fn known ->
    require env inst pn fn = (Err NoSuchHotfix, inst, []).
  Proof.
    intros Hm H. unfold require. rewrite Hm.
    replace (eqb pn TWISTED && memb fn known) with false; auto. symmetry.
    apply andb_false_iff. destruct H as [H|H].
    - left. now apply eqb_neq.
    - right. now apply memb_not_In.
  Qed.

  Theorem known_runs env inst fn : memb (TWISTED, fn) inst = false -> In fn known ->
    require env inst TWISTED fn =
      match detect env fn with
      | Err e => (Err e, inst, [])
      | Ok false => (Ok tt, (TWISTED, fn) :: inst, [])
      | Ok true => (install env fn, match install env fn with Ok _ => (TWISTED, fn) :: inst | Err _ => inst end, [(TWISTED, fn)])
      end.
  Proof.
    intros Hm H. unfold require. rewrite Hm, eqb_refl, (proj2 (memb_In fn known) H). cbn [andb].
    destruct (detect env fn) as [[|]|]; auto. destruct (install env fn) as [[]|]; auto.
  Qed.

  (** unknown names are never recorded in a history from the empty record *)
  Theorem only_known_recorded : forall calls pn fn,
    memb (pn, fn) (snd (requires [] calls)) = true -> pn = TWISTED /\ In fn known.
  Proof.
    intros calls pn fn. assert (G : forall calls inst,
      (forall q, memb q inst = true -> fst q = TWISTED /\ In (snd q) known) ->
      forall q, memb q (snd (requires inst calls)) = true -> fst q = TWISTED /\ In (snd q) known).
    { clear. induction calls as [|[env [pn fn]] t IH]; intros inst Hi q; cbn [requires]; auto.
      destruct (require env inst pn fn) as [[r inst1] ev] eqn:Er.
      destruct (require_record _ _ _ _ Er) as (R1 & R2 & R3 & R4 & R5).
      specialize (IH inst1). destruct (requires inst1 t) as [rs inst2]. cbn [snd] in *.
      apply IH. clear IH q. intros q Hq. destruct (R2 _ Hq) as [Ho|[-> ->]]; auto.
      destruct (memb (pn, fn) inst) eqn:Em; [auto|].
      cbn [fst snd]. unfold require in Er. rewrite Em in Er.
      destruct (eqb pn TWISTED && memb fn known) eqn:Ek; [|discriminate].
      apply andb_true_iff in Ek. destruct Ek as [E1 E2].
      split; [now apply eqb_eq|now apply memb_In]. }
    intros H. apply (G calls []) in H; auto. discriminate.
  Qed.
End Hotfix.
