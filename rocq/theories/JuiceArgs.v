(** * epsilon/juice.py: command arguments *)

From Coq Require Import ZArith NArith String List Bool Arith Lia Permutation.
From Verif Require Import Py PyStr PyNum PyInt PySplit Utf8 Liner JuiceCodec JuiceStream.
From Verif Require Extime ExtimeIso.
Import ListNotations.
Open Scope nat_scope.
Open Scope py_scope.

(** Values passed as arguments.  [VTime t]: an extime.Time; [VPath p]: a FilePath
    whose path is the text [p]; [VOther n]: any object not of the other kinds (a
    float, an instance of a user's class). *)
Inductive val :=
| VNone
| VBool (b : bool)
| VInt (z : Z)
| VText (s : str)
| VBytes (s : str)
| VList (l : list val)
| VDict (d : list (str * val))
| VTime (t : Extime.time)
| VPath (p : str)
| VOther (n : N).

(** The classes of arguments: juice.py:452-466 JuiceList, 468-485 ListOf,
    487-490 Integer, 492-496 String, 498-507 EncodedString (for the encoding [n]),
    513-520 Unicode, 522-527 Path, 534-538 Base64Binary, 540-544 Time,
    576-589 Boolean.  [COther n]: any other Argument class (Float, or one of a
    user), with its [toString] and [fromString] as parameters.  An element of [subargs] is a name, whether the argument is
    optional, and its class. *)
Inductive codec :=
| CInteger
| CString
| CBoolean
| CUnicode
| CListOf (sub : codec) (delimiter : str)
| CJuiceList (subargs : list (str * bool * codec))
| CTime
| CPath
| CBase64
| CEncoded (n : N)
| COther (n : N).

(** ** Python operations *)

(** [int(v)]; objects with an [__int__] of their own are not modelled *)
Definition py_int_val (v : val) : res Z :=
  match v with
  | VInt z => Ok z
  | VBool b => Ok (if b then 1 else 0)%Z
  | VText s => py_int s
  | VBytes s => if is_ascii s then py_int s else Err ValueError
  | _ => Err TypeError
  end.

(** truth value *)
Definition truth (v : val) : bool :=
  match v with
  | VNone => false
  | VBool b => b
  | VInt z => negb (Z.eqb z 0)
  | VText s | VBytes s => match s with [] => false | _ => true end
  | VList l => match l with [] => false | _ => true end
  | VDict d => match d with [] => false | _ => true end
  | VTime _ | VPath _ | VOther _ => true
  end.

(** iteration *)
Definition iter (v : val) : res (list val) :=
  match v with
  | VText s => Ok (map (fun c => VText [c]) s)
  | VBytes s => Ok (map (fun c => VInt (Z.of_N c)) s)
  | VList l => Ok l
  | VDict d => Ok (map (fun kv => VText (fst kv)) d)
  | _ => Err TypeError
  end.

(** the value of a box item, as [serialize] needs it *)
Definition as_pv (v : val) : res pv :=
  match v with
  | VText s => Ok (PS s)
  | VBytes s => Ok (PB s)
  | _ => Err TypeError
  end.

(** [serialize] of a box that may hold any values.  Simplification: if several
    items cannot be serialized, which of the errors is raised is not
    modelled. *)
Definition serialize_vals (b : dict str val) : res str :=
  b <- mapM (fun kv => v <- as_pv (snd kv) ;; Ok (fst kv, v)) b ;; serialize b.

(** ** Boxes and objects *)

(** juice.py:416-423 [retrieve]: the value and what remains *)
Definition retrieve (opt : bool) (d : dict str val) (name : str) : res (val * dict str val) :=
  if opt then
    match dget d name with
    | None | Some VNone => Ok (VNone, d)
    | Some v => Ok (v, ddel d name)
    end
  else
    match dget d name with
    | None => Err KeyError
    | Some v => Ok (v, ddel d name)
    end.

Definition is_none (v : val) : bool := match v with VNone => true | _ => false end.

(** an argument: name, optional, [toStringProto] or [fromStringProto] *)
Definition argf := (str * bool * (val -> res val))%type.

(** juice.py:425-430 [fromBox], over the arguments of juice.py:980-985
    [stringsToObjects]; and juice.py:432-438 [toBox], over the arguments of
    juice.py:987-994 [objectsToStrings].  The two methods differ only in that
    an absent optional value is stored as None by the first and not stored by
    the second. *)
Fixpoint fromBoxes (args : list argf) (strings objects : dict str val) : res (dict str val) :=
  match args with
  | [] => Ok objects
  | (name, opt, dec) :: t =>
      '(st, strings) <- retrieve opt strings name ;;
      if opt && is_none st then fromBoxes t strings (dset objects name VNone)
      else
        v <- dec st ;; fromBoxes t strings (dset objects name v)
  end.

Fixpoint toBoxes (args : list argf) (strings objects : dict str val) : res (dict str val) :=
  match args with
  | [] => Ok strings
  | (name, opt, enc) :: t =>
      '(obj, objects) <- retrieve opt objects name ;;
      if opt && is_none obj then toBoxes t strings objects
      else
        s <- enc obj ;; toBoxes t (dset strings name s) objects
  end.

Section Codecs.
  Variable ulower : str -> str.
  (** [toString] and [fromString] of the other classes, and [text.encode] and
      [bytes.decode] for the encodings of EncodedString *)
  Variable oenc odec : N -> val -> res val.

  (** juice.py:988-990: the keys of the objects are normalized *)
  Definition normalized (objects : dict str val) : dict str val :=
    fold_left (fun acc kv => dset acc (normalizeKey ulower (fst kv)) (snd kv)) objects [].

  Definition objectsToStrings (args : list argf) (objects : dict str val) : res (dict str val) :=
    toBoxes args [] (normalized objects).

  Definition stringsToObjects (args : list argf) (strings : dict str val) : res (dict str val) :=
    fromBoxes args strings [].

  (** [toStringProto] of each class.  Objects of other types with methods of the names
      used here ([encode], [asISO8601TimeAndDate]) or an attribute [path] are not
      modelled. *)
  Fixpoint encode (c : codec) (v : val) {struct c} : res val :=
    match c with
    | CInteger => z <- py_int_val v ;; Ok (VText (zdec z))
    | CString => Ok v
    | CBoolean => Ok (VText (if truth v then lit "True" else lit "False"))
    | CUnicode => match v with
                  | VText s => b <- utf8_encode s ;; Ok (VBytes b)
                  | _ => Err AttributeError
                  end
    | CListOf sub delim =>
        (* an item that is not text raises TypeError or AssertionError: here TypeError *)
        items <- iter v ;;
        outs <- mapM (fun x => o <- encode sub x ;;
                               match o with
                               | VText s => if containsb delim s then Err AssertionError else Ok s
                               | _ => Err TypeError
                               end) items ;;
        Ok (VText (join delim outs))
    | CJuiceList subargs =>
        objs <- iter v ;;
        let args := map (fun a => (fst a, encode (snd a))) subargs in
        outs <- mapM (fun o => match o with
                               | VDict d => st <- objectsToStrings args d ;; serialize_vals st
                               | _ => Err AttributeError
                               end) objs ;;
        Ok (VBytes (concat outs))
    | CTime => match v with
               | VTime t => s <- ExtimeIso.asISO t true None true ;; Ok (VText s)
               | _ => Err AttributeError
               end
    | CPath => match v with
               | VPath p => b <- utf8_encode p ;; Ok (VBytes b)
               | _ => Err AttributeError
               end
    | CBase64 => match v with
                 | VText _ => Err LookupError   (* base64 is not a text encoding *)
                 | _ => Err AttributeError
                 end
    | CEncoded n => match v with
                    | VText _ => oenc n v
                    | _ => Err AttributeError
                    end
    | COther n => oenc n v
    end.

  (** [fromStringProto] of each class; text has no [decode] *)
  Fixpoint decode (c : codec) (v : val) {struct c} : res val :=
    match c with
    | CInteger => z <- py_int_val v ;; Ok (VInt z)
    | CString => Ok v
    | CBoolean => match v with
                  | VText s => if eqb s (lit "True") then Ok (VBool true)
                               else if eqb s (lit "False") then Ok (VBool false)
                               else Err RuntimeError
                  | _ => Err RuntimeError
                  end
    | CUnicode => match v with
                  | VBytes b => s <- utf8_decode b ;; Ok (VText s)
                  | _ => Err AttributeError
                  end
    | CListOf sub delim =>
        match v with
        | VText s => match delim with
                     | [] => Err ValueError
                     | _ => l <- mapM (fun x => decode sub (VText x)) (split delim s) ;; Ok (VList l)
                     end
        | VBytes _ => Err TypeError
        | _ => Err AttributeError
        end
    | CJuiceList subargs =>
        p <- as_pv v ;;
        w <- ensure_binary p ;;
        boxes <- parseString ulower w ;;
        let args := map (fun a => (fst a, decode (snd a))) subargs in
        l <- mapM (fun b => o <- stringsToObjects args (map (fun kv => (fst kv, VText (snd kv))) b) ;;
                            Ok (VDict o)) boxes ;;
        Ok (VList l)
    | CTime => match v with
               | VText s => t <- ExtimeIso.fromISO s None ;; Ok (VTime t)
               | _ => Err TypeError
               end
    | CPath => match v with
               | VBytes b => s <- utf8_decode b ;; Ok (VPath s)   (* made absolute: not modelled *)
               | _ => Err AttributeError
               end
    | CBase64 => match v with
                 | VBytes _ => Err LookupError
                 | _ => Err AttributeError
                 end
    | CEncoded n => match v with
                    | VBytes _ => odec n v
                    | _ => Err AttributeError
                    end
    | COther n => odec n v
    end.

  Definition encs (subargs : list (str * bool * codec)) : list argf :=
    map (fun a => (fst a, encode (snd a))) subargs.
  Definition decs (subargs : list (str * bool * codec)) : list argf :=
    map (fun a => (fst a, decode (snd a))) subargs.

  (** juice.py:627-645 [Command.__init__]: RuntimeError if an argument is
      forgotten; [args] are names and whether they are optional *)
  Definition command_init (args : list (str * bool)) (kw : dict str val) : res (dict str val) :=
    let given := map (normalizeKey ulower) (keys kw) in
    let forgotten := filter (fun a => negb (memb (normalizeKey ulower (fst a)) given) && negb (snd a)) args in
    match forgotten with
    | [] => Ok kw
    | _ => Err RuntimeError
    end.

  Lemma command_init_spec args kw :
    (command_init args kw = Err RuntimeError /\
     exists name, In (name, false) args /\
       forall k, In k (keys kw) -> normalizeKey ulower k <> normalizeKey ulower name) \/
    (command_init args kw = Ok kw /\
     forall name, In (name, false) args ->
       exists k, In k (keys kw) /\ normalizeKey ulower k = normalizeKey ulower name).
  Proof.
    unfold command_init.
    set (f := fun a : str * bool => negb (memb (normalizeKey ulower (fst a)) (map (normalizeKey ulower) (keys kw))) && negb (snd a)).
    assert (Hf : forall a, In a (filter f args) <-> In a args /\ snd a = false /\
      ~ In (normalizeKey ulower (fst a)) (map (normalizeKey ulower) (keys kw))).
    { intros a. rewrite filter_In. unfold f. rewrite andb_true_iff, !negb_true_iff, memb_not_In. tauto. }
    destruct (filter f args) as [|[n o] l] eqn:E.
    - right. split; [reflexivity|]. intros name Hin.
      destruct (in_dec eqdec (normalizeKey ulower name) (map (normalizeKey ulower) (keys kw))) as [Hi|Hi].
      + apply in_map_iff in Hi as (k & Hk & Hi). eauto.
      + exfalso. apply (Hf (name, false)). auto.
    - left. split; [reflexivity|]. destruct (proj1 (Hf (n, o)) (or_introl eq_refl)) as (H1 & H2 & H3).
      cbn [fst snd] in *. subst o. exists n. split; [exact H1|]. intros k Hk Hn. apply H3.
      rewrite <- Hn. now apply in_map.
  Qed.
End Codecs.

(** ** Equality of values: dictionaries whatever their order, times as instants *)
Inductive same : val -> val -> Prop :=
| same_refl v : same v v
| same_time t u : Extime.time_eq u t = true -> same (VTime t) (VTime u)
| same_list l m : Forall2 same l m -> same (VList l) (VList m)
| same_dict d e : (forall k, din d k = din e k) ->
    (forall k x y, dget d k = Some x -> dget e k = Some y -> same x y) -> same (VDict d) (VDict e).

(** ** Induction over argument classes *)
Section CodecInd.
  Variable P : codec -> Prop.
  Hypothesis HInt : P CInteger.
  Hypothesis HStr : P CString.
  Hypothesis HBool : P CBoolean.
  Hypothesis HUni : P CUnicode.
  Hypothesis HList : forall sub d, P sub -> P (CListOf sub d).
  Hypothesis HJuice : forall subs, Forall (fun a => P (snd a)) subs -> P (CJuiceList subs).
  Hypothesis HTime : P CTime.
  Hypothesis HPath : P CPath.
  Hypothesis HBase64 : P CBase64.
  Hypothesis HEncoded : forall n, P (CEncoded n).
  Hypothesis HOther : forall n, P (COther n).

  Fixpoint codec_ind' (c : codec) : P c :=
    match c with
    | CInteger => HInt
    | CString => HStr
    | CBoolean => HBool
    | CUnicode => HUni
    | CListOf sub d => HList sub d (codec_ind' sub)
    | CJuiceList subs =>
        HJuice subs ((fix go (l : list (str * bool * codec)) : Forall (fun a => P (snd a)) l :=
          match l with
          | [] => Forall_nil _
          | a :: t => Forall_cons a (codec_ind' (snd a)) (go t)
          end) subs)
    | CTime => HTime
    | CPath => HPath
    | CBase64 => HBase64
    | CEncoded n => HEncoded n
    | COther n => HOther n
    end.
End CodecInd.

(** ** Objects to strings and back, for any functions *)
Definition arg_name (a : argf) : str := fst (fst a).

Lemma retrieve_other opt d name v d' : retrieve opt d name = Ok (v, d') ->
  forall k, k <> name -> dget d' k = dget d k.
Proof.
  unfold retrieve. intros H k Hk.
  destruct opt; destruct (dget d name) as [x|]; try discriminate.
  - destruct x; inversion H; subst; auto; now apply dget_ddel_neq.
  - inversion H; subst. auto.
  - inversion H; subst. now apply dget_ddel_neq.
Qed.

(** what [retrieve] gives *)
Lemma retrieve_spec opt d name :
  retrieve opt d name =
    match dget d name with
    | None => if opt then Ok (VNone, d) else Err KeyError
    | Some v => if opt && is_none v then Ok (VNone, d) else Ok (v, ddel d name)
    end.
Proof. unfold retrieve. destruct opt, (dget d name) as [[]|]; reflexivity. Qed.

(** a missing required argument *)
Lemma toBoxes_missing : forall args name enc strings objects, In (name, false, enc) args ->
  NoDup (map arg_name args) -> dget objects name = None ->
  exists e, toBoxes args strings objects = Err e.
Proof.
  induction args as [|[[n o] f] args IH]; intros name enc strings objects Hin Hnd Hg; [contradiction|].
  cbn [map] in Hnd. inversion Hnd as [|? ? Hn Hnd']; subst. cbn [toBoxes].
  rewrite retrieve_spec. destruct Hin as [E|Hin].
  - inversion E; subst. rewrite Hg. cbn. eauto.
  - assert (Hne : name <> n).
    { intros ->. apply Hn. apply in_map_iff. exists (n, false, enc). auto. }
    destruct (dget objects n) as [v|] eqn:Ev; [|destruct o; [|cbn; eauto]].
    + destruct (o && is_none v) eqn:Eo.
      * cbn [rbind is_none]. destruct o; [|discriminate]. cbn [andb]. eauto.
      * cbn [rbind]. rewrite Eo. destruct (f v); cbn [rbind]; [|eauto].
        eapply IH; eauto. rewrite dget_ddel_neq; auto.
    + cbn [rbind andb is_none]. eauto.
Qed.

Lemma fromBoxes_missing : forall args name dec strings objects, In (name, false, dec) args ->
  NoDup (map arg_name args) -> dget strings name = None ->
  exists e, fromBoxes args strings objects = Err e.
Proof.
  induction args as [|[[n o] f] args IH]; intros name dec strings objects Hin Hnd Hg; [contradiction|].
  cbn [map] in Hnd. inversion Hnd as [|? ? Hn Hnd']; subst. cbn [fromBoxes].
  rewrite retrieve_spec. destruct Hin as [E|Hin].
  - inversion E; subst. rewrite Hg. cbn. eauto.
  - assert (Hne : name <> n).
    { intros ->. apply Hn. apply in_map_iff. exists (n, false, dec). auto. }
    destruct (dget strings n) as [v|] eqn:Ev; [|destruct o; [|cbn; eauto]].
    + destruct (o && is_none v) eqn:Eo.
      * cbn [rbind is_none]. destruct o; [|discriminate]. cbn [andb]. eauto.
      * cbn [rbind]. rewrite Eo. destruct (f v); cbn [rbind]; [|eauto].
        eapply IH; eauto. rewrite dget_ddel_neq; auto.
    + cbn [rbind andb is_none]. eauto.
Qed.

(** the items [toBoxes] adds: one for each argument that is there *)
Definition item_of (objects : dict str val) (a : argf) : list (str * val) :=
  let '(n, o, f) := a in
  match dget objects n with
  | None => []
  | Some v => if o && is_none v then [] else match f v with Ok e => [(n, e)] | Err _ => [] end
  end.

Definition ready (objects : dict str val) (a : argf) : Prop :=
  let '(n, o, f) := a in
  match dget objects n with
  | None => o = true
  | Some v => (o = true /\ v = VNone) \/ exists e, f v = Ok e
  end.

Lemma item_of_ext d d' (args : list argf) : (forall a, In a args -> dget d (arg_name a) = dget d' (arg_name a)) ->
  flat_map (item_of d) args = flat_map (item_of d') args.
Proof.
  induction args as [|[[n o] f] args IH]; intros H; [reflexivity|]. cbn [flat_map]. f_equal.
  - unfold item_of. specialize (H (n, o, f) (or_introl eq_refl)). cbn in H. now rewrite H.
  - apply IH. intros a Ha. apply H. now right.
Qed.

Lemma toBoxes_ok : forall args strings objects, NoDup (map arg_name args) ->
  (forall a, In a args -> ~ In (arg_name a) (keys strings)) ->
  Forall (ready objects) args ->
  toBoxes args strings objects = Ok (strings ++ flat_map (item_of objects) args).
Proof.
  induction args as [|[[n o] f] args IH]; intros strings objects Hnd Hk Hr.
  - cbn. now rewrite app_nil_r.
  - cbn [map] in Hnd. inversion Hnd as [|? ? Hn Hnd']; subst. inversion Hr as [|? ? Hr1 Hr2]; subst.
    cbn [toBoxes flat_map]. rewrite retrieve_spec. unfold ready in Hr1. unfold item_of at 1.
    assert (Hother : forall a, In a args -> arg_name a <> n).
    { intros a Ha E. apply Hn. apply in_map_iff. eauto. }
    assert (Hk' : forall a, In a args -> ~ In (arg_name a) (keys strings)).
    { intros a Ha. apply Hk. now right. }
    destruct (dget objects n) as [v|] eqn:Ev.
    + destruct (o && is_none v) eqn:Eo.
      * cbn [rbind is_none]. destruct o; [|discriminate]. cbn [andb app]. auto.
      * cbn [rbind]. rewrite Eo.
        destruct Hr1 as [[-> ->]|[e He]]; [discriminate|]. rewrite He. cbn [rbind].
        assert (Hnk : ~ In n (keys strings)) by (apply (Hk (n, o, f)); now left).
        rewrite (dset_new _ _ _ Hnk), IH; auto.
        -- rewrite <- app_assoc. do 2 f_equal. cbn [app]. f_equal. apply item_of_ext.
           intros a Ha. apply dget_ddel_neq. auto.
        -- intros a Ha. unfold keys. rewrite map_app, in_app_iff. cbn. intros [Hi|[Hi|[]]]; [now apply (Hk' a Ha)|].
           apply (Hother a Ha). auto.
        -- apply Forall_forall. intros [[n2 o2] f2] Ha. rewrite Forall_forall in Hr2. specialize (Hr2 _ Ha).
           unfold ready in *. rewrite dget_ddel_neq; auto. apply (Hother _ Ha).
    + subst o. cbn [rbind andb is_none app]. auto.
Qed.

(** the objects [fromBoxes] makes: one for each argument *)
Definition object_of (strings : dict str val) (a : argf) : str * val :=
  let '(n, o, f) := a in
  (n, match dget strings n with
      | None => VNone
      | Some e => if o && is_none e then VNone else match f e with Ok v => v | Err _ => VNone end
      end).

Lemma fromBoxes_ok : forall args strings objects, NoDup (map arg_name args) ->
  (forall a, In a args -> ~ In (arg_name a) (keys objects)) ->
  Forall (ready strings) args ->
  fromBoxes args strings objects = Ok (objects ++ map (object_of strings) args).
Proof.
  induction args as [|[[n o] f] args IH]; intros strings objects Hnd Hk Hr.
  - cbn. now rewrite app_nil_r.
  - cbn [map] in Hnd. inversion Hnd as [|? ? Hn Hnd']; subst. inversion Hr as [|? ? Hr1 Hr2]; subst.
    cbn [fromBoxes map]. rewrite retrieve_spec. unfold ready in Hr1.
    assert (Hother : forall a, In a args -> arg_name a <> n).
    { intros a Ha E. apply Hn. apply in_map_iff. eauto. }
    assert (Hk' : forall v a, In a args -> ~ In (arg_name a) (keys (dset objects n v))).
    { intros v a Ha. rewrite keys_dset. intros [Hi|Hi]; [apply (Hother a Ha Hi)|].
      apply (Hk a); [now right|exact Hi]. }
    assert (Hnk : ~ In n (keys objects)) by (apply (Hk (n, o, f)); now left).
    assert (Hext : forall d', (forall k, k <> n -> dget d' k = dget strings k) ->
      Forall (ready d') args /\ map (object_of d') args = map (object_of strings) args).
    { intros d' Hd. split.
      - apply Forall_forall. intros [[n2 o2] f2] Ha. rewrite Forall_forall in Hr2. specialize (Hr2 _ Ha).
        unfold ready in *. rewrite Hd; auto. apply (Hother _ Ha).
      - apply map_ext_in. intros [[n2 o2] f2] Ha. unfold object_of. rewrite Hd; auto. apply (Hother _ Ha). }
    unfold object_of at 1.
    destruct (dget strings n) as [v|] eqn:Ev.
    + destruct (o && is_none v) eqn:Eo.
      * cbn [rbind is_none]. destruct o; [|discriminate]. cbn [andb].
        rewrite IH; auto. rewrite (dset_new _ _ _ Hnk), <- app_assoc. reflexivity.
      * cbn [rbind]. rewrite Eo.
        destruct Hr1 as [[-> ->]|[e He]]; [discriminate|]. rewrite He. cbn [rbind].
        destruct (Hext (ddel strings n)) as [H1 H2]; [intros; now apply dget_ddel_neq|].
        rewrite IH; auto. rewrite (dset_new _ _ _ Hnk), <- app_assoc, H2. reflexivity.
    + subst o. cbn [rbind andb is_none]. rewrite IH; auto.
      rewrite (dset_new _ _ _ Hnk), <- app_assoc. reflexivity.
Qed.

Lemma keys_objects strings args : keys (map (object_of strings) args) = map arg_name args.
Proof. unfold keys. rewrite map_map. apply map_ext. intros [[n o] f]. reflexivity. Qed.

Lemma dget_items objects : forall args n o f, NoDup (map arg_name args) -> In (n, o, f) args ->
  dget (flat_map (item_of objects) args) n =
    match dget objects n with
    | None => None
    | Some v => if o && is_none v then None else match f v with Ok e => Some e | Err _ => None end
    end.
Proof.
  induction args as [|[[n2 o2] f2] args IH]; intros n o f Hnd Hin; [contradiction|].
  cbn [map] in Hnd. inversion Hnd as [|? ? Hn Hnd']; subst. cbn [flat_map]. rewrite dget_app.
  assert (Hskip : forall k, ~ In k (map arg_name args) -> dget (flat_map (item_of objects) args) k = None).
  { clear. intros k Hk. apply dget_None. intros Hi. apply Hk. unfold keys in Hi. apply in_map_iff in Hi as ([k' v] & E & Hi).
    cbn in E. subst k'. apply in_flat_map in Hi as ([[n o] f] & Ha & Hi). apply in_map_iff. exists (n, o, f).
    split; [|exact Ha]. unfold item_of in Hi. destruct (dget objects n); [|contradiction].
    destruct (_ && _); [contradiction|]. destruct (f v0); [|contradiction].
    destruct Hi as [Hi|[]]. inversion Hi. reflexivity. }
  destruct Hin as [E|Hin].
  - inversion E; subst. unfold item_of at 1. rewrite (Hskip n Hn).
    destruct (dget objects n) as [v|]; [|reflexivity].
    destruct (o && is_none v); [reflexivity|]. destruct (f v); cbn [dget]; [now rewrite eqb_refl|reflexivity].
  - assert (Hne : n <> n2). { intros ->. apply Hn. apply in_map_iff. exists (n2, o, f). auto. }
    assert (E : dget (item_of objects (n2, o2, f2)) n = None).
    { unfold item_of. destruct (dget objects n2); [|reflexivity]. destruct (o2 && is_none v); [reflexivity|].
      destruct (f2 v); [|reflexivity]. cbn [dget]. apply eqb_neq in Hne. now rewrite Hne. }
    rewrite E. eauto.
Qed.

Lemma keys_items objects : forall args k, In k (keys (flat_map (item_of objects) args)) -> In k (map arg_name args).
Proof.
  intros args k Hi. unfold keys in Hi. apply in_map_iff in Hi as ([k' v] & E & Hi).
  cbn in E. subst k'. apply in_flat_map in Hi as ([[n o] f] & Ha & Hi). apply in_map_iff. exists (n, o, f).
  split; [|exact Ha]. unfold item_of in Hi. destruct (dget objects n); [|contradiction].
  destruct (_ && _); [contradiction|]. destruct (f v0); [|contradiction].
  destruct Hi as [Hi|[]]. inversion Hi. reflexivity.
Qed.

Lemma wf_items objects : forall args, NoDup (map arg_name args) -> wf_dict (flat_map (item_of objects) args).
Proof.
  induction args as [|[[n o] f] args IH]; intros Hnd; [constructor|].
  cbn [map] in Hnd. inversion Hnd as [|? ? Hn Hnd']; subst. cbn [flat_map]. unfold item_of at 1.
  destruct (dget objects n); [|auto]. destruct (_ && _); [auto|]. destruct (f v); [|auto].
  cbn [app]. constructor; [|apply IH; auto]. intros Hi. apply Hn. apply (keys_items _ _ _ Hi).
Qed.

Lemma dget_objects strings : forall args n o f, NoDup (map arg_name args) -> In (n, o, f) args ->
  dget (map (object_of strings) args) n = Some (snd (object_of strings (n, o, f))).
Proof.
  induction args as [|[[n2 o2] f2] args IH]; intros n o f Hnd Hin; [contradiction|].
  cbn [map] in Hnd. inversion Hnd as [|? ? Hn Hnd']; subst. cbn [map]. unfold object_of at 1. cbn [dget].
  destruct Hin as [E|Hin].
  - inversion E; subst. rewrite eqb_refl. reflexivity.
  - assert (Hne : n <> n2). { intros ->. apply Hn. apply in_map_iff. exists (n2, o, f). auto. }
    apply eqb_neq in Hne. rewrite Hne. auto.
Qed.

Lemma normalized_map ulower objects : NoDup (map (normalizeKey ulower) (keys objects)) ->
  normalized ulower objects = map (fun kv => (normalizeKey ulower (fst kv), snd kv)) objects.
Proof.
  unfold normalized.
  enough (H : forall l acc, NoDup (map fst acc ++ map (normalizeKey ulower) (keys l)) ->
    fold_left (fun acc kv => dset acc (normalizeKey ulower (fst kv)) (snd kv)) l acc
    = acc ++ map (fun kv : str * val => (normalizeKey ulower (fst kv), snd kv)) l).
  { intros Hnd. apply (H objects []). exact Hnd. }
  induction l as [|[k v] l IH]; intros acc Hnd; cbn [fold_left map fst snd].
  - now rewrite app_nil_r.
  - cbn [keys map fst] in Hnd. rewrite (dset_new acc).
    + rewrite IH; [now rewrite <- app_assoc|]. rewrite map_app. cbn [map fst]. rewrite <- app_assoc. exact Hnd.
    + apply NoDup_remove_2 in Hnd. rewrite in_app_iff in Hnd. tauto.
Qed.

(** the argument called [n] was given with the value [v] *)
Definition given (ulower : str -> str) (objects : dict str val) (n : str) (v : val) : Prop :=
  exists k, In (k, v) objects /\ normalizeKey ulower k = n.

Lemma dget_normalized ulower objects n v : NoDup (map (normalizeKey ulower) (keys objects)) ->
  dget (normalized ulower objects) n = Some v <-> given ulower objects n v.
Proof.
  intros Hnd. rewrite normalized_map by exact Hnd. split.
  - intros H. apply dget_In in H. apply in_map_iff in H as ([k x] & E & H). cbn in E. inversion E; subst.
    exists k. auto.
  - intros (k & Hin & Hn). apply In_dget.
    + unfold wf_dict, keys. rewrite map_map. cbn [fst]. unfold keys in Hnd. rewrite map_map in Hnd. exact Hnd.
    + apply in_map_iff. exists (k, v). split; [cbn; now rewrite Hn|exact Hin].
Qed.

(** an argument with both its functions *)
Definition argd := (str * bool * ((val -> res val) * (val -> res val)))%type.
Definition encf (a : argd) : argf := (fst a, fst (snd a)).
Definition decf (a : argd) : argf := (fst a, snd (snd a)).
Definition argd_name (a : argd) : str := fst (fst a).

Lemma name_encf cs : map arg_name (map encf cs) = map argd_name cs.
Proof. rewrite map_map. reflexivity. Qed.
Lemma name_decf cs : map arg_name (map decf cs) = map argd_name cs.
Proof. rewrite map_map. reflexivity. Qed.

Theorem objects_roundtrip ulower (cs : list argd) objects :
  NoDup (map argd_name cs) -> NoDup (map (normalizeKey ulower) (keys objects)) ->
  (forall n o enc dec, In (n, o, (enc, dec)) cs ->
     (o = true /\ forall v, given ulower objects n v -> v = VNone) \/
     (exists v e, given ulower objects n v /\ enc v = Ok e /\ e <> VNone /\ dec e = Ok v)) ->
  exists st objs, objectsToStrings ulower (map encf cs) objects = Ok st /\
    stringsToObjects (map decf cs) st = Ok objs /\ keys objs = map argd_name cs /\
    forall n o enc dec, In (n, o, (enc, dec)) cs ->
      (forall v, given ulower objects n v -> dget objs n = Some v) /\
      ((forall v, ~ given ulower objects n v) -> dget objs n = Some VNone).
Proof.
  intros Hnd Hk Hc.
  set (d := normalized ulower objects).
  assert (Hd : forall n v, dget d n = Some v <-> given ulower objects n v).
  { intros. now apply dget_normalized. }
  set (st := flat_map (item_of d) (map encf cs)).
  assert (Hto : objectsToStrings ulower (map encf cs) objects = Ok st).
  { unfold objectsToStrings. fold d. rewrite toBoxes_ok; auto.
    - now rewrite name_encf.
    - apply Forall_forall. intros a Ha. apply in_map_iff in Ha as ([[n o] [enc dec]] & <- & Ha).
      cbn. specialize (Hc n o enc dec Ha). destruct (dget d n) as [v|] eqn:Ev.
      + apply Hd in Ev. destruct Hc as [[-> H]|(v' & e & H1 & H2 & _)]; [left; auto|right].
        apply Hd in H1. apply Hd in Ev. assert (v' = v) by congruence. subst. eauto.
      + destruct Hc as [[-> _]|(v & e & H1 & _)]; [reflexivity|]. apply Hd in H1. congruence. }
  assert (Hst : forall n o enc dec, In (n, o, (enc, dec)) cs ->
    dget st n = match dget d n with
                | None => None
                | Some v => if o && is_none v then None else match enc v with Ok e => Some e | Err _ => None end
                end).
  { intros n o enc dec Ha. unfold st. apply (dget_items d (map encf cs) n o enc); [now rewrite name_encf|].
    apply in_map_iff. exists (n, o, (enc, dec)). auto. }
  assert (Hfrom : stringsToObjects (map decf cs) st = Ok (map (object_of st) (map decf cs))).
  { unfold stringsToObjects. rewrite fromBoxes_ok; auto.
    - now rewrite name_decf.
    - apply Forall_forall. intros a Ha. apply in_map_iff in Ha as ([[n o] [enc dec]] & <- & Ha).
      cbn. rewrite (Hst n o enc dec Ha). specialize (Hc n o enc dec Ha).
      destruct (dget d n) as [v|] eqn:Ev.
      + apply Hd in Ev. destruct (o && is_none v) eqn:Eo; [destruct o; [reflexivity|discriminate]|].
        destruct Hc as [[-> H]|(v' & e & H1 & H2 & H3 & H4)].
        * rewrite (H v Ev) in Eo. discriminate.
        * apply Hd in H1. apply Hd in Ev. assert (v' = v) by congruence. subst. rewrite H2. right. eauto.
      + destruct Hc as [[-> _]|(v & e & H1 & _)]; [reflexivity|]. apply Hd in H1. congruence. }
  exists st, (map (object_of st) (map decf cs)). split; [exact Hto|]. split; [exact Hfrom|].
  split; [now rewrite keys_objects, name_decf|].
  intros n o enc dec Ha.
  assert (E : dget (map (object_of st) (map decf cs)) n = Some (snd (object_of st (n, o, dec)))).
  { apply dget_objects; [now rewrite name_decf|]. apply in_map_iff. exists (n, o, (enc, dec)). auto. }
  cbn [object_of snd] in E. rewrite (Hst n o enc dec Ha) in E. rewrite E. specialize (Hc n o enc dec Ha). split.
  - intros v Hv. pose proof Hv as Hv'. apply Hd in Hv'. rewrite Hv'.
    destruct (o && is_none v) eqn:Eo.
    + destruct o, v; try discriminate. reflexivity.
    + destruct Hc as [[-> H]|(v' & e & H1 & H2 & H3 & H4)].
      * rewrite (H v Hv) in Eo. discriminate.
      * apply Hd in H1. assert (v' = v) by congruence. subst. rewrite H2.
        assert (En : is_none e = false) by (destruct e; auto; congruence).
        rewrite En, andb_false_r, H4. reflexivity.
  - intros Hn. destruct (dget d n) as [v|] eqn:Ev; [|reflexivity]. apply Hd in Ev. exfalso. eapply Hn; eauto.
Qed.

(** a required argument that is not given is never sent *)
Theorem objects_missing ulower (cs : list argd) objects n enc dec :
  NoDup (map argd_name cs) -> NoDup (map (normalizeKey ulower) (keys objects)) ->
  In (n, false, (enc, dec)) cs -> (forall v, ~ given ulower objects n v) ->
  exists e, objectsToStrings ulower (map encf cs) objects = Err e.
Proof.
  intros Hnd Hk Hin Hn. apply (toBoxes_missing (map encf cs) n enc).
  - apply in_map_iff. exists (n, false, (enc, dec)). auto.
  - now rewrite name_encf.
  - destruct (dget (normalized ulower objects) n) as [v|] eqn:E; [|reflexivity].
    apply dget_normalized in E; auto. exfalso. eapply Hn; eauto.
Qed.

(** and one that has not been received is an error *)
Theorem strings_missing (cs : list argd) strings n enc dec :
  NoDup (map argd_name cs) -> In (n, false, (enc, dec)) cs -> dget strings n = None ->
  exists e, stringsToObjects (map decf cs) strings = Err e.
Proof.
  intros Hnd Hin Hn. apply (fromBoxes_missing (map decf cs) n dec); auto.
  - apply in_map_iff. exists (n, false, (enc, dec)). auto.
  - now rewrite name_decf.
Qed.

(** ** Encoded text *)
Lemma encode_scalar_app s t : utf8_encode (s ++ t) =
  (b <- utf8_encode s ;; c <- utf8_encode t ;; Ok (b ++ c)).
Proof.
  induction s as [|c s IH]; cbn [app utf8_encode rbind].
  - destruct (utf8_encode t); reflexivity.
  - destruct (is_scalar c); [|reflexivity]. rewrite IH. destruct (utf8_encode s); cbn [rbind]; [|reflexivity].
    destruct (utf8_encode t); cbn [rbind]; [|reflexivity]. now rewrite app_assoc.
Qed.

Lemma utf8_char_hd c : is_scalar c = true -> exists b0 t, utf8_char c = b0 :: t /\
  ((c < 128)%N -> t = [] /\ b0 = c) /\ ((128 <= c)%N -> Forall (fun x => (128 <= x)%N) (b0 :: t)).
Proof.
  intros Hs. unfold utf8_char.
  destruct (N.ltb_spec c 0x80); [exists c, []; split; [reflexivity|split; [auto|lia]]|].
  destruct (N.ltb_spec c 0x800); [eexists _, _; split; [reflexivity|]; split; [lia|intros _; repeat constructor; lia]|].
  destruct (N.ltb_spec c 0x10000); (eexists _, _; split; [reflexivity|]; split; [lia|intros _; repeat constructor; lia]).
Qed.

Lemma escape_high l t : Forall (fun x => (128 <= x)%N) l -> escape (l ++ t) = l ++ escape t.
Proof.
  induction 1 as [|x l Hx Hl IH]; [reflexivity|]. cbn [app]. rewrite escape_cons; [now rewrite IH|].
  left. apply N.eqb_neq. unfold CR. lia.
Qed.

Lemma escape_encode : forall n s b, length s <= n -> utf8_encode s = Ok b -> utf8_encode (escape s) = Ok (escape b).
Proof.
  induction n as [|n IH]; intros s b Hl H.
  - destruct s; [|cbn in Hl; lia]. inversion H. reflexivity.
  - destruct (crlf_cases s) as [->|[[t ->]|(c & t & -> & Hc)]].
    + inversion H. reflexivity.
    + rewrite encode_scalar_app in H. cbn [rbind utf8_encode] in H.
      destruct (utf8_encode CRLF) as [x|] eqn:Ex; [|discriminate]. cbv in Ex. inversion Ex; subst x.
      cbn [rbind] in H. destruct (utf8_encode t) as [bt|] eqn:Et; [|discriminate]. inversion H; subst b.
      change (escape (CRLF ++ t)) with ((CRLF ++ [SP]) ++ escape t).
      change ([13; 10]%N ++ bt) with (CRLF ++ bt).
      change (escape (CRLF ++ bt)) with ((CRLF ++ [SP]) ++ escape bt).
      rewrite encode_scalar_app, (IH t bt); [reflexivity| |exact Et]. cbn in Hl. lia.
    + rewrite escape_cons by exact Hc. cbn [utf8_encode] in H |- *.
      destruct (is_scalar c) eqn:Hs; [|discriminate].
      destruct (utf8_encode t) as [bt|] eqn:Et; [|discriminate]. inversion H; subst b.
      rewrite (IH t bt); [|cbn in Hl; lia|exact Et]. f_equal.
      destruct (utf8_char_hd c Hs) as (b0 & r & E & H1 & H2). rewrite E.
      destruct (N.lt_ge_cases c 128) as [Hlt|Hge].
      * destruct (H1 Hlt) as [-> ->]. cbn [app]. symmetry. apply escape_cons.
        destruct Hc as [Hc|Hc]; [now left|right].
        intros Hh. apply Hc. destruct t as [|c2 t2]; [inversion Et; subst; exact Hh|].
        cbn [utf8_encode] in Et. destruct (is_scalar c2) eqn:Hs2; [|discriminate].
        destruct (utf8_encode t2); [|discriminate]. inversion Et; subst bt.
        destruct (utf8_char_hd c2 Hs2) as (b1 & r1 & E1 & H3 & H4). rewrite E1 in Hh. cbn [app hd] in Hh. subst b1.
        cbn [hd]. destruct (N.lt_ge_cases c2 128) as [Hlt2|Hge2]; [now destruct (H3 Hlt2)|].
        specialize (H4 Hge2). inversion H4; subst. unfold LF in *. lia.
      * specialize (H2 Hge). symmetry. apply (escape_high (b0 :: r) bt H2).
Qed.

(** whatever is serialized is the encoding of some text *)
Definition is_text (w : str) : Prop := exists t, utf8_encode t = Ok w.

Lemma is_text_app a b : is_text a -> is_text b -> is_text (a ++ b).
Proof. intros [s Hs] [t Ht]. exists (s ++ t). now rewrite encode_scalar_app, Hs, Ht. Qed.

Lemma is_text_ascii a : Forall (fun c => (c < 128)%N) a -> is_text a.
Proof. intros H. exists a. now apply utf8_encode_ascii. Qed.

Lemma is_text_concat l : Forall is_text l -> is_text (concat l).
Proof.
  induction 1; cbn [concat]; [exists []; reflexivity|now apply is_text_app].
Qed.

Lemma title_ascii s : forall c, Forall (fun x => (x < 128)%N) s -> Forall (fun x => (x < 128)%N) (title_from c s).
Proof.
  induction s as [|x s IH]; intros c H; cbn [title_from]; [constructor|]. inversion H; subst.
  constructor; [|auto]. unfold ascii_lower, ascii_upper, is_upper, is_lower.
  destruct c; destruct (_ && _)%bool eqn:E; try assumption; rewrite andb_true_iff, !N.leb_le in E; lia.
Qed.

Lemma serialize_items_text ulower b h : Forall (fun k => canonical ulower k = true) (keys b) ->
  serialize_items (texts b) = Ok h -> is_text h.
Proof.
  revert h. induction b as [|[k v] b IH]; intros h Hk H.
  - inversion H. exists []. reflexivity.
  - inversion Hk; subst. cbn [texts map fst snd serialize_items] in H.
    assert (Hka : is_ascii k = true).
    { unfold canonical in H2. rewrite !andb_true_iff in H2. destruct H2 as [[H2 _] _].
      destruct (good_key_spec k H2) as (Ha & _). exact Ha. }
    assert (Hgen : forall k' v' rest, is_ascii k' = true ->
      (kb <- utf8_encode k' ;; vb <- utf8_encode v' ;; r <- rest ;;
       Ok (title (swap USCORE DASH kb) ++ COLONSP ++ escape vb ++ CRLF ++ r)) = Ok h ->
      exists r, rest = Ok r /\ (is_text r -> is_text h)).
    { intros k' v' rest Hka' E.
      rewrite utf8_encode_ascii in E by (apply is_ascii_Forall; exact Hka').
      cbn [rbind] in E. destruct (utf8_encode v') as [vb|] eqn:Ev; [|discriminate]. cbn [rbind] in E.
      destruct rest as [r|]; [|discriminate]. cbn [rbind] in E.
      injection E as <-. exists r. split; [reflexivity|].
      change (is_text r -> is_text (title (swap USCORE DASH k') ++ COLONSP ++ escape vb ++ CRLF ++ r)).
      intros Hr. apply is_text_app.
      - apply is_text_ascii. unfold title. apply title_ascii. unfold swap. apply Forall_map.
        apply is_ascii_Forall in Hka'. eapply Forall_impl; [|exact Hka']. intros c Hc. cbn beta.
        destruct (N.eqb c USCORE); [unfold DASH; lia|exact Hc].
      - apply is_text_app; [apply is_text_ascii; repeat constructor; lia|].
        apply is_text_app; [exists (escape v'); eapply escape_encode; eauto|].
        apply is_text_app; [apply is_text_ascii; repeat constructor; unfold CR, LF; lia|exact Hr]. }
    destruct (eqb_spec k BODY) as [->|Hb].
    + destruct (Hgen LENGTH (dec (N.of_nat (length v))) (serialize_items (texts b)) eq_refl) as (r & Er & Hr).
      { exact H. }
      apply Hr. eapply IH; eauto.
    + destruct (Hgen k v (serialize_items (texts b)) Hka) as (r & Er & Hr).
      { exact H. }
      apply Hr. eapply IH; eauto.
Qed.

Lemma serialize_text ulower b w : Forall (fun k => canonical ulower k = true) (keys b) ->
  serialize (texts b) = Ok w -> is_text w.
Proof.
  intros Hk H. unfold serialize in H. destruct (din (texts b) LENGTH); [discriminate|].
  destruct (serialize_items (texts b)) as [h|] eqn:Eh; [|discriminate]. cbn [rbind] in H.
  pose proof (serialize_items_text ulower b h Hk Eh) as Hh.
  assert (Hc : is_text CRLF) by (apply is_text_ascii; repeat constructor; unfold CR, LF; lia).
  rewrite dget_texts in H. destruct (dget b BODY) as [v|]; cbn [option_map] in H.
  - cbn [ensure_binary] in H. destruct (utf8_encode v) as [vb|] eqn:Ev; [|discriminate]. cbn [rbind] in H.
    assert (Ew : h ++ CRLF ++ vb = w) by congruence. rewrite <- Ew.
    apply is_text_app; auto. apply is_text_app; auto. exists v. exact Ev.
  - inversion H. apply is_text_app; auto.
Qed.

(** ** Each class decodes what it encodes *)
Section Fits.
  Variable ulower : str -> str.
  Hypothesis ulower_ascii : forall s, is_ascii s = true -> ulower s = map ascii_lower s.
  Variable oenc odec : N -> val -> res val.
  Notation encode := (encode ulower oenc).
  Notation decode := (decode ulower odec).
  Notation encs := (encs ulower oenc).
  Notation decs := (decs ulower odec).

  (** the text that arrives when this value of a box is sent *)
  Definition arrives (e : val) (s : str) : Prop :=
    exists p w, as_pv e = Ok p /\ ensure_binary p = Ok w /\ utf8_encode s = Ok w.

  (** a body that can be sent: its text is ASCII and not empty *)
  Definition body_ok (e : res val) : Prop :=
    exists e' s, e = Ok e' /\ arrives e' s /\ s <> [] /\ is_ascii s = true.

  (** The value [x] of the argument [(n, o, c)] can be sent. *)
  Definition arg_fits (fits : codec -> val -> Prop) (a : str * bool * codec) (x : val) : Prop :=
    (snd (fst a) = true /\ x = VNone) \/
    (fits (snd a) x /\ (fst (fst a) = BODY -> body_ok (encode (snd a) x))).

  (** The values of an argument class that it can send.
      ListOf: the list is not empty, the delimiter cannot overlap itself and
      does not occur in an encoded item, and the items are encoded as text.
      JuiceList: dictionaries with exactly the declared names. *)
  Fixpoint fits (c : codec) (v : val) {struct c} : Prop :=
    match c with
    | CInteger => exists z, v = VInt z
    | CString => exists s, v = VText s /\ encodable s = true
    | CBoolean => exists b, v = VBool b
    | CUnicode | CPath | CBase64 | CEncoded _ => False
    | CTime => exists t s u, v = VTime t /\ ExtimeIso.asISO t true None true = Ok s /\ encodable s = true /\
        ExtimeIso.fromISO s None = Ok u /\ Extime.time_eq u t = true
    | CListOf sub d =>
        no_overlap d /\ encodable d = true /\
        exists l, v = VList l /\ l <> [] /\
          Forall (fun x => fits sub x /\ exists s, encode sub x = Ok (VText s) /\ containsb d s = false) l
    | CJuiceList subs =>
        NoDup (map (fun a => fst (fst a)) subs) /\
        Forall (fun a => canonical ulower (fst (fst a)) = true) subs /\
        exists l, v = VList l /\
          Forall (fun x => exists d, x = VDict d /\ wf_dict d /\
            (forall k, In k (keys d) -> In k (map (fun a => fst (fst a)) subs)) /\
            fold_right (fun a P => (exists y, dget d (fst (fst a)) = Some y /\ arg_fits fits a y) /\ P) True subs) l
    | COther n => exists s, oenc n v = Ok (VText s) /\ encodable s = true /\ odec n (VText s) = Ok v
    end.

  (** what has to be shown of a class *)
  Definition survives (c : codec) (v : val) : Prop :=
    exists e s v', encode c v = Ok e /\ arrives e s /\ decode c (VText s) = Ok v' /\ same v v'.

  Lemma arrives_text s : encodable s = true -> arrives (VText s) s.
  Proof.
    intros H. apply utf8_encode_ok in H as [w Hw]. exists (PS s), w. auto.
  Qed.

  Lemma arrives_inj e s t : arrives e s -> arrives e t -> s = t.
  Proof.
    intros (p & w & H1 & H2 & H3) (p' & w' & H4 & H5 & H6).
    assert (p' = p) by congruence. subst. assert (w' = w) by congruence. subst.
    apply utf8_decode_encode in H3. apply utf8_decode_encode in H6. congruence.
  Qed.

  Lemma arrives_VText t s : arrives (VText t) s -> t = s /\ encodable s = true.
  Proof.
    intros (p & w & H1 & H2 & H3). inversion H1; subst p. cbn in H2.
    split; [|apply utf8_encode_ok; eauto].
    apply utf8_decode_encode in H3. apply utf8_decode_encode in H2. congruence.
  Qed.

  Definition sub_name (a : str * bool * codec) : str := fst (fst a).

  Lemma name_encs subs : map arg_name (encs subs) = map sub_name subs.
  Proof. unfold JuiceArgs.encs. rewrite map_map. reflexivity. Qed.
  Lemma name_decs subs : map arg_name (decs subs) = map sub_name subs.
  Proof. unfold JuiceArgs.decs. rewrite map_map. reflexivity. Qed.

  Definition vtexts (b : dict str str) : dict str val := map (fun kv => (fst kv, VText (snd kv))) b.

  Lemma dget_vtexts b k : dget (vtexts b) k = option_map VText (dget b k).
  Proof.
    induction b as [|[k' v] b IH]; auto. cbn [vtexts map dget fst snd].
    destruct (eqb k k'); auto.
  Qed.

  (** the items of a box of encoded values, and their texts *)
  Definition item_arrives (i : str * val) (j : str * str) : Prop :=
    fst i = fst j /\ arrives (snd i) (snd j) /\ (fst i = BODY -> snd j <> [] /\ is_ascii (snd j) = true).

  Lemma arrives_len e s p : arrives e s -> is_ascii s = true -> as_pv e = Ok p -> py_len p = length s.
  Proof.
    intros (p' & w & H1 & H2 & H3) Ha Hp. assert (p' = p) by congruence. subst p'.
    rewrite utf8_encode_ascii in H3 by (apply is_ascii_Forall; exact Ha). inversion H3; subst w.
    destruct e; inversion H1; subst p; cbn in H2 |- *.
    - apply utf8_decode_encode in H2. rewrite ascii_decode in H2 by exact Ha. congruence.
    - congruence.
  Qed.

  Lemma serialize_arrives its b : Forall2 item_arrives its b ->
    serialize_vals its = serialize (texts b).
  Proof.
    intros H. unfold serialize_vals.
    assert (Hm : exists pvs, mapM (fun kv => v <- as_pv (snd kv) ;; Ok (fst kv, v)) its = Ok pvs /\
      Forall2 (fun i j => fst i = fst j /\ ensure_binary (snd i) = ensure_binary (PS (snd j)) /\
                          (fst i = BODY -> py_len (snd i) = length (snd j))) pvs b).
    { induction H as [|[k e] [k' s] its b Hi HF IH]; [exists []; split; [reflexivity|constructor]|].
      destruct IH as (pvs & E & HF2). destruct Hi as (H1 & H2 & H3). cbn [fst snd] in *. subst k'.
      pose proof H2 as H2'. destruct H2 as (p & w & Hp & Hw & Hu).
      exists ((k, p) :: pvs). cbn [mapM fst snd]. rewrite Hp. cbn [rbind]. rewrite E. split; [reflexivity|].
      constructor; [|exact HF2]. cbn [fst snd]. split; [reflexivity|]. split; [cbn; congruence|].
      intros Hb. eapply arrives_len; eauto. now apply H3. }
    destruct Hm as (pvs & -> & HF2). cbn [rbind]. clear H its.
    assert (Hd : forall k, din pvs k = din (texts b) k).
    { unfold din. intros k. induction HF2 as [|[k1 p] [k2 s] pvs b Hi HF IH]; [reflexivity|].
      destruct Hi as (E & _). cbn [fst snd] in E. subst k2. cbn [texts map dget fst snd].
      destruct (eqb k k1); auto. }
    assert (Hs : serialize_items pvs = serialize_items (texts b)).
    { clear Hd. induction HF2 as [|[k1 p] [k2 s] pvs b Hi HF IH]; [reflexivity|].
      destruct Hi as (E & Ee & Hl). cbn [fst snd] in *. subst k2.
      cbn [texts map serialize_items fst snd]. destruct (eqb_spec k1 BODY) as [->|Hb].
      - cbn [py_len]. rewrite Hl by reflexivity. fold (texts b). now rewrite IH.
      - fold (texts b). now rewrite IH, Ee. }
    assert (Hg : match dget pvs BODY with Some v => Some (ensure_binary v) | None => None end =
                 match dget (texts b) BODY with Some v => Some (ensure_binary v) | None => None end).
    { clear Hd Hs. induction HF2 as [|[k1 p] [k2 s] pvs b Hi HF IH]; [reflexivity|].
      destruct Hi as (E & Ee & _). cbn [fst snd] in *. subst k2. cbn [texts map dget fst snd].
      destruct (eqb BODY k1); [now rewrite Ee|exact IH]. }
    unfold serialize. rewrite Hd, Hs. destruct (din (texts b) LENGTH); [reflexivity|].
    destruct (serialize_items (texts b)); cbn [rbind]; [|reflexivity].
    destruct (dget pvs BODY), (dget (texts b) BODY); try discriminate; [|reflexivity].
    injection Hg as ->. reflexivity.
  Qed.

  (** what is required of the objects *)
  Definition args_fit (subs : list (str * bool * codec)) (d : dict str val) : Prop :=
    forall a, In a subs ->
      match dget d (sub_name a) with
      | None => snd (fst a) = true
      | Some x => arg_fits fits a x
      end.

  Lemma items_arrive subs d : NoDup (map sub_name subs) ->
    Forall (fun a => forall v, fits (snd a) v -> survives (snd a) v) subs ->
    args_fit subs d ->
    Forall (ready d) (encs subs) /\
    exists b, Forall2 item_arrives (flat_map (item_of d) (encs subs)) b /\
      forall n o c, In (n, o, c) subs ->
        match dget d n with
        | None => dget b n = None
        | Some x => if o && is_none x then dget b n = None
                    else exists s x', dget b n = Some s /\ decode c (VText s) = Ok x' /\ same x x'
        end.
  Proof.
    intros Hnd HS Hfit. split.
    - apply Forall_forall. intros a Ha. unfold JuiceArgs.encs in Ha. apply in_map_iff in Ha as ([[n o] c] & <- & Ha).
      cbn. specialize (Hfit _ Ha). cbn in Hfit. destruct (dget d n) as [x|]; [|exact Hfit].
      destruct Hfit as [H|[H _]]; [left; exact H|right]. rewrite Forall_forall in HS.
      destruct (HS _ Ha x H) as (e & s & v' & E & _). eauto.
    - induction subs as [|[[n o] c] subs IH]; [exists []; split; [constructor|contradiction]|].
      cbn [map] in Hnd. inversion Hnd as [|? ? Hn Hnd']; subst. inversion HS as [|? ? HS1 HS2]; subst.
      destruct IH as (b & HF & Hb); auto; [intros a Ha; apply Hfit; now right|].
      assert (Hkeys : forall k, In k (keys b) -> In k (map sub_name subs)).
      { intros k Hk. rewrite <- name_encs. apply (keys_items d).
        assert (E : keys (flat_map (item_of d) (encs subs)) = keys b); [|now rewrite E].
        clear - HF. unfold keys. induction HF as [|i j its b Hi HF IH]; [reflexivity|].
        destruct Hi as [E _]. cbn [map]. now rewrite E, IH. }
      assert (Hnb : dget b n = None).
      { apply dget_None. intros Hi. apply Hn. now apply Hkeys. }
      assert (Hother : forall n2 o2 c2, In (n2, o2, c2) subs -> n2 <> n).
      { intros n2 o2 c2 Hi ->. apply Hn. apply in_map_iff. exists (n, o2, c2). auto. }
      specialize (Hfit (n, o, c) (or_introl eq_refl)). cbn [sub_name fst snd] in Hfit.
      change (encs ((n, o, c) :: subs)) with ((n, o, encode c) :: encs subs).
      cbn [flat_map]. unfold item_of at 1. destruct (dget d n) as [x|] eqn:Ex.
      + destruct (o && is_none x) eqn:Eo.
        * exists b. split; [exact HF|]. intros n2 o2 c2 [E|Hi]; [|now apply Hb].
          inversion E; subst. rewrite Ex, Eo. exact Hnb.
        * destruct Hfit as [[H1 H2]|[H1 H2]]; [cbn in H1; subst; discriminate|]. cbn [fst snd] in H1, H2.
          destruct (HS1 x H1) as (e & s & v' & E & Ha & Ed & Es). cbn [snd] in E, Ed. rewrite E. cbn [app].
          exists ((n, s) :: b). split.
          { constructor; [|exact HF]. split; [reflexivity|]. split; [exact Ha|]. cbn [fst snd]. intros Hbody.
            destruct (H2 Hbody) as (e' & s' & E' & Ha' & Hs'). assert (e' = e) by congruence. subst.
            rewrite (arrives_inj _ _ _ Ha Ha'). exact Hs'. }
          intros n2 o2 c2 [E2|Hi].
          { inversion E2; subst. rewrite Ex, Eo. cbn [dget]. rewrite eqb_refl. eauto. }
          pose proof (Hother _ _ _ Hi) as Hne. apply eqb_neq in Hne.
          specialize (Hb n2 o2 c2 Hi). cbn [dget]. rewrite Hne. exact Hb.
      + exists b. split; [exact HF|]. intros n2 o2 c2 [E|Hi]; [|now apply Hb].
        inversion E; subst. rewrite Ex. exact Hnb.
  Qed.

  (** One dictionary of arguments, from objects to bytes and back. *)
  Lemma args_box subs objects : NoDup (map sub_name subs) ->
    Forall (fun a => canonical ulower (sub_name a) = true) subs ->
    Forall (fun a => forall v, fits (snd a) v -> survives (snd a) v) subs ->
    args_fit subs (normalized ulower objects) ->
    exists st b w, objectsToStrings ulower (encs subs) objects = Ok st /\ Forall2 item_arrives st b /\
      serialize_vals st = Ok w /\ serialize (texts b) = Ok w /\ sendable ulower b /\ is_text w /\
      (forall n o c, In (n, o, c) subs -> dget (normalized ulower objects) n = None -> dget b n = None) /\
      forall b', (forall n, In n (map sub_name subs) -> dget b' n = dget b n) ->
        exists objs, stringsToObjects (decs subs) (vtexts b') = Ok objs /\ keys objs = map sub_name subs /\
          forall n, In n (map sub_name subs) ->
            match dget (normalized ulower objects) n with
            | None => dget objs n = Some VNone
            | Some x => exists y, dget objs n = Some y /\ same x y
            end.
  Proof.
    intros Hnd Hcan HS Hfit. set (d := normalized ulower objects) in *.
    destruct (items_arrive subs d Hnd HS Hfit) as (Hready & b & HF & Hb).
    set (st := flat_map (item_of d) (encs subs)) in *.
    assert (Hks : keys st = keys b).
    { clear - HF. unfold keys. induction HF as [|i j its b Hi HF IH]; [reflexivity|].
      destruct Hi as [E _]. cbn [map]. now rewrite E, IH. }
    assert (Hto : objectsToStrings ulower (encs subs) objects = Ok st).
    { unfold objectsToStrings. fold d. rewrite toBoxes_ok; auto. now rewrite name_encs. }
    assert (Hsend : sendable ulower b).
    { split; [|split; [|split]].
      - unfold wf_dict. rewrite <- Hks. apply wf_items. now rewrite name_encs.
      - rewrite <- Hks. apply Forall_forall. intros k Hk. apply keys_items in Hk. rewrite name_encs in Hk.
        apply in_map_iff in Hk as (a & <- & Ha). rewrite Forall_forall in Hcan. now apply Hcan.
      - clear - HF. unfold values. induction HF as [|i j its b Hi HF IH]; [constructor|]. cbn [map]. constructor; [|exact IH].
        destruct Hi as (_ & (p & w & _ & _ & E) & _). apply utf8_encode_ok. eauto.
      - intros v Hv. apply dget_In in Hv. clear - HF Hv. induction HF as [|i j its b Hi HF IH]; [contradiction|].
        destruct Hv as [E|Hv]; [|now apply IH]. subst j. destruct Hi as (E & _ & H). now apply H. }
    destruct (roundtrip ulower ulower_ascii b Hsend) as (w & Hw & _).
    exists st, b, w. split; [exact Hto|]. split; [exact HF|]. split; [now rewrite (serialize_arrives st b HF)|].
    split; [exact Hw|]. split; [exact Hsend|]. split; [eapply serialize_text; [apply Hsend|exact Hw]|].
    split. { intros n o c Hin Hn. specialize (Hb n o c Hin). now rewrite Hn in Hb. }
    intros b' Hb'.
    assert (Hget : forall n o c, In (n, o, c) subs -> dget (vtexts b') n =
      match dget b n with None => None | Some s => Some (VText s) end).
    { intros n o c Hin. rewrite dget_vtexts, Hb' by (apply in_map_iff; exists (n, o, c); auto).
      destruct (dget b n); reflexivity. }
    exists (map (object_of (vtexts b')) (decs subs)). split; [|split].
    - unfold stringsToObjects. rewrite fromBoxes_ok; auto; [now rewrite name_decs|].
      apply Forall_forall. intros a Ha. unfold JuiceArgs.decs in Ha. apply in_map_iff in Ha as ([[n o] c] & <- & Ha).
      cbn [ready fst snd]. rewrite (Hget n o c Ha). specialize (Hb n o c Ha). specialize (Hfit (n, o, c) Ha).
      cbn [sub_name fst snd] in Hfit. destruct (dget d n) as [x|].
      + destruct (o && is_none x) eqn:Eo.
        * rewrite Hb. destruct o; [reflexivity|discriminate].
        * destruct Hb as (s & x' & -> & Hd & _). right. eauto.
      + rewrite Hb. exact Hfit.
    - now rewrite keys_objects, name_decs.
    - intros n Hn. apply in_map_iff in Hn as ([[n' o] c] & E & Ha). cbn in E. subst n'.
      assert (Ed : dget (map (object_of (vtexts b')) (decs subs)) n = Some (snd (object_of (vtexts b') (n, o, decode c)))).
      { apply dget_objects; [now rewrite name_decs|]. unfold JuiceArgs.decs. apply in_map_iff. exists (n, o, c). auto. }
      cbn [object_of snd] in Ed. rewrite (Hget n o c Ha) in Ed. specialize (Hb n o c Ha).
      destruct (dget d n) as [x|].
      + destruct (o && is_none x) eqn:Eo.
        * rewrite Hb in Ed. exists VNone. split; [exact Ed|]. destruct o, x; try discriminate. constructor.
        * destruct Hb as (s & x' & Hs & Hd & Hsame). rewrite Hs in Ed. cbn [is_none] in Ed.
          rewrite andb_false_r, Hd in Ed. eauto.
      + rewrite Hb in Ed. exact Ed.
  Qed.

  Lemma args_wire subs objects : NoDup (map sub_name subs) ->
    Forall (fun a => canonical ulower (sub_name a) = true) subs ->
    Forall (fun a => forall v, fits (snd a) v -> survives (snd a) v) subs ->
    args_fit subs (normalized ulower objects) ->
    exists st b w, objectsToStrings ulower (encs subs) objects = Ok st /\
      serialize_vals st = Ok w /\ serialize (texts b) = Ok w /\ sendable ulower b /\ is_text w /\
      (forall n o c, In (n, o, c) subs -> dget (normalized ulower objects) n = None -> dget b n = None) /\
      forall b', (forall n, In n (map sub_name subs) -> dget b' n = dget b n) ->
        exists objs, stringsToObjects (decs subs) (vtexts b') = Ok objs /\ keys objs = map sub_name subs /\
          forall n, In n (map sub_name subs) ->
            match dget (normalized ulower objects) n with
            | None => dget objs n = Some VNone
            | Some x => exists y, dget objs n = Some y /\ same x y
            end.
  Proof.
    intros H1 H2 H3 H4. destruct (args_box subs objects H1 H2 H3 H4) as (st & b & w & E & _ & H). eauto.
  Qed.

  Lemma fold_and {A} (P : A -> Prop) l : fold_right (fun a Q => P a /\ Q) True l <-> Forall P l.
  Proof.
    induction l as [|a l IH]; cbn; split; auto.
    - intros [H1 H2]. constructor; tauto.
    - intros H. inversion H; subst. tauto.
  Qed.

  Lemma normalized_id d : wf_dict d -> Forall (fun k => normalizeKey ulower k = k) (keys d) ->
    normalized ulower d = d.
  Proof.
    intros Hw Hk.
    assert (E : map (normalizeKey ulower) (keys d) = keys d).
    { clear Hw. induction Hk as [|k ks Hk HF IH]; [reflexivity|]. cbn [map]. now rewrite Hk, IH. }
    rewrite normalized_map by (rewrite E; exact Hw). clear Hw E. unfold keys in Hk.
    induction d as [|[k v] d IH]; [reflexivity|]. inversion Hk; subst. cbn [map fst snd] in *. now rewrite H1, IH.
  Qed.

  Theorem codec_survives : forall c v, fits c v -> survives c v.
  Proof.
    induction c as [| | | |sub d IH|subs IH| | | |n|n] using codec_ind'; intros v Hf.
    - destruct Hf as [z ->]. exists (VText (zdec z)), (zdec z), (VInt z). cbn.
      split; [reflexivity|]. split.
      + apply arrives_text. apply utf8_encode_ok. exists (zdec z). apply utf8_encode_ascii.
        eapply Forall_impl; [|apply zdec_ascii]. cbn. intros. lia.
      + rewrite py_int_zdec. split; [reflexivity|constructor].
    - destruct Hf as (s & -> & Hs). exists (VText s), s, (VText s). cbn. auto using arrives_text, same_refl.
    - destruct Hf as [b ->]. exists (VText (if b then lit "True" else lit "False")), (if b then lit "True" else lit "False"), (VBool b).
      split; [reflexivity|]. split; [apply arrives_text; destruct b; reflexivity|].
      split; [destruct b; reflexivity|constructor].
    - destruct Hf.
    - destruct Hf as (Ho & Hd & l & -> & Hne & HF).
      assert (H : exists outs l', mapM (fun x => o <- encode sub x ;;
                               match o with
                               | VText s => if containsb d s then Err AssertionError else Ok s
                               | _ => Err TypeError
                               end) l = Ok outs /\
          Forall (fun x => containsb d x = false) outs /\ Forall (fun x => encodable x = true) outs /\
          length outs = length l /\
          mapM (fun x => decode sub (VText x)) outs = Ok l' /\ Forall2 same l l').
      { clear Hne. induction HF as [|x l Hx HF IHl]; [exists [], []; repeat split; constructor|].
        destruct IHl as (outs & l' & E1 & E2 & E2' & E3 & E4 & E5). destruct Hx as [Hx (s & Es & Hc)].
        destruct (IH x Hx) as (e & s' & x' & H1 & H2 & H3 & H4).
        assert (e = VText s) by congruence. subst e. destruct (arrives_VText _ _ H2) as [<- Hen].
        exists (s :: outs), (x' :: l'). cbn [mapM]. rewrite Es. cbn [rbind]. rewrite Hc, E1.
        cbn [mapM]. rewrite H3, E4. cbn [length]. auto 8. }
      destruct H as (outs & l' & E1 & E2 & E2' & E3 & E4 & E5).
      assert (Hj : encodable (join d outs) = true).
      { clear - Hd E2'. unfold encodable in *. induction E2' as [|x l Hx HF IH]; [reflexivity|].
        destruct l as [|y l]; [exact Hx|].
        change (join d (x :: y :: l)) with (x ++ d ++ join d (y :: l)). rewrite !forallb_app, Hx, Hd, IH. reflexivity. }
      exists (VText (join d outs)), (join d outs), (VList l'). cbn [JuiceArgs.encode iter rbind].
      split; [rewrite E1; reflexivity|]. split; [now apply arrives_text|]. split; [|now constructor].
      cbn [JuiceArgs.decode]. destruct d as [|d0 d1]; [destruct Ho as [Ho _]; congruence|].
      rewrite split_join; auto; [rewrite E4; reflexivity|].
      intros ->. destruct l; [congruence|discriminate].
    - destruct Hf as (Hnd & Hcan & l & -> & HF).
      assert (H : exists outs bs l', mapM (fun o => match o with
                               | VDict d => st <- objectsToStrings ulower (encs subs) d ;; serialize_vals st
                               | _ => Err AttributeError
                               end) l = Ok outs /\ wires bs outs /\ Forall (sendable ulower) bs /\
          Forall is_text outs /\
          mapM (fun b => o <- stringsToObjects (decs subs) (vtexts b) ;; Ok (VDict o)) (map received bs) = Ok l' /\
          Forall2 same l l').
      { induction HF as [|x l Hx HF IHl]; [exists [], [], []; repeat split; constructor|].
        destruct IHl as (outs & bs & l' & E1 & E2 & E3 & E4 & E5 & E6).
        destruct Hx as (d & -> & Hwf & Hsub & Hall). apply fold_and in Hall. rewrite Forall_forall in Hall.
        assert (Hid : normalized ulower d = d).
        { apply normalized_id; auto. apply Forall_forall. intros k Hk. apply Hsub in Hk.
          apply in_map_iff in Hk as (a & <- & Ha). rewrite Forall_forall in Hcan. specialize (Hcan _ Ha).
          unfold canonical in Hcan. rewrite !andb_true_iff in Hcan. destruct Hcan as [[_ Hc] _].
          destruct (eqb_spec (normalizeKey ulower (fst (fst a))) (fst (fst a))); congruence. }
        destruct (args_wire subs d Hnd Hcan IH) as (st & b & w & H1 & H2 & H3 & H4 & H5 & _ & H6).
        { rewrite Hid. intros a Ha. destruct (Hall a Ha) as (y & Ey & Hy). unfold sub_name. now rewrite Ey. }
        destruct (received_same b (proj1 H4)) as [Hwr Heq].
        destruct (H6 (received b)) as (objs & H7 & H8 & H9).
        { intros n _. symmetry. apply Heq. }
        exists (w :: outs), (b :: bs), (VDict objs :: l'). cbn [mapM map]. rewrite H1. cbn [rbind]. rewrite H2, E1, H7.
        cbn [rbind]. rewrite E5. split; [reflexivity|]. split; [constructor; auto|]. split; [constructor; auto|].
        split; [constructor; auto|]. split; [reflexivity|]. constructor; [|exact E6].
        rewrite Hid in H9. constructor.
        - intros k. apply eq_iff_eq_true. rewrite !din_keys, H8. split; [apply Hsub|].
          intros Hk. apply in_map_iff in Hk as (a & <- & Ha). destruct (Hall a Ha) as (y & Ey & _).
          eapply dget_Some_keys; eauto.
        - intros k x y Hx Hy. assert (Hk : In k (map sub_name subs)).
          { apply Hsub. eapply dget_Some_keys; eauto. }
          specialize (H9 k Hk). rewrite Hx in H9. destruct H9 as (y' & Hy' & Hs). congruence. }
      destruct H as (outs & bs & l' & E1 & E2 & E3 & E4 & E5 & E6).
      destruct (is_text_concat _ E4) as [t Ht].
      exists (VBytes (concat outs)), t, (VList l'). cbn [JuiceArgs.encode iter rbind].
      fold (encs subs). split; [rewrite E1; reflexivity|]. split.
      { exists (PB (concat outs)), (concat outs). auto. }
      split; [|now constructor]. cbn [JuiceArgs.decode as_pv rbind ensure_binary]. rewrite Ht. cbn [rbind].
      assert (Hp : parseString ulower (concat outs) = Ok (map received bs)).
      { rewrite (parseString_bfin ulower). rewrite (stream_bfin ulower ulower_ascii bs outs [] E3 E2). reflexivity. }
      rewrite Hp. cbn [rbind]. exact (f_equal (fun r => l0 <- r ;; Ok (VList l0)) E5).
    - destruct Hf as (t & s & u & -> & H1 & H2 & H3 & H4). exists (VText s), s, (VTime u). cbn [JuiceArgs.encode JuiceArgs.decode]. rewrite H1, H3.
      split; [reflexivity|]. split; [now apply arrives_text|]. split; [reflexivity|now constructor].
    - destruct Hf.
    - destruct Hf.
    - destruct Hf.
    - destruct Hf as (s & H1 & H2 & H3). exists (VText s), s, v. cbn. auto using arrives_text, same_refl.
  Qed.
End Fits.
