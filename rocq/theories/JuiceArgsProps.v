(** * Properties of command arguments (C42-C44, C86) *)

From Coq Require Import ZArith NArith String List Bool Arith Permutation.
From Verif Require Import Py PyStr PyNum PyInt PySplit Utf8 Liner JuiceCodec JuiceStream JuiceArgs.
Import ListNotations.
Open Scope nat_scope.

(** [ulower] is [str.lower]; [oenc] and [odec] are [toString] and
    [fromString] of the argument classes that are not modelled. *)
Definition lowers (ulower : str -> str) : Prop :=
  forall s, is_ascii s = true -> ulower s = map ascii_lower s.

(** ** C42 *)

(** The values of each class, with no further condition. *)
Fixpoint typed (c : codec) (v : val) {struct c} : Prop :=
  match c with
  | CInteger => exists z, v = VInt z
  | CString => exists s, v = VText s
  | CBoolean => exists b, v = VBool b
  | CListOf sub _ => exists l, v = VList l /\ Forall (typed sub) l
  | CJuiceList subs => exists l, v = VList l /\
      Forall (fun x => exists d, x = VDict d /\ wf_dict d /\ keys d = map (fun a => fst (fst a)) subs /\
        fold_right (fun a P => (exists y, dget d (fst (fst a)) = Some y /\ typed (snd a) y) /\ P) True subs) l
  | CTime => exists t, v = VTime t /\ Extime.ok_time t
  | CUnicode | CPath | CBase64 | CEncoded _ | COther _ => False
  end.

Definition C42_full : Prop :=
  forall ulower oenc odec, lowers ulower -> forall c v e, typed c v -> encode ulower oenc c v = Ok e ->
  exists v', decode ulower odec c e = Ok v' /\ same v v'.

(** The empty list is encoded as a list of one empty item; and a delimiter
    that can overlap itself splits elsewhere than where it joined. *)
Theorem C42_codecs_refuted : forall ulower oenc odec,
  (encode ulower oenc (CListOf CInteger (lit ", ")) (VList []) = Ok (VText []) /\
   decode ulower odec (CListOf CInteger (lit ", ")) (VText []) = Err ValueError) /\
  (encode ulower oenc (CListOf CString (lit ", ")) (VList []) = Ok (VText []) /\
   decode ulower odec (CListOf CString (lit ", ")) (VText []) = Ok (VList [VText []])) /\
  (encode ulower oenc (CListOf CString (lit "aa")) (VList [VText (lit "ba"); VText (lit "b")]) = Ok (VText (lit "baaab")) /\
   decode ulower odec (CListOf CString (lit "aa")) (VText (lit "baaab")) = Ok (VList [VText (lit "b"); VText (lit "ab")])) /\
  ~ C42_full.
Proof.
  intros ulower oenc odec. split; [split; reflexivity|]. split; [split; reflexivity|]. split; [split; reflexivity|].
  intros H. destruct (H (map ascii_lower) (fun _ _ => Ok VNone) (fun _ _ => Ok VNone) (fun s _ => eq_refl)
    (CListOf CInteger (lit ", ")) (VList []) (VText [])) as (v' & E & _).
  - exists []. split; [reflexivity|constructor].
  - reflexivity.
  - discriminate.
Qed.
Print Assumptions C42_codecs_refuted.

(** Whatever [fits]: integers, text, booleans, lists that are not empty, lists
    of dictionaries, nested to any depth.  The encoded value can be sent, and
    decoding the text that arrives gives an equal value.
    Missing for the full claim: the empty ListOf, and delimiters that overlap
    themselves. *)
Theorem C42_codecs_partial : forall ulower, lowers ulower -> forall oenc odec c v, fits ulower oenc odec c v ->
  exists e s v', encode ulower oenc c v = Ok e /\ arrives e s /\
    decode ulower odec c (VText s) = Ok v' /\ same v v'.
Proof. intros ulower Hl oenc odec. exact (codec_survives ulower Hl oenc odec). Qed.
Print Assumptions C42_codecs_partial.

(** Which delimiters work for a list of texts: exactly those that cannot
    overlap themselves. *)
Theorem C42_delimiters : forall ulower oenc odec d, d <> [] ->
  (no_overlap d <->
   forall l e, l <> [] -> encode ulower oenc (CListOf CString d) (VList (map VText l)) = Ok e ->
     decode ulower odec (CListOf CString d) e = Ok (VList (map VText l))).
Proof.
  intros ulower oenc odec d Hd.
  assert (Henc : forall l e, encode ulower oenc (CListOf CString d) (VList (map VText l)) = Ok e ->
     e = VText (join d l) /\ Forall (fun x => containsb d x = false) l).
  { intros l e. cbn [encode iter rbind].
    assert (Hm : forall outs, mapM (fun x => rbind (Ok x) (fun o => match o with
                               | VText s => if containsb d s then Err AssertionError else Ok s
                               | _ => Err TypeError end)) (map VText l) = Ok outs ->
      outs = l /\ Forall (fun x => containsb d x = false) l).
    { induction l as [|x l IH]; intros outs; cbn [map mapM rbind]; intros E.
      - inversion E. split; [reflexivity|constructor].
      - destruct (containsb d x) eqn:Ec; [discriminate|]. cbn [rbind] in IH.
        destruct (mapM _ (map VText l)) as [outs'|] eqn:Em; [|discriminate].
        destruct (IH outs' eq_refl) as [-> HF]. inversion E. auto. }
    destruct (mapM _ (map VText l)) as [outs|]; [|discriminate]. cbn [rbind]. intros E.
    destruct (Hm outs eq_refl) as [-> HF]. inversion E. auto. }
  assert (Henc2 : forall l, Forall (fun x => containsb d x = false) l ->
     encode ulower oenc (CListOf CString d) (VList (map VText l)) = Ok (VText (join d l))).
  { intros l HF. cbn [encode iter rbind].
    enough (Hm : mapM (fun x => match x with
                               | VText s => if containsb d s then Err AssertionError else Ok s
                               | _ => Err TypeError end) (map VText l) = Ok l).
    { rewrite Hm. reflexivity. }
    induction HF as [|x l Hx HF IH]; [reflexivity|]. cbn [map mapM]. now rewrite Hx, IH. }
  assert (Hdec : forall s, decode ulower odec (CListOf CString d) (VText s) = Ok (VList (map VText (split d s)))).
  { intros s. cbn [decode]. destruct d as [|d0 d1]; [congruence|].
    enough (Hm : forall l, mapM (fun x => Ok (VText x)) l = Ok (map VText l)) by (rewrite Hm; reflexivity).
    induction l as [|x l IH]; [reflexivity|]. cbn [mapM map]. now rewrite IH. }
  split.
  - intros Ho l e Hne E. destruct (Henc l e E) as [-> HF]. rewrite Hdec, split_join; auto.
  - intros H. apply split_join_only; [exact Hd|]. intros l Hne HF.
    specialize (H l _ Hne (Henc2 l HF)). rewrite Hdec in H.
    injection H as H. clear - H. revert H. generalize (split d (join d l)). intros m. revert l.
    induction m as [|x m IH]; intros [|y l] E; try discriminate; [reflexivity|].
    cbn [map] in E. inversion E; subst. f_equal. auto.
Qed.
Print Assumptions C42_delimiters.

(** a list of lists of numbers inside a list of dictionaries inside a list of
    dictionaries, with an absent optional argument and a body *)
Definition ex_inner : list (str * bool * codec) :=
  [(lit "ns", false, CListOf (CListOf CInteger (lit ", ")) (lit "; ")); (lit "note", true, CString); (lit "body", false, CBoolean)].
Definition ex_codec : codec := CJuiceList [(lit "inner", false, CJuiceList ex_inner); (lit "name", false, CString)].
Definition ex_dict : val :=
  VDict [(lit "body", VBool true); (lit "note", VNone); (lit "ns", VList [VList [VInt (-3); VInt 12]; VList [VInt 0]])].
Definition ex_value : val :=
  VList [VDict [(lit "name", VText [233%N; 13%N; 10%N]); (lit "inner", VList [ex_dict; ex_dict])];
         VDict [(lit "inner", VList []); (lit "name", VText [])]].

Ltac nodup := unfold wf_dict, keys; cbn;
  repeat first [apply NoDup_nil | apply NoDup_cons; [cbn; intuition discriminate|]].
Ltac fall := repeat (apply Forall_cons; [vm_compute; reflexivity|]); apply Forall_nil.

Example C42_nonvacuous : fits (map ascii_lower) (fun _ _ => Err TypeError) (fun _ _ => Err TypeError) ex_codec ex_value.
Proof.
  assert (Hov : forall d, d = lit ", " \/ d = lit "; " -> no_overlap d).
  { intros d [->| ->]; apply no_overlapb_spec; reflexivity. }
  assert (Hints : forall l, l <> [] ->
    Forall (fun x => exists z, x = VInt z) l -> Forall (fun x => exists s, encode (map ascii_lower) (fun _ _ => Err TypeError) CInteger x = Ok (VText s) /\ containsb (lit ", ") s = false) l ->
    fits (map ascii_lower) (fun _ _ => Err TypeError) (fun _ _ => Err TypeError) (CListOf CInteger (lit ", ")) (VList l)).
  { intros l Hne H1 H2. cbn [fits]. split; [auto|]. split; [reflexivity|]. exists l. split; [reflexivity|]. split; [exact Hne|].
    rewrite Forall_forall in *. intros x Hx. split; [apply H1, Hx|apply H2, Hx]. }
  assert (Hinner : exists d, ex_dict = VDict d /\ wf_dict d /\
            (forall k, In k (keys d) -> In k (map (fun a => fst (fst a)) ex_inner)) /\
            fold_right (fun a P => (exists y, dget d (fst (fst a)) = Some y /\ arg_fits (map ascii_lower) (fun _ _ => Err TypeError) (fits (map ascii_lower) (fun _ _ => Err TypeError) (fun _ _ => Err TypeError)) a y) /\ P) True ex_inner).
  { eexists. split; [reflexivity|]. split; [nodup|]. split.
    - unfold keys. cbn. intuition.
    - cbn [fold_right ex_inner]. split; [|split; [|split; [|exact I]]].
      + eexists. split; [reflexivity|]. right. split; [|discriminate]. cbn [snd].
        cbn [fits]. split; [auto|]. split; [reflexivity|]. eexists. split; [reflexivity|]. split; [discriminate|].
        repeat (apply Forall_cons || apply Forall_nil); (split; [apply Hints; [discriminate| |]|eexists; split; [vm_compute; reflexivity|reflexivity]]).
        all: repeat (apply Forall_cons || apply Forall_nil);
          first [eexists; reflexivity|eexists; split; [vm_compute; reflexivity|reflexivity]].
      + eexists. split; [reflexivity|]. left. auto.
      + eexists. split; [reflexivity|]. right. split; [exists true; reflexivity|]. intros _.
        exists (VText (lit "True")), (lit "True"). split; [reflexivity|]. split; [apply arrives_text; reflexivity|].
        split; [discriminate|reflexivity]. }
  unfold ex_codec, ex_value. cbn [fits]. split; [nodup|]. split; [fall|]. eexists. split; [reflexivity|].
  repeat (apply Forall_cons || apply Forall_nil); (eexists; split; [reflexivity|]; split; [nodup|]; split;
    [unfold keys; cbn; intuition|]); cbn [fold_right]; (split; [|split; [|exact I]]).
  all: eexists; (split; [reflexivity|]); right; (split; [|discriminate]); cbn [snd].
  2,4: eexists; split; reflexivity.
  all: cbn [fits]; split; [nodup|]; split; [fall|]; eexists; (split; [reflexivity|]);
    repeat (apply Forall_cons || apply Forall_nil); exact Hinner.
Qed.

(** ** C43 *)

(** A schema is any list of names, whether they are optional, and their
    functions.  [given objects n v]: the dictionary has the value [v] under
    some spelling of the name [n]. *)
Theorem C43_dictionary : forall ulower (cs : list argd) (objects : dict str val),
  NoDup (map argd_name cs) -> NoDup (map (normalizeKey ulower) (keys objects)) ->
  (forall n o enc dec, In (n, o, (enc, dec)) cs ->
     (o = true /\ forall v, given ulower objects n v -> v = VNone) \/
     (exists v e, given ulower objects n v /\ enc v = Ok e /\ e <> VNone /\ dec e = Ok v)) ->
  exists st objs, objectsToStrings ulower (map encf cs) objects = Ok st /\
    stringsToObjects (map decf cs) st = Ok objs /\ keys objs = map argd_name cs /\
    forall n o enc dec, In (n, o, (enc, dec)) cs ->
      (forall v, given ulower objects n v -> dget objs n = Some v) /\
      ((forall v, ~ given ulower objects n v) -> dget objs n = Some VNone).
Proof. exact objects_roundtrip. Qed.
Print Assumptions C43_dictionary.

(** The same over the wire, for the modelled classes: serialized, parsed by
    the receiver, decoded. *)
Theorem C43_wire : forall ulower, lowers ulower -> forall oenc odec subs objects,
  NoDup (map sub_name subs) -> Forall (fun a => canonical ulower (sub_name a) = true) subs ->
  NoDup (map (normalizeKey ulower) (keys objects)) ->
  (forall n o c, In (n, o, c) subs ->
     (o = true /\ forall v, ~ given ulower objects n v) \/
     (exists v, given ulower objects n v /\ arg_fits ulower oenc (fits ulower oenc odec) (n, o, c) v)) ->
  exists st w b objs, objectsToStrings ulower (encs ulower oenc subs) objects = Ok st /\
    serialize_vals st = Ok w /\ parseString ulower w = Ok [b] /\
    stringsToObjects (decs ulower odec subs) (vtexts b) = Ok objs /\
    keys objs = map sub_name subs /\
    forall n, In n (map sub_name subs) ->
      (forall v, given ulower objects n v -> exists y, dget objs n = Some y /\ same v y) /\
      ((forall v, ~ given ulower objects n v) -> dget objs n = Some VNone).
Proof.
  intros ulower Hl oenc odec subs objects Hnd Hcan Hk Hg.
  assert (Hfit : args_fit ulower oenc odec subs (normalized ulower objects)).
  { intros [[n o] c] Ha. change (sub_name (n, o, c)) with n. destruct (Hg n o c Ha) as [[-> H]|(v & H & F)].
    - destruct (dget (normalized ulower objects) n) as [x|] eqn:E; [|reflexivity]. apply dget_normalized in E; [|exact Hk]. exfalso. eapply H; exact E.
    - apply (dget_normalized ulower objects n v Hk) in H. rewrite H. exact F. }
  destruct (args_wire ulower Hl oenc odec subs objects Hnd Hcan) as (st & b & w & H1 & H2 & H3 & H4 & _ & _ & H5); auto.
  { apply Forall_forall. intros a _. apply codec_survives. exact Hl. }
  destruct (roundtrip ulower Hl b H4) as (w' & E & Hp). assert (w' = w) by congruence. subst w'.
  destruct (received_same b (proj1 H4)) as [_ Heq].
  destruct (H5 (received b)) as (objs & H6 & H7 & H8); [intros n _; symmetry; apply Heq|].
  exists st, w, (received b), objs. do 5 (split; [assumption|]). intros n Hn. specialize (H8 n Hn). split.
  - intros v Hv. apply (dget_normalized ulower objects n v Hk) in Hv. now rewrite Hv in H8.
  - intros Hv. destruct (dget (normalized ulower objects) n) as [x|] eqn:Ex; [|exact H8]. apply dget_normalized in Ex; [|exact Hk]. exfalso. eapply Hv; exact Ex.
Qed.
Print Assumptions C43_wire.

(** A missing required argument is never sent, nor made up on receipt. *)
Theorem C43_missing : forall ulower (cs : list argd) n enc dec,
  NoDup (map argd_name cs) -> In (n, false, (enc, dec)) cs ->
  (forall objects, NoDup (map (normalizeKey ulower) (keys objects)) -> (forall v, ~ given ulower objects n v) ->
     exists e, objectsToStrings ulower (map encf cs) objects = Err e) /\
  (forall strings, dget strings n = None -> exists e, stringsToObjects (map decf cs) strings = Err e).
Proof.
  intros ulower cs n enc dec Hnd Hin. split.
  - intros objects Hk Hn. eapply objects_missing; eauto.
  - intros strings Hn. eapply strings_missing; eauto.
Qed.
Print Assumptions C43_missing.

Example C43_nonvacuous :
  let l := map ascii_lower in
  let enc := encode l (fun _ _ => Err TypeError) in let dec := decode l (fun _ _ => Err TypeError) in
  let cs : list argd := [(lit "first_name", false, (enc CString, dec CString));
                         (lit "count", true, (enc CInteger, dec CInteger))] in
  exists st, objectsToStrings l (map encf cs) [(lit "First-Name", VText (lit "x"))] = Ok st /\
    stringsToObjects (map decf cs) st = Ok [(lit "first_name", VText (lit "x")); (lit "count", VNone)] /\
    objectsToStrings l (map encf cs) [(lit "count", VInt 3)] = Err KeyError.
Proof. eexists. split; [vm_compute; reflexivity|]. split; vm_compute; reflexivity. Qed.

(** ** C44 *)

(** [command_init args kw]: building a command whose arguments are [args]
    (names, and whether they are optional) with the keywords [kw]. *)
Theorem C44_forgotten : forall ulower (args : list (str * bool)) (kw : dict str val),
  (command_init ulower args kw = Err RuntimeError <->
   exists name, In (name, false) args /\
     forall k, In k (keys kw) -> normalizeKey ulower k <> normalizeKey ulower name) /\
  (command_init ulower args kw = Ok kw <->
   forall name, In (name, false) args ->
     exists k, In k (keys kw) /\ normalizeKey ulower k = normalizeKey ulower name).
Proof.
  intros ulower args kw. destruct (command_init_spec ulower args kw) as [[E (name & Hin & H)]|[E H]]; rewrite E.
  - split; split; intros H1; auto; try discriminate; eauto.
    exfalso. destruct (H1 name Hin) as (k & Hk & Hn). apply (H k Hk Hn).
  - split; split; intros H1; auto; try discriminate.
    exfalso. destruct H1 as (name & Hin & Hn). destruct (H name Hin) as (k & Hk & Hk'). apply (Hn k Hk Hk').
Qed.
Print Assumptions C44_forgotten.

Example C44_nonvacuous :
  command_init (map ascii_lower) [(lit "one-two", false); (lit "three", true)] [(lit "One_Two", VInt 1)]
    = Ok [(lit "One_Two", VInt 1)] /\
  command_init (map ascii_lower) [(lit "one-two", false); (lit "three", false)] [(lit "One_Two", VInt 1)]
    = Err RuntimeError.
Proof. split; reflexivity. Qed.

(** ** C86 *)

(** No Unicode argument survives: it is encoded to bytes, arrives as text,
    and text cannot be decoded. *)
Theorem C86_unicode_refuted : forall ulower oenc odec s, encodable s = true ->
  exists e, encode ulower oenc CUnicode (VText s) = Ok e /\ arrives e s /\
    decode ulower odec CUnicode (VText s) = Err AttributeError.
Proof.
  intros ulower oenc odec s Hs. apply utf8_encode_ok in Hs as [w Hw].
  exists (VBytes w). cbn. rewrite Hw. split; [reflexivity|]. split; [|reflexivity].
  exists (PB w), w. auto.
Qed.
Print Assumptions C86_unicode_refuted.

(** What is sent is right: the UTF-8 of the text, from which the text would be
    decoded if it were handed over as bytes, and different for different
    texts; only texts with surrogates are refused, when sent.  Missing for the
    claim: that the receiving side hands over bytes. *)
Theorem C86_sent_partial : forall ulower oenc odec s,
  (encodable s = true -> exists w, utf8_encode s = Ok w /\ encode ulower oenc CUnicode (VText s) = Ok (VBytes w) /\
     decode ulower odec CUnicode (VBytes w) = Ok (VText s) /\
     forall s', encode ulower oenc CUnicode (VText s') = Ok (VBytes w) -> s' = s) /\
  (encodable s = false -> encode ulower oenc CUnicode (VText s) = Err UnicodeError).
Proof.
  intros ulower oenc odec s. split; intros Hs.
  - apply utf8_encode_ok in Hs as [w Hw]. exists w. split; [exact Hw|]. cbn [encode decode]. rewrite Hw. split; [reflexivity|].
    rewrite (utf8_decode_encode s w Hw). split; [reflexivity|]. intros s' E. destruct (utf8_encode s') as [w'|] eqn:E'; [|discriminate E]. injection E as ->.
    apply utf8_decode_encode in E', Hw. congruence.
  - cbn [encode]. destruct (utf8_encode s) as [w|e] eqn:E; [|now rewrite (utf8_encode_err s e E)].
    exfalso. unfold encodable in Hs. rewrite (proj2 (utf8_encode_ok s)) in Hs by eauto. discriminate.
Qed.
Print Assumptions C86_sent_partial.

Example C86_nonvacuous : encodable [233%N; 97%N] = true /\ utf8_encode [233%N; 97%N] = Ok [195%N; 169%N; 97%N] /\ encodable [0xD800%N] = false.
Proof. split; [|split]; reflexivity. Qed.
