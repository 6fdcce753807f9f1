(** * C42 (times), C126: the remaining classes of arguments (epsilon/juice.py)

    [ulower] is [str.lower]; [oenc n] and [odec n] are the [encode] and [decode] of
    the encoding [n] of EncodedString, or [toString] and [fromString] of a class of
    the user. *)

From Coq Require Import ZArith NArith String List Bool Lia.
From Verif Require Import Py PyStr PyInt PySplit Utf8 Cal PyTime Extime ExtimeIso ExtimeIsoVal ExtimeIsoFmt ExtimeIsoStart JuiceCodec JuiceStream JuiceArgs JuiceArgsProps JuiceTime.
Import ListNotations.
Open Scope Z_scope.

(** ** C42, of Time arguments *)

(** A time with half a second, as read from a text with one digit of the fraction,
    arrives without it. *)
Theorem C42_time_refuted : forall ulower oenc odec, exists t e u, ok_time t /\
  fromISO (lit "2004-05-06T07:08:09.5") None = Ok t /\ encode ulower oenc CTime (VTime t) = Ok e /\
  decode ulower odec CTime e = Ok (VTime u) /\ t_us u = t_us t - 500000 /\ ~ same (VTime t) (VTime u).
Proof.
  intros ulower oenc odec. exists (T 63219424089500000 100000), (VText (lit "2004-05-06T07:08:09+00:00")), (T 63219424089000000 SECOND).
  split; [split; [discriminate|reflexivity]|]. split; [vm_compute; reflexivity|]. split; [vm_compute; reflexivity|]. split; [vm_compute; reflexivity|]. split; [reflexivity|].
  intros H. inversion H as [| t u E | |]; subst. discriminate.
Qed.
Print Assumptions C42_time_refuted.

(** A time which is the start of the period of its resolution arrives as an equal
    time. *)
Theorem C42_time_partial : forall ulower oenc odec t, written_whole t ->
  exists s u, encode ulower oenc CTime (VTime t) = Ok (VText s) /\ arrives (VText s) s /\
    decode ulower odec CTime (VText s) = Ok (VTime u) /\ t_us u = t_us t.
Proof.
  intros ulower oenc odec t H. destruct (time_fits ulower oenc odec t H) as (t' & s & u & [= <-] & H1 & H2 & H3 & H4).
  exists s, u. cbn [encode decode]. rewrite H1, H3. split; [reflexivity|]. split; [now apply arrives_text|]. split; [reflexivity|]. now apply Z.eqb_eq.
Qed.
Print Assumptions C42_time_partial.

(** No other time does. *)
Theorem C42_time_exact_partial : forall ulower oenc odec t, ok_time t ->
  (exists e u, encode ulower oenc CTime (VTime t) = Ok e /\ decode ulower odec CTime e = Ok (VTime u) /\ t_us u = t_us t) <-> written_whole t.
Proof.
  intros ulower oenc odec t Ht. unfold written_whole. rewrite <- (iso_exact t true None Ht). cbn [encode]. split.
  - intros (e & u & H1 & H2 & H3). split; [exact Ht|]. destruct (asISO t true None true) as [s|]; [|discriminate]. cbn [rbind] in H1. injection H1 as <-.
    cbn [decode] in H2. destruct (fromISO s None) as [u'|] eqn:E; [|discriminate]. injection H2 as ->. exists s, u. split; [reflexivity|]. split; [exact E|]. now apply Z.eqb_eq.
  - intros (_ & s & u & H1 & H2 & H3). exists (VText s), u. rewrite H1. split; [reflexivity|]. cbn [decode]. rewrite H2. split; [reflexivity|]. now apply Z.eqb_eq.
Qed.
Print Assumptions C42_time_exact_partial.

(** So do lists of them: [iso_char c] is not true of the characters which no such
    text has. *)
Theorem C42_times_partial : forall ulower, lowers ulower -> forall oenc odec d c l,
  no_overlap d -> encodable d = true -> In c d -> ~ iso_char c -> l <> [] -> Forall written_whole l ->
  exists e s us, encode ulower oenc (CListOf CTime d) (VList (map VTime l)) = Ok e /\ arrives e s /\
    decode ulower odec (CListOf CTime d) (VText s) = Ok us /\ same (VList (map VTime l)) us.
Proof.
  intros ulower Hl oenc odec d c l Ho He Hc Hn Hne HF.
  exact (codec_survives ulower Hl oenc odec _ _ (times_fit ulower oenc odec d c l Ho He Hc Hn Hne HF)).
Qed.
Print Assumptions C42_times_partial.

Example C42_nonvacuous_times : written_whole (T 63219424089012340 1) /\ written_whole (T ((ymd2ord (D 2004 2 1) - 1) * DAY) (29 * DAY)) /\
  no_overlap (lit ", ") /\ encodable (lit ", ") = true /\ In 44%N (lit ", ") /\ ~ iso_char 44%N /\
  encode (map ascii_lower) (fun _ _ => Err TypeError) (CListOf CTime (lit ", ")) (VList [VTime (T 63219424089012340 1); VTime (T ((ymd2ord (D 2004 2 1) - 1) * DAY) (29 * DAY))]) =
    Ok (VText (lit "2004-05-06T07:08:09.01234+00:00, 2004-02")).
Proof.
  split; [vm_compute; repeat split; discriminate|]. split; [vm_compute; repeat split; discriminate|]. split; [apply no_overlapb_spec; reflexivity|].
  split; [reflexivity|]. split; [now left|]. split; [intros [_ H]; now apply H|]. vm_compute. reflexivity.
Qed.

(** ** C126 *)

(** An EncodedString, Path or Base64Binary argument is decoded as the value which
    was encoded. *)
Definition value_of (c : codec) (v : val) : Prop :=
  match c with
  | CPath => exists p, v = VPath p /\ encodable p = true
  | CBase64 => exists s, v = VBytes s
  | CEncoded _ => exists s, v = VText s
  | _ => False
  end.
Definition C126_full : Prop := forall ulower oenc odec c v, value_of c v ->
  exists e s v', encode ulower oenc c v = Ok e /\ arrives e s /\ decode ulower odec c (VText s) = Ok v' /\ same v v'.

(** False of every value: what arrives is text, which has no [decode]; and nothing can
    be encoded as base64. *)
Theorem C126_never_refuted :
  (forall ulower odec c, In c [CUnicode; CPath; CBase64] \/ (exists n, c = CEncoded n) -> forall s, decode ulower odec c (VText s) = Err AttributeError) /\
  (forall ulower oenc v, exists e, encode ulower oenc CBase64 v = Err e) /\ ~ C126_full.
Proof.
  split; [|split].
  - intros ulower odec c [H|[n ->]] s; [|reflexivity]. repeat destruct H as [<-|H]; try reflexivity. contradiction.
  - intros ulower oenc v. destruct v; eexists; reflexivity.
  - intros H. destruct (H (map ascii_lower) (fun _ _ => Err TypeError) (fun _ _ => Err TypeError) CPath (VPath (lit "/"))) as (e & s & v' & _ & _ & X & _); [|discriminate].
    exists (lit "/"). split; reflexivity.
Qed.
Print Assumptions C126_never_refuted.

(** A command, or an answer, with an argument of one of these classes (or Unicode, or
    a ListOf of them) is read only if the argument is optional and was left out. *)
Theorem C126_left_out_partial : forall ulower odec subs n o c b objs, NoDup (map sub_name subs) ->
  In (n, o, c) subs -> decodes c -> stringsToObjects (decs ulower odec subs) (vtexts b) = Ok objs ->
  o = true /\ dget b n = None /\ dget objs n = Some VNone.
Proof.
  intros ulower odec subs n o c b objs Hnd Hin Hd E.
  destruct (fromBoxes_dead ulower odec subs n o c (vtexts b) [] objs Hnd Hin Hd E (texts_only b)) as (H1 & H2 & H3).
  split; [exact H1|]. split; [|exact H3]. rewrite dget_vtexts in H2. destruct (dget b n); [discriminate|reflexivity].
Qed.
Print Assumptions C126_left_out_partial.

(** The class itself undoes what it did: given as bytes what it sent as bytes, Path (or
    Unicode) gives back the value.  It sends exactly what UTF-8 can express. *)
Theorem C126_bytes_partial : forall ulower oenc odec p,
  (forall e, encode ulower oenc CPath (VPath p) = Ok e -> exists b, e = VBytes b /\ utf8_encode p = Ok b /\ decode ulower odec CPath e = Ok (VPath p)) /\
  (forall e, encode ulower oenc CUnicode (VText p) = Ok e -> exists b, e = VBytes b /\ utf8_encode p = Ok b /\ decode ulower odec CUnicode e = Ok (VText p)) /\
  ((exists e, encode ulower oenc CPath (VPath p) = Ok e) <-> encodable p = true) /\ ((exists e, encode ulower oenc CUnicode (VText p) = Ok e) <-> encodable p = true).
Proof.
  intros ulower oenc odec p. cbn [encode decode]. pose proof (utf8_encode_ok p) as O. change (forallb is_scalar p) with (encodable p) in O.
  destruct (utf8_encode p) as [b|x] eqn:E; cbn [rbind].
  - assert (D := utf8_decode_encode p b E). assert (Y : encodable p = true) by (apply O; now exists b).
    split; [intros e H; injection H as <-; exists b; rewrite D; auto|]. split; [intros e H; injection H as <-; exists b; rewrite D; auto|]. split; (split; [auto|intros _; eauto]).
  - assert (N : encodable p <> true) by (intros H; apply O in H as [b H]; discriminate H).
    split; [intros e H; discriminate H|]. split; [intros e H; discriminate H|]. split; (split; [intros [e H]; discriminate H|intros H; contradiction]).
Qed.
Print Assumptions C126_bytes_partial.

Example C126_nonvacuous :
  let subs := [(lit "n", false, CInteger); (lit "path", true, CListOf CPath (lit ","))] in
  NoDup (map sub_name subs) /\ decodes (CListOf CPath (lit ",")) /\
  stringsToObjects (decs (map ascii_lower) (fun _ _ => Err TypeError) subs) (vtexts [(lit "n", lit "7")]) = Ok [(lit "n", VInt 7); (lit "path", VNone)] /\
  stringsToObjects (decs (map ascii_lower) (fun _ _ => Err TypeError) subs) (vtexts [(lit "n", lit "7"); (lit "path", [])]) = Err AttributeError /\
  encode (map ascii_lower) (fun _ _ => Err TypeError) CPath (VPath (lit "/x")) = Ok (VBytes (lit "/x")).
Proof.
  split; [cbn; nodup|]. split; [repeat constructor|]. repeat split; vm_compute; reflexivity.
Qed.
