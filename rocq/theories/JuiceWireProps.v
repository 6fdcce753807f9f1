(** * Properties of boxes on the wire (C37-C41) *)

From Coq Require Import ZArith NArith String List Bool Arith Lia.
From Verif Require Import Py PyStr PyNum PyInt Utf8 Liner JuiceCodec JuiceStream.
Import ListNotations.
Open Scope nat_scope.

(** Throughout, [ulower] is [str.lower]: any function that lower-cases ASCII
    text as expected. *)
Definition lowers (ulower : str -> str) : Prop :=
  forall s, is_ascii s = true -> ulower s = map ascii_lower s.

(** ** C37 *)

(** A box without a body, with canonical keys and any encodable text values,
    is parsed from its serialization, with the same items in the same order. *)
Theorem C37_roundtrip : forall ulower, lowers ulower -> forall b : dict str str,
  wf_dict b ->
  Forall (fun k => canonical ulower k = true) (keys b) ->
  Forall (fun v => encodable v = true) (values b) ->
  ~ In (lit "body") (keys b) ->
  exists w, serialize (texts b) = Ok w /\ parseString ulower w = Ok [b].
Proof.
  intros ulower Hl b Hw Hk Hv Hb.
  destruct (@roundtrip ulower Hl b) as (w & H1 & H2).
  { split; [exact Hw|]. split; [exact Hk|]. split; [exact Hv|].
    intros v Hg. apply dget_Some_keys in Hg. contradiction. }
  exists w. split; [exact H1|]. unfold received in H2.
  apply dget_None in Hb. fold BODY in Hb. rewrite Hb in H2. exact H2.
Qed.
Print Assumptions C37_roundtrip.

(** Text that UTF-8 cannot encode is never put on the wire. *)
Theorem C37_only_encodable : forall (b : dict str str) w, wf_dict b -> serialize (texts b) = Ok w ->
  Forall (fun v => encodable v = true) (values b) /\ Forall (fun k => encodable k = true) (keys b).
Proof. exact serialize_encodable. Qed.
Print Assumptions C37_only_encodable.

(** A box with the reserved key [_length] is refused with AssertionError; any
    other box of encodable text is sent, and text which cannot be encoded gives
    UnicodeError, nothing else. *)
Theorem C37_refused : forall b : dict str str, wf_dict b ->
  (In (lit "_length") (keys b) -> serialize (texts b) = Err AssertionError) /\
  (~ In (lit "_length") (keys b) -> (exists w, serialize (texts b) = Ok w) \/ serialize (texts b) = Err UnicodeError) /\
  (~ In (lit "_length") (keys b) -> Forall (fun v => encodable v = true) (values b) -> Forall (fun k => encodable k = true) (keys b) ->
   exists w, serialize (texts b) = Ok w).
Proof. exact serialize_refused. Qed.
Print Assumptions C37_refused.

Ltac nodup := unfold wf_dict, keys; cbn;
  repeat first [apply NoDup_nil | apply NoDup_cons; [cbn; intuition discriminate|]].

Ltac fall := repeat (apply Forall_cons; [vm_compute; reflexivity|]); apply Forall_nil.

(** a keyword, dashes in a value, a value that looks like a header, blank
    lines, characters outside ASCII *)
Definition ex_ascii_box : dict str str :=
  [(lit "Class", lit "a-b_C"); (lit "_ask", lit "x" ++ CRLF ++ lit "-Command: quit" ++ CRLF ++ CRLF ++ lit " ");
   (lit "name_2", [233; 128512; 13]%N); ([], [])].

Example C37_nonvacuous : lowers (map ascii_lower) /\ wf_dict ex_ascii_box /\
  Forall (fun k => canonical (map ascii_lower) k = true) (keys ex_ascii_box) /\
  Forall (fun v => encodable v = true) (values ex_ascii_box) /\ ~ In (lit "body") (keys ex_ascii_box) /\
  serialize (texts ex_ascii_box) =
    Ok (lit "Class: a-b_C" ++ CRLF ++ lit "-Ask: x" ++ CRLF ++ lit " -Command: quit" ++ CRLF ++
        lit " " ++ CRLF ++ lit "  " ++ CRLF ++
        lit "Name-2: " ++ [195; 169; 240; 159; 152; 128; 13]%N ++ CRLF ++ lit ": " ++ CRLF ++ CRLF).
Proof.
  split; [intros s _; reflexivity|]. split; [nodup|].
  split; [fall|].
  split; [fall|].
  split; [|vm_compute; reflexivity].
  unfold keys. cbn. intuition discriminate.
Qed.

(** ** C38 *)

Definition C38_full : Prop :=
  forall ulower, lowers ulower -> forall (b : dict str str) v,
  wf_dict b -> Forall (fun k => canonical ulower k = true) (keys b) ->
  Forall (fun v => encodable v = true) (values b) -> dget b (lit "body") = Some v ->
  exists w b', serialize (texts b) = Ok w /\ parseString ulower w = Ok [b'] /\ dget b' (lit "body") = Some v.

(** A body with a character outside ASCII is announced with its length in
    characters, so that parsing it fails, or cuts it; an empty body is not
    received at all. *)
Theorem C38_body_refuted :
  (exists w, serialize (texts [(lit "body", [233%N])]) = Ok w /\
             parseString (map ascii_lower) w = Err UnicodeError) /\
  (exists w, serialize (texts [(lit "body", [233; 97]%N)]) = Ok w /\
             parseString (map ascii_lower) w = Ok [[(lit "body", [233%N])]]) /\
  (exists w, serialize (texts [(lit "body", [])]) = Ok w /\
             parseString (map ascii_lower) w = Ok [[]]) /\
  ~ C38_full.
Proof.
  split; [eexists; split; [vm_compute; reflexivity|vm_compute; reflexivity]|].
  split; [eexists; split; [vm_compute; reflexivity|vm_compute; reflexivity]|].
  split; [eexists; split; [vm_compute; reflexivity|vm_compute; reflexivity]|].
  intros H. destruct (H (map ascii_lower) (fun s _ => eq_refl) [(lit "body", [])] []) as (w & b' & H1 & H2 & H3).
  - nodup.
  - fall.
  - fall.
  - reflexivity.
  - vm_compute in H1. injection H1 as <-. vm_compute in H2. injection H2 as <-. discriminate.
Qed.
Print Assumptions C38_body_refuted.

(** A non-empty ASCII body is received as it was sent, with all other items.
    Missing for the full claim: empty bodies and bodies outside ASCII. *)
Theorem C38_body_partial : forall ulower, lowers ulower -> forall (b : dict str str) v,
  wf_dict b -> Forall (fun k => canonical ulower k = true) (keys b) ->
  Forall (fun v => encodable v = true) (values b) -> dget b (lit "body") = Some v ->
  v <> [] -> is_ascii v = true ->
  exists w b', serialize (texts b) = Ok w /\ parseString ulower w = Ok [b'] /\
    wf_dict b' /\ (forall k, dget b' k = dget b k).
Proof.
  intros ulower Hl b v Hw Hk Hv Hg Hne Ha.
  destruct (@roundtrip ulower Hl b) as (w & H1 & H2).
  { split; [exact Hw|]. split; [exact Hk|]. split; [exact Hv|].
    intros v' Hg'. fold BODY in Hg. rewrite Hg in Hg'. injection Hg' as <-. auto. }
  destruct (@received_same b Hw) as [H3 H4].
  exists w, (received b). split; [exact H1|]. split; [exact H2|]. split; [exact H3|].
  intros k. symmetry. apply H4.
Qed.
Print Assumptions C38_body_partial.

(** Exactly the non-empty ASCII bodies arrive: for any other text, whatever
    the other items, no parse of the bytes begins with a box holding it. *)
Theorem C38_exact_partial : forall ulower, lowers ulower -> forall (b : dict str str) v,
  wf_dict b -> Forall (fun k => canonical ulower k = true) (keys b) ->
  Forall (fun v => encodable v = true) (values b) -> dget b (lit "body") = Some v ->
  (exists w b' l, serialize (texts b) = Ok w /\ parseString ulower w = Ok (b' :: l) /\
     dget b' (lit "body") = Some v) <->
  v <> [] /\ is_ascii v = true.
Proof.
  intros ulower Hl b v Hw Hk Hv Hg. split.
  - intros (w & b' & l & H1 & H2 & H3). exact (@body_arrives ulower Hl b v w b' l Hw Hk Hv Hg H1 H2 H3).
  - intros [Hne Ha].
    destruct (C38_body_partial ulower Hl b v Hw Hk Hv Hg Hne Ha) as (w & b' & H1 & H2 & _ & H4).
    exists w, b', []. split; [exact H1|]. split; [exact H2|]. rewrite H4. exact Hg.
Qed.
Print Assumptions C38_exact_partial.

Example C38_nonvacuous :
  let b := [(lit "body", lit "a" ++ CRLF ++ CRLF ++ lit "Length: 7"); (lit "k", lit "v")] in
  wf_dict b /\ Forall (fun k => canonical (map ascii_lower) k = true) (keys b) /\
  Forall (fun v => encodable v = true) (values b) /\
  exists w, serialize (texts b) = Ok w /\ parseString (map ascii_lower) w = Ok [rev b].
Proof.
  cbv zeta. split; [nodup|]. split; [fall|]. split; [fall|].
  eexists. split; [vm_compute; reflexivity|vm_compute; reflexivity].
Qed.

(** ** C39 *)

(** All the bytes of a list of boxes, in any chunks: the boxes are delivered
    in order, and the receiver is as it was at the start. *)
Theorem C39_stream : forall ulower, lowers ulower ->
  forall (bs : list (dict str str)) ws chunks, Forall (sendable ulower) bs -> wires bs ws ->
  concat chunks = concat ws ->
  exists p l, feed (jline ulower collect) (jraw collect) (jstart []) chunks = Some (p, Ok tt, l) /\
    jst (app_ p) = map received bs /\ p = jstart (map received bs).
Proof. exact @stream_all. Qed.
Print Assumptions C39_stream.

(** The first [k] boxes and a proper part of the next one, in any chunks:
    exactly the first [k] boxes are delivered. *)
Theorem C39_prefix : forall ulower, lowers ulower ->
  forall (bs : list (dict str str)) ws chunks k q q', Forall (sendable ulower) bs -> wires bs ws ->
  nth_error ws k = Some (q ++ q') -> q' <> [] ->
  concat chunks = concat (firstn k ws) ++ q ->
  exists p l, feed (jline ulower collect) (jraw collect) (jstart []) chunks = Some (p, Ok tt, l) /\
    jst (app_ p) = map received (firstn k bs).
Proof. exact @stream_prefix. Qed.
Print Assumptions C39_prefix.

(** A received box has the items of the box sent. *)
Theorem C39_same_items : forall b : dict str str, wf_dict b ->
  wf_dict (received b) /\ forall k, dget (received b) k = dget b k.
Proof.
  intros b Hw. destruct (@received_same b Hw) as [H1 H2]. split; [exact H1|].
  intros k. symmetry. apply H2.
Qed.
Print Assumptions C39_same_items.

Definition ex_bs : list (dict str str) :=
  [[(lit "a", lit "1")]; []; [(lit "body", CRLF); (lit "b", CRLF ++ CRLF)]].
Definition ex_ws : list str :=
  [lit "A: 1" ++ CRLF ++ CRLF; CRLF;
   lit "-Length: 2" ++ CRLF ++ lit "B: " ++ CRLF ++ lit " " ++ CRLF ++ lit " " ++ CRLF ++ CRLF ++ CRLF].

Example C39_nonvacuous : Forall (sendable (map ascii_lower)) ex_bs /\ wires ex_bs ex_ws /\
  (exists p l, feed (jline (map ascii_lower) collect) (jraw collect) (jstart [])
     [lit "A: 1" ++ [CR]; [LF; CR]; [LF; CR; LF] ++ lit "-L"] = Some (p, Ok tt, l)
     /\ jst (app_ p) = map received (firstn 2 ex_bs)).
Proof.
  split; [|split].
  - unfold ex_bs. repeat (apply Forall_cons || apply Forall_nil); (split; [nodup|]);
      (split; [fall|]); (split; [fall|]);
      intros v Hv; vm_compute in Hv; try discriminate; injection Hv as <-; split; [discriminate|reflexivity].
  - repeat (apply Forall2_cons; [vm_compute; reflexivity|]); apply Forall2_nil.
  - do 2 eexists. split; [vm_compute; reflexivity|vm_compute; reflexivity].
Qed.

(** ** C40 *)

(** Any bytes at all, any state and any way of handling the boxes (which may
    raise): the boxes handled, the first exception, and the bytes still
    waiting do not depend on the chunks. *)
Theorem C40_chunking : forall ulower S (recv : S -> dict str str -> S * option exn)
  cs1 cs2 s p1 r1 l1 p2 r2 l2, concat cs1 = concat cs2 ->
  feed (jline ulower recv) (jraw recv) (jstart s) cs1 = Some (p1, r1, l1) ->
  feed (jline ulower recv) (jraw recv) (jstart s) cs2 = Some (p2, r2, l2) ->
  r1 = r2 /\ jst (app_ p1) = jst (app_ p2) /\
  (r1 = Ok tt -> buf p1 = buf p2 /\ lm p1 = lm p2 /\ app_ p1 = app_ p2).
Proof. exact @jchunking. Qed.
Print Assumptions C40_chunking.

(** and every such run ends. *)
Theorem C40_total : forall ulower S (recv : S -> dict str str -> S * option exn) cs s,
  exists p r l, feed (jline ulower recv) (jraw recv) (jstart s) cs = Some (p, r, l).
Proof.
  intros ulower S recv cs s. destruct (@feed_bfin ulower S recv cs s) as (p & r & l & H & _). eauto.
Qed.
Print Assumptions C40_total.

(** A good box, then a negative length and a line without ": ". *)
Example C40_nonvacuous :
  exists p1 p2 l1 l2,
  feed (jline (map ascii_lower) collect) (jraw collect) (jstart [])
    [lit "a: b" ++ CRLF ++ [CR]; [LF] ++ lit "-length: -3"; CRLF ++ CRLF ++ lit "junk"; CRLF; CRLF ++ lit "x"]
  = Some (p1, Err MalformedJuiceBox, l1) /\
  feed (jline (map ascii_lower) collect) (jraw collect) (jstart [])
    [lit "a: b" ++ CRLF ++ CRLF ++ lit "-length: -3" ++ CRLF ++ CRLF ++ lit "junk" ++ CRLF ++ CRLF ++ lit "x"]
  = Some (p2, Err MalformedJuiceBox, l2) /\
  jst (app_ p1) = [[(lit "a", lit "b")]; [(lit "body", [])]] /\ jst (app_ p2) = jst (app_ p1).
Proof. do 4 eexists. split; [vm_compute; reflexivity|]. split; [vm_compute; reflexivity|]. split; reflexivity. Qed.

(** ** C41 *)

(** Whatever the values are: the keys received are the normalized keys sent,
    in order, each with its value. *)
Theorem C41_keys : forall ulower, lowers ulower -> forall b : dict str str,
  Forall (fun k => good_key k = true) (keys b) ->
  NoDup (map (normalizeKey ulower) (keys b)) ->
  ~ In (lit "_length") (map (normalizeKey ulower) (keys b)) -> ~ In (lit "body") (keys b) ->
  Forall (fun v => encodable v = true) (values b) ->
  exists w, serialize (texts b) = Ok w /\
    parseString ulower w = Ok [combine (map (normalizeKey ulower) (keys b)) (values b)].
Proof.
  intros ulower Hl b H1 H2 H3 H4 Hv.
  destruct (@keys_kept ulower Hl b (conj H1 (conj H2 (conj H3 H4))) Hv) as (w & E1 & E2).
  exists w. split; [exact E1|]. rewrite E2. do 2 f_equal.
  clear. unfold keys, values. induction b as [|[k v] b IH]; [reflexivity|].
  cbn [map combine fst snd]. now rewrite IH.
Qed.
Print Assumptions C41_keys.

(** What a normalized key is: lower case, with [_] for [-]; a Python keyword
    is capitalised, so that no normalized key is one. *)
Theorem C41_normal : forall ulower, lowers ulower -> forall k, is_ascii k = true ->
  let flat := map (fun c => if N.eqb c 45 then 95%N else ascii_lower c) k in
  map ascii_lower (normalizeKey ulower k) = flat /\ ~ In (normalizeKey ulower k) keywords /\
  (~ In flat keywords -> normalizeKey ulower k = flat).
Proof.
  intros ulower Hl k Hk flat.
  assert (E : swap DASH USCORE (ulower k) = flat).
  { rewrite (Hl k Hk). unfold flat, swap. rewrite map_map. apply map_ext. intros c. unfold DASH, USCORE, ascii_lower, is_upper.
    destruct (N.eqb_spec c 45) as [->|H]; [reflexivity|]. destruct ((65 <=? c) && (c <=? 90))%N eqn:E; [|now rewrite (proj2 (N.eqb_neq c 45) H)].
    apply andb_prop in E as [E _]. apply N.leb_le in E. destruct (N.eqb_spec (c + 32) 45); [lia|reflexivity]. }
  assert (Ef : map ascii_lower flat = flat).
  { unfold flat. rewrite map_map. apply map_ext. intros c. unfold ascii_lower, is_upper. destruct (N.eqb_spec c 45) as [->|H]; [reflexivity|].
    destruct ((65 <=? c) && (c <=? 90))%N eqn:E1; [|now rewrite E1]. apply andb_prop in E1 as [E1 E2]. apply N.leb_le in E1, E2.
    destruct ((65 <=? c + 32) && (c + 32 <=? 90))%N eqn:E3; [|reflexivity]. apply andb_prop in E3 as [_ E3]. apply N.leb_le in E3. lia. }
  unfold normalizeKey. cbv zeta. rewrite E. clearbody flat. destruct (memb (flat : str) keywords) eqn:Em.
  - apply memb_In in Em. split; [|split; [|contradiction]]; cbn [keywords In] in Em;
      repeat (destruct Em as [<-|Em]; [vm_compute; intuition discriminate|]); contradiction.
  - split; [exact Ef|]. split; [|reflexivity]. intros H. apply memb_In in H. congruence.
Qed.
Print Assumptions C41_normal.

Example C41_nonvacuous :
  let b := [(lit "One-Two", CRLF ++ lit "-Answer: 1" ++ CRLF ++ CRLF); (lit "if", lit "-Length: 2")] in
  Forall (fun k => good_key k = true) (keys b) /\
  NoDup (map (normalizeKey (map ascii_lower)) (keys b)) /\
  ~ In (lit "_length") (map (normalizeKey (map ascii_lower)) (keys b)) /\ ~ In (lit "body") (keys b) /\
  Forall (fun v => encodable v = true) (values b) /\
  map (normalizeKey (map ascii_lower)) (keys b) = [lit "one_two"; lit "If"].
Proof.
  cbv zeta. split; [fall|].
  split; [cbn; repeat first [apply NoDup_nil | apply NoDup_cons; [cbn; intuition discriminate|]]|].
  split; [cbn; intuition discriminate|]. split; [cbn; intuition discriminate|].
  split; [fall|vm_compute; reflexivity].
Qed.
