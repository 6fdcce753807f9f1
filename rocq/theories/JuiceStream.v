(** * epsilon/juice.py: receiving a stream of boxes *)

From Coq Require Import ZArith NArith String List Bool Arith Lia.
From Verif Require Import Py PyStr PyNum PyInt Utf8 Liner JuiceCodec.
Import ListNotations.
Open Scope nat_scope.
Open Scope py_scope.

Section Receiver.
  Variable ulower : str -> str.
  Variable S : Type.
  (** [juiceBoxReceived] of the protocol: changes its state, may raise.
      Simplification: it does not disconnect and does not switch protocols
      (see JuiceProto.v). *)
  Variable recv : S -> dict str str -> S * option exn.

  (** [_requestBuffer]; [_bodyRemaining], [_bodyBuffer] (joined) and
      [_pendingBox] while a body is awaited; the rest of the protocol. *)
  Record japp := J { reqbuf : list str; pend : option (Z * str * dict str str); jst : S }.

  (** juice.py:880-893 [lineReceived] *)
  Definition jline (a : japp) (l : str) : japp * lact :=
    match l with
    | _ :: _ => (J (reqbuf a ++ [l]) (pend a) (jst a), Build_lact false false None)
    | [] =>
        match parseJuiceHeaders ulower (reqbuf a) with
        | Err e => (J [] (pend a) (jst a), Build_lact false false (Some e))
        | Ok (n, b) =>
            if Z.eqb n 0 then
              let '(s, e) := recv (jst a) b in
              (J [] (pend a) s, Build_lact false false e)
            else (J [] (Some (n, [], b)) (jst a), Build_lact true false None)
        end
    end.

  (** [data[:r]] and [data[r:]] for a negative [r] *)
  Definition upto (d : str) (r : Z) : str := firstn (Z.to_nat (Z.of_nat (length d) + r)) d.
  Definition from (d : str) (r : Z) : str := skipn (Z.to_nat (Z.of_nat (length d) + r)) d.

  (** the part of the data that belongs to the body, and the extra data *)
  Definition split_body (d : str) (r : Z) : str * str :=
    if (r <? 0)%Z then (upto d r, from d r) else (d, []).

  (** juice.py:895-918 [rawDataReceived] without an inner protocol.  After an
      exception the leftovers of the body are not tracked. *)
  Definition jraw (a : japp) (data : str) : japp * ract * bool :=
    match pend a with
    | None => (a, RRaise 1 AttributeError, false)
    | Some (n, bb, b) =>
        let rem := (n - Z.of_nat (length data))%Z in
        if (rem <=? 0)%Z then
          let '(part, extra) := split_body data rem in
          match utf8_decode (bb ++ part) with
          | Err e => (J (reqbuf a) None (jst a), RRaise (Nat.max 1 (length part)) e, false)
          | Ok t =>
              let '(s, e) := recv (jst a) (dset b BODY t) in
              (J (reqbuf a) None s,
               match e with
               | Some e => RRaise (Nat.max 1 (length part)) e
               | None => RLine (length part)
               end, false)
          end
        else (J (reqbuf a) (Some (rem, bb ++ data, b)) (jst a), RStay, false)
    end.

  (** ** The same, one byte at a time *)
  Definition deliver (a : japp) (b : dict str str) (body : str) (v : verdict) : japp * verdict :=
    match utf8_decode body with
    | Err e => (J (reqbuf a) None (jst a), Raise e)
    | Ok t => let '(s, e) := recv (jst a) (dset b BODY t) in
              (J (reqbuf a) None s, match e with Some e => Raise e | None => v end)
    end.

  Definition jbyte (a : japp) (c : N) : japp * verdict :=
    match pend a with
    | None => (a, Raise AttributeError)
    | Some (n, bb, b) =>
        if (n <=? 0)%Z then deliver a b bb DoneBefore
        else if (n =? 1)%Z then deliver a b (bb ++ [c]) DoneAfter
        else (J (reqbuf a) (Some ((n - 1)%Z, bb ++ [c], b)) (jst a), Continue)
    end.

  Lemma jraw_bytes : forall d a, d <> [] -> jraw a d = rawR jbyte a d.
  Proof.
    unfold rawR. induction d as [|c d IH]; intros a Hne; [congruence|].
    cbn [rawrun]. unfold jbyte at 1. unfold jraw.
    destruct (pend a) as [[[n bb] b]|] eqn:Ep; [|reflexivity].
    destruct (Z.leb_spec n 0) as [Hn|Hn].
    { assert (E1 : (n - Z.of_nat (length (c :: d)) <=? 0)%Z = true) by (cbn [length]; lia).
      assert (E2 : (n - Z.of_nat (length (c :: d)) <? 0)%Z = true) by (cbn [length]; lia).
      rewrite E1. unfold split_body. rewrite E2. unfold upto, from.
      replace (Z.to_nat _) with 0 by (cbn [length]; lia). cbn [firstn skipn length Nat.max].
      rewrite app_nil_r. unfold deliver. destruct (utf8_decode bb); [|reflexivity].
      destruct (recv (jst a) (dset b BODY a0)) as [s [e|]]; reflexivity. }
    destruct (Z.eqb_spec n 1) as [->|Hn1].
    { assert (E1 : (1 - Z.of_nat (length (c :: d)) <=? 0)%Z = true) by (cbn [length]; lia).
      rewrite E1.
      assert (E3 : split_body (c :: d) (1 - Z.of_nat (length (c :: d))) = ([c], d)).
      { destruct d as [|c2 d]; [reflexivity|].
        assert (E2 : (1 - Z.of_nat (length (c :: c2 :: d)) <? 0)%Z = true) by (cbn [length]; lia).
        unfold split_body. rewrite E2. unfold upto, from. replace (Z.to_nat _) with 1 by (cbn [length]; lia). reflexivity. }
      rewrite E3. unfold deliver. destruct (utf8_decode (bb ++ [c])) as [t|e]; [|reflexivity].
      destruct (recv (jst a) (dset b BODY t)) as [s [e|]]; reflexivity. }
    destruct d as [|c2 d].
    { assert (E1 : (n - Z.of_nat (length [c]) <=? 0)%Z = false) by (cbn [length]; lia).
      rewrite E1. reflexivity. }
    specialize (IH (J (reqbuf a) (Some ((n - 1)%Z, bb ++ [c], b)) (jst a)) ltac:(discriminate)).
    destruct (rawrun jbyte (J (reqbuf a) (Some ((n - 1)%Z, bb ++ [c], b)) (jst a)) (c2 :: d)) as [a2 r].
    unfold jraw in IH. cbn [pend reqbuf jst] in IH.
    replace (n - 1 - Z.of_nat (length (c2 :: d)))%Z with (n - Z.of_nat (length (c :: c2 :: d)))%Z in IH
      by (cbn [length]; lia).
    set (rem := (n - Z.of_nat (length (c :: c2 :: d)))%Z) in *.
    destruct (rem <=? 0)%Z eqn:Er.
    - assert (E3 : split_body (c :: c2 :: d) rem = let '(p, x) := split_body (c2 :: d) rem in (c :: p, x)).
      { unfold split_body. destruct (rem <? 0)%Z eqn:El; [|reflexivity]. unfold upto, from, rem in *.
        replace (Z.to_nat (Z.of_nat (length (c :: c2 :: d)) + (n - Z.of_nat (length (c :: c2 :: d)))))
          with (Datatypes.S (Z.to_nat (Z.of_nat (length (c2 :: d)) + (n - Z.of_nat (length (c :: c2 :: d))))))
          by (cbn [length]; lia).
        reflexivity. }
      rewrite E3.
      assert (Epart : length (fst (split_body (c2 :: d) rem)) <> 0).
      { unfold split_body. destruct (rem <? 0)%Z eqn:El; [|discriminate]. cbn [fst]. unfold upto. rewrite firstn_length.
        unfold rem in *. cbn [length] in *. lia. }
      destruct (split_body (c2 :: d) rem) as [part extra]. cbn [fst] in Epart.
      rewrite <- app_assoc in IH. cbn [app] in IH.
      assert (Em : Nat.max 1 (length (c :: part)) = Datatypes.S (Nat.max 1 (length part))) by (cbn [length]; lia).
      rewrite Em. destruct (utf8_decode (bb ++ c :: part)) as [t|e].
      + destruct (recv (jst a) (dset b BODY t)) as [s [e|]]; injection IH as <- <-.
        * reflexivity.
        * reflexivity.
      + injection IH as <- <-. reflexivity.
    - injection IH as <- <-. rewrite <- app_assoc. reflexivity.
  Qed.

  (** [LineReceiver] only calls the raw handler with data *)
  Lemma go_raw_ext : forall f (p : proto japp) b, go jline jraw f p b = go jline (rawR jbyte) f p b.
  Proof.
    induction f as [|f IH]; intros p b; [reflexivity|]. cbn [go].
    destruct (lm p).
    - destruct (find CRLF b); [|reflexivity].
      destruct (jline (app_ p) (firstn n b)) as [a act]. now rewrite IH.
    - destruct (disc p); [reflexivity|]. destruct (eqb_spec b []) as [|Hne]; [reflexivity|].
      rewrite jraw_bytes by exact Hne. destruct (rawR jbyte (app_ p) b) as [[a act] d].
      destruct act; auto. now rewrite IH.
  Qed.

  Lemma feed_raw_ext : forall cs (p : proto japp), feed jline jraw p cs = feed jline (rawR jbyte) p cs.
  Proof.
    induction cs as [|c cs IH]; intros p; [reflexivity|]. cbn [feed]. unfold dataReceived.
    rewrite go_raw_ext. destruct (go jline (rawR jbyte) _ p _) as [[[p1 [[]|e]] l]|]; auto.
    now rewrite IH.
  Qed.

  (** juice.py:827-836 [makeConnection]: [_requestBuffer] is empty *)
  Definition jstart (s : S) : proto japp := start (J [] None s).

  (** ** Any stream: chunking does not matter *)
  Theorem jchunking cs1 cs2 s p1 r1 l1 p2 r2 l2 : concat cs1 = concat cs2 ->
    feed jline jraw (jstart s) cs1 = Some (p1, r1, l1) ->
    feed jline jraw (jstart s) cs2 = Some (p2, r2, l2) ->
    r1 = r2 /\ jst (app_ p1) = jst (app_ p2) /\
    (r1 = Ok tt -> buf p1 = buf p2 /\ lm p1 = lm p2 /\ app_ p1 = app_ p2).
  Proof.
    intros Hc H1 H2. rewrite feed_raw_ext in H1, H2.
    assert (Hd : forall cs p r l, feed jline (rawR jbyte) (jstart s) cs = Some (p, r, l) -> r = Ok tt -> disc p = false).
    { intros cs p r l H Hr. apply feed_bytes in H; [|reflexivity|reflexivity].
      destruct H as (st & Hrun & _ & _ & He).
      assert (Hnd : b_end st <> Some None).
      { clear He. revert Hrun. generalize (flat l) as ev.
        cbn [jstart start lm buf app_].
        assert (G : forall x (b : bstate japp) ev, b_end b <> Some None -> brun jline jbyte b x = (st, ev) -> b_end st <> Some None).
        { induction x as [|c x IH]; intros b ev Hb Hrun; cbn [brun] in Hrun.
          - inversion Hrun; subst; auto.
          - destruct (bstep jline jbyte b c) as [b1 ev1] eqn:Eb.
            destruct (brun jline jbyte b1 x) as [b2 ev2] eqn:Er. inversion Hrun; subst.
            refine (IH _ _ _ Er). unfold bstep in Eb.
            destruct (b_end b) as [o|] eqn:Ee; [inversion Eb; subst; congruence|].
            destruct (b_line b).
            + destruct (suffixb CRLF (b_acc b ++ [c])); [|inversion Eb; subst; discriminate].
              unfold jline in Eb. destruct (firstn _ _).
              * destruct (parseJuiceHeaders _ _) as [[n bx]|e0]; [|inversion Eb; subst; discriminate].
                destruct (Z.eqb n 0).
                -- destruct (recv _ _) as [s' [e1|]]; inversion Eb; subst; discriminate.
                -- inversion Eb; subst; discriminate.
              * inversion Eb; subst; discriminate.
            + destruct (jbyte (b_app b) c) as [a v]. destruct v; inversion Eb; subst; discriminate. }
        intros ev Hrun. refine (G _ _ _ _ Hrun). discriminate. }
      destruct (b_end st) as [[e|]|]; [|congruence|tauto]. congruence. }
    pose proof (Hd _ _ _ _ H1) as D1. pose proof (Hd _ _ _ _ H2) as D2.
    destruct (chunking _ _ _ _ (jstart s) eq_refl eq_refl Hc H1 H2) as (E1 & E2 & E3 & E4 & E5 & E6).
    split; [exact E1|]. split; [congruence|]. intros Hr. repeat split; auto.
  Qed.

  (** ** A box on the wire *)

  Definition bfin (b : bstate japp) (x : str) : bstate japp := fst (brun jline jbyte b x).

  Lemma bfin_app b x y : bfin b (x ++ y) = bfin (bfin b x) y.
  Proof.
    unfold bfin. rewrite brun_app. destruct (brun jline jbyte b x) as [b1 l1]. cbn [fst].
    destruct (brun jline jbyte b1 y). reflexivity.
  Qed.

  Definition at_line (rb : list str) (pn : option (Z * str * dict str str)) (s : S) : bstate japp :=
    B true [] None (J rb pn s).

  Lemma bfin_line rb pn s l : good_line l ->
    bfin (at_line rb pn s) (l ++ CRLF) = at_line (rb ++ [l]) pn s.
  Proof.
    intros [Hne Hf]. unfold bfin, at_line. rewrite <- (app_nil_r CRLF).
    rewrite brun_line by exact Hf. destruct l as [|c l]; [congruence|]. reflexivity.
  Qed.

  Lemma bfin_lines : forall ls rb pn s, Forall good_line ls ->
    bfin (at_line rb pn s) (endl ls) = at_line (rb ++ ls) pn s.
  Proof.
    induction ls as [|l ls IH]; intros rb pn s H.
    - now rewrite app_nil_r.
    - inversion H; subst. change (endl (l :: ls)) with ((l ++ CRLF) ++ endl ls).
      rewrite bfin_app, bfin_line by assumption. rewrite IH by assumption.
      now rewrite <- app_assoc.
  Qed.

  Lemma bfin_blank rb pn s : bfin (at_line rb pn s) CRLF =
    match parseJuiceHeaders ulower rb with
    | Err e => B true [] (Some (Some e)) (J [] pn s)
    | Ok (n, b) =>
        if Z.eqb n 0 then
          let '(s', e) := recv s b in
          B true [] (match e with Some e => Some (Some e) | None => None end) (J [] pn s')
        else B false [] None (J [] (Some (n, [], b)) s)
    end.
  Proof.
    unfold bfin, at_line. rewrite <- (app_nil_r CRLF). rewrite (brun_line _ _ [] []) by reflexivity.
    cbn [jline reqbuf pend jst]. destruct (parseJuiceHeaders ulower rb) as [[n b]|e]; [|reflexivity].
    destruct (Z.eqb n 0); [|reflexivity]. destruct (recv s b) as [s' [e|]]; reflexivity.
  Qed.

  (** before the last byte nothing is delivered *)
  Lemma bfin_CR rb pn s : bfin (at_line rb pn s) [CR] = B true [CR] None (J rb pn s).
  Proof. reflexivity. Qed.

  Lemma bfin_body_part : forall x rb n bb b s, (Z.of_nat (length x) < n)%Z ->
    bfin (B false [] None (J rb (Some (n, bb, b)) s)) x =
    B false [] None (J rb (Some ((n - Z.of_nat (length x))%Z, bb ++ x, b)) s).
  Proof.
    induction x as [|c x IH]; intros rb n bb b s Hn.
    - cbn [length]. rewrite app_nil_r, Z.sub_0_r. reflexivity.
    - change (c :: x) with ([c] ++ x). rewrite bfin_app. cbn [length] in Hn.
      assert (E : bfin (B false [] None (J rb (Some (n, bb, b)) s)) [c]
                  = B false [] None (J rb (Some ((n - 1)%Z, bb ++ [c], b)) s)).
      { unfold bfin. cbn [brun]. unfold bstep. cbn [b_end b_line b_app].
        unfold jbyte. cbn [pend reqbuf jst].
        destruct (Z.leb_spec n 0); [lia|]. destruct (Z.eqb_spec n 1); [lia|]. reflexivity. }
      rewrite E, IH by lia. cbn [app length]. rewrite <- app_assoc.
      replace (n - 1 - Z.of_nat (length x))%Z with (n - Z.of_nat (Datatypes.S (length x)))%Z by lia. reflexivity.
  Qed.

  Lemma bfin_body rb b s x c t : utf8_decode (x ++ [c]) = Ok t ->
    bfin (B false [] None (J rb (Some (Z.of_nat (length (x ++ [c])), [], b)) s)) (x ++ [c]) =
    let '(s', e) := recv s (dset b BODY t) in
    match e with
    | Some e => B false [] (Some (Some e)) (J rb None s')
    | None => at_line rb None s'
    end.
  Proof.
    intros Hd. rewrite bfin_app, bfin_body_part by (rewrite app_length; cbn [length]; lia).
    replace (Z.of_nat (length (x ++ [c])) - Z.of_nat (length x))%Z with 1%Z
      by (rewrite app_length; cbn [length]; lia).
    unfold bfin. cbn [brun]. unfold bstep. cbn [b_end b_line b_app].
    unfold jbyte. cbn [pend reqbuf jst app Z.leb Z.eqb]. unfold deliver. cbn [jst reqbuf].
    rewrite Hd. destruct (recv s (dset b BODY t)) as [s' [e|]]; reflexivity.
  Qed.

  (** the final state of a receiver fed with chunks *)
  Lemma feed_bfin cs s : exists p r l, feed jline jraw (jstart s) cs = Some (p, r, l) /\
    agrees p r (bfin (at_line [] None s) (concat cs)).
  Proof.
    destruct (@feed_total japp jline jraw cs (jstart s)) as [[[p r] l] H].
    exists p, r, l. split; [exact H|]. rewrite feed_raw_ext in H.
    apply feed_bytes in H; [|reflexivity|reflexivity]. destruct H as (st & Hrun & Ha).
    unfold bfin, at_line. cbn [jstart start lm buf app_] in Hrun. rewrite Hrun. exact Ha.
  Qed.
End Receiver.

Arguments J {S}. Arguments reqbuf {S}. Arguments pend {S}. Arguments jst {S}.
Arguments jline ulower {S}. Arguments jraw {S}. Arguments jbyte {S}.
Arguments jstart {S}. Arguments bfin ulower {S}. Arguments at_line {S}.

(** ** The parsing helper *)

(** juice.py:961-962: [_ParserHelper.juiceBoxReceived] *)
Definition collect (s : list (dict str str)) (b : dict str str) : list (dict str str) * option exn :=
  (s ++ [b], None).

(** juice.py:965-975 [parse], [parseString] *)
Definition parseString (ulower : str -> str) (w : str) : res (list (dict str str)) :=
  match feed (jline ulower collect) (jraw collect) (jstart []) [w] with
  | Some (p, Ok _, _) => Ok (jst (app_ p))
  | Some (_, Err e, _) => Err e
  | None => Err (OtherExn 0)
  end.

(** ** What can be sent *)
Section Sendable.
  Variable ulower : str -> str.
  Hypothesis ulower_ascii : forall s, is_ascii s = true -> ulower s = map ascii_lower s.

  Definition texts (b : dict str str) : box := map (fun kv => (fst kv, PS (snd kv))) b.

  (** a key in canonical form *)
  Definition canonical (k : str) : bool :=
    good_key k && eqb (normalizeKey ulower k) k && negb (eqb k LENGTH).

  (** text without surrogates *)
  Definition encodable (s : str) : bool := forallb is_scalar s.

  Definition sendable (b : dict str str) : Prop :=
    wf_dict b /\ Forall (fun k => canonical k = true) (keys b) /\
    Forall (fun v => encodable v = true) (values b) /\
    forall v, dget b BODY = Some v -> v <> [] /\ is_ascii v = true.

  (** the box as it is received: the body last *)
  Definition received (b : dict str str) : dict str str :=
    match dget b BODY with
    | None => b
    | Some v => ddel b BODY ++ [(BODY, v)]
    end.

  Definition head_item (kv : str * str) : str * str :=
    if eqb (fst kv) BODY then (LENGTH, dec (N.of_nat (length (snd kv)))) else kv.

  Lemma dec_encodable n : is_ascii (dec n) = true /\ exists b, utf8_encode (dec n) = Ok b.
  Proof.
    assert (H : is_ascii (dec n) = true).
    { apply is_ascii_Forall, Forall_forall. intros c Hc.
      pose proof (all_digits_In _ _ (dec_digits n) Hc) as Hd. apply digit_not_space in Hd. lia. }
    split; auto. exists (dec n). apply utf8_encode_ascii, is_ascii_Forall, H.
  Qed.

  Lemma sends_head b : Forall (fun k => canonical k = true) (keys b) ->
    Forall (fun v => encodable v = true) (values b) ->
    Forall2 (sends ulower) (map wire_item (texts b)) (map head_item b).
  Proof.
    induction b as [|[k v] b IH]; intros Hk Hv; cbn [texts map]; constructor.
    - inversion Hk; subst. inversion Hv; subst. cbn [fst snd] in *.
      unfold wire_item, head_item. cbn [fst snd].
      destruct (eqb_spec k BODY) as [->|Hb].
      + unfold sends. cbn [fst snd py_len text_of ensure_binary]. split; [reflexivity|].
        split; [apply dec_encodable|]. split; [|reflexivity].
        unfold normalizeKey. rewrite ulower_ascii by reflexivity. reflexivity.
      + unfold canonical in H1. rewrite !andb_true_iff in H1. destruct H1 as [[H1 H1'] _].
        unfold sends. cbn [fst snd text_of ensure_binary]. split; [exact H1|].
        split; [apply utf8_encode_ok; exact H3|]. split; [|reflexivity].
        destruct (eqb_spec (normalizeKey ulower k) k); congruence.
    - apply IH; [inversion Hk|inversion Hv]; auto.
  Qed.

  Lemma head_keys b : map fst (map head_item b) = map (fun k => if eqb k BODY then LENGTH else k) (keys b).
  Proof.
    unfold keys. rewrite !map_map. apply map_ext. intros [k v]. unfold head_item. cbn [fst].
    destruct (eqb k BODY); reflexivity.
  Qed.

  Lemma head_nodup b : wf_dict b -> ~ In LENGTH (keys b) -> NoDup (map fst (map head_item b)).
  Proof.
    rewrite head_keys. unfold wf_dict. generalize (keys b). clear b. intros l H Hn.
    induction H as [|k l Hk Hnd IH]; cbn [map]; constructor.
    - rewrite in_map_iff. intros (k' & E & Hin).
      assert (HkL : k <> LENGTH) by (intros ->; apply Hn; now left).
      assert (Hk'L : k' <> LENGTH) by (intros ->; apply Hn; now right).
      destruct (eqb_spec k' BODY) as [H1|H1]; destruct (eqb_spec k BODY) as [H2|H2]; try congruence.
    - apply IH. intros Hin. apply Hn. now right.
  Qed.

  Lemma no_length (b : dict str str) : Forall (fun k => canonical k = true) (keys b) -> ~ In LENGTH (keys b).
  Proof.
    intros H Hin. rewrite Forall_forall in H. specialize (H _ Hin).
    unfold canonical in H. rewrite !andb_true_iff in H. destruct H as [_ H]. discriminate.
  Qed.

  Lemma din_texts b k : din (texts b) k = din b k.
  Proof.
    unfold din. induction b as [|[k' v] b IH]; auto. cbn [texts map dget fst snd].
    destruct (eqb k k'); auto.
  Qed.

  Lemma dget_texts b k : dget (texts b) k = option_map PS (dget b k).
  Proof.
    induction b as [|[k' v] b IH]; auto. cbn [texts map dget fst snd].
    destruct (eqb k k'); auto.
  Qed.

  Lemma head_id b : ~ In BODY (keys b) -> map head_item b = b.
  Proof.
    induction b as [|[k v] b IH]; intros Hn; auto. cbn [map]. unfold head_item at 1. cbn [fst snd].
    cbn [keys map fst] in Hn. destruct (eqb_spec k BODY) as [->|_]; [exfalso; apply Hn; now left|].
    rewrite IH; auto. intros Hin. apply Hn. now right.
  Qed.

  Lemma head_length b v : wf_dict b -> ~ In LENGTH (keys b) -> dget b BODY = Some v ->
    dget (map head_item b) LENGTH = Some (dec (N.of_nat (length v))) /\
    ddel (map head_item b) LENGTH = ddel b BODY.
  Proof.
    induction b as [|[k w] b IH]; intros Hw Hn Hg; [discriminate|].
    inversion Hw as [|? ? Hk Hnd]; subst. cbn [map dget ddel]. unfold head_item. cbn [fst snd].
    cbn [dget] in Hg. rewrite (eqb_sym k BODY).
    destruct (eqb_spec BODY k) as [E|Hb].
    - inversion Hg; subst. split; reflexivity || (cbn; apply head_id; exact Hk).
    - cbn [keys map fst] in Hn. rewrite (eqb_sym LENGTH k).
      destruct (eqb_spec k LENGTH) as [->|HL]; [exfalso; apply Hn; now left|].
      destruct IH as [IH1 IH2]; auto; [intros Hin; apply Hn; now right|].
      split; [exact IH1|]. f_equal; exact IH2.
  Qed.

  (** *** One box *)

  Lemma ascii_decode v : is_ascii v = true -> utf8_decode v = Ok v.
  Proof. intros H. apply utf8_decode_encode, utf8_encode_ascii, is_ascii_Forall, H. Qed.

  Lemma ddel_notin {K V} `{EqB K} (d : dict K V) k k' : ~ In k' (keys d) -> ~ In k' (keys (ddel d k)).
  Proof. intros H1 H2. apply H1. eapply keys_ddel_subset. exact H2. Qed.

  (** The bytes of a box: everything before the last byte leaves the receiver
      waiting, the last byte delivers. *)
  Theorem box_wire b : sendable b ->
    exists w c, serialize (texts b) = Ok (w ++ [c]) /\
      (forall S recv (s : S), jst (b_app (bfin ulower recv (at_line [] None s) w)) = s
         /\ b_end (bfin ulower recv (at_line [] None s) w) = None) /\
      (forall s, bfin ulower collect (at_line [] None s) (w ++ [c]) = at_line [] None (s ++ [received b])).
  Proof.
    intros (Hw & Hk & Hv & Hbody). pose proof (no_length b Hk) as HL.
    destruct (items_roundtrip ulower ulower_ascii (texts b) (map head_item b) (sends_head b Hk Hv))
      as (ls & Hser & Hgood & Hparse).
    specialize (Hparse None [] (head_nodup b Hw HL)). cbn [app] in Hparse.
    unfold serialize. rewrite din_texts.
    assert (Hdl : din b LENGTH = false) by (apply din_false; exact HL).
    rewrite Hdl, Hser. cbn [rbind]. rewrite dget_texts. unfold received.
    destruct (dget b BODY) as [v|] eqn:Eb; cbn [option_map].
    - destruct (Hbody v eq_refl) as [Hne Hasc].
      destruct (head_length b v Hw HL Eb) as [Hg Hd].
      cbn [ensure_binary]. rewrite utf8_encode_ascii by (apply is_ascii_Forall; exact Hasc). cbn [rbind].
      destruct (rev v) as [|c rv] eqn:Er.
      { exfalso. apply Hne. rewrite <- (rev_involutive v), Er. reflexivity. }
      assert (Ev : v = rev rv ++ [c]) by (rewrite <- (rev_involutive v), Er; reflexivity).
      set (x := rev rv) in *.
      assert (Hh : forall S recv (s : S), bfin ulower recv (at_line [] None s) (endl ls ++ CRLF)
                   = B false [] None (J [] (Some (Z.of_nat (length v), [], ddel b BODY)) s)).
      { intros S recv s. rewrite bfin_app, bfin_lines by exact Hgood. rewrite bfin_blank.
        unfold parseJuiceHeaders. cbn [app]. rewrite Hparse. cbn [rbind]. rewrite Hg.
        assert (Ei : py_int (dec (N.of_nat (length v))) = Ok (Z.of_nat (length v))).
        { rewrite <- (py_int_zdec (Z.of_nat (length v))). f_equal.
          destruct (length v) as [|n]; [reflexivity|]. cbn [Z.of_nat zdec]. reflexivity. }
        rewrite Ei. cbn [rbind]. rewrite Hd.
        destruct (Z.eqb_spec (Z.of_nat (length v)) 0) as [E0|_]; [|reflexivity].
        exfalso. apply Hne. destruct v; [reflexivity|cbn in E0; lia]. }
      exists (endl ls ++ CRLF ++ x), c. split; [|split].
      + rewrite Ev. now rewrite <- !app_assoc.
      + intros S recv s. rewrite app_assoc, bfin_app, Hh.
        rewrite bfin_body_part by (rewrite Ev, app_length; cbn [length]; lia). auto.
      + intros s. rewrite <- !app_assoc, app_assoc, bfin_app, Hh. rewrite Ev at 1.
        rewrite bfin_body with (t := v) by (rewrite <- Ev; apply ascii_decode, Hasc).
        unfold collect. rewrite dset_new; [reflexivity|].
        intros Hin. apply keys_ddel in Hin; [|exact Hw]. destruct Hin as [Hin _]. congruence.
    - assert (HB : ~ In BODY (keys b)) by (apply dget_None; exact Eb).
      rewrite (head_id b HB) in Hparse.
      assert (Hp : parseJuiceHeaders ulower ls = Ok (0%Z, b)).
      { unfold parseJuiceHeaders. rewrite Hparse. cbn [rbind].
        apply dget_None in HL. rewrite HL. reflexivity. }
      exists (endl ls ++ [CR]), LF. split; [|split].
      + now rewrite <- app_assoc.
      + intros S recv s. rewrite bfin_app, bfin_lines by exact Hgood. rewrite bfin_CR. auto.
      + intros s. rewrite <- app_assoc. change ([CR] ++ [LF]) with CRLF.
        rewrite bfin_app, bfin_lines by exact Hgood. rewrite bfin_blank. cbn [app]. rewrite Hp. reflexivity.
  Qed.

  Lemma parseString_bfin w : parseString ulower w =
    match b_end (bfin ulower collect (at_line [] None []) w) with
    | Some (Some e) => Err e
    | _ => Ok (jst (b_app (bfin ulower collect (at_line [] None []) w)))
    end.
  Proof.
    unfold parseString.
    destruct (feed_bfin ulower _ collect [w] []) as (p & r & l & H & Ha). rewrite H.
    cbn [concat] in Ha. rewrite app_nil_r in Ha. destruct Ha as (Happ & _ & He).
    destruct (b_end _) as [[e|]|].
    - subst r. reflexivity.
    - destruct He as [-> _]. now rewrite Happ.
    - destruct He as [-> _]. now rewrite Happ.
  Qed.

  Theorem roundtrip b : sendable b ->
    exists w, serialize (texts b) = Ok w /\ parseString ulower w = Ok [received b].
  Proof.
    intros Hb. destruct (box_wire b Hb) as (w & c & Hs & _ & Hd).
    exists (w ++ [c]). split; [exact Hs|]. rewrite parseString_bfin, Hd. reflexivity.
  Qed.

  Lemma received_same b : wf_dict b -> wf_dict (received b) /\ dict_eq b (received b).
  Proof.
    intros Hw. unfold received. destruct (dget b BODY) as [v|] eqn:Eb; [|split; [exact Hw|intros k; reflexivity]].
    assert (Hn : ~ In BODY (keys (ddel b BODY))).
    { intros Hin. apply keys_ddel in Hin; [|exact Hw]. destruct Hin as [Hin _]. congruence. }
    split.
    - rewrite <- (dset_new _ _ v Hn). apply wf_dset, wf_ddel, Hw.
    - intros k. rewrite <- (dset_new _ _ v Hn). rewrite dget_dset.
      destruct (eqb_spec k BODY) as [->|Hne]; [exact Eb|]. symmetry. apply dget_ddel_neq. exact Hne.
  Qed.

  (** *** A stream of boxes *)

  Definition wires (bs : list (dict str str)) (ws : list str) : Prop :=
    Forall2 (fun b w => serialize (texts b) = Ok w) bs ws.

  Lemma stream_bfin : forall bs ws s, Forall sendable bs -> wires bs ws ->
    bfin ulower collect (at_line [] None s) (concat ws) = at_line [] None (s ++ map received bs).
  Proof.
    induction bs as [|b bs IH]; intros ws s Hs HF; inversion HF; subst; cbn [concat map].
    - now rewrite app_nil_r.
    - inversion Hs; subst. destruct (box_wire b H2) as (w & c & E & _ & Hd).
      assert (y = w ++ [c]) by congruence. subst y.
      rewrite bfin_app, Hd, IH by assumption. now rewrite <- app_assoc.
  Qed.

  (** all bytes arrived, in any chunks *)
  Theorem stream_all bs ws chunks : Forall sendable bs -> wires bs ws -> concat chunks = concat ws ->
    exists p l, feed (jline ulower collect) (jraw collect) (jstart []) chunks = Some (p, Ok tt, l) /\
      jst (app_ p) = map received bs /\
      p = jstart (map received bs).
  Proof.
    intros Hs HF Hc. destruct (feed_bfin ulower _ collect chunks []) as (p & r & l & H & Ha).
    rewrite Hc, (stream_bfin bs ws [] Hs HF) in Ha. destruct Ha as (Happ & Hlm & Hr & Hd & Hb).
    cbn [at_line b_app b_line b_acc] in *. subst r. exists p, l. split; [exact H|].
    destruct p as [lm0 buf0 disc0 app0]. cbn in Happ, Hlm, Hd, Hb. subst.
    split; reflexivity.
  Qed.

  (** some bytes arrived, in any chunks: the complete boxes are delivered *)
  Lemma collect_mono : forall x st, exists t,
    jst (b_app (bfin ulower collect st x)) = jst (b_app st) ++ t.
  Proof.
    induction x as [|c x IH]; intros st.
    - exists []. now rewrite app_nil_r.
    - change (c :: x) with ([c] ++ x). rewrite bfin_app.
      destruct (IH (bfin ulower collect st [c])) as [t Ht]. rewrite Ht.
      enough (H : exists t1, jst (b_app (bfin ulower collect st [c])) = jst (b_app st) ++ t1).
      { destruct H as [t1 ->]. exists (t1 ++ t). now rewrite app_assoc. }
      unfold bfin. cbn [brun]. unfold bstep.
      destruct (b_end st); [exists []; cbn; now rewrite app_nil_r|].
      destruct (b_line st).
      + destruct (suffixb _ _); [|exists []; cbn; now rewrite app_nil_r].
        unfold jline. destruct (firstn _ _); [|exists []; cbn; now rewrite app_nil_r].
        destruct (parseJuiceHeaders _ _) as [[n b]|e]; [|exists []; cbn; now rewrite app_nil_r].
        destruct (Z.eqb n 0); cbn; [eauto|exists []; now rewrite app_nil_r].
      + unfold jbyte. destruct (pend (b_app st)) as [[[n bb] b]|]; [|exists []; cbn; now rewrite app_nil_r].
        unfold deliver, collect.
        destruct (n <=? 0)%Z; [destruct (utf8_decode bb); cbn; eauto; exists []; now rewrite app_nil_r|].
        destruct (n =? 1)%Z; [destruct (utf8_decode (bb ++ [c])); cbn; eauto; exists []; now rewrite app_nil_r|].
        exists []. cbn. now rewrite app_nil_r.
  Qed.

  (** *** Which bodies arrive *)

  Lemma bfin_ended {S} (recv : S -> dict str str -> S * option exn) st e : b_end st = Some e ->
    forall x, bfin ulower recv st x = st.
  Proof.
    intros H x. unfold bfin. induction x as [|c x IH]; [reflexivity|]. cbn [brun]. unfold bstep.
    rewrite H. destruct (brun _ _ st x). exact IH.
  Qed.

  Lemma bfin_body_err b s x c e : utf8_decode (x ++ [c]) = Err e ->
    b_end (bfin ulower collect (B false [] None (J [] (Some (Z.of_nat (length (x ++ [c])), [], b)) s)) (x ++ [c]))
    = Some (Some e).
  Proof.
    intros Hd. rewrite bfin_app, bfin_body_part by (rewrite app_length; cbn [length]; lia).
    replace (Z.of_nat (length (x ++ [c])) - Z.of_nat (length x))%Z with 1%Z
      by (rewrite app_length; cbn [length]; lia).
    unfold bfin. cbn [brun]. unfold bstep. cbn [b_end b_line b_app].
    unfold jbyte. cbn [pend reqbuf jst app Z.leb Z.eqb]. unfold deliver. cbn [jst reqbuf].
    rewrite Hd. reflexivity.
  Qed.

  Lemma utf8_char_len c : (1 <= length (utf8_char c))%nat.
  Proof. unfold utf8_char. destruct (c <? 128)%N; [cbn; lia|]. destruct (c <? 2048)%N; [cbn; lia|].
    destruct (c <? 65536)%N; cbn; lia. Qed.

  Lemma utf8_encode_len : forall v e, utf8_encode v = Ok e ->
    (length v <= length e)%nat /\ (is_ascii v = false -> (length v < length e)%nat).
  Proof.
    induction v as [|c v IH]; intros e He.
    - split; [cbn; lia|discriminate].
    - cbn [utf8_encode] in He. destruct (is_scalar c); [|discriminate].
      destruct (utf8_encode v) as [e'|] eqn:E; [|discriminate].
      cbn in He. injection He as <-. destruct (IH _ eq_refl) as [H1 H2]. rewrite app_length.
      pose proof (utf8_char_len c). cbn [length]. split; [lia|]. intros Ha. unfold is_ascii in *. cbn [forallb] in Ha.
      destruct (c <? 128)%N eqn:Ec; cbn [andb] in Ha.
      + specialize (H2 Ha). lia.
      + assert (2 <= length (utf8_char c))%nat; [|lia]. unfold utf8_char. rewrite Ec.
        destruct (c <? 2048)%N; [cbn; lia|]. destruct (c <? 65536)%N; cbn; lia.
  Qed.

  Theorem body_arrives b v w b' l : wf_dict b -> Forall (fun k => canonical k = true) (keys b) ->
    Forall (fun v => encodable v = true) (values b) -> dget b BODY = Some v ->
    serialize (texts b) = Ok w -> parseString ulower w = Ok (b' :: l) -> dget b' BODY = Some v ->
    v <> [] /\ is_ascii v = true.
  Proof.
    intros Hw Hk Hv Eb Hs Hp Hg'. pose proof (no_length b Hk) as HL.
    destruct (items_roundtrip ulower ulower_ascii (texts b) (map head_item b) (sends_head b Hk Hv))
      as (ls & Hser & Hgood & Hparse).
    specialize (Hparse None [] (head_nodup b Hw HL)). cbn [app] in Hparse.
    unfold serialize in Hs. rewrite din_texts in Hs.
    assert (Hdl : din b LENGTH = false) by (apply din_false; exact HL).
    rewrite Hdl, Hser in Hs. cbn [rbind] in Hs. rewrite dget_texts, Eb in Hs. cbn [option_map ensure_binary] in Hs.
    destruct (utf8_encode v) as [e|] eqn:Ee; [|discriminate]. cbn [rbind] in Hs.
    assert (Ew : w = endl ls ++ CRLF ++ e) by congruence. clear Hs. subst w.
    destruct (head_length b v Hw HL Eb) as [Hgl Hd].
    assert (Hpj : parseJuiceHeaders ulower ls = Ok (Z.of_nat (length v), ddel b BODY)).
    { unfold parseJuiceHeaders. rewrite Hparse. cbn [rbind]. rewrite Hgl.
      assert (Ei : py_int (dec (N.of_nat (length v))) = Ok (Z.of_nat (length v))).
      { rewrite <- (py_int_zdec (Z.of_nat (length v))). f_equal.
        destruct (length v) as [|n]; [reflexivity|]. cbn [Z.of_nat zdec]. reflexivity. }
      rewrite Ei. cbn [rbind]. now rewrite Hd. }
    rewrite parseString_bfin in Hp.
    assert (Hn : dget (ddel b BODY) BODY = None).
    { apply dget_None. intros Hin. apply keys_ddel in Hin; [|exact Hw]. destruct Hin as [Hin _]. congruence. }
    destruct v as [|c0 v0].
    { exfalso. cbn in Ee. injection Ee as <-. change (CRLF ++ []) with CRLF in Hp.
      rewrite bfin_app, bfin_lines in Hp by exact Hgood. rewrite bfin_blank in Hp. cbn [app] in Hp.
      rewrite Hpj in Hp. assert (E : Ok [ddel b BODY] = Ok (b' :: l)) by exact Hp. injection E as <- <-. congruence. }
    split; [discriminate|]. destruct (is_ascii (c0 :: v0)) eqn:Ha; [reflexivity|exfalso].
    set (v := c0 :: v0) in *.
    destruct (utf8_encode_len v e Ee) as [_ Hlen]. specialize (Hlen Ha).
    assert (Hh : bfin ulower collect (at_line [] None []) (endl ls ++ CRLF)
                 = B false [] None (J [] (Some (Z.of_nat (length v), [], ddel b BODY)) [])).
    { rewrite bfin_app, bfin_lines by exact Hgood. rewrite bfin_blank. cbn [app]. rewrite Hpj.
      destruct (Z.eqb_spec (Z.of_nat (length v)) 0) as [E0|_]; [|reflexivity]. cbn in E0. lia. }
    rewrite app_assoc, bfin_app, Hh in Hp.
    rewrite <- (firstn_skipn (length v) e) in Hp.
    assert (Hl1 : length (firstn (length v) e) = length v) by (apply firstn_length_le; lia).
    set (e1 := firstn (length v) e) in *. set (e2 := skipn (length v) e) in *.
    assert (He12 : e = e1 ++ e2) by (symmetry; apply firstn_skipn).
    rewrite <- Hl1 in Hp.
    destruct (rev e1) as [|c rv] eqn:Er.
    { assert (e1 = []) by (rewrite <- (rev_involutive e1), Er; reflexivity).
      rewrite H in Hl1. cbn in Hl1. discriminate. }
    assert (Ev : e1 = rev rv ++ [c]) by (rewrite <- (rev_involutive e1), Er; reflexivity).
    set (x := rev rv) in *. rewrite bfin_app in Hp.
    destruct (utf8_decode e1) as [t|err] eqn:Ed.
    - rewrite Ev in Ed.
      assert (Hb : bfin ulower collect (B false [] None (J [] (Some (Z.of_nat (length e1), [], ddel b BODY)) [])) e1
                 = at_line [] None [dset (ddel b BODY) BODY t]).
      { rewrite Ev. rewrite bfin_body with (t := t) by exact Ed. reflexivity. }
      rewrite Hb in Hp.
      destruct (collect_mono e2 (at_line [] None [dset (ddel b BODY) BODY t])) as [t' Ht'].
      rewrite Ht' in Hp. cbn [at_line b_app jst app] in Hp.
      assert (b' = dset (ddel b BODY) BODY t).
      { destruct (b_end _) as [[?|]|]; [discriminate| |]; injection Hp as <- _; reflexivity. }
      subst b'. rewrite dget_dset_eq in Hg'. injection Hg' as ->.
      rewrite <- Ev in Ed. apply utf8_encode_decode in Ed.
      + rewrite Ee in Ed. injection Ed as E. rewrite E in Hlen. lia.
      + pose proof (utf8_encode_bytes _ _ Ee) as HF. rewrite He12 in HF. apply Forall_app in HF. tauto.
    - rewrite Ev in Ed.
      assert (Hb : b_end (bfin ulower collect (B false [] None (J [] (Some (Z.of_nat (length e1), [], ddel b BODY)) [])) e1)
                 = Some (Some err)) by (rewrite Ev; apply bfin_body_err, Ed).
      rewrite (bfin_ended collect _ (Some err) Hb), Hb in Hp. discriminate.
  Qed.

  Theorem stream_prefix bs ws chunks k q q' : Forall sendable bs -> wires bs ws ->
    nth_error ws k = Some (q ++ q') -> q' <> [] ->
    concat chunks = concat (firstn k ws) ++ q ->
    exists p l, feed (jline ulower collect) (jraw collect) (jstart []) chunks = Some (p, Ok tt, l) /\
      jst (app_ p) = map received (firstn k bs).
  Proof.
    intros Hs HF Hn Hq Hc. destruct (feed_bfin ulower _ collect chunks []) as (p & r & l & H & Ha).
    assert (HF' : wires (firstn k bs) (firstn k ws)).
    { unfold wires in *. clear - HF. revert k. induction HF; intros [|k]; cbn; constructor; auto. }
    assert (Hs' : Forall sendable (firstn k bs)).
    { apply Forall_forall. intros x Hx. rewrite Forall_forall in Hs. apply Hs.
      rewrite <- (firstn_skipn k bs). apply in_or_app. now left. }
    rewrite Hc, bfin_app, (stream_bfin _ _ [] Hs' HF') in Ha. cbn [app] in Ha.
    assert (Hb : exists b, In b bs /\ serialize (texts b) = Ok (q ++ q')).
    { clear - HF Hn. revert k Hn. induction HF; intros [|k] Hn; cbn in Hn; try discriminate.
      - inversion Hn; subst. exists x. split; [now left|auto].
      - destruct (IHHF k Hn) as (b & Hb & E). exists b. split; [now right|auto]. }
    destruct Hb as (b & Hin & Hser). rewrite Forall_forall in Hs.
    destruct (box_wire b (Hs b Hin)) as (w & c & E & Hw & _).
    assert (Eq : q ++ q' = w ++ [c]) by congruence.
    assert (Hpre : exists y, w = q ++ y).
    { destruct (rev q') as [|z r'] eqn:Er.
      - exfalso. apply Hq. rewrite <- (rev_involutive q'), Er. reflexivity.
      - assert (Eq' : q' = rev r' ++ [z]) by (rewrite <- (rev_involutive q'), Er; reflexivity).
        rewrite Eq', app_assoc in Eq. apply app_inj_tail in Eq. destruct Eq as [Eq _].
        exists (rev r'). congruence. }
    destruct Hpre as [y Hy].
    destruct (Hw _ collect (map received (firstn k bs))) as [H1 H2].
    rewrite Hy, bfin_app in H1, H2.
    set (st := bfin ulower collect (at_line [] None (map received (firstn k bs))) q) in *.
    assert (He : b_end st = None).
    { destruct (b_end st) eqn:Ee; auto. exfalso. unfold bfin in H2. rewrite brun_ended in H2 by congruence.
      cbn [fst] in H2. congruence. }
    assert (Hj : jst (b_app st) = map received (firstn k bs)).
    { destruct (collect_mono y st) as [t Ht]. rewrite H1 in Ht.
      destruct (collect_mono q (at_line [] None (map received (firstn k bs)))) as [t2 Ht2].
      fold st in Ht2. cbn [at_line b_app jst] in Ht2. rewrite Ht2, <- app_assoc in Ht.
      assert (Hnil : t2 ++ t = []).
      { apply (f_equal (@length _)) in Ht. rewrite app_length in Ht.
        destruct (t2 ++ t); [reflexivity|cbn in Ht; lia]. }
      apply app_eq_nil in Hnil. destruct Hnil as [-> _]. now rewrite app_nil_r in Ht2. }
    destruct Ha as (Happ & _ & Hend). rewrite He in Hend. destruct Hend as (-> & _ & _).
    exists p, l. split; [exact H|]. congruence.
  Qed.

  (** *** Keys do not depend on values *)

  (** distinct good keys after normalization, none of them the length *)
  Definition good_keys (ks : list str) : Prop :=
    Forall (fun k => good_key k = true) ks /\ NoDup (map (normalizeKey ulower) ks) /\
    ~ In LENGTH (map (normalizeKey ulower) ks) /\ ~ In BODY ks.

  Theorem keys_kept b : good_keys (keys b) -> Forall (fun v => encodable v = true) (values b) ->
    exists w, serialize (texts b) = Ok w /\
      parseString ulower w = Ok [map (fun kv => (normalizeKey ulower (fst kv), snd kv)) b].
  Proof.
    intros (Hg & Hnd & HL & HB) Hv.
    set (hs := map (fun kv => (normalizeKey ulower (fst kv), snd kv)) b).
    assert (Hs : Forall2 (sends ulower) (map wire_item (texts b)) hs).
    { unfold hs. clear hs Hnd HL. induction b as [|[k v] b IH]; cbn [texts map]; constructor.
      - inversion Hg; subst. inversion Hv; subst. cbn [fst snd] in *. unfold wire_item.
        destruct (eqb_spec k BODY) as [->|_]; [exfalso; apply HB; now left|].
        unfold sends. cbn [fst snd text_of ensure_binary]. split; [assumption|].
        split; [apply utf8_encode_ok; assumption|]. split; reflexivity.
      - apply IH; [inversion Hg; auto|intros Hin; apply HB; now right|inversion Hv; auto]. }
    destruct (items_roundtrip ulower ulower_ascii (texts b) hs Hs) as (ls & Hser & Hgood & Hparse).
    assert (Hk : map fst hs = map (normalizeKey ulower) (keys b)).
    { unfold hs, keys. now rewrite !map_map. }
    specialize (Hparse None []). cbn [keys map app] in Hparse. rewrite Hk in Hparse. specialize (Hparse Hnd).
    exists (endl ls ++ CRLF). split.
    - unfold serialize. rewrite din_texts.
      assert (Hn : din b LENGTH = false).
      { apply din_false. intros Hin. apply HL. apply in_map_iff. exists LENGTH. split; [|exact Hin].
        unfold normalizeKey. rewrite ulower_ascii by reflexivity. reflexivity. }
      rewrite Hn, Hser. cbn [rbind]. rewrite dget_texts.
      apply dget_None in HB. rewrite HB. reflexivity.
    - rewrite parseString_bfin, bfin_app, bfin_lines by exact Hgood. rewrite bfin_blank. cbn [app].
      unfold parseJuiceHeaders. rewrite Hparse. cbn [rbind].
      assert (Hn : dget hs LENGTH = None).
      { apply dget_None. unfold keys. rewrite Hk. exact HL. }
      rewrite Hn. reflexivity.
  Qed.
End Sendable.

(** *** Only encodable text is ever serialized *)
Lemma serialize_encodable (b : dict str str) : forall w, wf_dict b -> serialize (texts b) = Ok w ->
  Forall (fun v => encodable v = true) (values b) /\ Forall (fun k => encodable k = true) (keys b).
Proof.
  intros w Hw H. unfold serialize in H. destruct (din (texts b) LENGTH); [discriminate|].
  destruct (serialize_items (texts b)) as [h|] eqn:Eh; [|discriminate]. cbn [rbind] in H.
  assert (Hitems : forall b h, serialize_items (texts b) = Ok h ->
    Forall (fun kv => encodable (fst kv) = true /\ (fst kv <> BODY -> encodable (snd kv) = true)) b).
  { clear. induction b as [|[k v] b IH]; intros h H; constructor; cbn [texts map fst snd serialize_items] in H.
    - cbn [fst snd]. split.
      + destruct (eqb_spec k BODY) as [->|Hn]; [reflexivity|].
        destruct (utf8_encode k) eqn:E; [|discriminate]. apply utf8_encode_ok. eauto.
      + intros Hn. destruct (eqb_spec k BODY) as [->|_]; [congruence|].
        destruct (utf8_encode k) eqn:E; [|discriminate]. cbn [rbind ensure_binary] in H.
        destruct (utf8_encode v) eqn:Ev; [|discriminate]. apply utf8_encode_ok. eauto.
    - destruct (if eqb k BODY then _ else _) as [k' v'].
      destruct (utf8_encode k'); [|discriminate]. cbn [rbind] in H.
      destruct (ensure_binary v'); [|discriminate]. cbn [rbind] in H.
      change (map (fun kv => (fst kv, PS (snd kv))) b) with (texts b) in H.
      destruct (serialize_items (texts b)) eqn:E; [|discriminate]. eauto. }
  specialize (Hitems b h Eh). rewrite Forall_forall in Hitems.
  split; apply Forall_forall.
  - intros v Hv. unfold values in Hv. apply in_map_iff in Hv. destruct Hv as ([k v'] & E & Hin).
    cbn in E. subst v'. specialize (Hitems _ Hin). cbn [fst snd] in Hitems. destruct Hitems as [_ Hi].
    destruct (eqb_spec k BODY) as [->|Hn]; [|auto].
    (* a body: it is encoded too, if it is the one the dict has *)
    rewrite dget_texts in H. rewrite (@In_dget _ _ _ b BODY v Hw Hin) in H. cbn [option_map ensure_binary] in H.
    destruct (utf8_encode v) eqn:Ev; [|discriminate]. apply utf8_encode_ok. eauto.
  - intros k Hk. unfold keys in Hk. apply in_map_iff in Hk. destruct Hk as ([k' v] & E & Hin).
    cbn in E. subst k'. apply (Hitems _ Hin).
Qed.

(** *** What is refused, and how *)
Lemma serialize_refused (b : dict str str) : wf_dict b ->
  (In LENGTH (keys b) -> serialize (texts b) = Err AssertionError) /\
  (~ In LENGTH (keys b) -> (exists w, serialize (texts b) = Ok w) \/ serialize (texts b) = Err UnicodeError) /\
  (~ In LENGTH (keys b) -> Forall (fun v => encodable v = true) (values b) -> Forall (fun k => encodable k = true) (keys b) ->
   exists w, serialize (texts b) = Ok w).
Proof.
  intros Hw. unfold serialize. rewrite din_texts, dget_texts.
  assert (Ue : forall s, (exists w, utf8_encode s = Ok w) \/ utf8_encode s = Err UnicodeError).
  { induction s as [|c s IH]; cbn [utf8_encode]; [eauto|]. destruct (is_scalar c); [|now right]. destruct IH as [[w ->]| ->]; eauto. }
  assert (Ie : (exists w, serialize_items (texts b) = Ok w) \/ serialize_items (texts b) = Err UnicodeError).
  { clear Hw. induction b as [|[k v] t IH]; [left; now eexists|]. cbn [texts map serialize_items fst snd].
    change (map (fun kv => (fst kv, PS (snd kv))) t) with (texts t). destruct (eqb k BODY).
    - destruct (Ue LENGTH) as [[w ->]| ->]; [|now right]. cbn [rbind ensure_binary].
      destruct (Ue (dec (N.of_nat (py_len (PS v))))) as [[w' ->]| ->]; [|now right]. cbn [rbind].
      destruct IH as [[w2 ->]| ->]; [left; now eexists|now right].
    - destruct (Ue k) as [[w ->]| ->]; [|now right]. cbn [rbind ensure_binary].
      destruct (Ue v) as [[w' ->]| ->]; [|now right]. cbn [rbind]. destruct IH as [[w2 ->]| ->]; [left; now eexists|now right]. }
  split; [|split].
  - intros H. destruct (din b LENGTH) eqn:E; [reflexivity|]. apply din_false in E. contradiction.
  - intros H. apply din_false in H. rewrite H. destruct Ie as [[w ->]| ->]; [|now right]. cbn [rbind].
    destruct (dget b BODY) as [v|]; cbn [option_map ensure_binary]; [|left; now eexists].
    destruct (Ue v) as [[w2 ->]| ->]; cbn [rbind]; [left; now eexists|now right].
  - intros H Hv Hk. apply din_false in H. rewrite H.
    assert (I2 : exists w, serialize_items (texts b) = Ok w).
    { clear Hw H Ie. induction b as [|[k v] t IH]; [now eexists|]. cbn [texts map serialize_items fst snd].
      change (map (fun kv => (fst kv, PS (snd kv))) t) with (texts t). inversion Hv; subst. inversion Hk; subst.
      destruct (IH H2 H4) as [w ->]. cbn [fst snd] in *. destruct (eqb k BODY).
      - assert (D : exists u, utf8_encode (dec (N.of_nat (py_len (PS v)))) = Ok u).
        { eexists. apply utf8_encode_ascii. pose proof (dec_digits (N.of_nat (py_len (PS v)))) as D. unfold all_digits in D.
          apply Forall_forall. intros c Hc. rewrite forallb_forall in D. specialize (D c Hc). unfold is_digit in D. apply andb_prop in D as [_ D]. apply N.leb_le in D. lia. }
        destruct D as [u D]. cbn [rbind ensure_binary]. rewrite D. destruct (Ue LENGTH) as [[u2 ->]|E]; [|vm_compute in E; discriminate].
        cbn [rbind]. now eexists.
      - apply utf8_encode_ok in H1, H3. destruct H1 as [u1 E1], H3 as [u3 E3]. rewrite E3. cbn [rbind ensure_binary]. rewrite E1. cbn [rbind]. now eexists. }
    destruct I2 as [w ->]. cbn [rbind]. destruct (dget b BODY) as [v|] eqn:E; cbn [option_map ensure_binary]; [|now eexists].
    assert (Ev : encodable v = true).
    { rewrite Forall_forall in Hv. apply Hv. apply dget_In in E. unfold values. apply in_map_iff. exists (BODY, v). now split. }
    apply utf8_encode_ok in Ev. destruct Ev as [u ->]. cbn [rbind]. now eexists.
Qed.
