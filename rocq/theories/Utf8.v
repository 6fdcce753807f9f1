(** * UTF-8, as CPython's strict codec *)

From Coq Require Import ZArith NArith List Bool Lia ZifyBool ZifyN.
From Verif Require Import Py.
Import ListNotations.
Open Scope N_scope.

Local Ltac Zify.zify_post_hook ::= Z.div_mod_to_equations.

Definition is_surrogate (c : N) : bool := (0xD800 <=? c) && (c <=? 0xDFFF).

(** a code point that UTF-8 can encode *)
Definition is_scalar (c : N) : bool := (c <? 0x110000) && negb (is_surrogate c).

Definition utf8_char (c : N) : str :=
  if c <? 0x80 then [c]
  else if c <? 0x800 then [0xC0 + c / 64; 0x80 + c mod 64]
  else if c <? 0x10000 then [0xE0 + c / 4096; 0x80 + (c / 64) mod 64; 0x80 + c mod 64]
  else [0xF0 + c / 262144; 0x80 + (c / 4096) mod 64; 0x80 + (c / 64) mod 64; 0x80 + c mod 64].

(** [s.encode('utf-8')]: UnicodeEncodeError on a surrogate *)
Fixpoint utf8_encode (s : str) : res str :=
  match s with
  | [] => Ok []
  | c :: t =>
      if is_scalar c then
        match utf8_encode t with Ok b => Ok (utf8_char c ++ b) | Err e => Err e end
      else Err UnicodeError
  end.

Definition is_cont (b : N) : bool := (0x80 <=? b) && (b <=? 0xBF).

Definition consr (c : N) (r : res str) : res str :=
  match r with Ok s => Ok (c :: s) | Err e => Err e end.

(** [b.decode('utf-8')]: UnicodeDecodeError on anything ill-formed (overlong
    forms, surrogates, values above 0x10FFFF, truncated sequences) *)
Fixpoint utf8_decode (b : str) : res str :=
  match b with
  | [] => Ok []
  | b0 :: t =>
      if b0 <? 0x80 then consr b0 (utf8_decode t)
      else if (0xC2 <=? b0) && (b0 <=? 0xDF) then
        match t with
        | b1 :: t1 => if is_cont b1
                      then consr ((b0 - 0xC0) * 64 + (b1 - 0x80)) (utf8_decode t1)
                      else Err UnicodeError
        | _ => Err UnicodeError
        end
      else if (0xE0 <=? b0) && (b0 <=? 0xEF) then
        match t with
        | b1 :: b2 :: t2 =>
            let c := (b0 - 0xE0) * 4096 + (b1 - 0x80) * 64 + (b2 - 0x80) in
            if is_cont b1 && is_cont b2 && (0x800 <=? c) && negb (is_surrogate c)
            then consr c (utf8_decode t2) else Err UnicodeError
        | _ => Err UnicodeError
        end
      else if (0xF0 <=? b0) && (b0 <=? 0xF4) then
        match t with
        | b1 :: b2 :: b3 :: t3 =>
            let c := (b0 - 0xF0) * 262144 + (b1 - 0x80) * 4096 + (b2 - 0x80) * 64 + (b3 - 0x80) in
            if is_cont b1 && is_cont b2 && is_cont b3 && (0x10000 <=? c) && (c <? 0x110000)
            then consr c (utf8_decode t3) else Err UnicodeError
        | _ => Err UnicodeError
        end
      else Err UnicodeError
  end.

(** ** Round trips *)

Ltac bdec :=
  repeat match goal with
    | |- context [?a <? ?b] =>
        first [ replace (a <? b) with true by (symmetry; apply N.ltb_lt; lia)
              | replace (a <? b) with false by (symmetry; apply N.ltb_ge; lia) ]
    | |- context [?a <=? ?b] =>
        first [ replace (a <=? b) with true by (symmetry; apply N.leb_le; lia)
              | replace (a <=? b) with false by (symmetry; apply N.leb_gt; lia) ]
    end.

Lemma utf8_decode_char c rest : is_scalar c = true ->
  utf8_decode (utf8_char c ++ rest) = consr c (utf8_decode rest).
Proof.
  intros Hs. unfold is_scalar, is_surrogate in Hs. unfold utf8_char.
  destruct (N.ltb_spec c 0x80) as [H1|H1].
  { cbn [app utf8_decode]. bdec. reflexivity. }
  destruct (N.ltb_spec c 0x800) as [H2|H2].
  { cbn [app utf8_decode]. unfold is_cont. bdec. cbn [andb].
    f_equal. lia. }
  destruct (N.ltb_spec c 0x10000) as [H3|H3].
  { cbn [app utf8_decode]. unfold is_cont, is_surrogate.
    assert (E : (0xE0 + c / 4096 - 0xE0) * 4096 + (0x80 + (c / 64) mod 64 - 0x80) * 64
                + (0x80 + c mod 64 - 0x80) = c) by lia.
    cbv zeta. rewrite E.
    replace (negb ((55296 <=? c) && (c <=? 57343))) with true by lia.
    bdec. reflexivity. }
  cbn [app utf8_decode]. unfold is_cont.
  assert (H4 : c < 0x110000) by lia.
  assert (E : (0xF0 + c / 262144 - 0xF0) * 262144 + (0x80 + (c / 4096) mod 64 - 0x80) * 4096
              + (0x80 + (c / 64) mod 64 - 0x80) * 64 + (0x80 + c mod 64 - 0x80) = c) by lia.
  cbv zeta. rewrite E. bdec. reflexivity.
Qed.

Theorem utf8_decode_encode s : forall b, utf8_encode s = Ok b -> utf8_decode b = Ok s.
Proof.
  induction s as [|c t IH]; intros b; cbn [utf8_encode].
  - intros E; inversion E; reflexivity.
  - destruct (is_scalar c) eqn:Hs; [|discriminate].
    destruct (utf8_encode t) as [bt|]; [|discriminate].
    intros E; inversion E; subst. rewrite utf8_decode_char by auto.
    rewrite (IH bt) by auto. reflexivity.
Qed.

Lemma utf8_encode_ok s : forallb is_scalar s = true <-> exists b, utf8_encode s = Ok b.
Proof.
  induction s as [|c t IH]; cbn [utf8_encode forallb].
  - split; eauto.
  - destruct (is_scalar c); cbn [andb].
    + rewrite IH. split; intros [b Hb].
      * rewrite Hb. eauto.
      * destruct (utf8_encode t); [eauto|discriminate].
    + split; [discriminate|intros [b Hb]; discriminate].
Qed.

Lemma utf8_encode_err s e : utf8_encode s = Err e -> e = UnicodeError.
Proof.
  induction s as [|c t IH]; cbn [utf8_encode]; [discriminate|].
  destruct (is_scalar c).
  - destruct (utf8_encode t); [discriminate|]. intros E. apply IH. congruence.
  - intros E. inversion E. reflexivity.
Qed.

Lemma utf8_encode_app s t bs bt : utf8_encode s = Ok bs -> utf8_encode t = Ok bt ->
  utf8_encode (s ++ t) = Ok (bs ++ bt).
Proof.
  revert bs. induction s as [|c s IH]; intros bs; cbn [utf8_encode app].
  - intros E; inversion E; auto.
  - destruct (is_scalar c); [|discriminate].
    destruct (utf8_encode s) as [b1|]; [|discriminate].
    intros E Ht; inversion E; subst. rewrite (IH b1) by auto. now rewrite app_assoc.
Qed.

(** decoding is the inverse of encoding: only encodings decode *)
Lemma utf8_encode_decode_aux n : forall b s, (length b <= n)%nat ->
  Forall (fun c => c < 256) b -> utf8_decode b = Ok s -> utf8_encode s = Ok b.
Proof.
  induction n as [|n IH]; intros b s Hn Hb.
  - destruct b; [|cbn in Hn; lia]. intros E; inversion E; reflexivity.
  - destruct b as [|b0 t]; [intros E; inversion E; reflexivity|].
    cbn [utf8_decode]. inversion Hb as [|? ? Hb0 Ht]; subst. cbn [length] in Hn.
    destruct (N.ltb_spec b0 0x80) as [H1|H1].
    { destruct (utf8_decode t) as [st|] eqn:Et; [|discriminate]. cbn [consr].
      intros E; inversion E; subst. cbn [utf8_encode].
      rewrite (IH t st) by (auto; lia).
      unfold is_scalar, is_surrogate, utf8_char. bdec. reflexivity. }
    destruct ((0xC2 <=? b0) && (b0 <=? 0xDF)) eqn:H2.
    { destruct t as [|b1 t1]; [discriminate|].
      destruct (is_cont b1) eqn:Hc; [|discriminate]. unfold is_cont in Hc.
      inversion Ht as [|? ? Hb1 Ht1]; subst. cbn [length] in Hn.
      destruct (utf8_decode t1) as [st|] eqn:Et; [|discriminate]. cbn [consr].
      intros E; inversion E; subst. cbn [utf8_encode].
      rewrite (IH t1 st) by (auto; lia).
      unfold is_scalar, is_surrogate, utf8_char. bdec. cbn [negb andb app].
      do 2 f_equal; [lia|]. f_equal. lia. }
    destruct ((0xE0 <=? b0) && (b0 <=? 0xEF)) eqn:H3.
    { destruct t as [|b1 [|b2 t2]]; [discriminate|discriminate|].
      cbv zeta. set (c := (b0 - 0xE0) * 4096 + (b1 - 0x80) * 64 + (b2 - 0x80)).
      destruct (is_cont b1) eqn:Hc1; [|discriminate].
      destruct (is_cont b2) eqn:Hc2; [|discriminate].
      destruct (0x800 <=? c) eqn:Hc3; [|discriminate].
      destruct (is_surrogate c) eqn:Hc4; [discriminate|]. cbn [andb negb].
      unfold is_cont in *.
      inversion Ht as [|? ? Hb1 Ht1]; subst. inversion Ht1 as [|? ? Hb2 Ht2]; subst.
      cbn [length] in Hn.
      destruct (utf8_decode t2) as [st|] eqn:Et; [|discriminate]. cbn [consr].
      intros E; inversion E; subst. cbn [utf8_encode].
      rewrite (IH t2 st) by (auto; lia).
      unfold is_scalar. rewrite Hc4.
      assert (Hc5 : c < 0x10000) by (unfold c; lia).
      unfold utf8_char. bdec. cbn [negb andb app].
      do 2 f_equal; [unfold c; lia|]. f_equal; [unfold c; lia|]. f_equal. unfold c. lia. }
    destruct ((0xF0 <=? b0) && (b0 <=? 0xF4)) eqn:H4; [|discriminate].
    destruct t as [|b1 [|b2 [|b3 t3]]]; [discriminate|discriminate|discriminate|].
    cbv zeta. set (c := (b0 - 0xF0) * 262144 + (b1 - 0x80) * 4096 + (b2 - 0x80) * 64 + (b3 - 0x80)).
    destruct (is_cont b1) eqn:Hc1; [|discriminate].
    destruct (is_cont b2) eqn:Hc2; [|discriminate].
    destruct (is_cont b3) eqn:Hc3; [|discriminate].
    destruct (0x10000 <=? c) eqn:Hc4; [|discriminate].
    destruct (c <? 0x110000) eqn:Hc5; [|discriminate]. cbn [andb negb].
    unfold is_cont in *.
    inversion Ht as [|? ? Hb1 Ht1]; subst. inversion Ht1 as [|? ? Hb2 Ht2]; subst.
    inversion Ht2 as [|? ? Hb3 Ht3]; subst. cbn [length] in Hn.
    destruct (utf8_decode t3) as [st|] eqn:Et; [|discriminate]. cbn [consr].
    intros E; inversion E; subst. cbn [utf8_encode].
    rewrite (IH t3 st) by (auto; lia).
    assert (Hc6 : is_surrogate c = false) by (unfold is_surrogate; lia).
    unfold is_scalar. rewrite Hc5, Hc6. cbn [andb negb].
    assert (Hlo : 0x10000 <= c) by lia.
    unfold utf8_char. bdec. cbn [app].
    assert (E0 : c / 262144 = b0 - 0xF0) by (unfold c; lia).
    assert (E1 : c / 4096 = (b0 - 0xF0) * 64 + (b1 - 0x80)) by (unfold c; lia).
    assert (E2 : c / 64 = ((b0 - 0xF0) * 64 + (b1 - 0x80)) * 64 + (b2 - 0x80)) by (unfold c; lia).
    rewrite E0, E1, E2.
    do 2 f_equal; [lia|]. f_equal; [lia|]. f_equal; [lia|]. f_equal. unfold c. lia.
Qed.

Theorem utf8_encode_decode b s : Forall (fun c => c < 256) b ->
  utf8_decode b = Ok s -> utf8_encode s = Ok b.
Proof. eauto using utf8_encode_decode_aux. Qed.

Lemma utf8_char_bytes c : is_scalar c = true -> Forall (fun x => x < 256) (utf8_char c).
Proof.
  unfold is_scalar, is_surrogate, utf8_char. intros Hs.
  destruct (N.ltb_spec c 0x80); [repeat constructor; lia|].
  destruct (N.ltb_spec c 0x800); [repeat constructor; lia|].
  destruct (N.ltb_spec c 0x10000); repeat constructor; lia.
Qed.

Lemma utf8_encode_bytes s : forall b, utf8_encode s = Ok b -> Forall (fun x => x < 256) b.
Proof.
  induction s as [|c t IH]; intros b; cbn [utf8_encode].
  - intros E; inversion E; constructor.
  - destruct (is_scalar c) eqn:Hs; [|discriminate].
    destruct (utf8_encode t) as [bt|]; [|discriminate].
    intros E; inversion E; subst. apply Forall_app. split; auto using utf8_char_bytes.
Qed.

(** ASCII text is its own encoding *)
Lemma utf8_encode_ascii s : Forall (fun c => c < 128) s -> utf8_encode s = Ok s.
Proof.
  induction 1 as [|c t Hc Ht IH]; cbn [utf8_encode]; auto.
  rewrite IH. unfold is_scalar, is_surrogate, utf8_char. bdec. reflexivity.
Qed.
