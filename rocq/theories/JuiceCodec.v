(** * epsilon/juice.py: boxes, their serialization and header parsing *)

From Coq Require Import ZArith NArith String List Bool Arith Lia.
From Verif Require Import Py PyStr PyNum PyInt Utf8 Liner.
Import ListNotations.
Open Scope nat_scope.
Open Scope py_scope.

(** juice.py:20-27 *)
Definition ASK := lit "_ask".
Definition ANSWER := lit "_answer".
Definition COMMAND := lit "_command".
Definition ERROR := lit "_error".
Definition ERROR_CODE := lit "_error_code".
Definition ERROR_DESCRIPTION := lit "_error_description".
Definition LENGTH := lit "_length".
Definition BODY := lit "body".

(** A box value: text or bytes. *)
Inductive pv := PS (s : str) | PB (b : str).

(** juice.py:31-38: a JuiceBox is a dict; keys are text. *)
Definition box := dict str pv.

(** six.ensure_binary *)
Definition ensure_binary (v : pv) : res str :=
  match v with PS s => utf8_encode s | PB b => Ok b end.

(** bytes.title() *)
Definition is_alpha (c : N) : bool := is_upper c || is_lower c.
Fixpoint title_from (cased : bool) (s : str) : str :=
  match s with
  | [] => []
  | c :: t => (if cased then ascii_lower c else ascii_upper c) :: title_from (is_alpha c) t
  end.
Definition title (s : str) : str := title_from false s.

(** .replace of one byte (or character) by another *)
Definition swap (a b : N) (s : str) : str := map (fun c => if N.eqb c a then b else c) s.
Definition USCORE : N := 95%N.
Definition DASH : N := 45%N.
Definition SP : N := 32%N.
Definition COLONSP : str := lit ": ".

(** bytes.replace(b'\r\n', b'\r\n ') *)
Fixpoint escape (s : str) : str :=
  match s with
  | [] => []
  | c :: t =>
      match t with
      | c2 :: t2 => if N.eqb c CR && N.eqb c2 LF then CR :: LF :: SP :: escape t2
                    else c :: escape t
      | [] => [c]
      end
  end.

Definition py_len (v : pv) : nat := match v with PS s => length s | PB b => length b end.

(** juice.py:64-72: the headers (the loop of [serialize]); only the default
    delimiter is modelled *)
Fixpoint serialize_items (b : list (str * pv)) : res str :=
  match b with
  | [] => Ok []
  | (k, v) :: t =>
      let '(k, v) := if eqb k BODY then (LENGTH, PS (dec (N.of_nat (py_len v)))) else (k, v) in
      kb <- utf8_encode k ;;
      vb <- ensure_binary v ;;
      rest <- serialize_items t ;;
      Ok (title (swap USCORE DASH kb) ++ COLONSP ++ escape vb ++ CRLF ++ rest)
  end.

(** juice.py:57-77 [serialize] *)
Definition serialize (b : box) : res str :=
  if din b LENGTH then Err AssertionError
  else
    h <- serialize_items b ;;
    match dget b BODY with
    | None => Ok (h ++ CRLF)
    | Some v => body <- ensure_binary v ;; Ok (h ++ CRLF ++ body)
    end.

(** keyword.kwlist of CPython 3, as far as it can be equal to a lower-case word *)
Definition keywords : list str :=
  [lit "and"; lit "as"; lit "assert"; lit "async"; lit "await"; lit "break"; lit "class";
   lit "continue"; lit "def"; lit "del"; lit "elif"; lit "else"; lit "except"; lit "finally";
   lit "for"; lit "from"; lit "global"; lit "if"; lit "import"; lit "in"; lit "is"; lit "lambda";
   lit "nonlocal"; lit "not"; lit "or"; lit "pass"; lit "raise"; lit "return"; lit "try";
   lit "while"; lit "with"; lit "yield"].

Definition is_ascii (s : str) : bool := forallb (fun c => (c <? 128)%N) s.

Section Lower.
  (** [str.lower] on text with characters outside ASCII is not modelled: any
      function that agrees with ASCII lower-casing on ASCII text *)
  Variable ulower : str -> str.
  (** juice.py:272-276 [normalizeKey], on text *)
  Definition normalizeKey (k : str) : str :=
    let l := swap DASH USCORE (ulower k) in
    if memb l keywords then title l else l.

  (** bytes.split(b': ', 1) *)
  Definition split_colon (l : str) : option (str * str) :=
    match find COLONSP l with
    | Some i => Some (firstn i l, skipn (i + 2) l)
    | None => None
    end.

  (** juice.py:287-299: the loop of [parseJuiceHeaders]; the box it builds has
      text values *)
  Fixpoint parse_lines (key : option str) (b : dict str str) (lines : list str) : res (dict str str) :=
    match lines with
    | [] => Ok b
    | l :: t =>
        match l with
        | c :: l' =>
            if N.eqb c SP then
              match key with
              | None => Err AssertionError
              | Some k =>
                  s <- utf8_decode (CRLF ++ l') ;;
                  match dget b k with
                  | None => Err KeyError
                  | Some v => parse_lines key (dset b k (v ++ s)) t
                  end
              end
            else
              match split_colon l with
              | None => Err MalformedJuiceBox
              | Some (kb, vb) =>
                  k <- utf8_decode kb ;;
                  v <- utf8_decode vb ;;
                  parse_lines (Some (normalizeKey k)) (dset b (normalizeKey k) v) t
              end
        | [] => Err MalformedJuiceBox
        end
    end.

  (** juice.py:279-300 [parseJuiceHeaders] *)
  Definition parseJuiceHeaders (lines : list str) : res (Z * dict str str) :=
    b <- parse_lines None [] lines ;;
    match dget b LENGTH with
    | None => Ok (0%Z, b)
    | Some v => n <- py_int v ;; Ok (n, ddel b LENGTH)
    end.

End Lower.

  (** ** Text, lines and their encodings *)

  Lemma find_snoc_CR x : find CRLF x = None -> find CRLF (x ++ [CR]) = None.
  Proof.
    intros H. destruct (find CRLF (x ++ [CR])) as [e|] eqn:E; auto. exfalso.
    destruct (find_split _ E) as (Es & _ & _).
    set (a := firstn e (x ++ [CR])) in *. set (c := skipn (e + 2) (x ++ [CR])) in *.
    destruct (rev c) as [|z c'] eqn:Ec.
    - assert (c = []) by (destruct c; [auto|apply (f_equal (@length N)) in Ec; rewrite rev_length in Ec; discriminate]).
      rewrite H0 in Es. change CRLF with ([CR] ++ [LF]) in Es.
      rewrite app_nil_r, app_assoc in Es. apply app_inj_tail in Es. destruct Es as [_ Es]. discriminate.
    - assert (Ec2 : c = rev c' ++ [z]) by (rewrite <- (rev_involutive c), Ec; reflexivity).
      rewrite Ec2, !app_assoc in Es. apply app_inj_tail in Es. destruct Es as [Es _].
      pose proof (find_spec CRLF x) as Hs. rewrite H in Hs.
      apply (Hs (length a)). exists a, (rev c'). rewrite Es, <- app_assoc. auto.
  Qed.

  (** the segments of a text between its CRLFs *)
  Definition segments (s : str) : list str := fst (lines_of s) ++ [snd (lines_of s)].

  Lemma lines_of_cons c t : (N.eqb c CR = false \/ hd 0%N t <> LF) ->
    lines_of (c :: t) = match fst (lines_of t) with
                        | [] => ([], c :: snd (lines_of t))
                        | l :: ls => ((c :: l) :: ls, snd (lines_of t))
                        end.
  Proof.
    intros H. cbn [lines_of]. destruct t as [|c2 t2]; [reflexivity|].
    assert (E : N.eqb c 13 && N.eqb c2 10 = false).
    { destruct H as [H|H]; [unfold CR in H; rewrite H; reflexivity|]. cbn [hd] in H.
      destruct (N.eqb_spec c2 10); [unfold LF in H; congruence|]. apply andb_false_r. }
    rewrite E. destruct (lines_of (c2 :: t2)) as [ls r]. cbn [fst snd]. destruct ls; reflexivity.
  Qed.

  Lemma lines_of_CRLF t : lines_of (CRLF ++ t) = ([] :: fst (lines_of t), snd (lines_of t)).
  Proof. cbn [app CRLF lines_of]. destruct (lines_of t). reflexivity. Qed.

  Lemma crlf_cases s : s = [] \/ (exists t, s = CRLF ++ t) \/
    exists c t, s = c :: t /\ (N.eqb c CR = false \/ hd 0%N t <> LF).
  Proof.
    destruct s as [|c t]; [auto|]. right.
    destruct (N.eqb_spec c CR) as [->|Hc].
    - destruct t as [|c2 t2].
      + right. exists CR, []. split; auto. right. discriminate.
      + destruct (N.eqb_spec c2 LF) as [->|Hc2].
        * left. exists t2. reflexivity.
        * right. exists CR, (c2 :: t2). split; auto.
    - right. exists c, t. split; auto. left. apply N.eqb_neq. auto.
  Qed.

  Lemma lines_of_find : forall n s, length s <= n ->
    Forall (fun l => find CRLF (l ++ [CR]) = None) (fst (lines_of s)) /\
    find CRLF (snd (lines_of s)) = None.
  Proof.
    induction n as [|n IH]; intros s Hl.
    - destruct s; [|cbn in Hl; lia]. cbn. auto.
    - destruct (find CRLF s) as [e|] eqn:Ef.
      + destruct (find_split _ Ef) as (Es & _ & Hc).
        assert (HL : lines_of s = (firstn e s :: fst (lines_of (skipn (e + 2) s)), snd (lines_of (skipn (e + 2) s)))).
        { etransitivity; [apply (f_equal lines_of Es)|]. apply lines_of_step, Hc. }
        rewrite HL. cbn [fst snd].
        destruct (IH (skipn (e + 2) s)) as [H1 H2].
        { apply find_len in Ef. rewrite skipn_length. lia. }
        split; auto.
      + rewrite lines_of_None by exact Ef. cbn [fst snd]. auto.
  Qed.

  Lemma segments_ok s : Forall (fun l => find CRLF (l ++ [CR]) = None) (segments s).
  Proof.
    destruct (lines_of_find _ s (le_n _)) as [H1 H2]. unfold segments.
    apply Forall_app. split; auto. constructor; auto using find_snoc_CR.
  Qed.

  Lemma segments_CRLF t : segments (CRLF ++ t) = [] :: segments t.
  Proof. unfold segments. now rewrite lines_of_CRLF. Qed.

  Lemma segments_cons c t : (N.eqb c CR = false \/ hd 0%N t <> LF) ->
    exists l ls, segments t = l :: ls /\ segments (c :: t) = (c :: l) :: ls.
  Proof.
    intros H. unfold segments. rewrite lines_of_cons by exact H.
    destruct (lines_of t) as [ls r]. cbn [fst snd]. destruct ls as [|l ls]; cbn [app fst snd]; eauto.
  Qed.

  Lemma segments_ne s : segments s <> [].
  Proof. unfold segments. destruct (fst (lines_of s)); discriminate. Qed.

  (** a text is its segments joined by CRLF; escaping puts a space after each *)
  Lemma join_cons sep a l : l <> [] -> join sep (a :: l) = a ++ sep ++ join sep l.
  Proof. destruct l; [congruence|reflexivity]. Qed.

  Lemma escape_cons c t : (N.eqb c CR = false \/ hd 0%N t <> LF) -> escape (c :: t) = c :: escape t.
  Proof.
    intros H. cbn [escape]. destruct t as [|c2 t2]; [reflexivity|].
    assert (E : N.eqb c CR && N.eqb c2 LF = false).
    { destruct H as [->|H]; [reflexivity|]. cbn [hd] in H.
      destruct (N.eqb_spec c2 LF); [congruence|]. apply andb_false_r. }
    now rewrite E.
  Qed.

  Lemma join_segments : forall n s, length s <= n -> s = join CRLF (segments s).
  Proof.
    induction n as [|n IH]; intros s Hl.
    - destruct s; [reflexivity|cbn in Hl; lia].
    - destruct (crlf_cases s) as [->|[(t & ->)|(c & t & -> & H)]]; [reflexivity| |].
      + rewrite segments_CRLF, join_cons by apply segments_ne. cbn [app].
        cbn [app CRLF length] in Hl. rewrite <- IH by lia. reflexivity.
      + destruct (segments_cons _ _ H) as (l & ls & E1 & E2). rewrite E2.
        cbn [length] in Hl. pose proof (IH t ltac:(lia)) as Ht. rewrite E1 in Ht.
        destruct ls as [|l2 ls].
        * cbn [join] in *. now rewrite <- Ht.
        * rewrite join_cons in * by discriminate. cbn [app]. now rewrite <- Ht.
  Qed.

  Lemma escape_segments : forall n s, length s <= n -> escape s = join (CRLF ++ [SP]) (segments s).
  Proof.
    induction n as [|n IH]; intros s Hl.
    - destruct s; [reflexivity|cbn in Hl; lia].
    - destruct (crlf_cases s) as [->|[(t & ->)|(c & t & -> & H)]]; [reflexivity| |].
      + rewrite segments_CRLF, join_cons by apply segments_ne. cbn [app].
        cbn [app CRLF length] in Hl. rewrite <- IH by lia. reflexivity.
      + destruct (segments_cons _ _ H) as (l & ls & E1 & E2). rewrite E2, escape_cons by exact H.
        cbn [length] in Hl. pose proof (IH t ltac:(lia)) as Ht. rewrite E1 in Ht. rewrite Ht.
        destruct ls as [|l2 ls]; [reflexivity|]. now rewrite !join_cons by discriminate.
  Qed.

  (** encoding acts on the segments separately *)
  Lemma utf8_char_hi c : (128 <= c)%N -> Forall (fun b => (128 <= b)%N) (utf8_char c).
  Proof.
    intros H. unfold utf8_char. destruct (N.ltb_spec c 0x80); [lia|].
    destruct (N.ltb_spec c 0x800); [repeat constructor; lia|].
    destruct (N.ltb_spec c 0x10000); repeat constructor; lia.
  Qed.

  Lemma utf8_encode_hd c t b : utf8_encode (c :: t) = Ok b ->
    (hd 0%N b = LF <-> c = LF) /\ b <> [].
  Proof.
    cbn [utf8_encode]. destruct (is_scalar c); [|discriminate].
    destruct (utf8_encode t) as [bt|]; [|discriminate]. intros E; inversion E; subst.
    destruct (N.ltb_spec c 128) as [Hc|Hc].
    - unfold utf8_char. destruct (N.ltb_spec c 0x80); [|lia]. cbn. split; [tauto|discriminate].
    - pose proof (utf8_char_hi c Hc) as Hh.
      assert (Hne : utf8_char c <> []).
      { unfold utf8_char. repeat match goal with |- context [if ?x then _ else _] => destruct x end; discriminate. }
      destruct (utf8_char c) as [|x u]; [congruence|]. cbn [app hd]. inversion Hh; subst.
      split; [|discriminate]. unfold LF. split; intros; lia.
  Qed.

  Lemma segments_high x b : Forall (fun y => (128 <= y)%N) x ->
    exists l ls, segments b = l :: ls /\ segments (x ++ b) = (x ++ l) :: ls.
  Proof.
    intros Hx. induction Hx as [|y x Hy Hx IH].
    - cbn [app]. pose proof (segments_ne b). destruct (segments b) as [|l ls] eqn:E; [congruence|]. eauto.
    - destruct IH as (l & ls & E1 & E2).
      destruct (segments_cons y (x ++ b)) as (l' & ls' & E3 & E4).
      { left. unfold CR. apply N.eqb_neq. lia. }
      rewrite E2 in E3. injection E3 as E5 E6; subst l' ls'. exists l, ls. cbn [app]. auto.
  Qed.

  Lemma segments_encode : forall n s b, length s <= n -> utf8_encode s = Ok b ->
    Forall2 (fun x y => utf8_encode x = Ok y) (segments s) (segments b).
  Proof.
    induction n as [|n IH]; intros s b Hl He.
    - destruct s; [|cbn in Hl; lia]. inversion He; subst. constructor; auto.
    - destruct (crlf_cases s) as [->|[(t & ->)|(c & t & -> & H)]].
      + inversion He; subst. constructor; auto.
      + cbn [app CRLF] in He, Hl. cbn [utf8_encode] in He.
        change (is_scalar CR) with true in He. change (is_scalar LF) with true in He. cbv iota in He.
        destruct (utf8_encode t) as [bt|] eqn:Et; [|discriminate].
        inversion He; subst b. cbn [length] in Hl.
        change (CR :: LF :: bt) with (CRLF ++ bt).
        rewrite !segments_CRLF. constructor; [reflexivity|]. apply IH; [lia|auto].
      + cbn [length] in Hl. destruct (segments_cons _ _ H) as (l & ls & E1 & E2).
        pose proof He as He0.
        cbn [utf8_encode] in He. destruct (is_scalar c) eqn:Hsc; [|discriminate].
        destruct (utf8_encode t) as [bt|] eqn:Et; [|discriminate]. inversion He; subst b.
        pose proof (IH t bt ltac:(lia) Et) as HF. rewrite E1 in HF.
        assert (Hb : exists l2 ls2, segments bt = l2 :: ls2 /\
                       segments (utf8_char c ++ bt) = (utf8_char c ++ l2) :: ls2).
        { destruct (N.ltb_spec c 128) as [Hc|Hc].
          - assert (Ec : utf8_char c = [c]) by (unfold utf8_char; destruct (N.ltb_spec c 0x80); [reflexivity|lia]).
            rewrite Ec. cbn [app].
            destruct (segments_cons c bt) as (l2 & ls2 & F1 & F2); eauto.
            destruct H as [H|H]; [left; exact H|right].
            destruct t as [|c2 t2].
            + inversion Et; subst. discriminate.
            + cbn [hd] in H. destruct (utf8_encode_hd _ _ _ Et) as [Hh _]. intros E. apply H, Hh, E.
          - apply segments_high, utf8_char_hi, Hc. }
        destruct Hb as (l2 & ls2 & F1 & F2). rewrite E2, F2. rewrite F1 in HF.
        inversion HF; subst. constructor; auto.
        cbn [utf8_encode]. rewrite Hsc. rewrite H3. reflexivity.
  Qed.

  (** ** Keys *)

  (** a key that can be sent: ASCII, without CRLF and ": ", not starting with
      a space *)
  Definition good_key (k : str) : bool :=
    is_ascii k && negb (containsb CRLF k) && negb (containsb COLONSP k)
    && negb (N.eqb (hd 0%N k) SP).

  Definition special (c : N) : bool := memb c [CR; LF; SP; 58%N].
  Definition same_special (a b : N) : Prop := forall x, special x = true -> (a = x <-> b = x).

  Lemma prefixb_similar p : forallb special p = true -> forall k K, Forall2 same_special k K ->
    prefixb p k = prefixb p K.
  Proof.
    induction p as [|x p IH]; intros Hp k K HF; [reflexivity|].
    cbn [forallb] in Hp. apply andb_prop in Hp. destruct Hp as [Hx Hp].
    destruct HF as [|a b k K Hab HF]; [reflexivity|]. cbn [prefixb]. rewrite (IH Hp _ _ HF). f_equal.
    destruct (N.eqb_spec x a) as [Hn|Hn]; destruct (N.eqb_spec x b) as [Hm|Hm]; auto.
    - exfalso. apply Hm. symmetry. apply (Hab x Hx). auto.
    - exfalso. apply Hn. symmetry. apply (Hab x Hx). auto.
  Qed.

  Lemma find_similar p k K : forallb special p = true -> Forall2 same_special k K -> find p k = find p K.
  Proof.
    intros Hp HF. induction HF as [|a b k K Hab HF IH].
    - reflexivity.
    - assert (E : prefixb p (a :: k) = prefixb p (b :: K)) by (apply prefixb_similar; auto).
      cbn [find]. rewrite E, IH. reflexivity.
  Qed.

  Lemma same_special_trans a b c : same_special a b -> same_special b c -> same_special a c.
  Proof. intros H1 H2 x Hx. rewrite (H1 x Hx). auto. Qed.

  Lemma special_cases x : special x = true -> x = CR \/ x = LF \/ x = SP \/ x = 58%N.
  Proof.
    unfold special. intros H. apply memb_In in H. cbn in H.
    destruct H as [H|[H|[H|[H|[]]]]]; auto.
  Qed.

  Lemma upper_special c : same_special c (ascii_upper c).
  Proof.
    intros x Hx. unfold ascii_upper, is_lower.
    apply special_cases in Hx. unfold CR, LF, SP in Hx.
    destruct ((97 <=? c)%N && (c <=? 122)%N) eqn:E; lia.
  Qed.

  Lemma lower_special c : same_special c (ascii_lower c).
  Proof.
    intros x Hx. unfold ascii_lower, is_upper.
    apply special_cases in Hx. unfold CR, LF, SP in Hx.
    destruct ((65 <=? c)%N && (c <=? 90)%N) eqn:E; lia.
  Qed.

  Lemma title_special k : forall cased, Forall2 same_special k (title_from cased k).
  Proof.
    induction k as [|c t IH]; intros cased; cbn [title_from]; constructor; auto.
    destruct cased; [apply lower_special|apply upper_special].
  Qed.

  Lemma swap_special a b k : special a = false -> special b = false -> Forall2 same_special k (swap a b k).
  Proof.
    intros Ha Hb. induction k as [|c t IH]; cbn [swap map]; constructor; auto.
    intros x Hx. destruct (N.eqb_spec c a) as [->|Hn]; [|tauto].
    split; intros ->; congruence.
  Qed.

  Definition wire_key (k : str) : str := title (swap USCORE DASH k).

  Lemma Forall2_trans {A B C} (R : A -> B -> Prop) (S : B -> C -> Prop) (T : A -> C -> Prop) :
    (forall a b c, R a b -> S b c -> T a c) ->
    forall l m n, Forall2 R l m -> Forall2 S m n -> Forall2 T l n.
  Proof.
    intros H l m n HF. revert n. induction HF; intros n HG; inversion HG; subst; constructor; eauto.
  Qed.

  Lemma wire_key_special k : Forall2 same_special k (wire_key k).
  Proof.
    unfold wire_key, title. eapply Forall2_trans; [apply same_special_trans| |].
    - apply swap_special with (a := USCORE) (b := DASH); reflexivity.
    - apply title_special.
  Qed.

  Lemma ascii_case c : (c < 128)%N -> (ascii_upper c < 128 /\ ascii_lower c < 128)%N.
  Proof. unfold ascii_upper, ascii_lower, is_upper, is_lower. intros. split; destruct (_ && _) eqn:E; lia. Qed.

  Lemma is_ascii_Forall s : is_ascii s = true <-> Forall (fun c => (c < 128)%N) s.
  Proof.
    unfold is_ascii. rewrite forallb_forall, Forall_forall. split; intros H x Hx; specialize (H x Hx);
      destruct (N.ltb_spec x 128); auto; lia.
  Qed.

  Lemma title_ascii k : forall cased, Forall (fun c => (c < 128)%N) k ->
    Forall (fun c => (c < 128)%N) (title_from cased k).
  Proof.
    intros cased H. revert cased. induction H as [|c t Hc Ht IH]; intros cased; cbn [title_from]; constructor; auto.
    destruct cased; apply ascii_case; auto.
  Qed.

  Lemma wire_key_ascii k : is_ascii k = true -> is_ascii (wire_key k) = true.
  Proof.
    rewrite !is_ascii_Forall. intros H. apply title_ascii. unfold swap. apply Forall_forall.
    intros x Hx. apply in_map_iff in Hx. destruct Hx as (y & <- & Hy).
    rewrite Forall_forall in H. specialize (H y Hy). destruct (N.eqb y USCORE); [reflexivity|auto].
  Qed.

  Lemma lower_case c : ascii_lower (ascii_upper c) = ascii_lower c /\ ascii_lower (ascii_lower c) = ascii_lower c.
  Proof.
    unfold ascii_upper, ascii_lower, is_upper, is_lower. split.
    - destruct ((97 <=? c)%N && (c <=? 122)%N) eqn:E1; auto.
      destruct ((65 <=? c - 32)%N && (c - 32 <=? 90)%N) eqn:E2;
      destruct ((65 <=? c)%N && (c <=? 90)%N) eqn:E3; lia.
    - destruct ((65 <=? c)%N && (c <=? 90)%N) eqn:E3; [|now rewrite E3].
      destruct ((65 <=? c + 32)%N && (c + 32 <=? 90)%N) eqn:E2; lia.
  Qed.

  Lemma lower_title k : forall cased, map ascii_lower (title_from cased k) = map ascii_lower k.
  Proof.
    induction k as [|c t IH]; intros cased; cbn [title_from map]; auto.
    rewrite IH. f_equal. destruct cased; apply lower_case.
  Qed.

  Lemma lower_swap k : swap DASH USCORE (map ascii_lower (swap USCORE DASH k))
    = swap DASH USCORE (map ascii_lower k).
  Proof.
    unfold swap. induction k as [|c t IH]; cbn [map]; auto. rewrite IH. f_equal.
    destruct (N.eqb_spec c USCORE) as [->|Hn]; reflexivity.
  Qed.


  (** ** Lines of a header *)

  Definition item_lines (K : str) (segs : list str) : list str :=
    match segs with
    | [] => []
    | v :: vs => (K ++ COLONSP ++ v) :: map (cons SP) vs
    end.

  Definition endl (ls : list str) : str := concat (map (fun l => l ++ CRLF) ls).

  Lemma endl_app a b : endl (a ++ b) = endl a ++ endl b.
  Proof. unfold endl. now rewrite map_app, concat_app. Qed.

  Lemma item_wire K v : K ++ COLONSP ++ escape v ++ CRLF = endl (item_lines K (segments v)).
  Proof.
    rewrite (escape_segments _ v (le_n _)).
    pose proof (segments_ne v). destruct (segments v) as [|s ss]; [congruence|]. clear H.
    unfold item_lines. change (endl ((K ++ COLONSP ++ s) :: map (cons SP) ss))
      with (((K ++ COLONSP ++ s) ++ CRLF) ++ endl (map (cons SP) ss)).
    rewrite <- !app_assoc. do 2 f_equal.
    revert s. induction ss as [|s2 ss IH]; intros s.
    - reflexivity.
    - rewrite join_cons by discriminate. cbn [map].
      change (endl ((SP :: s2) :: map (cons SP) ss)) with (((SP :: s2) ++ CRLF) ++ endl (map (cons SP) ss)).
      rewrite <- !app_assoc. cbn [app]. rewrite <- IH. reflexivity.
  Qed.

  (** a line that reaches the receiver as it is *)
  Definition good_line (l : str) : Prop := l <> [] /\ find CRLF (l ++ [CR]) = None.

  Lemma find_app_None x c y : c <> CR -> c <> LF -> find CRLF x = None -> find CRLF y = None ->
    find CRLF (x ++ c :: y) = None.
  Proof.
    intros H1 H2 Hx Hy. induction x as [|a x IH].
    - cbn [app]. rewrite find_cons. rewrite Hy. cbn [option_map].
      cbn [prefixb CRLF]. destruct (N.eqb_spec CR c); [congruence|]. reflexivity.
    - cbn [app]. rewrite find_cons in *.
      destruct (prefixb CRLF (a :: x)) eqn:Ep; [discriminate|].
      assert (Hx' : find CRLF x = None) by (destruct (find CRLF x); [discriminate|auto]).
      rewrite (IH Hx'). destruct (prefixb CRLF (a :: x ++ c :: y)) eqn:Eq; auto.
      exfalso. cbn [prefixb CRLF] in Ep, Eq. destruct (N.eqb CR a); [|discriminate].
      destruct x as [|z x]; cbn [app] in Eq.
      + destruct (N.eqb_spec LF c); [congruence|discriminate].
      + cbn [andb] in *. destruct (N.eqb LF z); discriminate.
  Qed.

  Lemma containsb_find p s : containsb p s = false <-> find p s = None.
  Proof. unfold containsb. destruct (find p s); split; congruence. Qed.

  Lemma good_key_spec k : good_key k = true ->
    is_ascii k = true /\ find CRLF k = None /\ find COLONSP k = None /\ hd 0%N k <> SP.
  Proof.
    unfold good_key. rewrite !andb_true_iff, !negb_true_iff, !containsb_find.
    intros [[[H1 H2] H3] H4]. repeat split; auto. now apply N.eqb_neq.
  Qed.

  Lemma item_lines_good k segs : good_key k = true ->
    Forall (fun l => find CRLF (l ++ [CR]) = None) segs ->
    Forall good_line (item_lines (wire_key k) segs).
  Proof.
    intros Hk HF. destruct (good_key_spec k Hk) as (Ha & Hc & _ & _).
    destruct HF as [|v vs Hv Hvs]; cbn [item_lines]; constructor.
    - split.
      + destruct (wire_key k); discriminate.
      + rewrite <- !app_assoc. change (COLONSP ++ v ++ [CR]) with (58%N :: SP :: v ++ [CR]).
        apply find_app_None; [discriminate|discriminate| |].
        * rewrite <- (find_similar _ k); [exact Hc|reflexivity|apply wire_key_special].
        * apply (find_app_None [] SP); [discriminate|discriminate|reflexivity|exact Hv].
    - apply Forall_forall. intros l Hl. apply in_map_iff in Hl. destruct Hl as (x & <- & Hx).
      rewrite Forall_forall in Hvs. split; [discriminate|].
      apply (find_app_None [] SP); [discriminate|discriminate|reflexivity|].
      apply Hvs, Hx.
  Qed.

  Lemma split_colon_item K v : find COLONSP K = None -> split_colon (K ++ COLONSP ++ v) = Some (K, v).
  Proof.
    intros H. unfold split_colon.
    assert (E : find COLONSP (K ++ COLONSP ++ v) = Some (length K)).
    { revert H. induction K as [|c K IH]; intros H.
      - reflexivity.
      - cbn [app length]. cbn [find] in H |- *.
        destruct (prefixb COLONSP (c :: K)) eqn:Ep; [discriminate|].
        assert (Hk : find COLONSP K = None) by (destruct (find COLONSP K); [discriminate|auto]).
        assert (Eq : prefixb COLONSP (c :: K ++ COLONSP ++ v) = false).
        { change COLONSP with [58%N; SP] in *. cbn [prefixb] in *.
          destruct (N.eqb 58%N c); [|reflexivity]. cbn [andb] in *.
          destruct K as [|z K]; cbn [app] in *; [reflexivity|].
          destruct (N.eqb SP z); [discriminate|reflexivity]. }
        rewrite Eq, (IH Hk). reflexivity. }
    rewrite E. rewrite firstn_app, Nat.sub_diag, firstn_all, app_nil_r.
    rewrite skipn_app, skipn_all2 by lia.
    replace (length K + 2 - length K) with 2 by lia. reflexivity.
  Qed.

  (** *** Dict facts *)
  Lemma dset_dset {K V} `{EqB K} (d : dict K V) k v w : dset (dset d k v) k w = dset d k w.
  Proof.
    induction d as [|[k' v'] d IH]; cbn [dset].
    - now rewrite eqb_refl.
    - destruct (eqb k k') eqn:E; cbn [dset]; rewrite E; [reflexivity|now rewrite IH].
  Qed.

  Lemma dset_new {K V} `{EqB K} (d : dict K V) k v : ~ In k (keys d) -> dset d k v = d ++ [(k, v)].
  Proof.
    induction d as [|[k' v'] d IH]; intros Hn; cbn [dset app]; auto.
    cbn [keys map fst] in Hn. destruct (eqb_spec k k') as [->|Hne].
    - exfalso. apply Hn. now left.
    - rewrite IH; auto. intros Hin. apply Hn. now right.
  Qed.

  Lemma decode_CRLF x y : utf8_encode x = Ok y -> utf8_decode (CRLF ++ y) = Ok (CRLF ++ x).
  Proof.
    intros E. apply utf8_decode_encode. apply (utf8_encode_app CRLF); auto.
  Qed.



Section Keys.
  Variable ulower : str -> str.
  Hypothesis ulower_ascii : forall s, is_ascii s = true -> ulower s = map ascii_lower s.
  Local Notation normalizeKey := (normalizeKey ulower).
  Local Notation parse_lines := (parse_lines ulower).

  Lemma normalize_wire k : is_ascii k = true -> normalizeKey (wire_key k) = normalizeKey k.
  Proof.
    intros H. unfold normalizeKey. rewrite !ulower_ascii by auto using wire_key_ascii.
    unfold wire_key, title. rewrite lower_title, lower_swap. reflexivity.
  Qed.

  Lemma parse_conts : forall xs ys k b v rest,
    Forall2 (fun x y => utf8_encode x = Ok y) xs ys ->
    parse_lines (Some k) (dset b k v) (map (cons SP) ys ++ rest) =
    parse_lines (Some k) (dset b k (join CRLF (v :: xs))) rest.
  Proof.
    induction xs as [|x xs IH]; intros ys k b v rest HF; inversion HF; subst.
    - reflexivity.
    - cbn [map app parse_lines]. change (N.eqb SP SP) with true. cbv iota.
      rewrite (decode_CRLF _ _ H1). cbn [rbind]. rewrite dget_dset_eq, dset_dset.
      rewrite IH by assumption.
      destruct xs as [|x2 xs].
      + cbn [join]. reflexivity.
      + rewrite !join_cons by discriminate. now rewrite <- !app_assoc.
  Qed.

  (** one header is parsed to its normalized key and the text of its value *)
  Lemma parse_item key b k t vb rest : good_key k = true -> utf8_encode t = Ok vb ->
    parse_lines key b (item_lines (wire_key k) (segments vb) ++ rest) =
    parse_lines (Some (normalizeKey k)) (dset b (normalizeKey k) t) rest.
  Proof.
    intros Hk Ht. destruct (good_key_spec k Hk) as (Ha & Hc & Hco & Hsp).
    pose proof (segments_encode _ t vb (le_n _) Ht) as HF.
    pose proof (join_segments _ t (le_n _)) as Hj.
    inversion HF as [E1 E2|x y xs ys Hxy HF2 E1 E2].
    { exfalso. now apply (segments_ne t). }
    rewrite <- E1 in Hj. cbn [item_lines app parse_lines].
    pose proof (wire_key_special k) as Hsim.
    assert (Hfc : find COLONSP (wire_key k) = None).
    { rewrite <- (find_similar _ k); [exact Hco|reflexivity|exact Hsim]. }
    assert (Hline : match wire_key k ++ COLONSP ++ y with
                    | [] => False | c :: _ => N.eqb c SP = false end).
    { destruct Hsim as [|a b0 k0 K0 Hab _]; [reflexivity|]. cbn [app]. cbn [hd] in Hsp.
      apply N.eqb_neq. intros E. apply Hsp. apply (Hab SP eq_refl). exact E. }
    pose proof (split_colon_item (wire_key k) y Hfc) as Hsplit.
    destruct (wire_key k ++ COLONSP ++ y) as [|c l'] eqn:El; [contradiction|]. rewrite Hline.
    rewrite Hsplit. rewrite (utf8_decode_encode (wire_key k) (wire_key k)).
    2: { apply utf8_encode_ascii, is_ascii_Forall, wire_key_ascii, Ha. }
    cbn [rbind]. rewrite (utf8_decode_encode x y Hxy). cbn [rbind].
    rewrite normalize_wire by exact Ha. rewrite parse_conts with (xs := xs) by exact HF2.
    now rewrite <- Hj.
  Qed.

  (** ** Whole headers *)

  (** the text a value is received as *)
  Definition text_of (v : pv) (t : str) : Prop :=
    match v with PS s => t = s | PB b => utf8_encode t = Ok b end.

  Definition wire_item (kv : str * pv) : str * pv :=
    let '(k, v) := kv in
    if eqb k BODY then (LENGTH, PS (dec (N.of_nat (py_len v)))) else (k, v).

  Definition sends (kv : str * pv) (kt : str * str) : Prop :=
    good_key (fst kv) = true /\ (exists vb, ensure_binary (snd kv) = Ok vb) /\
    fst kt = normalizeKey (fst kv) /\ text_of (snd kv) (snd kt).

  Lemma text_of_binary v t vb : text_of v t -> ensure_binary v = Ok vb -> utf8_encode t = Ok vb.
  Proof. destruct v; cbn; intros H1 H2; congruence. Qed.

  Theorem items_roundtrip : forall b hs, Forall2 sends (map wire_item b) hs ->
    exists ls, serialize_items b = Ok (endl ls) /\ Forall good_line ls /\
    forall key acc, NoDup (keys acc ++ map fst hs) ->
      parse_lines key acc ls = Ok (acc ++ hs).
  Proof.
    induction b as [|[k v] b IH]; intros hs HF; cbn [map] in HF.
    - inversion HF; subst. exists []. repeat split; [constructor|].
      intros key acc _. now rewrite app_nil_r.
    - remember (wire_item (k, v)) as wi eqn:Ewi.
      inversion HF as [|kv kt bs hs' Hs HF' E1 E2]. subst kv bs hs.
      destruct (IH hs' HF') as (ls & Hls & Hgl & Hp).
      cbn [serialize_items]. change (if eqb k BODY then (LENGTH, PS (dec (N.of_nat (py_len v)))) else (k, v))
        with (wire_item (k, v)).
      rewrite <- Ewi. destruct wi as [k' v']. destruct kt as [nk t].
      destruct Hs as (Hk & (vb & Hvb) & Hnk & Ht). cbn [fst snd] in *. subst nk.
      destruct (good_key_spec k' Hk) as (Ha & _).
      rewrite utf8_encode_ascii by (apply is_ascii_Forall; exact Ha). cbn [rbind].
      rewrite Hvb. cbn [rbind]. rewrite Hls. cbn [rbind].
      pose proof (text_of_binary _ _ _ Ht Hvb) as He.
      exists (item_lines (wire_key k') (segments vb) ++ ls). split; [|split].
      + rewrite endl_app, <- item_wire. unfold wire_key. now rewrite <- !app_assoc.
      + apply Forall_app. split; auto. apply item_lines_good; auto using segments_ok.
      + intros key acc Hnd. rewrite (parse_item key acc k' t vb ls Hk He).
        cbn [map fst] in Hnd.
        assert (Hnew : ~ In (normalizeKey k') (keys acc)).
        { intros Hin. apply NoDup_remove_2 in Hnd. apply Hnd. apply in_or_app. now left. }
        rewrite (dset_new acc (normalizeKey k') t Hnew).
        rewrite Hp.
        * now rewrite <- app_assoc.
        * unfold keys in *. rewrite map_app, <- app_assoc. exact Hnd.
  Qed.
End Keys.
