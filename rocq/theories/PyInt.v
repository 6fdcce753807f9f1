(** * int(text) and str(int), as CPython does them *)

From Coq Require Import ZArith NArith List Bool Lia ZifyBool ZifyN.
From Verif Require Import Py PyStr PyNum.
Import ListNotations.
Open Scope N_scope.

(** The code points that are the digit zero of some script (Unicode 14, the
    database of CPython 3.11); each is followed by the other nine. *)
Definition decimal_zeros : list N :=
  [48; 1632; 1776; 1984; 2406; 2534; 2662; 2790; 2918; 3046; 3174; 3302; 3430; 3558; 3664; 3792;
   3872; 4160; 4240; 6112; 6160; 6470; 6608; 6784; 6800; 6992; 7088; 7232; 7248; 42528; 43216;
   43264; 43472; 43504; 43600; 44016; 65296; 66720; 68912; 69734; 69872; 69942; 70096; 70384;
   70736; 70864; 71248; 71360; 71472; 71904; 72016; 72784; 73040; 73120; 92768; 92864; 93008;
   120782; 120792; 120802; 120812; 120822; 123200; 123632; 125264; 130032].

Fixpoint decimal_in (zs : list N) (c : N) : option N :=
  match zs with
  | [] => None
  | z :: t => if (z <=? c) && (c <? z + 10) then Some (c - z) else decimal_in t c
  end.

(** CPython's _PyUnicode_TransformDecimalAndSpaceToASCII *)
Definition to_ascii (c : N) : N :=
  if c <? 127 then c
  else if is_space c then 32
  else match decimal_in decimal_zeros c with Some d => 48 + d | None => 63 end.

Fixpoint lstrip (sp : N -> bool) (s : str) : str :=
  match s with
  | c :: t => if sp c then lstrip sp t else s
  | [] => []
  end.
Definition strip (sp : N -> bool) (s : str) : str := rev (lstrip sp (rev (lstrip sp s))).

(** digits with single underscores between them; [us]: a digit must come *)
Fixpoint digits_us (acc : N) (us : bool) (s : str) : option N :=
  match s with
  | [] => if us then None else Some acc
  | c :: t =>
      if is_digit c then digits_us (10 * acc + digit_val c) false t
      else if (c =? 95) && negb us then digits_us acc true t
      else None
  end.

(** [int(s)] for text [s] (base 10).  Simplification: no limit on the number
    of digits (CPython since 3.11 refuses more than 4300). *)
Definition py_int (s : str) : res Z :=
  let s := strip is_space_b (map to_ascii s) in
  let '(neg, body) := match s with
                      | c :: t => if c =? 45 then (true, t) else if c =? 43 then (false, t) else (false, s)
                      | [] => (false, [])
                      end in
  match digits_us 0 true body with
  | Some n => Ok (if neg then - Z.of_N n else Z.of_N n)%Z
  | None => Err ValueError
  end.

(** [str(z)] *)
Definition zdec (z : Z) : str :=
  match z with
  | Zneg p => 45 :: dec (Npos p)
  | _ => dec (Z.to_N z)
  end.

Lemma digits_us_digits s : forall acc us, all_digits s = true -> s <> [] \/ us = false ->
  digits_us acc us s = Some (dec_val_acc acc s).
Proof.
  induction s as [|c t IH]; intros acc us Hd Hn.
  - destruct Hn as [Hn|Hn]; [congruence|]. subst. reflexivity.
  - unfold all_digits in Hd. cbn [forallb] in Hd. apply andb_prop in Hd as [Hc Ht].
    cbn [digits_us dec_val_acc]. rewrite Hc. apply IH; auto.
Qed.

Lemma map_to_ascii s : Forall (fun c => c < 127) s -> map to_ascii s = s.
Proof.
  induction 1 as [|c t Hc Ht IH]; cbn [map]; auto. rewrite IH. f_equal.
  unfold to_ascii. destruct (N.ltb_spec c 127); [reflexivity|lia].
Qed.

Lemma strip_none sp c t : sp c = false -> sp (last (c :: t) c) = false -> strip sp (c :: t) = c :: t.
Proof.
  intros H1 H2. unfold strip. cbn [lstrip]. rewrite H1.
  destruct (rev (c :: t)) as [|d r] eqn:E.
  - apply (f_equal (@length N)) in E. rewrite rev_length in E. discriminate.
  - assert (Ed : d = last (c :: t) c).
    { rewrite <- (rev_involutive (c :: t)), E. cbn [rev]. now rewrite last_last. }
    cbn [lstrip]. rewrite Ed, H2, <- Ed, <- E. apply rev_involutive.
Qed.

Lemma digit_not_space c : is_digit c = true -> is_space_b c = false /\ c < 127.
Proof. unfold is_digit, is_space_b. intros. split; lia. Qed.

Lemma all_digits_In s c : all_digits s = true -> In c s -> is_digit c = true.
Proof. unfold all_digits. rewrite forallb_forall. auto. Qed.

Lemma last_In (c : N) s : In (last (c :: s) c) (c :: s).
Proof.
  assert (H : forall (l : list N) d, l <> [] -> In (last l d) l).
  { induction l as [|x l IHl]; intros d Hn; [congruence|]. destruct l as [|y l]; [now left|].
    right. apply IHl. discriminate. }
  apply H. discriminate.
Qed.

Lemma zdec_shape z : exists c t, zdec z = c :: t /\ (c = 45 \/ is_digit c = true) /\
  all_digits t = true.
Proof.
  assert (H : forall n, exists c t, dec n = c :: t /\ is_digit c = true /\ all_digits t = true).
  { intros n. pose proof (dec_nonempty n). pose proof (dec_digits n) as Hd.
    destruct (dec n) as [|c t]; [congruence|]. unfold all_digits in *. cbn [forallb] in Hd.
    apply andb_prop in Hd as [? ?]. exists c, t. auto. }
  destruct z as [|p|p]; cbn [zdec].
  - destruct (H (Z.to_N 0)) as (c & t & E & ? & ?). exists c, t. auto.
  - destruct (H (Z.to_N (Z.pos p))) as (c & t & E & ? & ?). exists c, t. auto.
  - exists 45, (dec (N.pos p)). auto using dec_digits.
Qed.

Lemma zdec_ascii z : Forall (fun c => c < 127) (zdec z).
Proof.
  destruct (zdec_shape z) as (c & t & -> & Hc & Ht). constructor.
  - destruct Hc as [->|Hc]; [lia|]. now apply digit_not_space.
  - apply Forall_forall. intros x Hx. apply (digit_not_space x). eapply all_digits_In; eauto.
Qed.

Theorem py_int_zdec z : py_int (zdec z) = Ok z.
Proof.
  unfold py_int. rewrite map_to_ascii by apply zdec_ascii.
  assert (Hs : strip is_space_b (zdec z) = zdec z).
  { destruct (zdec_shape z) as (c & t & -> & Hc & Ht).
    assert (Hall : forall x, In x (c :: t) -> is_space_b x = false).
    { intros x [->|Hx].
      - destruct Hc as [->|Hc]; [reflexivity|]. now apply digit_not_space.
      - apply (digit_not_space x). eapply all_digits_In; eauto. }
    apply strip_none; apply Hall; [now left|]. apply last_In. }
  rewrite Hs. destruct z as [|p|p]; cbn [zdec].
  - reflexivity.
  - pose proof (dec_nonempty (Z.to_N (Z.pos p))) as Hn. pose proof (dec_digits (Z.to_N (Z.pos p))) as Hd.
    destruct (dec (Z.to_N (Z.pos p))) as [|c t] eqn:E; [congruence|].
    assert (Hc : is_digit c = true) by (eapply all_digits_In; [exact Hd|now left]).
    assert (Hc1 : c =? 45 = false) by (unfold is_digit in Hc; lia).
    assert (Hc2 : c =? 43 = false) by (unfold is_digit in Hc; lia).
    rewrite Hc1, Hc2, digits_us_digits by (auto; left; discriminate).
    change (dec_val_acc 0 (c :: t)) with (dec_val (c :: t)). rewrite <- E, dec_val_dec. reflexivity.
  - cbn [N.eqb Pos.eqb]. rewrite digits_us_digits by (auto using dec_digits; left; apply dec_nonempty).
    change (dec_val_acc 0 (dec (N.pos p))) with (dec_val (dec (N.pos p))). rewrite dec_val_dec. reflexivity.
Qed.
