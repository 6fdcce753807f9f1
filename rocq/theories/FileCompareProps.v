(** Properties C146, C147. *)
From Coq Require Import NArith String List Bool Arith Lia.
From Verif Require Import Py PyStr PySplit FilePath FileTree FileStat FileCompare.
Import ListNotations.
Open Scope list_scope.

(** A FilePath made of the text [s] in the working directory [render n wd]. *)
Definition made (n : nat) (wd : list str) (i : N) (s : str) : fpath := FPath i (filePath (render n wd) s).

(** C146 as claimed: two FilePaths are equal exactly if they name the same place, and
    equal ones have equal hashes. *)
Definition C146_full (py3 : bool) : Prop :=
  forall n wd i j s t, absolute n wd ->
    (equals py3 (made n wd i s) (OPath (made n wd j t)) = true <-> place (filePath (render n wd) s) = place (filePath (render n wd) t))
    /\ (equals py3 (made n wd i s) (OPath (made n wd j t)) = true -> exists h, hash py3 (made n wd i s) = Ok h /\ hash py3 (made n wd j t) = Ok h).

(** Under either version it is false: Python 3 does not use the comparison at all; under
    Python 2 '//a' is not equal to '/a', and no FilePath at all has a hash. *)
Theorem C146_refuted :
  ~ C146_full true /\ ~ C146_full false
  /\ (forall p, hash false p = Err TypeError)
  /\ (forall p q, less true p q = Err TypeError)
  /\ (forall p q, equals true p (OPath q) = true <-> fp_id p = fp_id q).
Proof.
  assert (A : absolute 1 []) by (split; [left; reflexivity|constructor]).
  split; [|split; [|split; [reflexivity|split; [reflexivity|intros p q; cbn; apply N.eqb_eq]]]].
  - intros H. destruct (H 1 [] 1%N 2%N (lit "a") (lit "a") A) as [[_ E] _]. specialize (E eq_refl). vm_compute in E. discriminate.
  - intros H. destruct (H 1 [] 1%N 2%N (lit "/a") (lit "//a") A) as [[_ E] _].
    assert (P : place (filePath (render 1 []) (lit "/a")) = place (filePath (render 1 []) (lit "//a"))) by (vm_compute; reflexivity).
    specialize (E P). vm_compute in E. discriminate.
Qed.
Print Assumptions C146_refuted.

(** What holds, under Python 2: two FilePaths are equal exactly if the texts they were made
    of lead to the same place with as many slashes in front (one or two); never equal to
    an object of another type; and < is a strict order, total up to equality, which is that of the path texts. *)
Theorem C146_equal_partial : forall n wd, absolute n wd ->
  (forall i j s t, equals false (made n wd i s) (OPath (made n wd j t)) = true <-> target n wd s = target n wd t)
  /\ (forall p k, fp_id p <> k -> equals false p (OOther k) = false)
  /\ (forall p q, less false p q = Ok (str_ltb (fp_path p) (fp_path q)))
  /\ (forall p q r, less false p q = Ok true -> less false q r = Ok true -> less false p r = Ok true)
  /\ (forall p q, (less false p q = Ok true /\ equals false p (OPath q) = false /\ less false q p = Ok false)
       \/ (less false p q = Ok false /\ equals false p (OPath q) = true /\ less false q p = Ok false)
       \/ (less false p q = Ok false /\ equals false p (OPath q) = false /\ less false q p = Ok true)).
Proof.
  intros n wd Ha.
  assert (L : forall p q, less false p q = Ok (str_ltb (fp_path p) (fp_path q))).
  { intros p q. unfold less, __cmp__, cmp. destruct (str_trichotomy (fp_path p) (fp_path q)) as [(H1 & H2 & H3)|[(H1 & H2 & H3)|(H1 & H2 & H3)]]; rewrite H1; try rewrite H3; reflexivity. }
  split; [|split; [|split; [exact L|split]]].
  - intros i j s t. unfold equals, __cmp__, made; cbn [fp_path fp_id].
    rewrite (filePath_target n wd s Ha), (filePath_target n wd t Ha).
    pose proof (target_abs n wd s Ha) as As. pose proof (target_abs n wd t Ha) as At.
    destruct (target n wd s) as [n1 c1], (target n wd t) as [n2 c2]; cbn [fst snd] in *.
    pose proof (cmp_equal (render n1 c1) (render n2 c2)) as [C1 C2].
    split; intros H.
    + destruct (cmp (render n1 c1) (render n2 c2)); try discriminate. destruct (render_inj n1 c1 n2 c2 As At (C1 eq_refl)); now subst.
    + injection H as -> ->. now rewrite C2.
  - intros p k H. cbn. now apply N.eqb_neq.
  - intros p q r H1 H2. rewrite L in *. injection H1 as H1. injection H2 as H2. f_equal. eapply str_ltb_trans; eassumption.
  - intros p q. rewrite !L. unfold equals, __cmp__, cmp. destruct (str_trichotomy (fp_path p) (fp_path q)) as [(H1 & H2 & H3)|[(H1 & H2 & H3)|(H1 & H2 & H3)]]; rewrite H1, H3; auto.
Qed.
Print Assumptions C146_equal_partial.

Example C146_nonvacuous :
  equals false (made 1 [lit "home"] 1 (lit "b/../a")) (OPath (made 1 [lit "home"] 2 (lit "/home/a/"))) = true
  /\ less false (made 1 [lit "home"] 1 (lit "a")) (made 1 [lit "home"] 2 (lit "b")) = Ok true.
Proof. vm_compute. now split. Qed.

(** C147: with the replaced write a StringTransport holds, after any calls, exactly the
    bytes of the calls that were not given unicode, in their order; those given unicode
    raise TypeError and no other does (Python 2). *)
Theorem C147_writes_partial : forall ds io,
  fst (string_writes false ds io) = io ++ concat (map bytes_of ds)
  /\ List.length (snd (string_writes false ds io)) = List.length ds
  /\ forall k d, nth_error ds k = Some d ->
       nth_error (snd (string_writes false ds io)) k = Some (match d with Unicode _ => Err TypeError | Bytes _ => Ok tt end).
Proof.
  intros ds io. rewrite writes_py2; cbn [fst snd]. rewrite flat_map_concat_map. split; [reflexivity|]. split; [apply map_length|].
  intros k d H. rewrite (map_nth_error _ _ _ H). now destruct d.
Qed.
Print Assumptions C147_writes_partial.

(** As claimed for both versions it is false: under Python 3 every call raises, and
    nothing is ever written. *)
Definition C147_full (py3 : bool) : Prop := forall ds io, fst (string_writes py3 ds io) = io ++ concat (map bytes_of ds).
Theorem C147_python3_refuted :
  ~ C147_full true
  /\ forall ds io, fst (string_writes true ds io) = io /\ forall k d, nth_error ds k = Some d -> nth_error (snd (string_writes true ds io)) k = Some (Err NameError).
Proof.
  split; [intros H; specialize (H [Bytes [1%N]] []); vm_compute in H; discriminate|].
  intros ds io. rewrite writes_py3; cbn [fst snd]. split; [reflexivity|]. intros k d H. now rewrite (map_nth_error _ _ _ H).
Qed.
Print Assumptions C147_python3_refuted.

Example C147_nonvacuous : string_writes false [Bytes (lit "ab"); Unicode (lit "x"); Bytes (lit "c")] [] = (lit "abc", [Ok tt; Err TypeError; Ok tt]).
Proof. reflexivity. Qed.
