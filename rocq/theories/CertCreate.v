(** * epsilon/scripts/certcreate.py *)

From Coq Require Import ZArith NArith String List Bool Arith Lia.
From Verif Require Import Py PyStr PySplit PyInt FilePath FileTree FileTreeMore.
Import ListNotations.
Open Scope list_scope.

(** the value of an option: given as text, or the default 1 of serial-number *)
Inductive optval := OText (s : str) | OInt (z : Z).
Definition opts := dict str optval.

(** certcreate.py:31-37 *)
Definition table : list (str * str) :=
  [(lit "country", lit "C"); (lit "state", lit "ST"); (lit "city", lit "L"); (lit "organization", lit "O");
   (lit "unit", lit "OU"); (lit "hostname", lit "CN"); (lit "email", lit "emailAddress")].

(** opts[x] *)
Definition opt (o : opts) (x : str) : res optval := match dget o x with Some v => Ok v | None => Err KeyError end.

(** certcreate.py:30-38 *)
Fixpoint subject (o : opts) (t : list (str * str)) (sslopt : dict str optval) : res (dict str optval) :=
  match t with
  | [] => Ok sslopt
  | (x, y) :: t' => rbind (opt o x) (fun v => subject o t' (dset sslopt y v))
  end.

(** int(v) *)
Definition to_int (v : optval) : res Z := match v with OText s => py_int s | OInt z => Ok z end.

Section Cert.
  Variable fates : nat -> fate.
  (** KeyPair.generate().selfSignedCert(serialNumber, **sslopt): a certificate; what
      it dumps as; what it is inspected as.  Each may raise. *)
  Variable selfSignedCert : Z -> dict str optval -> res N.
  Variable dumpPEM : N -> res (list N).
  Variable inspect : N -> res unit.
  (** how many bytes f.write hands to the operating system at once; the rest is written
      when the file is closed *)
  Variable direct : nat.

  (** the end of the with statement, after its body has raised: the file is closed;
      what it may still write then is not modelled *)
  Definition closing {A} (m : M A) : M A := fun s => let (s', r) := m s in match r with Ok _ => (s', r) | Err e => let (s'', _) := close fates s' in (s'', Err e) end.

  (** certcreate.py:41-42, and 43-45; a name is given for the file *)
  Definition createSSLCertificate (o : opts) (filename : str) (quiet : bool) : M N :=
    sslopt <-- lift (subject o table []) ;
    v <-- lift (opt o (lit "serial-number")) ;
    serialNumber <-- lift (to_int v) ;
    ssc <-- lift (selfSignedCert serialNumber sslopt) ;
    _ <-- open_w fates filename ;
    pem <-- closing (lift (dumpPEM ssc)) ;
    _ <-- closing (write fates filename (firstn direct pem)) ;
    _ <-- write fates filename (skipn direct pem) ;
    _ <-- (if quiet then retM tt else lift (inspect ssc)) ;
    retM ssc.

  (** certcreate.py:50-63: parseOptions gives options or raises UsageError, which ends
      the program *)
  Definition SystemExit : exn := OtherExn 40.
  Definition main (parsed : option (opts * str * bool)) : M N :=
    match parsed with
    | None => raise SystemExit
    | Some (o, filename, quiet) => createSSLCertificate o filename quiet
    end.

  (** ** Proofs *)

  Lemma subject_get o : forall t s s', NoDup (map snd t) -> subject o t s = Ok s' ->
    forall y, dget s' y = match List.find (fun p => eqb (snd p) y) t with Some (x, _) => dget o x | None => dget s y end.
  Proof.
    induction t as [|[x y] t IH]; intros s s' ND E z; cbn [subject] in E; [injection E as <-; reflexivity|].
    unfold opt in E. destruct (dget o x) as [v|] eqn:V; [|discriminate E]. cbn [rbind] in E. inversion ND as [|? ? Hy ND']; subst. cbn [List.find snd].
    rewrite (IH _ _ ND' E z). destruct (eqb_spec y z) as [->|Hne].
    - assert (F : List.find (fun p => eqb (snd p) z) t = None).
      { clear -Hy. induction t as [|[a b] t IH]; [reflexivity|]. cbn [List.find snd]. destruct (eqb_spec b z) as [->|]; [exfalso; apply Hy; now left|]. apply IH. intros H. apply Hy. now right. }
      rewrite F. rewrite dget_dset_eq. now rewrite V.
    - destruct (List.find (fun p => eqb (snd p) z) t) as [[a b]|]; [reflexivity|]. now rewrite dget_dset_neq by auto.
  Qed.
  Lemma subject_err o : forall t s e, subject o t s = Err e -> exists x y, In (x, y) t /\ dget o x = None /\ e = KeyError.
  Proof.
    induction t as [|[x y] t IH]; intros s e E; cbn [subject] in E; [discriminate E|]. unfold opt in E. destruct (dget o x) as [v|] eqn:V; cbn [rbind] in E.
    - destruct (IH _ _ E) as (a & b & H1 & H2 & H3). exists a, b. split; [now right|auto].
    - injection E as <-. exists x, y. split; [now left|auto].
  Qed.

  (** all that has happened to the file system: nothing, or the file begins as the PEM
      does *)
  Definition touched (p : loc) (f g : fs) (pem : list N) : Prop := exists i, dget g p = Some (EFile (firstn i pem)) /\ forall l, l <> p -> dget g l = dget f l.

  Lemma open_states n (p : loc) s : absolute n p -> let (s', r) := open_w fates (render n p) s in
    (r = Ok tt -> dget (fst s') p = Some (EFile []) /\ forall l, l <> p -> dget (fst s') l = dget (fst s) l) /\ (forall e, r = Err e -> fst s' = fst s).
  Proof.
    intros Ha. destruct s as [f t]. unfold open_w, whole, sys. destruct (fates t); [|cbn; split; [discriminate|auto]|cbn; split; [discriminate|auto]].
    unfold os_open_w. rewrite (place_render n p Ha). destruct (dget f p) as [[c| |]|] eqn:E; cbn; try (split; [discriminate|auto]).
    - split; [intros _|discriminate]. split; [apply dget_dset_eq|intros l Hl; now rewrite dget_dset_neq].
    - destruct (has_parent f p); cbn; [|split; [discriminate|auto]]. split; [intros _|discriminate]. split; [apply dget_dset_eq|intros l Hl; now rewrite dget_dset_neq].
  Qed.
  Lemma write_states n (p : loc) bytes s c : absolute n p -> dget (fst s) p = Some (EFile c) -> let (s', r) := write fates (render n p) bytes s in
    (exists i, dget (fst s') p = Some (EFile (c ++ firstn i bytes)) /\ (r = Ok tt -> firstn i bytes = bytes)) /\ forall l, l <> p -> dget (fst s') l = dget (fst s) l.
  Proof.
    intros Ha Hc. destruct s as [f t]. cbn [fst] in Hc. unfold write, sys.
    assert (W : forall b, fst (os_append (render n p) b f) = dset f p (EFile (c ++ b)) /\ snd (os_append (render n p) b f) = Ok tt) by (intros b; unfold os_append; rewrite (place_render n p Ha), Hc; split; reflexivity).
    assert (O : forall b l, l <> p -> dget (dset f p (EFile (c ++ b))) l = dget f l) by (intros b l Hl; now rewrite dget_dset_neq).
    destruct (fates t) as [|k|k].
    - destruct (W bytes) as [W1 W2]. destruct (os_append (render n p) bytes f) as [f' r]. cbn [fst snd] in *. subst. cbn [fst]. split; [exists (length bytes); rewrite firstn_all; split; [apply dget_dset_eq|auto]|intros l Hl; now apply O].
    - destruct (W (firstn k bytes)) as [-> _]. cbn [fst]. split; [exists k; split; [apply dget_dset_eq|discriminate]|intros l Hl; now apply O].
    - destruct (W (firstn k bytes)) as [-> _]. cbn [fst]. split; [exists k; split; [apply dget_dset_eq|discriminate]|intros l Hl; now apply O].
  Qed.
  Lemma close_fst s : fst (fst (close fates s)) = fst s.
  Proof. destruct s as [f t]. unfold close, whole, sys. destruct (fates t); reflexivity. Qed.
  Lemma closing_states {A} (m : M A) s : fst (fst (closing m s)) = fst (fst (m s)) /\ snd (closing m s) = snd (m s).
  Proof.
    unfold closing. destruct (m s) as [s' [a|e]]; [auto|]. pose proof (close_fst s') as C. destruct (close fates s') as [s'' r]. cbn in *. auto.
  Qed.

  Lemma create_states o n (p : loc) quiet f t : absolute n p -> let (s', r) := createSSLCertificate o (render n p) quiet (f, t) in
    (fst s' = f \/ exists sslopt v z ssc, subject o table [] = Ok sslopt /\ opt o (lit "serial-number") = Ok v /\ to_int v = Ok z /\ selfSignedCert z sslopt = Ok ssc /\
      exists pem, (dumpPEM ssc = Ok pem \/ pem = [] /\ exists e, dumpPEM ssc = Err e) /\ touched p f (fst s') pem) /\
    (forall ssc, r = Ok ssc -> exists sslopt v z pem, subject o table [] = Ok sslopt /\ opt o (lit "serial-number") = Ok v /\ to_int v = Ok z /\ selfSignedCert z sslopt = Ok ssc /\ dumpPEM ssc = Ok pem /\
      dget (fst s') p = Some (EFile pem) /\ forall l, l <> p -> dget (fst s') l = dget f l).
  Proof.
    intros Ha. unfold createSSLCertificate, bindM at 1, lift at 1. destruct (subject o table []) as [sslopt|e] eqn:E1; [|cbn; split; [now left|discriminate]].
    unfold bindM at 1, lift at 1. destruct (opt o (lit "serial-number")) as [v|e] eqn:E2; [|cbn; split; [now left|discriminate]].
    unfold bindM at 1, lift at 1. destruct (to_int v) as [z|e] eqn:E3; [|cbn; split; [now left|discriminate]].
    unfold bindM at 1, lift at 1. destruct (selfSignedCert z sslopt) as [ssc|e] eqn:E4; [|cbn; split; [now left|discriminate]].
    unfold bindM at 1. pose proof (open_states n p (f, t) Ha) as O. destruct (open_w fates (render n p) (f, t)) as [s1 [[]|e]]; [|destruct O as [_ O]; rewrite (O e eq_refl); cbn; split; [now left|discriminate]].
    destruct O as [O _]. destruct (O eq_refl) as [O1 O2]. cbn [fst] in O2. clear O.
    unfold bindM at 1. destruct (closing_states (lift (dumpPEM ssc)) s1) as [C1 C2]. destruct (closing (lift (dumpPEM ssc)) s1) as [s2 r2]. cbn in C1, C2. subst r2.
    destruct (dumpPEM ssc) as [pem|e] eqn:E5.
    2:{ cbn. split; [|discriminate]. right. exists sslopt, v, z, ssc. repeat split; auto. exists []. split; [right; eauto|]. exists 0%nat. rewrite C1. auto. }
    assert (D1 : dget (fst s2) p = Some (EFile [])) by now rewrite C1. assert (D2 : forall l, l <> p -> dget (fst s2) l = dget f l) by (intros l Hl; rewrite C1; auto). clear C1 O1 O2.
    unfold bindM at 1. destruct (closing_states (write fates (render n p) (firstn direct pem)) s2) as [C1 C2]. pose proof (write_states n p (firstn direct pem) s2 [] Ha D1) as W.
    destruct (closing (write fates (render n p) (firstn direct pem)) s2) as [s3 r3]. destruct (write fates (render n p) (firstn direct pem) s2) as [s3' r3']. cbn [fst snd] in C1, C2. subst r3'. rewrite <- C1 in W. clear C1.
    destruct W as [(i & W1 & W2) W3]. cbn [app] in W1.
    assert (T3 : touched p f (fst s3) pem) by (exists (Nat.min i direct); rewrite <- firstn_firstn; split; [exact W1|intros l Hl; rewrite W3 by exact Hl; auto]).
    assert (X : forall s' : state, touched p f (fst s') pem -> fst s' = f \/ exists sslopt0 v0 z0 ssc0, Ok sslopt = Ok sslopt0 /\ Ok v = Ok v0 /\ to_int v0 = Ok z0 /\ selfSignedCert z0 sslopt0 = Ok ssc0 /\
      exists pem0, (dumpPEM ssc0 = Ok pem0 \/ pem0 = [] /\ exists e, dumpPEM ssc0 = Err e) /\ touched p f (fst s') pem0) by (intros s' T; right; exists sslopt, v, z, ssc; repeat split; auto; exists pem; auto).
    destruct r3 as [[]|e]; [|split; [now apply X|discriminate]]. rewrite (W2 eq_refl) in W1.
    unfold bindM at 1. pose proof (write_states n p (skipn direct pem) s3 (firstn direct pem) Ha W1) as V. destruct (write fates (render n p) (skipn direct pem) s3) as [s4 r4]. destruct V as [(j & V1 & V2) V3].
    assert (T4 : touched p f (fst s4) pem).
    { destruct (Nat.leb_spec (length pem) direct) as [L|L].
      - exists (length pem). rewrite (skipn_all2 pem) in V1 by exact L. rewrite firstn_nil, app_nil_r in V1. rewrite firstn_all2 in V1 by exact L. rewrite firstn_all. split; [exact V1|]. intros l Hl. rewrite V3 by exact Hl. rewrite W3 by exact Hl. auto.
      - exists (direct + j)%nat. rewrite firstn_add. split; [exact V1|]. intros l Hl. rewrite V3 by exact Hl. rewrite W3 by exact Hl. auto. }
    destruct r4 as [[]|e]; [|split; [now apply X|discriminate]]. rewrite (V2 eq_refl), firstn_skipn in V1.
    assert (Y : forall (s' : state) r, fst s' = fst s4 -> (forall ssc0, r = Ok ssc0 -> ssc0 = ssc) -> (fst s' = f \/ exists sslopt0 v0 z0 ssc0, Ok sslopt = Ok sslopt0 /\ Ok v = Ok v0 /\ to_int v0 = Ok z0 /\ selfSignedCert z0 sslopt0 = Ok ssc0 /\
      exists pem0, (dumpPEM ssc0 = Ok pem0 \/ pem0 = [] /\ exists e, dumpPEM ssc0 = Err e) /\ touched p f (fst s') pem0) /\
      (forall ssc0, r = Ok ssc0 -> exists sslopt0 v0 z0 pem0, Ok sslopt = Ok sslopt0 /\ Ok v = Ok v0 /\ to_int v0 = Ok z0 /\ selfSignedCert z0 sslopt0 = Ok ssc0 /\ dumpPEM ssc0 = Ok pem0 /\
      dget (fst s') p = Some (EFile pem0) /\ forall l, l <> p -> dget (fst s') l = dget f l)).
    { intros s' r Es Er. rewrite Es. split; [now apply X|]. intros ssc0 E. rewrite (Er ssc0 E). exists sslopt, v, z, pem. repeat split; auto. intros l Hl. rewrite V3 by exact Hl. rewrite W3 by exact Hl. auto. }
    destruct quiet; unfold bindM, retM, lift; [apply Y; [reflexivity|congruence]|]. destruct (inspect ssc) as [[]|e]; apply Y; try reflexivity; congruence.
  Qed.

  Lemma table_fields o sslopt : subject o table [] = Ok sslopt ->
    (forall y x, In (y, x) (map (fun p => (snd p, fst p)) table) -> dget o x <> None /\ dget sslopt y = dget o x) /\ (forall y, ~ In y (map snd table) -> dget sslopt y = None).
  Proof.
    intros E. assert (ND : NoDup (map snd table)) by (unfold table; cbn [map snd]; repeat constructor; intros X; repeat (destruct X as [X|X]; [discriminate X|]); exact X). pose proof (subject_get o table [] sslopt ND E) as G. split.
    - intros y x H. assert (K : dget o x <> None).
      { intros X. assert (B : exists e, subject o table [] = Err e); [|destruct B as [e B]; congruence]. clear -H X. revert H. generalize (@nil (str * optval)). induction table as [|[a b] t IH]; intros s H; [destruct H|]. cbn [subject]. unfold opt.
        destruct H as [H|H]; [injection H as <- <-; rewrite X; now exists KeyError|]. destruct (dget o a); [apply IH; exact H|now exists KeyError]. }
      split; [exact K|]. rewrite G. cbn [map table] in H. repeat (destruct H as [H|H]; [injection H as <- <-; reflexivity|]). destruct H.
    - intros y H. rewrite G. cbn [dget]. destruct (List.find (fun p => eqb (snd p) y) table) as [[a b]|] eqn:F; [|reflexivity]. exfalso. apply find_some in F as [F1 F2]. cbn [snd] in F2. destruct (eqb_spec b y) as [->|]; [|discriminate F2]. apply H. change y with (snd (a, y)). now apply in_map.
  Qed.
  Lemma create_bad o filename quiet s :
    (exists x, In x (lit "serial-number" :: map fst table) /\ dget o x = None) \/ (exists text e, dget o (lit "serial-number") = Some (OText text) /\ py_int text = Err e) ->
    exists e, createSSLCertificate o filename quiet s = (s, Err e).
  Proof.
    intros H. unfold createSSLCertificate, bindM at 1, lift at 1. destruct (subject o table []) as [sslopt|e] eqn:E1; [|now exists e]. destruct (table_fields o sslopt E1) as [T _].
    unfold bindM at 1, lift at 1, opt at 1. destruct (dget o (lit "serial-number")) as [v|] eqn:E2; [|now exists KeyError]. destruct H as [(x & [<-|Hx] & H)|(text & e & H1 & H2)].
    - congruence.
    - apply in_map_iff in Hx as ([a b] & <- & Hx). destruct (T b a) as [X _]; [|contradiction]. apply in_map_iff. now exists (a, b).
    - injection H1 as ->. unfold bindM at 1, lift at 1. cbn [to_int]. rewrite H2. now exists e.
  Qed.
  Lemma create_works o n (p : loc) quiet f t z d c pem : (forall t, fates t = Run) -> absolute n p ->
    subject o table [] = Ok d -> (exists v, dget o (lit "serial-number") = Some v /\ to_int v = Ok z) -> selfSignedCert z d = Ok c -> dumpPEM c = Ok pem -> inspect c = Ok tt ->
    (dget f p = None /\ has_parent f p = true \/ exists x, dget f p = Some (EFile x)) ->
    snd (createSSLCertificate o (render n p) quiet (f, t)) = Ok c.
  Proof.
    intros R Ha E1 (v & E2 & E3) E4 E5 E6 H. unfold createSSLCertificate, bindM, lift, closing. rewrite E1. unfold opt. rewrite E2, E3, E4.
    unfold open_w, whole, sys. rewrite R. unfold os_open_w. rewrite (place_render n p Ha).
    assert (X : forall f0 : fs, dget f0 p = Some (EFile []) -> snd ((let (s', r) := write fates (render n p) (firstn direct pem) (f0, S t) in match r with Ok _ => (s', r) | Err e => let (s'', _) := close fates s' in (s'', Err e) end)) = Ok tt /\
      exists f1 t1, fst ((let (s', r) := write fates (render n p) (firstn direct pem) (f0, S t) in match r with Ok _ => (s', r) | Err e => let (s'', _) := close fates s' in (s'', Err e) end)) = (f1, t1) /\ exists x, dget f1 p = Some (EFile x)).
    { intros f0 H0. unfold write, sys. rewrite R. unfold os_append. rewrite (place_render n p Ha), H0. cbn. split; [reflexivity|]. eexists _, _. split; [reflexivity|]. eexists. apply dget_dset_eq. }
    assert (Y : forall f0 : fs, dget f0 p = Some (EFile []) -> snd (let (s', r) := let (s', r) := write fates (render n p) (firstn direct pem) (f0, S t) in match r with Ok _ => (s', r) | Err e => let (s'', _) := close fates s' in (s'', Err e) end in
      match r with Ok _ => let (s'0, r0) := write fates (render n p) (skipn direct pem) s' in match r0 with Ok _ => let (s'1, r1) := (if quiet then retM tt else fun s => (s, inspect c)) s'0 in match r1 with Ok _ => retM c s'1 | Err e => (s'1, Err e) end | Err e => (s'0, Err e) end | Err e => (s', Err e) end) = Ok c).
    { intros f0 H0. destruct (X f0 H0) as (X1 & f1 & t1 & X2 & x & X3). destruct (let (s', r) := write fates (render n p) (firstn direct pem) (f0, S t) in match r with Ok _ => (s', r) | Err e => let (s'', _) := close fates s' in (s'', Err e) end) as [s' r]. cbn in X1, X2. subst.
      unfold write, sys. rewrite R. unfold os_append. rewrite (place_render n p Ha), X3. destruct quiet; cbn; [reflexivity|now rewrite E6]. }
    destruct H as [[H1 H2]|[x H]].
    - rewrite H1, H2. rewrite E5. apply (Y (dset f p (EFile []))). apply dget_dset_eq.
    - rewrite H. rewrite E5. apply (Y (dset f p (EFile []))). apply dget_dset_eq.
  Qed.
End Cert.
