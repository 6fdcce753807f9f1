(** * Properties C139, C140: certcreate *)

From Coq Require Import ZArith NArith String List Bool Arith Lia.
From Verif Require Import Py PyStr PySplit PyInt FilePath FileTree FileTreeMore CertCreate FileTreeProps.
Import ListNotations.
Open Scope list_scope.

(** ** C139 *)

(** the fields of the certificate's subject, and the options they come from *)
Definition fields : list (str * str) :=
  [(lit "C", lit "country"); (lit "ST", lit "state"); (lit "L", lit "city"); (lit "O", lit "organization");
   (lit "OU", lit "unit"); (lit "CN", lit "hostname"); (lit "emailAddress", lit "email")].

(** When a certificate is returned, it is the one made with the serial number given,
    and for a subject whose fields are those seven with the values given, and no
    others; and the file holds its PEM. *)
Theorem C139_certificate : forall fates selfSignedCert dumpPEM inspect direct o n (p : loc) quiet f t ssc, absolute n p ->
  snd (createSSLCertificate fates selfSignedCert dumpPEM inspect direct o (render n p) quiet (f, t)) = Ok ssc ->
  exists subject v serial, selfSignedCert serial subject = Ok ssc /\ dget o (lit "serial-number") = Some v /\ to_int v = Ok serial /\
    (forall y x, In (y, x) fields -> dget o x <> None /\ dget subject y = dget o x) /\ (forall y, ~ In y (map fst fields) -> dget subject y = None).
Proof.
  intros fates selfSignedCert dumpPEM inspect direct o n p quiet f t ssc Ha E. pose proof (create_states fates selfSignedCert dumpPEM inspect direct o n p quiet f t Ha) as D.
  destruct (createSSLCertificate fates selfSignedCert dumpPEM inspect direct o (render n p) quiet (f, t)) as [s' r]. cbn [snd] in E. destruct D as [_ D].
  destruct (D ssc E) as (sslopt & v & z & pem & E1 & E2 & E3 & E4 & _). exists sslopt, v, z. split; [exact E4|]. split; [|split; [exact E3|]].
  - unfold opt in E2. destruct (dget o (lit "serial-number")); [injection E2 as <-; reflexivity|discriminate E2].
  - exact (table_fields o sslopt E1).
Qed.
Print Assumptions C139_certificate.

(** It fails with KeyError exactly for an option that is missing, and with ValueError
    for a serial number that is no number, in both cases before any key is made. *)
Theorem C139_bad : forall fates selfSignedCert dumpPEM inspect direct o filename quiet s,
  (exists x, In x (lit "serial-number" :: map snd fields) /\ dget o x = None) \/ (exists text e, dget o (lit "serial-number") = Some (OText text) /\ py_int text = Err e) ->
  exists e, createSSLCertificate fates selfSignedCert dumpPEM inspect direct o filename quiet s = (s, Err e).
Proof. intros fates selfSignedCert dumpPEM inspect direct o filename quiet s. exact (create_bad fates selfSignedCert dumpPEM inspect direct o filename quiet s). Qed.
Print Assumptions C139_bad.

Definition some_opts : opts :=
  [(lit "country", OText (lit "US")); (lit "state", OText (lit "S")); (lit "city", OText (lit "Y")); (lit "organization", OText (lit "Z")); (lit "unit", OText (lit "U"));
   (lit "hostname", OText (lit "h.com")); (lit "email", OText (lit "e@h")); (lit "serial-number", OText (lit " 12 "))].
Definition signed (z : Z) (d : dict str optval) : res N := if (z =? 12)%Z then match dget d (lit "CN") with Some (OText s) => Ok (N.of_nat (length s)) | _ => Err TypeError end else Err ValueError.
Example C139_nonvacuous :
  snd (createSSLCertificate fine signed (fun c => Ok [c]) (fun _ => Ok tt) 8 some_opts (lit "/n") false (disk, 0%nat)) = Ok 5%N /\ absolute 1 [n_] /\ dget (dset some_opts (lit "serial-number") (OText (lit "x"))) (lit "serial-number") = Some (OText (lit "x")) /\ py_int (lit "x") = Err ValueError.
Proof. split; [vm_compute; reflexivity|]. split; [apply abs_1, short_name; auto|]. split; vm_compute; reflexivity. Qed.

(** ** C140 *)

(** The claim: the file holds what it did before or a whole certificate. *)
Definition C140_full : Prop := forall fates selfSignedCert dumpPEM inspect direct o n (p : loc) quiet f t, absolute n p ->
  let g := fst (fst (createSSLCertificate fates selfSignedCert dumpPEM inspect direct o (render n p) quiet (f, t))) in
  dget g p = dget f p \/ exists z d c pem, selfSignedCert z d = Ok c /\ dumpPEM c = Ok pem /\ dget g p = Some (EFile pem).

(** False: the file is emptied before the certificate is even dumped.  If that raises,
    or the process stops then, what the file held is lost. *)
Theorem C140_whole_refuted : ~ C140_full /\
  (forall selfSignedCert dumpPEM inspect direct quiet c e, selfSignedCert 12%Z [(lit "C", OText (lit "US")); (lit "ST", OText (lit "S")); (lit "L", OText (lit "Y")); (lit "O", OText (lit "Z")); (lit "OU", OText (lit "U")); (lit "CN", OText (lit "h.com")); (lit "emailAddress", OText (lit "e@h"))] = Ok c ->
    dumpPEM c = Err e -> let (s', r) := createSSLCertificate fine selfSignedCert dumpPEM inspect direct some_opts (lit "/n") quiet (disk, 0%nat) in
    r = Err e /\ dget disk [n_] = Some (EFile [9%N]) /\ dget (fst s') [n_] = Some (EFile [])).
Proof.
  split.
  - intros F. destruct (F (fun t => match t with O => Run | _ => FileTree.Stop 1 end) signed (fun c => Ok [c; 1; 2]%N) (fun _ => Ok tt) 8%nat some_opts 1%nat [n_] true disk 0%nat (abs_1 n_ ltac:(apply short_name; auto))) as [H|(z & d & c & pem & _ & E & H)].
    + vm_compute in H. discriminate H.
    + injection E as <-. vm_compute in H. discriminate H.
  - intros selfSignedCert dumpPEM inspect direct quiet c e E1 E2. unfold createSSLCertificate, bindM at 1, lift at 1. change (subject some_opts table []) with (Ok [(lit "C", OText (lit "US")); (lit "ST", OText (lit "S")); (lit "L", OText (lit "Y")); (lit "O", OText (lit "Z")); (lit "OU", OText (lit "U")); (lit "CN", OText (lit "h.com")); (lit "emailAddress", OText (lit "e@h"))]).
    unfold bindM at 1, lift at 1. change (opt some_opts (lit "serial-number")) with (Ok (OText (lit " 12 "))). unfold bindM at 1, lift at 1. change (to_int (OText (lit " 12 "))) with (py_int (lit " 12 ")). replace (py_int (lit " 12 ")) with (@Ok Z 12%Z) by (vm_compute; reflexivity).
    unfold bindM at 1, lift at 1. rewrite E1. unfold bindM at 1. replace (open_w fine (lit "/n") (disk, 0%nat)) with ((dset disk [n_] (EFile []), 1%nat), Ok tt) by (vm_compute; reflexivity).
    unfold bindM at 1, closing at 1, lift at 1. rewrite E2. cbn. repeat split.
Qed.
Print Assumptions C140_whole_refuted.

(** Until there is a certificate nothing has changed; then the file begins as the PEM
    does (or is empty), and holds all of it when the certificate is returned; nothing
    else ever changes. *)
Theorem C140_file_partial : forall fates selfSignedCert dumpPEM inspect direct o n (p : loc) quiet f t, absolute n p ->
  let (s', r) := createSSLCertificate fates selfSignedCert dumpPEM inspect direct o (render n p) quiet (f, t) in
  (forall l, l <> p -> dget (fst s') l = dget f l) /\
  (dget (fst s') p = dget f p \/ exists z d c pem i, selfSignedCert z d = Ok c /\ (dumpPEM c = Ok pem \/ pem = [] /\ exists e, dumpPEM c = Err e) /\ dget (fst s') p = Some (EFile (firstn i pem))) /\
  (forall c, r = Ok c -> exists pem, dumpPEM c = Ok pem /\ dget (fst s') p = Some (EFile pem)).
Proof.
  intros fates selfSignedCert dumpPEM inspect direct o n p quiet f t Ha. pose proof (create_states fates selfSignedCert dumpPEM inspect direct o n p quiet f t Ha) as D.
  destruct (createSSLCertificate fates selfSignedCert dumpPEM inspect direct o (render n p) quiet (f, t)) as [s' r]. destruct D as [D1 D2]. split; [|split].
  - destruct D1 as [->|(? & ? & ? & ? & _ & _ & _ & _ & pem & _ & i & _ & H)]; auto.
  - destruct D1 as [->|(d & v & z & c & _ & _ & _ & E & pem & Hp & i & H & _)]; [now left|right]. now exists z, d, c, pem, i.
  - intros c E. destruct (D2 c E) as (? & ? & ? & pem & _ & _ & _ & _ & H1 & H2 & _). now exists pem.
Qed.
Print Assumptions C140_file_partial.

Theorem C140_usage_partial : forall fates selfSignedCert dumpPEM inspect direct s, main fates selfSignedCert dumpPEM inspect direct None s = (s, Err SystemExit).
Proof. reflexivity. Qed.
Print Assumptions C140_usage_partial.

(** when nothing fails the certificate is returned *)
Theorem C140_works_partial : forall fates selfSignedCert dumpPEM inspect direct o n (p : loc) quiet f t z d c pem, (forall t, fates t = Run) -> absolute n p ->
  subject o table [] = Ok d -> (exists v, dget o (lit "serial-number") = Some v /\ to_int v = Ok z) -> selfSignedCert z d = Ok c -> dumpPEM c = Ok pem -> inspect c = Ok tt ->
  (dget f p = None /\ has_parent f p = true \/ exists x, dget f p = Some (EFile x)) ->
  snd (createSSLCertificate fates selfSignedCert dumpPEM inspect direct o (render n p) quiet (f, t)) = Ok c.
Proof. intros fates selfSignedCert dumpPEM inspect direct o n p quiet f t z d c pem. exact (create_works fates selfSignedCert dumpPEM inspect direct o n p quiet f t z d c pem). Qed.
Print Assumptions C140_works_partial.

Example C140_nonvacuous :
  createSSLCertificate fine signed (fun c => Ok [c; 1; 2]%N) (fun _ => Ok tt) 1 some_opts (lit "/x") false (disk, 0%nat) = ((dset disk [lit "x"] (EFile [5; 1; 2]%N), 3%nat), Ok 5%N) /\
  createSSLCertificate (fun t => if (t =? 2)%nat then FileTree.Stop 1 else Run) signed (fun c => Ok [c; 1; 2]%N) (fun _ => Ok tt) 1 some_opts (lit "/x") false (disk, 0%nat) = ((dset disk [lit "x"] (EFile [5; 1]%N), 3%nat), Err KILLED).
Proof. repeat split; vm_compute; reflexivity. Qed.
