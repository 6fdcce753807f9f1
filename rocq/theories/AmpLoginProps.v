(** * Property theorems for the client's [login] (C154)

    Model and specification: AmpLogin.v, AmpAuth.v. *)
From Coq Require Import NArith String List Bool Arith Lia.
From Verif Require Import Py Utf8 AmpAuth AmpLogin.
Import ListNotations.
Open Scope nat_scope.

(** ** C154: a login is decided by the user's password *)
(** Full statement: whoever shows the user's password is not rejected.  ([not_forwarded]: when the
    server took the commands of this login nobody was logged in on the connection, so the answers
    are the server's and not an avatar's.) *)
Definition C154_full : Prop := forall sha1 db l k r d o,
  nth_error (n_logins (nrun sha1 db l)) k = Some r -> l_state r = Done d o -> not_forwarded (nrun sha1 db l) k ->
  db (l_user r) = Some (l_pw r) -> o <> Rejected.

(** Two logins at once on one connection: the server keeps the user and the challenge of the
    second one only, and answers the first by rejecting it. *)
Definition rocket := PText (lit "rocket").
Definition ex_db (u : str) : option password := if eqb u (lit "alice") then Some (PText (lit "sesame")) else if eqb u (lit "bob") then Some rocket else None.
Definition ex_two : list nop :=
  [NLogin true (lit "alice") (PText (lit "sesame")); NLogin true (lit "bob") rocket; NServe (lit "aa"); NServe (lit "bb"); NClient (lit "n1"); NClient (lit "n2"); NServe []; NFire 0 Refused; NClient []].
Theorem C154_refuted : ~ C154_full.
Proof.
  intros H. refine (H (fun x => x) ex_db ex_two 0 {| l_user := lit "alice"; l_pw := PText (lit "sesame"); l_state := Done (Some (lit "aa", lit "n1")) Rejected |} (Some (lit "aa", lit "n1")) Rejected _ eq_refl _ eq_refl eq_refl); [vm_compute; reflexivity|]. intros b. vm_compute. intros [].
Qed.
Print Assumptions C154_refuted.

(** If the client starts a login only when its earlier ones are decided: [login] succeeds only if
    the user has a password that gives the same hash with the challenge and the nonce, and is
    rejected only if the user has none.  In particular the right password is never rejected. *)
Theorem C154_outcome_partial sha1 db l k r d o : one_at_a_time sha1 db l ->
  nth_error (n_logins (nrun sha1 db l)) k = Some r -> l_state r = Done d o -> not_forwarded (nrun sha1 db l) k ->
  match o with
  | Failed => True
  | LoggedIn => exists ch n q a b, d = Some (ch, n) /\ db (l_user r) = Some q /\ ensure_binary (l_pw r) = Ok a /\ ensure_binary q = Ok b /\ sha1 (ch ++ lit " " ++ n ++ lit " " ++ a) = sha1 (ch ++ lit " " ++ n ++ lit " " ++ b)
  | Rejected => exists ch n, d = Some (ch, n) /\ forall q a b, db (l_user r) = Some q -> ensure_binary (l_pw r) = Ok a -> ensure_binary q = Ok b -> sha1 (ch ++ lit " " ++ n ++ lit " " ++ a) <> sha1 (ch ++ lit " " ++ n ++ lit " " ++ b)
  end.
Proof.
  intros A E Es F. pose proof (outcome_spec sha1 db l k r d o A E Es (F true)) as H. destruct o; [| |exact I].
  - destruct H as (ch & n & q & H1 & H2 & a & b & H3). exists ch, n, q, a, b. auto.
  - destruct H as (ch & n & H1 & H2). exists ch, n. split; [exact H1|]. intros q a b Hq Ha Hb X. apply (H2 q Hq). exists a, b. auto.
Qed.
Print Assumptions C154_outcome_partial.

(** [calm_op]: the connection is not lost and the portal does not break.  Then a login whose password
    can be encoded does not fail in any other way, and with the user's password it succeeds. *)
Theorem C154_succeeds_partial sha1 db l k r d o a : one_at_a_time sha1 db l -> forallb calm_op l = true ->
  nth_error (n_logins (nrun sha1 db l)) k = Some r -> l_state r = Done d o -> not_forwarded (nrun sha1 db l) k ->
  ensure_binary (l_pw r) = Ok a -> db (l_user r) = Some (l_pw r) -> o = LoggedIn.
Proof.
  intros A C E Es F Ha Hd. pose proof (C154_outcome_partial sha1 db l k r d o A E Es F) as H. destruct o; [reflexivity| |].
  - destruct H as (ch & n & _ & H). destruct (H _ _ _ Hd Ha Ha eq_refl).
  - destruct (failed_spec sha1 db l k r d C E Es) as [[b X]|[e X]]; [destruct (F b X)|congruence].
Qed.
Print Assumptions C154_succeeds_partial.

(** Without any condition on what the client does: a login fails only for a reason, *)
Theorem C154_failed sha1 db l k r d : forallb calm_op l = true -> nth_error (n_logins (nrun sha1 db l)) k = Some r -> l_state r = Done d Failed ->
  (exists b, In (k, b) (n_fwd (nrun sha1 db l))) \/ exists e, ensure_binary (l_pw r) = Err e.
Proof. exact (failed_spec sha1 db l k r d). Qed.
Print Assumptions C154_failed.

(** and succeeds only if the response fits a password and a challenge the server has. *)
Theorem C154_success sha1 db l k r d : nth_error (n_logins (nrun sha1 db l)) k = Some r -> l_state r = Done d LoggedIn -> not_forwarded (nrun sha1 db l) k ->
  exists ch n u' ch' a q b, d = Some (ch, n) /\ ensure_binary (l_pw r) = Ok a /\ db u' = Some q /\ ensure_binary q = Ok b /\
    sha1 (ch ++ lit " " ++ n ++ lit " " ++ a) = sha1 (ch' ++ lit " " ++ n ++ lit " " ++ b).
Proof. intros E Es F. exact (success_spec sha1 db l k r d E Es (F true)). Qed.
Print Assumptions C154_success.

(** What is sent for a login is the user name, and a nonce with the hash of challenge, nonce and password. *)
Theorem C154_sent sha1 db l k b c : In ((k, b), c) (n_toS (nrun sha1 db l)) -> exists r, nth_error (n_logins (nrun sha1 db l)) k = Some r /\
  (c = KPasswordLogin (l_user r) \/ exists ch n pw, ensure_binary (l_pw r) = Ok pw /\ c = KResponse n (sha1 (ch ++ lit " " ++ n ++ lit " " ++ pw))).
Proof. exact (sent_spec sha1 db l k b c). Qed.
Print Assumptions C154_sent.

(** No login waits forever: when no command, no answer and no decision is outstanding, or the
    connection is lost, all are decided. *)
Theorem C154_decided sha1 db l : in_flight (nrun sha1 db l) = false \/ n_lost (nrun sha1 db l) = true -> forall r, In r (n_logins (nrun sha1 db l)) -> exists d o, l_state r = Done d o.
Proof.
  intros H r Hr. assert (A : forallb is_done (n_logins (nrun sha1 db l)) = true) by (destruct H as [H|H]; [now apply ends_spec|now apply (i_lost _ _ _ (nrun_inv sha1 db l))]).
  rewrite forallb_forall in A. specialize (A r Hr). unfold is_done in A. destruct (l_state r) as [|ch n|d o]; [discriminate|discriminate|eauto].
Qed.
Print Assumptions C154_decided.

(** Credentials of another kind raise, and nothing is sent. *)
Theorem C154_foreign sha1 db l1 l2 u p : fst (login (nrun sha1 db l1) false u p) = Err UnhandledCredentials /\ nrun sha1 db (l1 ++ NLogin false u p :: l2) = nrun sha1 db (l1 ++ l2).
Proof. split; [reflexivity|]. unfold nrun. rewrite !fold_left_app. reflexivity. Qed.
Print Assumptions C154_foreign.

(** One after the other: bob with a wrong password, then with the right one.  And both at once, the
    connection lost in between. *)
Definition ex_one : list nop :=
  [NLogin true (lit "bob") (PText (lit "sesame")); NServe (lit "aa"); NClient (lit "n1"); NServe []; NFire 0 Refused; NClient [];
   NLogin true (lit "bob") rocket; NServe (lit "bb"); NClient (lit "n2"); NServe []; NFire 1 (Granted 7); NClient []].
Lemma ex_one_ok : one_at_a_time (fun x => x) ex_db ex_one.
Proof.
  intros before u p after E. unfold ex_one in E.
  do 13 (destruct before as [|? before]; [cbn [app] in E; first [discriminate|injection E as <- <- <-; vm_compute; reflexivity]|cbn [app] in E; first [discriminate|injection E as <- E]]).
Qed.
Example C154_nonvacuous :
  one_at_a_time (fun x => x) ex_db ex_one /\ forallb calm_op ex_one = true
  /\ map l_state (n_logins (nrun (fun x => x) ex_db ex_one)) = [Done (Some (lit "aa", lit "n1")) Rejected; Done (Some (lit "bb", lit "n2")) LoggedIn]
  /\ not_forwarded (nrun (fun x => x) ex_db ex_one) 1 /\ in_flight (nrun (fun x => x) ex_db ex_one) = false
  /\ (exists n, nth_error (n_logins (nrun (fun x => x) ex_db ex_one)) 1 = Some n /\ l_pw n = rocket)
  /\ map l_state (n_logins (nrun (fun x => x) ex_db (firstn 5 ex_two ++ [NLost 0]))) = [Done (Some (lit "aa", lit "n1")) Failed; Done None Failed]
  /\ n_toS (nrun (fun x => x) ex_db (firstn 5 ex_two)) = [((0, true), KResponse (lit "n1") (lit "aa n1 sesame"))].
Proof. split; [exact ex_one_ok|]. repeat split; try (vm_compute; reflexivity); try (eexists; split; vm_compute; reflexivity). intros b. vm_compute. intros []. Qed.
