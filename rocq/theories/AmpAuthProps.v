(** * Properties of epsilon/ampauth.py *)

From Coq Require Import NArith String List Bool Arith Lia.
From Verif Require Import Py Utf8 AmpAuth.
Import ListNotations.
Open Scope nat_scope.

(** a stand-in for SHA-1 used only by the examples *)
Definition ex_hash (s : str) : str := s.

(** C14.  A response computed from a password is accepted by a check against
    the same password, whether either side has it as text or as bytes; and
    computing it fails only for text which UTF-8 cannot encode. *)
Theorem C14_correct_response_accepted : forall sha1 nonce ch p nonce' r,
  determineFrom sha1 nonce ch p = Ok (nonce', r) ->
  forall q, ensure_binary q = ensure_binary p ->
  checkPassword sha1 ch nonce' r q = Ok true.
Proof. exact determine_then_check. Qed.
Print Assumptions C14_correct_response_accepted.

Theorem C14_response_always_computed : forall sha1 nonce ch p,
  (exists r, determineFrom sha1 nonce ch p = Ok (nonce, r))
  \/ (determineFrom sha1 nonce ch p = Err UnicodeError
      /\ exists s, p = PText s /\ forallb is_scalar s = false).
Proof. exact determine_total. Qed.
Print Assumptions C14_response_always_computed.

(** The whole exchange: a connection not yet logged in answers PasswordLogin
    with a challenge; the response the client derives from it reaches the
    portal inside credentials which accept that password, and which accept a
    password exactly if its hash with this challenge and nonce is the
    response. *)
Theorem C14_exchange : forall sha1 h s u ch rnd2 nonce p,
  CReach h s -> c_recv s = RSelf -> lost h = false ->
  exists s1, cstep s (OCommand (KPasswordLogin u) ch) = (Ok (AChallenge ch), s1, [])
    /\ forall n r, determineFrom sha1 nonce ch p = Ok (n, r) ->
       exists s2 i, cstep s1 (OCommand (KResponse n r) rnd2)
                    = (Ok (ADeferred i), s2, [EPortal i (CPassword u ch n r)])
         /\ (forall q, checkPassword sha1 ch n r q = Ok true <->
               exists pw, ensure_binary q = Ok pw
                 /\ sha1 (ch ++ lit " " ++ n ++ lit " " ++ pw) = r)
         /\ checkPassword sha1 ch n r p = Ok true.
Proof. exact exchange. Qed.
Print Assumptions C14_exchange.

Example C14_nonvacuous :
  determineFrom ex_hash (lit "NN") (lit "C") (PText [0xE9%N])
    = Ok (lit "NN", lit "C NN " ++ [0xC3; 0xA9]%N)
  /\ checkPassword ex_hash (lit "C") (lit "NN") (lit "C NN " ++ [0xC3; 0xA9]%N)
       (PBytes [0xC3; 0xA9]%N) = Ok true
  /\ checkPassword ex_hash (lit "C") (lit "NN") (lit "C NN " ++ [0xC3; 0xA9]%N)
       (PText [0xE8%N]) = Ok false
  /\ determineFrom ex_hash (lit "NN") (lit "C") (PText [0xD800%N]) = Err UnicodeError
  /\ CReach [] cinit /\ c_recv cinit = RSelf.
Proof. repeat split. constructor. Qed.

(** C15.  With challenge and nonce of fixed length (both are 16 bytes), an
    accepted response was computed from the same challenge, the same nonce and
    the same password, or two different byte strings with the same hash have
    been exhibited. *)
Theorem C15_response_binds : forall sha1 ch n pw ch' n' p' pw',
  length ch = length ch' -> length n = length n' ->
  ensure_binary p' = Ok pw' ->
  checkPassword sha1 ch' n' (calcResponse sha1 ch n pw) p' = Ok true ->
  (ch = ch' /\ n = n' /\ pw = pw')
  \/ (hash_input ch n pw <> hash_input ch' n' pw'
      /\ sha1 (hash_input ch n pw) = sha1 (hash_input ch' n' pw')).
Proof. exact response_binds. Qed.
Print Assumptions C15_response_binds.

(** The server does not check the length of the client's nonce.  Without that
    assumption the binding fails for every hash function: a response for one
    password is accepted for another one, with the same challenge. *)
Theorem C15_unconstrained_nonce_fails : exists ch n pw n' pw',
  length ch = 16 /\ length n = 16 /\ pw <> pw'
  /\ forall sha1, checkPassword sha1 ch n' (calcResponse sha1 ch n pw) (PBytes pw') = Ok true.
Proof.
  exists (lit "0123456789abcdef"), (lit "0123456789abcdef"), (lit "b c"),
         (lit "0123456789abcdef b"), (lit "c").
  repeat split; [discriminate|]. intros sha1. unfold checkPassword. cbn [ensure_binary].
  unfold calcResponse.
  replace (hash_input (lit "0123456789abcdef") (lit "0123456789abcdef b") (lit "c"))
    with (hash_input (lit "0123456789abcdef") (lit "0123456789abcdef") (lit "b c"))
    by reflexivity.
  now rewrite eqb_refl.
Qed.
Print Assumptions C15_unconstrained_nonce_fails.

Example C15_nonvacuous :
  ensure_binary (PText (lit "pw")) = Ok (lit "pw")
  /\ checkPassword ex_hash (lit "0123456789abcdef") (lit "fedcba9876543210")
       (calcResponse ex_hash (lit "0123456789abcdef") (lit "fedcba9876543210") (lit "pw"))
       (PText (lit "pw")) = Ok true.
Proof. split; reflexivity. Qed.

(** C16.  In any sequence of attempts on one checker, attempt number [i] with
    pad [p] yields the avatar id registered for [p] if the pad was registered
    and none of the earlier attempts used it, and UnauthorizedLogin
    otherwise. *)
Theorem C16_each_attempt : forall A (pads : dict str A) ps i p,
  wf_dict pads -> nth_error ps i = Some p ->
  nth_error (fst (attempts pads ps)) i =
    Some (match dget pads p with
          | Some a => if memb p (firstn i ps) then Err UnauthorizedLogin else Ok a
          | None => Err UnauthorizedLogin
          end).
Proof. exact @pad_answers. Qed.
Print Assumptions C16_each_attempt.

(** ... so a registered pad is accepted exactly once if it is tried at all. *)
Theorem C16_at_most_once : forall A (pads : dict str A) p, wf_dict pads -> forall ps,
  accepted p ps (fst (attempts pads ps)) = if din pads p && memb p ps then 1 else 0.
Proof. exact @accepted_count. Qed.
Print Assumptions C16_at_most_once.

(** ... and the pads which were not tried stay registered. *)
Theorem C16_other_pads : forall A (pads : dict str A) ps q, wf_dict pads ->
  dget (snd (attempts pads ps)) q = if memb q ps then None else dget pads q.
Proof. exact @pads_left. Qed.
Print Assumptions C16_other_pads.

Example C16_nonvacuous :
  let pads := [(lit "p1", 1); (lit "p2", 2)] in
  wf_dict pads /\
  attempts pads [lit "p2"; lit "zz"; lit "p2"]
    = ([Ok 2; Err UnauthorizedLogin; Err UnauthorizedLogin], [(lit "p1", 1)]).
Proof.
  split; [|reflexivity]. unfold wf_dict. cbn. constructor.
  - intros [H|[]]. discriminate.
  - constructor; [tauto|constructor].
Qed.

(** C17.  The full claim: whenever a connection has ended, the logout callables
    called are exactly those of the logins which succeeded on it.  It is false:
    two logins started before either completes lose the first one's logout, and
    a login completing after the connection ended is never logged out. *)
Definition C17_full : Prop := forall h s, CReach h s -> lost h = true ->
  forall i, In i (map fst (successes h)) <-> In i (logouts h).

Theorem C17_logged_out_refuted :
  (exists h s, CReach h s /\ lost h = true
     /\ successes (before_loss h) = [(1, 8); (0, 7)] /\ successes h = [(1, 8); (0, 7)]
     /\ logouts h = [1])
  /\ (exists h s, CReach h s /\ lost h = true /\ successes h = [(0, 7)] /\ logouts h = [])
  /\ ~ C17_full.
Proof.
  assert (A : exists h s, CReach h s /\ lost h = true
     /\ successes (before_loss h) = [(1, 8); (0, 7)] /\ successes h = [(1, 8); (0, 7)]
     /\ logouts h = [1]).
  { set (ops := [OCommand (KOtpLogin (lit "a")) []; OCommand (KOtpLogin (lit "b")) [];
                 OFire 0 (Some 7); OFire 1 (Some 8); OLost 3]).
    exists (fst (crun ops [] cinit)), (snd (crun ops [] cinit)).
    split; [apply okrun_reach; [constructor|reflexivity]|]. repeat split. }
  split; [exact A|]. split.
  - set (ops := [OCommand (KOtpLogin (lit "a")) []; OLost 3; OFire 0 (Some 7)]).
    exists (fst (crun ops [] cinit)), (snd (crun ops [] cinit)).
    split; [apply okrun_reach; [constructor|reflexivity]|]. repeat split.
  - destruct A as (h & s & Hr & Hl & _ & Hs & Ho). intros F.
    specialize (F h s Hr Hl 0). rewrite Hs, Ho in F. cbn in F.
    destruct F as [F _]. destruct F as [F|[]]; [auto|discriminate].
Qed.
Print Assumptions C17_logged_out_refuted.

(** What holds.  In every history, no logout is called before the connection
    ends; when it ends, exactly one is called if some login had succeeded by
    then, the one of the latest success, and none otherwise.  Missing from the
    full claim: earlier successes, and successes after the end. *)
Theorem C17_logouts_partial : forall h s, CReach h s ->
  logouts h = if lost h then match last_success (before_loss h) with
                             | Some (i, _) => [i] | None => [] end
              else [].
Proof. exact logouts_spec. Qed.
Print Assumptions C17_logouts_partial.

(** So a connection with a single successful login, completed before the end,
    logs it out exactly once. *)
Theorem C17_single_login_partial : forall h s i a, CReach h s -> lost h = true ->
  successes h = [(i, a)] -> successes (before_loss h) = successes h -> logouts h = [i].
Proof. exact single_logout. Qed.
Print Assumptions C17_single_login_partial.

(** and a logout is only ever called for a login that succeeded, at most once *)
Theorem C17_no_spurious_logout_partial : forall h s i, CReach h s -> In i (logouts h) ->
  lost h = true /\ (exists a, In (i, a) (successes h)) /\ logouts h = [i].
Proof. exact logout_only_after_success. Qed.
Print Assumptions C17_no_spurious_logout_partial.

Definition ex_session : list cop :=
  [OCommand (KPasswordLogin (lit "u")) (lit "c1"); OCommand (KPasswordLogin (lit "v")) (lit "c2");
   OCommand (KResponse (lit "n") (lit "r")) []; OFire 0 None;
   OCommand (KOtpLogin (lit "p")) []; OFire 1 (Some 9);
   OCommand (KOtpLogin (lit "p")) []; OLost 4].

Example C17_nonvacuous :
  let hs := crun ex_session [] cinit in
  CReach (fst hs) (snd hs) /\ lost (fst hs) = true /\ successes (fst hs) = [(1, 9)]
  /\ successes (before_loss (fst hs)) = successes (fst hs) /\ logouts (fst hs) = [1].
Proof. cbv zeta. split; [apply okrun_reach; [constructor|reflexivity]|]. repeat split. Qed.

(** C18.  Boxes only ever go to an avatar which the portal returned for a login
    made on this connection, with credentials which a command on this
    connection presented. *)
Theorem C18_receiver_provenance : forall h s a, CReach h s -> c_recv s = RAvatar a ->
  exists i cr, In (i, a) (successes h) /\ In (i, cr) (logins h)
    /\ exists e, In e h /\ exists c rnd, ce_op e = OCommand c rnd /\ presents c cr.
Proof. exact receiver_provenance. Qed.
Print Assumptions C18_receiver_provenance.

(** Until the connection ends they go to the avatar of the latest successful
    login, and to the authentication responders if there is none. *)
Theorem C18_receiver_current : forall h s, CReach h s -> lost h = false ->
  c_recv s = match last_success h with Some (_, a) => RAvatar a | None => RSelf end.
Proof. exact receiver_current. Qed.
Print Assumptions C18_receiver_current.

(** A failing login changes nothing and calls nobody. *)
Theorem C18_failed_login : forall s i, cstep s (OFire i None) = (Ok AFailed, s, []).
Proof. exact failed_login_no_change. Qed.
Print Assumptions C18_failed_login.

Example C18_nonvacuous :
  let hs := crun (firstn 7 ex_session) [] cinit in
  CReach (fst hs) (snd hs) /\ c_recv (snd hs) = RAvatar 9 /\ lost (fst hs) = false
  /\ logins (fst hs) = [(1, COneTimePad (lit "p"));
                        (0, CPassword (lit "v") (lit "c2") (lit "n") (lit "r"))]
  /\ c_recv (snd (crun (firstn 4 ex_session) [] cinit)) = RSelf.
Proof. cbv zeta. split; [apply okrun_reach; [constructor|reflexivity]|]. repeat split. Qed.

(** C19.  Password credentials reaching the portal carry the nonce and response
    of the command, and the username and challenge of the most recent
    PasswordLogin answered before it. *)
Theorem C19_credentials : forall h1 e h2 s i u ch n r,
  CReach (h1 ++ e :: h2) s -> In (EPortal i (CPassword u ch n r)) (ce_ev e) ->
  last_challenge h2 = Some (u, ch) /\ exists rnd, ce_op e = OCommand (KResponse n r) rnd.
Proof. exact password_credentials. Qed.
Print Assumptions C19_credentials.

(** A response before any PasswordLogin never reaches the portal: it fails, and
    changes nothing. *)
Theorem C19_response_without_challenge : forall h s n r rnd,
  CReach h s -> last_challenge h = None ->
  exists x ev, cstep s (OCommand (KResponse n r) rnd) = (x, s, ev)
    /\ (forall i cr, ~ In (EPortal i cr) ev)
    /\ (c_recv s = RSelf -> x = Err AttributeError /\ ev = []).
Proof. exact response_without_challenge. Qed.
Print Assumptions C19_response_without_challenge.

Example C19_nonvacuous :
  (let hs := crun (firstn 3 ex_session) [] cinit in
   CReach (fst hs) (snd hs)
   /\ exists e h2, fst hs = [] ++ e :: h2
      /\ In (EPortal 0 (CPassword (lit "v") (lit "c2") (lit "n") (lit "r"))) (ce_ev e))
  /\ (let hs := crun [OCommand (KOtpLogin (lit "p")) []] [] cinit in
      CReach (fst hs) (snd hs) /\ last_challenge (fst hs) = None).
Proof.
  split; cbv zeta; (split; [apply okrun_reach; [constructor|reflexivity]|]).
  - do 2 eexists. split; [reflexivity|]. now left.
  - reflexivity.
Qed.
