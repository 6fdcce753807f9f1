(** * epsilon/ampauth.py: the client's [login] against a server, over a connection

    The server is that of AmpAuth.v, with a portal that looks passwords up in a table.
    The client may start any number of logins on one connection; commands and answers
    arrive in the order in which they are sent, and the portal takes its time. *)
From Coq Require Import NArith String List Bool Arith Lia.
From Verif Require Import Py Utf8 AmpAuth.
Import ListNotations.
Open Scope nat_scope.

(** What is known of a login's Deferred.  [Replied ch n] once the challenge [ch] has been
    answered with the nonce [n]; [Done] keeps these. *)
Inductive outcome := LoggedIn | Rejected | Failed.
Inductive lstate := Asked | Replied (ch n : str) | Done (sent : option (str * str)) (o : outcome).
Record lrec := { l_user : str; l_pw : password; l_state : lstate }.

(** Twisted's AMP: each command has a tag of its own, and the answer bears it.  The tag
    of a command is the login and whether it is its second command. *)
Definition tag := (nat * bool)%type.
Definition tag_dec : forall a b : tag, {a = b} + {a <> b}.
Proof. intros. decide equality; [apply bool_dec|apply Nat.eq_dec]. Defined.
Inductive answer := AnsChallenge (ch : str) | AnsEmpty | AnsUnauthorized | AnsUnknown.

Record net := {
  n_srv : cstate;                        (* the server's protocol, AmpAuth.v *)
  n_toS : list (tag * command);          (* commands on their way, the first one first *)
  n_toC : list (tag * answer);           (* answers on their way *)
  n_pend : list (nat * (tag * cred));    (* calls of portal.login not yet decided *)
  n_avatar : list tag;                   (* commands the avatar was given and did not answer yet *)
  n_logins : list lrec;
  n_lost : bool;
  (* not part of the program: the credentials shown to the portal for each login, and
     the commands that were given to an avatar *)
  n_shown : list (nat * cred);
  n_fwd : list tag }.
Definition net0 : net :=
  {| n_srv := cinit; n_toS := []; n_toC := []; n_pend := []; n_avatar := []; n_logins := []; n_lost := false; n_shown := []; n_fwd := [] |}.

Inductive verdict := Granted (avatar : nat) | Refused | Broken.
Inductive nop :=
| NLogin (provides : bool) (u : str) (p : password)  (* login(client, credentials) *)
| NServe (rnd : str)                 (* the server takes the next command *)
| NFire (i : nat) (v : verdict)      (* the portal decides on its call [i] *)
| NAvatar (t : tag) (a : answer)     (* the avatar answers a command *)
| NClient (nonce : str)              (* the client takes the next answer *)
| NLost (reason : nat).              (* the connection is lost *)

Definition set_state (l : list lrec) (k : nat) (st : lstate) : list lrec :=
  firstn k l ++ match skipn k l with [] => [] | r :: t => {| l_user := l_user r; l_pw := l_pw r; l_state := st |} :: t end.
Definition sent_of (st : lstate) : option (str * str) := match st with Asked => None | Replied ch n => Some (ch, n) | Done s _ => s end.
Definition give_up (r : lrec) : lrec :=
  match l_state r with Done _ _ => r | st => {| l_user := l_user r; l_pw := l_pw r; l_state := Done (sent_of st) Failed |} end.

Section Net.
  Variable sha1 : str -> str.
  (** the passwords the server's checker knows *)
  Variable db : str -> option password.

  (** Twisted's Portal and a checker that asks the credentials: they are accepted if they
      agree with the password of their user *)
  Definition accepts (c : cred) : bool :=
    match c with
    | CPassword u ch n r => match db u with
                            | Some p => match checkPassword sha1 ch n r p with Ok b => b | Err _ => false end
                            | None => false
                            end
    | COneTimePad _ => false
    end.

  (** ampauth.py:273-301 [login], up to the first command.  [callRemote] on a lost
      connection fails at once. *)
  Definition login (s : net) (provides : bool) (u : str) (p : password) : res nat * net :=
    if provides then
      (Ok (length (n_logins s)),
       {| n_srv := n_srv s;
          n_toS := if n_lost s then n_toS s else n_toS s ++ [((length (n_logins s), false), KPasswordLogin u)];
          n_toC := n_toC s; n_pend := n_pend s; n_avatar := n_avatar s;
          n_logins := n_logins s ++ [{| l_user := u; l_pw := p; l_state := if n_lost s then Done None Failed else Asked |}];
          n_lost := n_lost s; n_shown := n_shown s; n_fwd := n_fwd s |})
    else (Err UnhandledCredentials, s).

  (** the server answers unless it is too late *)
  Definition reply (s : net) (t : tag) (a : answer) : list (tag * answer) := if n_lost s then n_toC s else n_toC s ++ [(t, a)].

  (** AMP's dispatch at the server: a responder's exception that is not declared is
      answered as UNKNOWN (and the connection is closed, which is [NLost]) *)
  Definition serve (s : net) (rnd : str) : net :=
    match n_toS s with
    | [] => s
    | (t, c) :: rest =>
        let '(x, srv', ev) := cstep (n_srv s) (OCommand c rnd) in
        let mk toC pend av shown fwd := {| n_srv := srv'; n_toS := rest; n_toC := toC; n_pend := pend; n_avatar := av; n_logins := n_logins s; n_lost := n_lost s; n_shown := shown; n_fwd := fwd |} in
        match x, ev with
        | Ok (AChallenge ch), _ => mk (reply s t (AnsChallenge ch)) (n_pend s) (n_avatar s) (n_shown s) (n_fwd s)
        | Ok (ADeferred i), [EPortal _ cr] => mk (n_toC s) (n_pend s ++ [(i, (t, cr))]) (n_avatar s) (n_shown s ++ [(fst t, cr)]) (n_fwd s)
        | Ok _, _ => mk (n_toC s) (n_pend s) (t :: n_avatar s) (n_shown s) (t :: n_fwd s)
        | Err _, _ => mk (reply s t AnsUnknown) (n_pend s) (n_avatar s) (n_shown s) (n_fwd s)
        end
    end.

  (** the portal's decision: a callback of ampauth.py:194-201, or an error *)
  Definition fire (s : net) (i : nat) (v : verdict) : net :=
    match List.find (fun x => Nat.eqb (fst x) i) (n_pend s) with
    | None => s
    | Some (_, (t, cr)) =>
        let r := match v with Granted a => Some a | _ => None end in
        let ans := match v with Granted _ => AnsEmpty | Refused => AnsUnauthorized | Broken => AnsUnknown end in
        if match v with Granted _ => accepts cr | Refused => negb (accepts cr) | Broken => true end then
          let '(_, srv', _) := cstep (n_srv s) (OFire i r) in
          {| n_srv := srv'; n_toS := n_toS s; n_toC := reply s t ans; n_pend := filter (fun x => negb (Nat.eqb (fst x) i)) (n_pend s); n_avatar := n_avatar s;
             n_logins := n_logins s; n_lost := n_lost s; n_shown := n_shown s; n_fwd := n_fwd s |}
        else s
    end.

  (** an avatar answers a command it was given as it likes *)
  Definition avatar_answers (s : net) (t : tag) (a : answer) : net :=
    if in_dec tag_dec t (n_avatar s) then
      {| n_srv := n_srv s; n_toS := n_toS s; n_toC := reply s t a; n_pend := n_pend s; n_avatar := remove tag_dec t (n_avatar s);
         n_logins := n_logins s; n_lost := n_lost s; n_shown := n_shown s; n_fwd := n_fwd s |}
    else s.

  (** ampauth.py:291-301: the callbacks of the two commands.  An answer without a
      challenge is an error; the errors declared for the second command are those of
      ampauth.py:31-37, for the first none is declared. *)
  Definition client (s : net) (nonce : str) : net :=
    match n_toC s with
    | [] => s
    | ((k, second), a) :: rest =>
        let mk toS lg := {| n_srv := n_srv s; n_toS := toS; n_toC := rest; n_pend := n_pend s; n_avatar := n_avatar s; n_logins := lg; n_lost := n_lost s; n_shown := n_shown s; n_fwd := n_fwd s |} in
        match nth_error (n_logins s) k with
        | None => mk (n_toS s) (n_logins s)
        | Some r =>
            match l_state r, second, a with
            | Asked, false, AnsChallenge ch =>
                match determineFrom sha1 nonce ch (l_pw r) with
                | Ok (n, resp) => mk (n_toS s ++ [((k, true), KResponse n resp)]) (set_state (n_logins s) k (Replied ch n))
                | Err _ => mk (n_toS s) (set_state (n_logins s) k (Done None Failed))
                end
            | Asked, false, _ => mk (n_toS s) (set_state (n_logins s) k (Done None Failed))
            | Replied ch n, true, a' =>
                mk (n_toS s) (set_state (n_logins s) k (Done (Some (ch, n)) match a' with AnsEmpty | AnsChallenge _ => LoggedIn | AnsUnauthorized => Rejected | AnsUnknown => Failed end))
            | _, _, _ => mk (n_toS s) (n_logins s)      (* not possible *)
            end
        end
    end.

  (** the connection is lost on both sides: the commands not answered fail *)
  Definition lose (s : net) (reason : nat) : net :=
    if n_lost s then s else
    let '(_, srv', _) := cstep (n_srv s) (OLost reason) in
    {| n_srv := srv'; n_toS := []; n_toC := []; n_pend := n_pend s; n_avatar := n_avatar s; n_logins := map give_up (n_logins s); n_lost := true; n_shown := n_shown s; n_fwd := n_fwd s |}.

  Definition nstep (s : net) (o : nop) : net :=
    match o with
    | NLogin b u p => snd (login s b u p)
    | NServe rnd => serve s rnd
    | NFire i v => fire s i v
    | NAvatar t a => avatar_answers s t a
    | NClient nonce => client s nonce
    | NLost reason => lose s reason
    end.
  Definition nrun (l : list nop) : net := fold_left nstep l net0.

  (** ** Specification *)
  Definition is_done (r : lrec) : bool := match l_state r with Done _ _ => true | _ => false end.
  (** a client that starts a login only when its earlier ones are decided *)
  Definition one_at_a_time (l : list nop) : Prop := forall before u p after, l = before ++ NLogin true u p :: after -> forallb is_done (n_logins (nrun before)) = true.
  (** no command of login [k] went to an avatar: nobody was logged in on this connection when
      the server took them *)
  Definition not_forwarded (s : net) (k : nat) : Prop := forall b, ~ In (k, b) (n_fwd s).
  Definition in_flight (s : net) : bool := match n_toS s, n_toC s, n_pend s, n_avatar s with [], [], [], [] => false | _, _, _, _ => true end.

  (** ** Proofs *)
  Definition cnt (t : tag) (s : net) : nat :=
    count_occ tag_dec (map fst (n_toS s)) t + count_occ tag_dec (map fst (n_toC s)) t + count_occ tag_dec (map (fun x => fst (snd x)) (n_pend s)) t + count_occ tag_dec (n_avatar s) t.
  Definition state_of (s : net) (k : nat) : option lstate := option_map l_state (nth_error (n_logins s) k).
  Definition expected (s : net) (t : tag) : nat :=
    match state_of s (fst t), snd t with Some Asked, false => 1 | Some (Replied _ _), true => 1 | _, _ => 0 end.

  (** the credentials [cr] are those login [r] has to show *)
  Definition showing (r : lrec) (cr : cred) : Prop := exists ch n resp u' ch', cr = CPassword u' ch' n resp /\ sent_of (l_state r) = Some (ch, n) /\ determineFrom sha1 n ch (l_pw r) = Ok (n, resp).

  Record ninv (s : net) : Prop := {
    i_cnt : n_lost s = false -> forall t, cnt t s = expected s t;
    i_lost : n_lost s = true -> n_toS s = [] /\ n_toC s = [] /\ forallb is_done (n_logins s) = true;
    i_first : forall k c, In ((k, false), c) (n_toS s) -> exists r, nth_error (n_logins s) k = Some r /\ c = KPasswordLogin (l_user r);
    i_second : forall k c, In ((k, true), c) (n_toS s) -> exists r ch n resp, nth_error (n_logins s) k = Some r /\ c = KResponse n resp /\ l_state r = Replied ch n /\ determineFrom sha1 n ch (l_pw r) = Ok (n, resp);
    i_shown : forall k cr, In (k, cr) (n_shown s) -> exists r, nth_error (n_logins s) k = Some r /\ showing r cr;
    i_pend : forall i t cr, In (i, (t, cr)) (n_pend s) -> snd t = true /\ In (fst t, cr) (n_shown s);
    i_ids : NoDup (map fst (n_pend s)) /\ forall i, In i (map fst (n_pend s)) -> i < c_next (n_srv s);
    i_answer : forall k a, In ((k, true), a) (n_toC s) -> ~ In (k, true) (n_fwd s) ->
       match a with AnsChallenge _ => False | AnsUnknown => True | AnsEmpty => exists cr, In (k, cr) (n_shown s) /\ accepts cr = true | AnsUnauthorized => exists cr, In (k, cr) (n_shown s) /\ accepts cr = false end;
    i_avatar : forall t, In t (n_avatar s) -> In t (n_fwd s);
    i_done : forall k r ch o, nth_error (n_logins s) k = Some r -> l_state r = Done ch o -> ~ In (k, true) (n_fwd s) ->
       match o with Failed => True | LoggedIn => exists cr, In (k, cr) (n_shown s) /\ accepts cr = true | Rejected => exists cr, In (k, cr) (n_shown s) /\ accepts cr = false end
  }.

  Lemma set_nth l k st j : nth_error (set_state l k st) j = if Nat.eqb j k then option_map (fun r => {| l_user := l_user r; l_pw := l_pw r; l_state := st |}) (nth_error l j) else nth_error l j.
  Proof.
    unfold set_state. revert k j. induction l as [|r l IH]; intros [|k] [|j]; cbn [firstn skipn app nth_error Nat.eqb option_map]; try reflexivity.
    - destruct (Nat.eqb j k); reflexivity.
    - apply IH.
  Qed.
  Lemma set_same l k st r : nth_error l k = Some r -> nth_error (set_state l k st) k = Some {| l_user := l_user r; l_pw := l_pw r; l_state := st |}.
  Proof. intros E. rewrite set_nth, Nat.eqb_refl, E. reflexivity. Qed.
  Lemma set_other l k st j : j <> k -> nth_error (set_state l k st) j = nth_error l j.
  Proof. intros N. rewrite set_nth. destruct (Nat.eqb_spec j k); [contradiction|reflexivity]. Qed.

  Lemma ninv0 : ninv net0.
  Proof.
    constructor; cbn; try (intros; contradiction); try discriminate.
    - intros _ t. unfold cnt, expected, state_of. cbn. destruct (fst t); reflexivity.
    - split; [constructor|]. intros i [].
    - intros [|k] r ch o E; discriminate.
  Qed.

  (** appending a login *)
  Lemma login_inv s b u p : ninv s -> ninv (snd (login s b u p)).
  Proof.
    intros I. unfold login. destruct b; [|exact I]. cbn [snd]. destruct I as [I1 I2 I3 I4 I5 I6 I7 I8 I9 I10].
    set (k := length (n_logins s)). set (r0 := {| l_user := u; l_pw := p; l_state := if n_lost s then Done None Failed else Asked |}).
    assert (Old : forall j r, nth_error (n_logins s) j = Some r -> nth_error (n_logins s ++ [r0]) j = Some r) by (intros j r E; rewrite nth_error_app1; [exact E|apply nth_error_Some; congruence]).
    assert (New : nth_error (n_logins s ++ [r0]) k = Some r0) by (rewrite nth_error_app2, Nat.sub_diag by (unfold k; lia); reflexivity).
    constructor; cbn [n_srv n_toS n_toC n_pend n_avatar n_logins n_lost n_shown n_fwd]; auto.
    - intros L [j b]. rewrite L. specialize (I1 L (j, b)). unfold cnt, expected, state_of in *. cbn [n_srv n_toS n_toC n_pend n_avatar n_logins fst snd] in *. rewrite map_app, count_occ_app. cbn [map fst].
      destruct (Nat.eq_dec j k) as [->|D].
      + assert (E0 : nth_error (n_logins s) k = None) by (apply nth_error_None; unfold k; lia). rewrite E0 in I1. rewrite New. unfold r0. rewrite L. cbn [option_map l_state count_occ]. cbn [option_map] in I1. destruct (tag_dec (k, false) (k, b)) as [E|E]; destruct b; try congruence; lia.
      + cbn [count_occ]. destruct (tag_dec (k, false) (j, b)) as [E|E]; [injection E as E1 E2; congruence|].
        destruct (Nat.lt_ge_cases j k) as [Hl|Hl]; [rewrite nth_error_app1 by exact Hl; lia|]. rewrite (proj2 (nth_error_None (n_logins s ++ [r0]) j)) by (rewrite app_length; cbn; unfold k in *; lia). rewrite (proj2 (nth_error_None (n_logins s) j)) in I1 by exact Hl. lia.
    - intros L. destruct (I2 L) as (H1 & H2 & H3). rewrite L. split; [exact H1|]. split; [exact H2|]. rewrite forallb_app, H3. cbn. unfold is_done. cbn. now rewrite L.
    - intros j c Hin. destruct (n_lost s) eqn:L; [destruct (I3 j c Hin) as (r & R1 & R2); eauto|]. apply in_app_or in Hin as [Hin|[Hin|[]]]; [destruct (I3 j c Hin) as (r & R1 & R2); eauto|]. injection Hin as <- <-. exists r0. split; [exact New|reflexivity].
    - intros j c Hin. assert (Hin' : In ((j, true), c) (n_toS s)) by (destruct (n_lost s); [exact Hin|apply in_app_or in Hin as [Hin|[Hin|[]]]; [exact Hin|discriminate]]). destruct (I4 j c Hin') as (r & ch & n & resp & R1 & R2). exists r, ch, n, resp. auto.
    - intros j cr Hin. destruct (I5 j cr Hin) as (r & R1 & R2). eauto.
    - intros j r ch o E Es. destruct (Nat.lt_ge_cases j k) as [Hl|Hl]; [rewrite nth_error_app1 in E by exact Hl; eapply I10; eauto|].
      assert (j = k) by (assert (j < length (n_logins s ++ [r0])) by (apply nth_error_Some; congruence); rewrite app_length in *; cbn in *; unfold k in *; lia). subst j. rewrite New in E. injection E as <-. unfold r0 in Es. cbn in Es. destruct (n_lost s); [|discriminate]. injection Es as <- <-. auto.
  Qed.

  Lemma NoDup_snoc (l : list nat) x : NoDup l -> ~ In x l -> NoDup (l ++ [x]).
  Proof. intros N H. apply (NoDup_Add (a := x) (l := l)); [|auto]. rewrite <- (app_nil_r l) at 1. apply Add_app. Qed.

  Lemma count_head (t : tag) {A} (a : A) l x : count_occ tag_dec (map fst ((t, a) :: l)) x = (if tag_dec t x then 1 else 0) + count_occ tag_dec (map fst l) x.
  Proof. cbn [map fst count_occ]. destruct (tag_dec t x); reflexivity. Qed.
  Lemma count_tail {A} (f : A -> tag) (l : list A) y x : count_occ tag_dec (map f (l ++ [y])) x = count_occ tag_dec (map f l) x + (if tag_dec (f y) x then 1 else 0).
  Proof. rewrite map_app, count_occ_app. cbn [map count_occ]. destruct (tag_dec (f y) x); reflexivity. Qed.

  Lemma serve_inv s rnd : ninv s -> ninv (serve s rnd).
  Proof.
    intros I. unfold serve. destruct (n_toS s) as [|[t c] rest] eqn:ES; [exact I|]. destruct I as [I1 I2 I3 I4 I5 I6 I7 I8 I9 I10].
    assert (L : n_lost s = false) by (destruct (n_lost s) eqn:L; [destruct (I2 eq_refl) as [H _]; congruence|reflexivity]).
    assert (In0 : In (t, c) (n_toS s)) by (rewrite ES; now left). assert (InR : forall x, In x rest -> In x (n_toS s)) by (intros; rewrite ES; now right).
    rewrite ES in *. unfold reply. rewrite L.
    assert (Cnt : forall srv' toC pend av shown fwd, (forall x, count_occ tag_dec (map fst toC) x + count_occ tag_dec (map (fun x => fst (snd x)) pend) x + count_occ tag_dec av x = (if tag_dec t x then 1 else 0) + (count_occ tag_dec (map fst (n_toC s)) x + count_occ tag_dec (map (fun x => fst (snd x)) (n_pend s)) x + count_occ tag_dec (n_avatar s) x)) ->
      forall x, cnt x {| n_srv := srv'; n_toS := rest; n_toC := toC; n_pend := pend; n_avatar := av; n_logins := n_logins s; n_lost := false; n_shown := shown; n_fwd := fwd |} = expected {| n_srv := srv'; n_toS := rest; n_toC := toC; n_pend := pend; n_avatar := av; n_logins := n_logins s; n_lost := false; n_shown := shown; n_fwd := fwd |} x).
    { intros srv' toC pend av shown fwd H x. specialize (H x). specialize (I1 L x). unfold cnt, expected, state_of in *. cbn [n_toS n_toC n_pend n_avatar n_logins] in *. rewrite <- I1, ES, count_head. lia. }
    assert (N1 : forall k c', In ((k, false), c') rest -> exists r, nth_error (n_logins s) k = Some r /\ c' = KPasswordLogin (l_user r)) by (intros; apply I3; auto).
    assert (N2 : forall k c', In ((k, true), c') rest -> exists r ch n resp, nth_error (n_logins s) k = Some r /\ c' = KResponse n resp /\ l_state r = Replied ch n /\ determineFrom sha1 n ch (l_pw r) = Ok (n, resp)) by (intros; apply I4; auto).
    (* not answered, or answered at once *)
    assert (Now : forall srv' a, c_next srv' = c_next (n_srv s) -> (forall k, t = (k, true) -> a = AnsUnknown) ->
      ninv {| n_srv := srv'; n_toS := rest; n_toC := n_toC s ++ [(t, a)]; n_pend := n_pend s; n_avatar := n_avatar s; n_logins := n_logins s; n_lost := false; n_shown := n_shown s; n_fwd := n_fwd s |}).
    { intros srv' a En Ha. constructor; cbn [n_srv n_toS n_toC n_pend n_avatar n_logins n_lost n_shown n_fwd]; auto; try discriminate.
      - intros _. apply Cnt. intros x. rewrite count_tail. cbn [fst]. lia.
      - rewrite En. exact I7.
      - intros k a' Hin Hf. apply in_app_or in Hin as [Hin|[Hin|[]]]; [now apply I8|]. injection Hin as -> ->. now rewrite (Ha k eq_refl). }
    destruct t as [k second]. cbn [cstep].
    assert (Av : forall srv', c_next srv' = c_next (n_srv s) -> ninv {| n_srv := srv'; n_toS := rest; n_toC := n_toC s; n_pend := n_pend s; n_avatar := (k, second) :: n_avatar s; n_logins := n_logins s; n_lost := false; n_shown := n_shown s; n_fwd := (k, second) :: n_fwd s |}).
    { intros srv' En. constructor; cbn [n_srv n_toS n_toC n_pend n_avatar n_logins n_lost n_shown n_fwd]; auto; try discriminate.
      - intros _. apply Cnt. intros x. cbn [count_occ]. destruct (tag_dec (k, second) x); lia.
      - rewrite En. exact I7.
      - intros j a Hin Hf. apply I8; [exact Hin|]. intros X. apply Hf. now right.
      - intros x [<-|Hx]; [now left|right; now apply I9].
      - intros j r ch o E Es Hf. eapply I10; eauto. intros X. apply Hf. now right. }
    destruct (c_recv (n_srv s)) eqn:ER; [|apply Av; reflexivity|apply Now; [reflexivity|reflexivity]].
    destruct second.
    - destruct (I4 k c In0) as (r & ch & n & resp & R1 & -> & R3 & R4). cbn [respond]. destruct (c_auth (n_srv s)) as [[u' ch']|]; [|apply Now; reflexivity].
      unfold c_login. constructor; cbn [n_srv n_toS n_toC n_pend n_avatar n_logins n_lost n_shown n_fwd fst snd]; auto; try discriminate.
      + intros _. apply Cnt. intros x. rewrite count_tail. cbn [fst snd]. lia.
      + intros j cr Hin. apply in_app_or in Hin as [Hin|[Hin|[]]]; [now apply I5|]. injection Hin as <- <-. exists r. split; [exact R1|]. exists ch, n, resp, u', ch'. rewrite R3. auto.
      + intros i t cr Hin. apply in_app_or in Hin as [Hin|[Hin|[]]]; [destruct (I6 i t cr Hin); split; [assumption|apply in_or_app; now left]|]. injection Hin as <- <- <-. split; [reflexivity|]. apply in_or_app. right. now left.
      + rewrite map_app. cbn [map fst c_next]. destruct I7 as [J1 J2]. split.
        * apply NoDup_snoc; [exact J1|]. intros X. apply J2 in X. lia.
        * intros i Hi. apply in_app_or in Hi as [Hi|[Hi|[]]]; [apply J2 in Hi; lia|lia].
      + intros j a Hin Hf. specialize (I8 j a Hin Hf). destruct a; auto; destruct I8 as (cr & C1 & C2); exists cr; split; auto; apply in_or_app; now left.
      + intros j q ch0 o E Es Hf. specialize (I10 j q ch0 o E Es Hf). destruct o; auto; destruct I10 as (cr & C1 & C2); exists cr; split; auto; apply in_or_app; now left.
    - destruct (I3 k c In0) as (r & R1 & ->). cbn [respond]. apply Now; [reflexivity|]. intros j E. discriminate.
  Qed.

  Lemma fire_pend i t cr (l : list (nat * (tag * cred))) : NoDup (map fst l) -> List.find (fun x => Nat.eqb (fst x) i) l = Some (i, (t, cr)) ->
    forall x, count_occ tag_dec (map (fun x => fst (snd x)) l) x = count_occ tag_dec (map (fun x => fst (snd x)) (filter (fun x => negb (Nat.eqb (fst x) i)) l)) x + (if tag_dec t x then 1 else 0).
  Proof.
    induction l as [|[j [t' cr']] l IH]; cbn [map fst List.find filter snd]; [discriminate|]. intros N. inversion N as [|? ? N1 N2]; subst. destruct (Nat.eqb_spec j i) as [->|D]; cbn [negb].
    - intros [= -> ->] x. assert (E : filter (fun x => negb (Nat.eqb (fst x) i)) l = l).
      { clear - N1. induction l as [|y l IH]; [reflexivity|]. cbn [filter]. destruct (Nat.eqb_spec (fst y) i) as [E|E]; [exfalso; apply N1; left; exact E|]. cbn [negb]. f_equal. apply IH. intros X. apply N1. now right. }
      rewrite E. cbn [count_occ]. destruct (tag_dec t x); lia.
    - intros F x. cbn [map fst snd count_occ]. rewrite (IH N2 F x). destruct (tag_dec t' x); lia.
  Qed.
  Lemma find_id i l (y : nat * (tag * cred)) : List.find (fun x => Nat.eqb (fst x) i) l = Some y -> fst y = i /\ In y l.
  Proof. intros E. apply find_some in E as [H1 H2]. apply Nat.eqb_eq in H2. auto. Qed.

  Lemma fire_inv s i v : ninv s -> ninv (fire s i v).
  Proof.
    intros I. unfold fire. destruct (List.find _ (n_pend s)) as [[j [t cr]]|] eqn:EF; [|exact I]. destruct (find_id _ _ _ EF) as [Ej Hin]. cbn in Ej. subst j.
    match goal with |- ninv (if ?b then _ else _) => destruct b eqn:EV; [|exact I] end.
    destruct I as [I1 I2 I3 I4 I5 I6 I7 I8 I9 I10].
    assert (C : exists srv', cstep (n_srv s) (OFire i match v with Granted a => Some a | _ => None end) = (match v with Granted _ => Ok AEmpty | _ => Ok AFailed end, srv', match v with Granted a => [EStartRecv a] | _ => [] end) /\ c_next srv' = c_next (n_srv s)).
    { destruct v; cbn [cstep]; unfold cbLoggedIn; eexists; split; reflexivity. }
    destruct C as (srv' & -> & En). destruct (I6 i t cr Hin) as [T1 T2]. destruct t as [k b]. cbn [fst snd] in T1, T2. subst b.
    constructor; cbn [n_srv n_toS n_toC n_pend n_avatar n_logins n_lost n_shown n_fwd]; auto.
    - intros L x. specialize (I1 L x). unfold reply. rewrite L. unfold cnt, expected, state_of in *. cbn [n_toS n_toC n_pend n_avatar n_logins] in *. rewrite <- I1, count_tail, (fire_pend i (k, true) cr (n_pend s) (proj1 I7) EF x). cbn [fst]. lia.
    - intros L. destruct (I2 L) as (H1 & H2 & H3). unfold reply. rewrite L. auto.
    - intros j t' cr' Hj. apply filter_In in Hj as [Hj _]. eauto.
    - rewrite En. destruct I7 as [J1 J2]. split.
      + clear - J1. induction (n_pend s) as [|y l IH]; [constructor|]. cbn [map] in J1. inversion J1; subst. cbn [filter]. destruct (negb _); [|auto]. cbn [map]. constructor; [|auto]. intros X. apply H1. apply in_map_iff in X as (z & Z1 & Z2). apply filter_In in Z2 as [Z2 _]. rewrite <- Z1. now apply in_map.
      + intros j Hj. apply J2. apply in_map_iff in Hj as (z & Z1 & Z2). apply filter_In in Z2 as [Z2 _]. rewrite <- Z1. now apply in_map.
    - intros j a Hj Hf. unfold reply in Hj. destruct (n_lost s); [now apply I8|]. apply in_app_or in Hj as [Hj|[Hj|[]]]; [now apply I8|]. injection Hj as <- <-.
      destruct v; [exists cr; auto|exists cr; split; [exact T2|]|exact Logic.I]. now apply negb_true_iff.
  Qed.

  Lemma avatar_inv s t a : ninv s -> ninv (avatar_answers s t a).
  Proof.
    intros I. unfold avatar_answers. destruct (in_dec tag_dec t (n_avatar s)) as [Hin|]; [|exact I]. destruct I as [I1 I2 I3 I4 I5 I6 I7 I8 I9 I10].
    constructor; cbn [n_srv n_toS n_toC n_pend n_avatar n_logins n_lost n_shown n_fwd]; auto.
    - intros L x. pose proof (I1 L t) as It. specialize (I1 L x). unfold reply. rewrite L. unfold cnt, expected, state_of in *. cbn [n_toS n_toC n_pend n_avatar n_logins] in *. rewrite <- I1, count_tail. cbn [fst].
      destruct (tag_dec t x) as [->|D].
      + assert (count_occ tag_dec (remove tag_dec x (n_avatar s)) x = 0) by (apply count_occ_not_In; apply remove_In).
        assert (count_occ tag_dec (n_avatar s) x > 0) by (now apply count_occ_In).
        assert (count_occ tag_dec (map fst (n_toS s)) x + count_occ tag_dec (map fst (n_toC s)) x + count_occ tag_dec (map (fun x => fst (snd x)) (n_pend s)) x + count_occ tag_dec (n_avatar s) x <= 1).
        { rewrite It. destruct (option_map l_state (nth_error (n_logins s) (fst x))) as [[]|]; try destruct (snd x); lia. }
        lia.
      + assert (count_occ tag_dec (remove tag_dec t (n_avatar s)) x = count_occ tag_dec (n_avatar s) x); [|lia].
        clear - D. induction (n_avatar s) as [|y l IH]; [reflexivity|]. cbn [remove]. destruct (tag_dec t y) as [->|E]; cbn [count_occ]; destruct (tag_dec y x); congruence.
    - intros L. destruct (I2 L) as (H1 & H2 & H3). unfold reply. rewrite L. auto.
    - intros j b Hj Hf. unfold reply in Hj. destruct (n_lost s); [now apply I8|]. apply in_app_or in Hj as [Hj|[Hj|[]]]; [now apply I8|]. injection Hj as -> ->. exfalso. apply Hf. now apply I9.
    - intros x Hx. apply I9. apply in_remove in Hx. tauto.
  Qed.

  Lemma lose_inv s reason : ninv s -> ninv (lose s reason).
  Proof.
    intros I. unfold lose. destruct (n_lost s) eqn:L; [exact I|]. destruct (cstep (n_srv s) (OLost reason)) as [[x srv'] ev] eqn:E.
    assert (En : c_next srv' = c_next (n_srv s)) by (cbn [cstep] in E; unfold connectionLost in E; destruct (c_logout (n_srv s)); injection E as <- <- <-; reflexivity).
    destruct I as [I1 I2 I3 I4 I5 I6 I7 I8 I9 I10].
    constructor; cbn [n_srv n_toS n_toC n_pend n_avatar n_logins n_lost n_shown n_fwd]; auto; try (intros; contradiction); try discriminate.
    - intros _. split; [reflexivity|]. split; [reflexivity|]. rewrite forallb_forall. intros r Hr. apply in_map_iff in Hr as (q & <- & _). unfold is_done, give_up. destruct (l_state q) eqn:Q; cbn; rewrite ?Q; reflexivity.
    - intros k cr Hin. destruct (I5 k cr Hin) as (r & R1 & ch & n & resp & u' & ch' & R2 & R3 & R4). exists (give_up r). split; [rewrite nth_error_map, R1; reflexivity|]. exists ch, n, resp, u', ch'. split; [exact R2|]. unfold give_up. destruct (l_state r) eqn:Q; cbn; rewrite ?Q; auto.
    - rewrite En. exact I7.
    - intros k r ch o Er Es Hf. rewrite nth_error_map in Er. destruct (nth_error (n_logins s) k) as [q|] eqn:Q; [|discriminate]. injection Er as <-. unfold give_up in Es. destruct (l_state q) eqn:Q2; cbn in Es; try (injection Es as <- <-; exact Logic.I). rewrite Q2 in Es. injection Es as <- <-. exact (I10 k q _ _ Q Q2 Hf).
  Qed.

  (** the client's own state changes from [st] *)
  Lemma client_inv s nonce : ninv s -> ninv (client s nonce).
  Proof.
    intros I. unfold client. destruct (n_toC s) as [|[[k second] a] rest] eqn:EC; [exact I|]. pose proof I as [I1 I2 I3 I4 I5 I6 I7 I8 I9 I10].
    assert (L : n_lost s = false) by (destruct (n_lost s) eqn:L; [destruct (I2 eq_refl) as (_ & H & _); congruence|reflexivity]).
    assert (InR : forall x, In x rest -> In x (n_toC s)) by (intros; rewrite EC; now right).
    assert (In0 : In ((k, second), a) (n_toC s)) by (rewrite EC; now left).
    assert (E1 : expected s (k, second) = 1 /\ cnt (k, second) s = 1).
    { pose proof (I1 L (k, second)) as H. assert (P : cnt (k, second) s > 0) by (unfold cnt; rewrite EC, count_head; destruct (tag_dec (k, second) (k, second)); [lia|congruence]).
      rewrite H in *. split; [|]; unfold expected in *; destruct (state_of s (fst (k, second))) as [[]|]; destruct (snd (k, second)); lia. }
    destruct E1 as [Ex Cx]. unfold expected, state_of in Ex. cbn [fst snd] in Ex. destruct (nth_error (n_logins s) k) as [r|] eqn:Er; [|discriminate Ex]. cbn [option_map] in Ex.
    assert (Uniq : forall x, In x (n_toS s) -> fst x <> (k, second)).
    { intros x Hx E. unfold cnt in Cx. rewrite EC, count_head in Cx. destruct (tag_dec (k, second) (k, second)); [|congruence].
      assert (count_occ tag_dec (map fst (n_toS s)) (k, second) > 0) by (apply count_occ_In; rewrite <- E; now apply in_map). lia. }
    (* the general case: [more] is what is sent, [st] the new state *)
    assert (Step : forall st more,
      (more = [] /\ (exists d o, st = Done d o) \/ second = false /\ exists ch n resp, st = Replied ch n /\ more = [((k, true), KResponse n resp)] /\ determineFrom sha1 n ch (l_pw r) = Ok (n, resp)) ->
      (forall ch n, sent_of (l_state r) = Some (ch, n) -> sent_of st = Some (ch, n)) ->
      (forall ch o, st = Done ch o -> ~ In (k, true) (n_fwd s) -> match o with Failed => True | LoggedIn => exists cr, In (k, cr) (n_shown s) /\ accepts cr = true | Rejected => exists cr, In (k, cr) (n_shown s) /\ accepts cr = false end) ->
      ninv {| n_srv := n_srv s; n_toS := n_toS s ++ more; n_toC := rest; n_pend := n_pend s; n_avatar := n_avatar s; n_logins := set_state (n_logins s) k st; n_lost := n_lost s; n_shown := n_shown s; n_fwd := n_fwd s |}).
    { intros st more Hm Hs Hd. constructor; cbn [n_srv n_toS n_toC n_pend n_avatar n_logins n_lost n_shown n_fwd]; auto; try congruence.
      - intros _ x. specialize (I1 L x). unfold cnt, expected, state_of in *. cbn [n_toS n_toC n_pend n_avatar n_logins] in *. rewrite map_app, count_occ_app. rewrite EC, count_head in I1.
        destruct (Nat.eq_dec (fst x) k) as [Ek|Ek].
        + destruct x as [j b]. cbn [fst snd] in *. subst j. rewrite (set_same _ _ _ _ Er). rewrite Er in I1. cbn [option_map l_state] in *.
          destruct Hm as [[-> (d & o & ->)]|[-> (ch & n & resp & -> & -> & _)]]; cbn [map fst count_occ].
          * destruct (tag_dec (k, second) (k, b)) as [E|E].
            -- injection E as <-. destruct (l_state r); destruct second; lia.
            -- assert (b = negb second) by (destruct b, second; auto; congruence). subst b. destruct (l_state r); destruct second; cbn [negb] in *; try lia; discriminate Ex.
          * destruct (l_state r) eqn:Q; try discriminate Ex. destruct (tag_dec (k, false) (k, b)) as [E|E], (tag_dec (k, true) (k, b)) as [F|F]; destruct b; try congruence; lia.
        + rewrite set_other by exact Ek. destruct (tag_dec (k, second) x) as [E|E]; [subst x; cbn in Ek; congruence|]. destruct Hm as [[-> _]|[-> (ch & n & resp & _ & -> & _)]]; cbn [map fst count_occ]; [lia|]. destruct (tag_dec (k, true) x) as [F|F]; [subst x; cbn in Ek; congruence|]. lia.
      - intros j c Hin. apply in_app_or in Hin as [Hin|Hin].
        + destruct (I3 j c Hin) as (q & Q1 & Q2). destruct (Nat.eq_dec j k) as [->|D]; [|rewrite set_other by exact D; eauto]. rewrite Er in Q1. injection Q1 as <-. eexists. split; [apply (set_same _ _ _ _ Er)|exact Q2].
        + destruct Hm as [[-> _]|[-> (ch & n & resp & _ & -> & _)]]; [destruct Hin|]. destruct Hin as [Hin|[]]. discriminate.
      - intros j c Hin. apply in_app_or in Hin as [Hin|Hin].
        + destruct (I4 j c Hin) as (q & ch & n & resp & Q1 & Q2 & Q3 & Q4). destruct (Nat.eq_dec j k) as [->|D]; [|rewrite set_other by exact D; exists q, ch, n, resp; auto].
          exfalso. rewrite Er in Q1. injection Q1 as <-. rewrite Q3 in Ex. destruct second; [|discriminate]. apply (Uniq _ Hin). reflexivity.
        + destruct Hm as [[-> _]|[-> (ch & n & resp & -> & -> & D)]]; [destruct Hin|]. destruct Hin as [Hin|[]]. injection Hin as <- <-. eexists _, ch, n, resp. split; [apply (set_same _ _ _ _ Er)|]. cbn. auto.
      - intros j cr Hin. destruct (I5 j cr Hin) as (q & Q1 & ch & n & resp & u' & ch' & Q2 & Q3 & Q4). destruct (Nat.eq_dec j k) as [->|D]; [|rewrite set_other by exact D; exists q; split; [exact Q1|]; exists ch, n, resp, u', ch'; auto].
        rewrite Er in Q1. injection Q1 as <-. eexists. split; [apply (set_same _ _ _ _ Er)|]. exists ch, n, resp, u', ch'. cbn [l_state l_pw]. auto.
      - intros j a' Hin Hf. apply I8; [now apply InR|exact Hf].
      - intros j q ch o Eq Es Hf. destruct (Nat.eq_dec j k) as [->|D]; [|rewrite set_other in Eq by exact D; eapply I10; eauto]. rewrite (set_same _ _ _ _ Er) in Eq. injection Eq as <-. cbn in Es. subst st. eapply Hd; eauto. }
    assert (Nil : n_toS s = n_toS s ++ []) by now rewrite app_nil_r.
    destruct (l_state r) as [|ch n|d o] eqn:Q; destruct second; try discriminate Ex.
    - assert (Bad : ninv {| n_srv := n_srv s; n_toS := n_toS s; n_toC := rest; n_pend := n_pend s; n_avatar := n_avatar s; n_logins := set_state (n_logins s) k (Done None Failed); n_lost := n_lost s; n_shown := n_shown s; n_fwd := n_fwd s |}).
      { rewrite Nil. apply Step; [left; split; [reflexivity|eauto]|cbn; discriminate|]. intros ch o [= <- <-] _. exact Logic.I. }
      destruct a; try exact Bad. destruct (determineFrom sha1 nonce ch (l_pw r)) as [[n resp]|e] eqn:Ed; [|exact Bad].
      apply Step; [right; split; [reflexivity|]|cbn; discriminate|discriminate]. exists ch, n, resp. split; [reflexivity|]. split; [reflexivity|].
      unfold determineFrom in *. destruct (ensure_binary (l_pw r)); [|discriminate]. injection Ed as <- <-. reflexivity.
    - rewrite Nil. apply Step; [left; split; [reflexivity|eauto]|cbn; auto|]. intros ch0 o [= <- <-] Hf. specialize (I8 k a In0 Hf). destruct a; auto. contradiction.
  Qed.

  Theorem nrun_inv l : ninv (nrun l).
  Proof.
    unfold nrun. assert (G : forall s, ninv s -> ninv (fold_left nstep l s)); [|apply G, ninv0]. induction l as [|o l IH]; intros s I; [exact I|]. cbn [fold_left]. apply IH.
    destruct o; cbn [nstep]; [now apply login_inv|now apply serve_inv|now apply fire_inv|now apply avatar_inv|now apply client_inv|now apply lose_inv].
  Qed.

  (** *** One login at a time *)
  Definition waiting (s : net) (k : nat) : Prop := exists r, nth_error (n_logins s) k = Some r /\ is_done r = false.
  Record qinv (s : net) : Prop := {
    q_one : forall j k, waiting s j -> waiting s k -> j = k;
    q_second : forall k c, In ((k, true), c) (n_toS s) -> c_recv (n_srv s) = RSelf -> exists r ch n, nth_error (n_logins s) k = Some r /\ l_state r = Replied ch n /\ c_auth (n_srv s) = Some (l_user r, ch);
    q_challenge : forall k ch, In ((k, false), AnsChallenge ch) (n_toC s) -> c_recv (n_srv s) = RSelf -> exists r, nth_error (n_logins s) k = Some r /\ c_auth (n_srv s) = Some (l_user r, ch);
    q_avatar : n_avatar s <> [] -> c_recv (n_srv s) <> RSelf;
    q_shown : forall k cr, In (k, cr) (n_shown s) -> exists r ch n resp, nth_error (n_logins s) k = Some r /\ cr = CPassword (l_user r) ch n resp /\ sent_of (l_state r) = Some (ch, n) /\ determineFrom sha1 n ch (l_pw r) = Ok (n, resp)
  }.

  Lemma tag_state s t : ninv s -> n_lost s = false -> cnt t s > 0 -> exists r, nth_error (n_logins s) (fst t) = Some r /\ is_done r = false /\ (snd t = false -> l_state r = Asked) /\ (snd t = true -> exists ch n, l_state r = Replied ch n).
  Proof.
    intros I L P. rewrite (i_cnt s I L) in P. unfold expected, state_of in P. destruct (nth_error (n_logins s) (fst t)) as [r|]; [|cbn in P; lia]. exists r. split; [reflexivity|]. cbn [option_map] in P. unfold is_done.
    destruct (l_state r) as [|ch n|]; destruct (snd t); try (exfalso; lia); (split; [reflexivity|]); split; intros; try discriminate; eauto.
  Qed.
  Lemma cnt_le s t : ninv s -> n_lost s = false -> cnt t s <= 1.
  Proof. intros I L. rewrite (i_cnt s I L). unfold expected. destruct (state_of s (fst t)) as [[]|]; destruct (snd t); lia. Qed.
  Lemma in_toS s t c : In (t, c) (n_toS s) -> count_occ tag_dec (map fst (n_toS s)) t > 0.
  Proof. intros H. apply count_occ_In. change t with (fst (t, c)). now apply in_map. Qed.
  Lemma in_toC s t c : In (t, c) (n_toC s) -> count_occ tag_dec (map fst (n_toC s)) t > 0.
  Proof. intros H. apply count_occ_In. change t with (fst (t, c)). now apply in_map. Qed.

  Lemma q0 : qinv net0.
  Proof. constructor; cbn; try (intros; contradiction). intros j k (r & E & _). destruct j; discriminate. Qed.

  Lemma q_step s o : ninv s -> qinv s -> (forall u p, o = NLogin true u p -> forallb is_done (n_logins s) = true) -> qinv (nstep s o).
  Proof.
    intros I Q A. pose proof Q as [Q1 Q2 Q3 Q4 Q5]. destruct o as [b u p|rnd|i v|t a|nonce|reason]; cbn [nstep].
    - (* login *)
      unfold login. destruct b; [|exact Q]. specialize (A u p eq_refl). cbn [snd].
      set (r0 := {| l_user := u; l_pw := p; l_state := if n_lost s then Done None Failed else Asked |}).
      assert (Old : forall j r, nth_error (n_logins s) j = Some r -> nth_error (n_logins s ++ [r0]) j = Some r) by (intros j r E; rewrite nth_error_app1; [exact E|apply nth_error_Some; congruence]).
      assert (W : forall j r, nth_error (n_logins s ++ [r0]) j = Some r -> is_done r = false -> j = length (n_logins s)).
      { intros j r E D. destruct (Nat.lt_ge_cases j (length (n_logins s))) as [Hl|Hl].
        - rewrite nth_error_app1 in E by exact Hl. rewrite forallb_forall in A. rewrite (A r) in D; [discriminate|]. eapply nth_error_In; eauto.
        - assert (j < length (n_logins s ++ [r0])) by (apply nth_error_Some; congruence). rewrite app_length in *. cbn in *. lia. }
      constructor; cbn [n_srv n_toS n_toC n_pend n_avatar n_logins n_lost n_shown n_fwd]; auto.
      + intros j k (r & E & D) (r' & E' & D'). cbn [n_logins] in *. rewrite (W j r E D), (W k r' E' D'). reflexivity.
      + intros k c Hin HR. assert (Hin' : In ((k, true), c) (n_toS s)) by (destruct (n_lost s); [exact Hin|apply in_app_or in Hin as [Hin|[Hin|[]]]; [exact Hin|discriminate]]). destruct (Q2 k c Hin' HR) as (r & ch & n & X1 & X2). exists r, ch, n. auto.
      + intros k ch Hin HR. destruct (Q3 k ch Hin HR) as (r & X1 & X2). eauto.
      + intros k cr Hin. destruct (Q5 k cr Hin) as (r & ch & n & resp & X1 & X2). exists r, ch, n, resp. auto.
    - (* serve *)
      unfold serve. destruct (n_toS s) as [|[[k second] c] rest] eqn:ES; [exact Q|].
      assert (L : n_lost s = false) by (destruct (n_lost s) eqn:L; [destruct (i_lost s I L) as [H _]; congruence|reflexivity]).
      assert (In0 : In ((k, second), c) (n_toS s)) by (rewrite ES; now left). assert (InR : forall x, In x rest -> In x (n_toS s)) by (intros; rewrite ES; now right).
      destruct (tag_state s (k, second) I L) as (r & R1 & R2 & R3 & R4); [unfold cnt; pose proof (in_toS s _ _ In0); lia|]. cbn [fst snd] in *.
      unfold reply. rewrite L. cbn [cstep]. try rewrite ES in Q2.
      destruct (c_recv (n_srv s)) eqn:ER; clear Q2 Q3 Q4 Q5; pose proof Q as [_ Q2 Q3 Q4 Q5].
      + destruct second.
        * destruct (i_second s I k c In0) as (r' & ch & n & resp & X1 & -> & X3 & X4). cbn [respond]. destruct (Q2 k _ In0 ER) as (r2 & ch2 & n2 & Y1 & Y2 & Y3). rewrite Y3. unfold c_login.
          assert (r' = r) by congruence. assert (r2 = r) by congruence. subst r' r2. rewrite X3 in Y2. injection Y2 as <- <-.
          constructor; cbn [n_srv n_toS n_toC n_pend n_avatar n_logins n_lost n_shown n_fwd c_recv c_auth fst]; auto.
          -- intros j c' Hin. apply (Q2 j c'). now apply InR.
          -- intros j cr Hin. apply in_app_or in Hin as [Hin|[Hin|[]]]; [now apply Q5|]. injection Hin as <- <-. exists r, ch, n, resp. rewrite X3. auto.
        * destruct (i_first s I k c In0) as (r' & X1 & ->). assert (r' = r) by congruence. subst r'. cbn [respond].
          constructor; cbn [n_srv n_toS n_toC n_pend n_avatar n_logins n_lost n_shown n_fwd c_recv c_auth]; auto.
          -- intros j c' Hin _. exfalso. destruct (tag_state s (j, true) I L) as (q & Z1 & Z2 & _ & Z3); [unfold cnt; pose proof (in_toS s _ _ (InR _ Hin)); lia|]. cbn [fst snd] in *.
             assert (j = k) by (apply Q1; [exists q; auto|exists r; auto]). subst j. destruct (Z3 eq_refl) as (ch & n & Z4). rewrite (R3 eq_refl) in *. assert (q = r) by congruence. subst q. rewrite (R3 eq_refl) in Z4. discriminate.
          -- intros j ch Hin _. apply in_app_or in Hin as [Hin|[Hin|[]]].
             ++ exfalso. destruct (tag_state s (j, false) I L) as (q & Z1 & Z2 & Z3 & _); [unfold cnt; pose proof (in_toC s _ _ Hin); lia|]. cbn [fst snd] in *.
                assert (j = k) by (apply Q1; [exists q; auto|exists r; auto]). subst j. pose proof (cnt_le s (k, false) I L) as C. unfold cnt in C. pose proof (in_toC s _ _ Hin). pose proof (in_toS s _ _ In0). lia.
             ++ injection Hin as <- <-. exists r. auto.
      + constructor; cbn [n_srv n_toS n_toC n_pend n_avatar n_logins n_lost n_shown n_fwd]; auto; try (rewrite ER; discriminate); try (intros; congruence).
      + constructor; cbn [n_srv n_toS n_toC n_pend n_avatar n_logins n_lost n_shown n_fwd]; auto; try (rewrite ER; discriminate); try (intros; congruence).
    - (* the portal *)
      unfold fire. destruct (List.find _ (n_pend s)) as [[j [t cr]]|] eqn:EF; [|exact Q]. destruct (find_id _ _ _ EF) as [Ej Hin]. cbn in Ej. subst j.
      match goal with |- qinv (if ?b then _ else _) => destruct b; [|exact Q] end.
      destruct (i_pend s I i t cr Hin) as [T1 T2]. destruct t as [k b]. cbn [fst snd] in T1, T2. subst b.
      assert (Ch : forall a kk ch, In ((kk, false), AnsChallenge ch) (reply s (k, true) a) -> In ((kk, false), AnsChallenge ch) (n_toC s)).
      { intros a kk ch H. unfold reply in H. destruct (n_lost s); [exact H|]. apply in_app_or in H as [H|[H|[]]]; [exact H|discriminate]. }
      destruct v; cbn [cstep]; unfold cbLoggedIn; constructor; cbn [n_srv n_toS n_toC n_pend n_avatar n_logins n_lost n_shown n_fwd c_recv c_auth]; auto; try discriminate; try (intros; discriminate); intros kk ch H HR; apply Ch in H; eapply Q3; eauto.
    - (* avatars *)
      unfold avatar_answers. destruct (in_dec tag_dec t (n_avatar s)) as [Hin|]; [|exact Q].
      assert (N : c_recv (n_srv s) <> RSelf) by (apply Q4; intros X; rewrite X in Hin; destruct Hin).
      constructor; cbn [n_srv n_toS n_toC n_pend n_avatar n_logins n_lost n_shown n_fwd]; auto. intros k ch _ X. contradiction.
    - (* the client *)
      unfold client. destruct (n_toC s) as [|[[k second] a] rest] eqn:EC; [exact Q|].
      assert (L : n_lost s = false) by (destruct (n_lost s) eqn:L; [destruct (i_lost s I L) as (_ & H & _); congruence|reflexivity]).
      assert (In0 : In ((k, second), a) (n_toC s)) by (rewrite EC; now left). assert (InR : forall x, In x rest -> In x (n_toC s)) by (intros; rewrite EC; now right).
      destruct (tag_state s (k, second) I L) as (r & R1 & R2 & R3 & R4); [unfold cnt; pose proof (in_toC s _ _ In0); lia|]. cbn [fst snd] in *. rewrite R1. try rewrite <- EC in Q3.
      assert (W : forall lg st, lg = set_state (n_logins s) k st -> forall j, (exists q, nth_error lg j = Some q /\ is_done q = false) -> waiting s j).
      { intros lg st -> j (q & E & D). destruct (Nat.eq_dec j k) as [->|N]; [exists r; auto|]. rewrite set_other in E by exact N. exists q. auto. }
      (* the new state [st] *)
      assert (Step : forall st more, (forall ch n, sent_of (l_state r) = Some (ch, n) -> sent_of st = Some (ch, n)) ->
        (more = [] \/ second = false /\ exists ch n resp, st = Replied ch n /\ more = [((k, true), KResponse n resp)] /\ a = AnsChallenge ch) ->
        qinv {| n_srv := n_srv s; n_toS := n_toS s ++ more; n_toC := rest; n_pend := n_pend s; n_avatar := n_avatar s; n_logins := set_state (n_logins s) k st; n_lost := n_lost s; n_shown := n_shown s; n_fwd := n_fwd s |}).
      { intros st more Hs Hm. constructor; cbn [n_srv n_toS n_toC n_pend n_avatar n_logins n_lost n_shown n_fwd]; auto.
        - intros j j' Wj Wj'. apply Q1; eapply W; eauto.
        - intros j c Hin HR. apply in_app_or in Hin as [Hin|Hin].
          + destruct (Q2 j c Hin HR) as (q & ch & n & X1 & X2 & X3). destruct (Nat.eq_dec j k) as [->|N]; [|rewrite set_other by exact N; exists q, ch, n; auto].
            exfalso. assert (q = r) by congruence. subst q. destruct second; [|rewrite (R3 eq_refl) in X2; discriminate].
            pose proof (cnt_le s (k, true) I L) as C. unfold cnt in C. pose proof (in_toC s _ _ In0). pose proof (in_toS s _ _ Hin). lia.
          + destruct Hm as [->|(-> & ch & n & resp & -> & -> & ->)]; [destruct Hin|]. destruct Hin as [Hin|[]]. injection Hin as <- <-. destruct (Q3 k ch In0 HR) as (q & X1 & X2). assert (q = r) by congruence. subst q.
            eexists _, ch, n. split; [apply (set_same _ _ _ _ R1)|]. cbn. auto.
        - intros j ch Hin HR. destruct (Q3 j ch (InR _ Hin) HR) as (q & X1 & X2). destruct (Nat.eq_dec j k) as [->|N]; [|rewrite set_other by exact N; eauto]. assert (q = r) by congruence. subst q. eexists. split; [apply (set_same _ _ _ _ R1)|]. exact X2.
        - intros j cr Hin. destruct (Q5 j cr Hin) as (q & ch & n & resp & X1 & X2 & X3 & X4). destruct (Nat.eq_dec j k) as [->|N]; [|rewrite set_other by exact N; exists q, ch, n, resp; auto].
          assert (q = r) by congruence. subst q. eexists _, ch, n, resp. split; [apply (set_same _ _ _ _ R1)|]. cbn. auto. }
      assert (Nil : n_toS s = n_toS s ++ []) by now rewrite app_nil_r.
      destruct second.
      + destruct (R4 eq_refl) as (ch & n & E). rewrite E in *. rewrite Nil. apply Step; [cbn; auto|now left].
      + rewrite (R3 eq_refl) in *.
        assert (Bad : qinv {| n_srv := n_srv s; n_toS := n_toS s; n_toC := rest; n_pend := n_pend s; n_avatar := n_avatar s; n_logins := set_state (n_logins s) k (Done None Failed); n_lost := n_lost s; n_shown := n_shown s; n_fwd := n_fwd s |}) by (rewrite Nil; apply Step; [cbn; discriminate|now left]).
        destruct a; try exact Bad. destruct (determineFrom sha1 nonce ch (l_pw r)) as [[n resp]|e]; [|exact Bad]. apply Step; [cbn; discriminate|right; split; [reflexivity|]; eauto 6].
    - (* lost *)
      unfold lose. destruct (n_lost s); [exact Q|]. destruct (cstep (n_srv s) (OLost reason)) as [[x srv'] ev] eqn:E.
      assert (D : forall q, is_done (give_up q) = true) by (intros q; unfold is_done, give_up; destruct (l_state q) eqn:X; cbn; rewrite ?X; reflexivity).
      constructor; cbn [n_srv n_toS n_toC n_pend n_avatar n_logins n_lost n_shown n_fwd]; try (intros; contradiction).
      + intros j k (q & X & Y). cbn [n_logins] in X. rewrite nth_error_map in X. destruct (nth_error (n_logins s) j); [|discriminate]. injection X as <-. rewrite D in Y. discriminate.
      + intros X. apply Q4 in X. cbn [cstep] in E. unfold connectionLost in E. destruct (c_logout (n_srv s)); injection E as <- <- <-; [discriminate|exact X].
      + intros j cr Hin. destruct (Q5 j cr Hin) as (q & ch & n & resp & X1 & X2 & X3 & X4). exists (give_up q), ch, n, resp. split; [rewrite nth_error_map, X1; reflexivity|]. unfold give_up. destruct (l_state q) eqn:X; cbn; rewrite ?X; auto.
  Qed.

  Lemma nrun_snoc l o : nrun (l ++ [o]) = nstep (nrun l) o.
  Proof. unfold nrun. rewrite fold_left_app. reflexivity. Qed.
  Theorem nrun_q l : one_at_a_time l -> qinv (nrun l).
  Proof.
    induction l as [|o l IH] using rev_ind; intros A; [apply q0|]. rewrite nrun_snoc. apply q_step; [apply nrun_inv| |].
    - apply IH. intros before u p after E. apply (A before u p (after ++ [o])). rewrite E, <- app_assoc. reflexivity.
    - intros u p ->. apply (A l u p []). reflexivity.
  Qed.

  (** *** The results *)
  (** the password [q] gives the response of the password [p] *)
  Definition same_response (ch n : str) (p q : password) : Prop := exists a b, ensure_binary p = Ok a /\ ensure_binary q = Ok b /\ sha1 (ch ++ lit " " ++ n ++ lit " " ++ a) = sha1 (ch ++ lit " " ++ n ++ lit " " ++ b).

  Lemma accepts_spec u ch n resp p : determineFrom sha1 n ch p = Ok (n, resp) -> accepts (CPassword u ch n resp) = true <-> exists q, db u = Some q /\ same_response ch n p q.
  Proof.
    unfold determineFrom, accepts, checkPassword, same_response. destruct (ensure_binary p) as [a|]; [|discriminate]. intros [= <-]. unfold calcResponse, hash_input, SP. split.
    - destruct (db u) as [q|]; [|discriminate]. destruct (ensure_binary q) as [b|] eqn:Eb; [|discriminate]. intros E. apply (proj1 (eqb_eq _ _)) in E. exists q. split; [reflexivity|]. exists a, b. split; [reflexivity|]. split; [exact Eb|]. congruence.
    - intros (q & -> & a' & b & [= <-] & Eb & E). rewrite Eb. apply (proj2 (eqb_eq _ _)). congruence.
  Qed.

  Theorem outcome_spec l k r d o : one_at_a_time l -> nth_error (n_logins (nrun l)) k = Some r -> l_state r = Done d o -> ~ In (k, true) (n_fwd (nrun l)) ->
    match o with
    | Failed => True
    | LoggedIn => exists ch n q, d = Some (ch, n) /\ db (l_user r) = Some q /\ same_response ch n (l_pw r) q
    | Rejected => exists ch n, d = Some (ch, n) /\ forall q, db (l_user r) = Some q -> ~ same_response ch n (l_pw r) q
    end.
  Proof.
    intros A E Es Hf. pose proof (i_done _ (nrun_inv l) k r d o E Es Hf) as H. pose proof (q_shown _ (nrun_q l A)) as Sh.
    assert (G : forall cr, In (k, cr) (n_shown (nrun l)) -> exists ch n resp, cr = CPassword (l_user r) ch n resp /\ d = Some (ch, n) /\ determineFrom sha1 n ch (l_pw r) = Ok (n, resp)).
    { intros cr Hin. destruct (Sh k cr Hin) as (q & ch & n & resp & X1 & X2 & X3 & X4). assert (q = r) by congruence. subst q. rewrite Es in X3. cbn in X3. exists ch, n, resp. auto. }
    destruct o; [| |exact Logic.I]; destruct H as (cr & C1 & C2); destruct (G cr C1) as (ch & n & resp & -> & -> & D); exists ch, n.
    - apply (accepts_spec _ _ _ _ _ D) in C2 as (q & X1 & X2). eauto.
    - split; [reflexivity|]. intros q Hq Hs. rewrite (proj2 (accepts_spec _ _ _ _ _ D)) in C2; [discriminate|eauto].
  Qed.

  (** whatever else goes on, success means that a password of somebody fits *)
  Theorem success_spec l k r d : nth_error (n_logins (nrun l)) k = Some r -> l_state r = Done d LoggedIn -> ~ In (k, true) (n_fwd (nrun l)) ->
    exists ch n u' ch' a q b, d = Some (ch, n) /\ ensure_binary (l_pw r) = Ok a /\ db u' = Some q /\ ensure_binary q = Ok b /\
      sha1 (ch ++ lit " " ++ n ++ lit " " ++ a) = sha1 (ch' ++ lit " " ++ n ++ lit " " ++ b).
  Proof.
    intros E Es Hf. pose proof (i_done _ (nrun_inv l) k r d LoggedIn E Es Hf) as (cr & C1 & C2).
    destruct (i_shown _ (nrun_inv l) k cr C1) as (q & X1 & ch & n & resp & u' & ch' & -> & X3 & X4). assert (q = r) by congruence. subst q. rewrite Es in X3. cbn in X3. subst d.
    unfold determineFrom in X4. destruct (ensure_binary (l_pw r)) as [a|] eqn:Ea; [|discriminate]. injection X4 as <-. cbn [accepts] in C2. destruct (db u') as [q|] eqn:Eq; [|discriminate]. unfold checkPassword in C2. destruct (ensure_binary q) as [b|] eqn:Eb; [|discriminate]. apply (proj1 (eqb_eq _ _)) in C2.
    exists ch, n, u', ch', a, q, b. repeat split; auto.
  Qed.

  Theorem sent_spec l k b c : In ((k, b), c) (n_toS (nrun l)) -> exists r, nth_error (n_logins (nrun l)) k = Some r /\
    (c = KPasswordLogin (l_user r) \/ exists ch n pw, ensure_binary (l_pw r) = Ok pw /\ c = KResponse n (sha1 (ch ++ lit " " ++ n ++ lit " " ++ pw))).
  Proof.
    intros H. destruct b.
    - destruct (i_second _ (nrun_inv l) k c H) as (r & ch & n & resp & X1 & X2 & _ & X4). exists r. split; [exact X1|]. right. unfold determineFrom in X4. destruct (ensure_binary (l_pw r)) as [pw|]; [|discriminate]. injection X4 as <-. exists ch, n, pw. auto.
    - destruct (i_first _ (nrun_inv l) k c H) as (r & X1 & X2). eauto.
  Qed.

  Theorem ends_spec l : in_flight (nrun l) = false -> forallb is_done (n_logins (nrun l)) = true.
  Proof.
    intros F. pose proof (nrun_inv l) as I. destruct (n_lost (nrun l)) eqn:L; [now destruct (i_lost _ I L)|]. apply forallb_forall. intros r Hr. apply In_nth_error in Hr as [k Hk].
    unfold in_flight in F. destruct (n_toS (nrun l)) eqn:E1; [|discriminate]. destruct (n_toC (nrun l)) eqn:E2; [|discriminate]. destruct (n_pend (nrun l)) eqn:E3; [|discriminate]. destruct (n_avatar (nrun l)) eqn:E4; [|discriminate].
    pose proof (i_cnt _ I L (k, false)) as C1. pose proof (i_cnt _ I L (k, true)) as C2. unfold cnt, expected, state_of in C1, C2. rewrite E1, E2, E3, E4 in C1, C2. cbn [fst snd map count_occ] in C1, C2. rewrite Hk in C1, C2. cbn [option_map] in C1, C2. unfold is_done. destruct (l_state r); [discriminate|discriminate|reflexivity].
  Qed.

  (** *** Logins fail for a reason *)
  Definition calm_op (o : nop) : bool := match o with NLost _ | NFire _ Broken => false | _ => true end.
  Record zinv (s : net) : Prop := {
    z_lost : n_lost s = false;
    z_there : c_recv (n_srv s) <> RNobody;
    z_second : forall k c, In ((k, true), c) (n_toS s) -> c_recv (n_srv s) = RSelf -> c_auth (n_srv s) <> None;
    z_challenge : forall k ch, In ((k, false), AnsChallenge ch) (n_toC s) -> c_recv (n_srv s) = RSelf -> c_auth (n_srv s) <> None;
    z_avatar : n_avatar s <> [] -> c_recv (n_srv s) <> RSelf;
    z_answer : forall k b a, In ((k, b), a) (n_toC s) -> ~ In (k, b) (n_fwd s) -> match a with AnsUnknown => False | AnsChallenge _ => True | _ => b = true end;
    z_done : forall k r d, nth_error (n_logins s) k = Some r -> l_state r = Done d Failed -> (exists b, In (k, b) (n_fwd s)) \/ exists e, ensure_binary (l_pw r) = Err e
  }.
  Lemma z0 : zinv net0.
  Proof. constructor; cbn; try (intros; contradiction); try reflexivity; try discriminate. intros [|k] r d E; discriminate. Qed.
  Lemma z_step s o : ninv s -> zinv s -> calm_op o = true -> zinv (nstep s o).
  Proof.
    intros I Z A. pose proof Z as [Z1 Z0 Z2 Z3 Z4 Z5 Z6]. destruct o as [b u p|rnd|i v|t a|nonce|reason]; cbn [nstep].
    - unfold login. destruct b; [|exact Z]. cbn [snd]. rewrite Z1. constructor; cbn [n_srv n_toS n_toC n_pend n_avatar n_logins n_lost n_shown n_fwd]; auto.
      + intros k c Hin. apply in_app_or in Hin as [Hin|[Hin|[]]]; [apply (Z2 _ _ Hin)|discriminate].
      + intros k r d E Es. destruct (Nat.lt_ge_cases k (length (n_logins s))) as [Hl|Hl].
        * rewrite nth_error_app1 in E by exact Hl. eauto.
        * rewrite nth_error_app2 in E by exact Hl. destruct (k - length (n_logins s)) as [|[|]]; try discriminate. injection E as <-. discriminate.
    - unfold serve. destruct (n_toS s) as [|[[k second] c] rest] eqn:ES; [exact Z|]. clear Z0 Z2 Z3 Z4 Z5 Z6. pose proof Z as [_ Z0 Z2 Z3 Z4 Z5 Z6].
      assert (In0 : In ((k, second), c) (n_toS s)) by (rewrite ES; now left). assert (InR : forall x, In x rest -> In x (n_toS s)) by (intros; rewrite ES; now right).
      unfold reply. rewrite Z1. cbn [cstep]. destruct (c_recv (n_srv s)) eqn:ER; clear Z0 Z2 Z3 Z4 Z5 Z6; pose proof Z as [_ Z0 Z2 Z3 Z4 Z5 Z6].
      + destruct second.
        * destruct (i_second s I k c In0) as (r' & ch & n & resp & X1 & -> & X3 & X4). cbn [respond]. destruct (c_auth (n_srv s)) as [[u ch0]|] eqn:EA; [|exfalso; exact (Z2 _ _ In0 ER eq_refl)]. unfold c_login.
          constructor; cbn [n_srv n_toS n_toC n_pend n_avatar n_logins n_lost n_shown n_fwd c_recv c_auth]; auto; try (intros; discriminate); rewrite ?EA; intros; try discriminate.
        * destruct (i_first s I k c In0) as (r' & X1 & ->). cbn [respond].
          constructor; cbn [n_srv n_toS n_toC n_pend n_avatar n_logins n_lost n_shown n_fwd c_recv c_auth]; auto; try (intros; discriminate).
          intros j b a Hin Hf. apply in_app_or in Hin as [Hin|[Hin|[]]]; [exact (Z5 j b a Hin Hf)|]. inversion Hin; subst. exact Logic.I.
      + constructor; cbn [n_srv n_toS n_toC n_pend n_avatar n_logins n_lost n_shown n_fwd]; auto; try (rewrite ER; discriminate); try (intros; congruence).
        * intros j b x Hin Hf. apply (Z5 j b x Hin). intros X. apply Hf. now right.
        * intros j r d E Es. destruct (Z6 j r d E Es) as [[b Hb]|]; [left; exists b; now right|now right].
      + contradiction.
    - unfold fire. destruct (List.find _ (n_pend s)) as [[j [t cr]]|] eqn:EF; [|exact Z]. destruct (find_id _ _ _ EF) as [Ej Hin]. cbn in Ej. subst j.
      match goal with |- zinv (if ?b then _ else _) => destruct b; [|exact Z] end.
      destruct (i_pend s I i t cr Hin) as [T1 T2]. destruct t as [k b]. cbn [fst snd] in T1, T2. subst b.
      unfold reply. rewrite Z1.
      destruct v; try discriminate; cbn [cstep]; unfold cbLoggedIn; constructor; cbn [n_srv n_toS n_toC n_pend n_avatar n_logins n_lost n_shown n_fwd c_recv c_auth]; auto; try discriminate; try (intros; discriminate).
      + intros j b a Ha Hf. apply in_app_or in Ha as [Ha|[Ha|[]]]; [exact (Z5 j b a Ha Hf)|]. inversion Ha; subst. reflexivity.
      + intros kk ch H HR. apply in_app_or in H as [H|[H|[]]]; [eauto|discriminate].
      + intros j b a Ha Hf. apply in_app_or in Ha as [Ha|[Ha|[]]]; [exact (Z5 j b a Ha Hf)|]. inversion Ha; subst. reflexivity.
    - unfold avatar_answers. destruct (in_dec tag_dec t (n_avatar s)) as [Hin|]; [|exact Z].
      assert (N : c_recv (n_srv s) <> RSelf) by (apply Z4; intros X; rewrite X in Hin; destruct Hin).
      unfold reply. rewrite Z1. constructor; cbn [n_srv n_toS n_toC n_pend n_avatar n_logins n_lost n_shown n_fwd]; auto; try (intros; contradiction).
      intros j b x Hx Hf. apply in_app_or in Hx as [Hx|[Hx|[]]]; [exact (Z5 j b x Hx Hf)|]. injection Hx as -> <-. exfalso. apply Hf. apply (i_avatar s I). exact Hin.
    - unfold client. destruct (n_toC s) as [|[[k second] a] rest] eqn:EC; [exact Z|]. clear Z0 Z2 Z3 Z4 Z5 Z6. pose proof Z as [_ Z0 Z2 Z3 Z4 Z5 Z6].
      assert (In0 : In ((k, second), a) (n_toC s)) by (rewrite EC; now left). assert (InR : forall x, In x rest -> In x (n_toC s)) by (intros; rewrite EC; now right).
      destruct (tag_state s (k, second) I Z1) as (r & R1 & R2 & R3 & R4); [unfold cnt; pose proof (in_toC s _ _ In0); lia|]. cbn [fst snd] in *. rewrite R1.
      assert (Step : forall st more, (forall d, st = Done d Failed -> (exists b, In (k, b) (n_fwd s)) \/ exists e, ensure_binary (l_pw r) = Err e) ->
        (more = [] \/ second = false /\ exists ch c, a = AnsChallenge ch /\ more = [((k, true), c)]) ->
        zinv {| n_srv := n_srv s; n_toS := n_toS s ++ more; n_toC := rest; n_pend := n_pend s; n_avatar := n_avatar s; n_logins := set_state (n_logins s) k st; n_lost := n_lost s; n_shown := n_shown s; n_fwd := n_fwd s |}).
      { intros st more Hs Hm. constructor; cbn [n_srv n_toS n_toC n_pend n_avatar n_logins n_lost n_shown n_fwd]; auto.
        - intros j c Hin HR. apply in_app_or in Hin as [Hin|Hin]; [eauto|]. destruct Hm as [->|(-> & ch & c' & -> & ->)]; [destruct Hin|]. eauto.
        - intros j ch Hin. apply (Z3 j ch (InR _ Hin)).
        - intros j b x Hin. apply (Z5 j b x (InR _ Hin)).
        - intros j q d E Es. destruct (Nat.eq_dec j k) as [->|N]; [|rewrite set_other in E by exact N; eauto]. rewrite (set_same _ _ _ _ R1) in E. injection E as <-. cbn in *. eauto. }
      assert (Nil : n_toS s = n_toS s ++ []) by now rewrite app_nil_r.
      assert (Fwd : forall b, In (k, b) (n_fwd s) \/ ~ In (k, b) (n_fwd s)) by (intros b; destruct (in_dec tag_dec (k, b) (n_fwd s)); auto).
      destruct second.
      + destruct (R4 eq_refl) as (ch & n & E). rewrite E in *. rewrite Nil. apply Step; [|now left]. intros d Hd. destruct a; try discriminate. left. destruct (Fwd true) as [F|F]; [eauto|]. destruct (Z5 k true _ In0 F).
      + rewrite (R3 eq_refl) in *.
        assert (Bad : (exists b, In (k, b) (n_fwd s)) \/ (exists e, ensure_binary (l_pw r) = Err e) -> zinv {| n_srv := n_srv s; n_toS := n_toS s; n_toC := rest; n_pend := n_pend s; n_avatar := n_avatar s; n_logins := set_state (n_logins s) k (Done None Failed); n_lost := n_lost s; n_shown := n_shown s; n_fwd := n_fwd s |}) by (intros X; rewrite Nil; apply Step; [auto|now left]).
        destruct a; try (apply Bad; left; exists false; destruct (Fwd false) as [F|F]; [exact F|]; specialize (Z5 k false _ In0 F); cbn in Z5; solve [discriminate|contradiction]).
        unfold determineFrom. destruct (ensure_binary (l_pw r)) as [pw|e] eqn:Ep; [|apply Bad; right; eauto]. apply Step; [discriminate|right; split; [reflexivity|]; eauto 6].
    - discriminate.
  Qed.
  Theorem failed_spec l k r d : forallb calm_op l = true -> nth_error (n_logins (nrun l)) k = Some r -> l_state r = Done d Failed -> (exists b, In (k, b) (n_fwd (nrun l))) \/ exists e, ensure_binary (l_pw r) = Err e.
  Proof.
    intros A E Es. enough (Z : zinv (nrun l)) by exact (z_done _ Z k r d E Es). clear E Es. induction l as [|o l IH] using rev_ind; [apply z0|].
    rewrite forallb_app in A. apply andb_true_iff in A as [A1 A2]. cbn in A2. rewrite andb_true_r in A2. rewrite nrun_snoc. apply z_step; [apply nrun_inv|auto|exact A2].
  Qed.
End Net.
