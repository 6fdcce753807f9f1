(** * epsilon/juice.py: two connected endpoints

    Each endpoint is the receiver of JuiceStream.v (bytes to boxes) around the
    protocol of JuiceProto.v (boxes to effects).  The bytes one endpoint writes
    are given to the other in order, in pieces of any size, at any time.
    Simplifications: no protocol switch (JuiceSwitch.v); the transport carries
    the same bytes whether or not TLS was started; what an application does
    inside a call of the protocol is a list of calls made when that call
    returns. *)

From Coq Require Import ZArith NArith String List Bool Arith Lia Permutation.
From Verif Require Import Py PyStr PyNum PyInt PyHex Utf8 Liner JuiceCodec JuiceStream JuiceProto.
Import ListNotations.
Open Scope nat_scope.
Open Scope py_scope.

Section Pair.
  Variable ulower : str -> str.
  Hypothesis ulower_ascii : forall s, is_ascii s = true -> ulower s = map ascii_lower s.

  (** ** One endpoint *)

  Definition session := (list entry * jp)%type.

  (** juice.py:382-403: the calls an application makes, one after the other; a call that is not
      possible (a command that is not running) is left out *)
  Fixpoint calls (d : str -> option exn) (s : session) (es : list event) : session :=
    match es with
    | [] => s
    | e :: t => match step d (snd s) e with
                | None => calls d s t
                | Some (st, o, x) => calls d (fst s ++ [En e o x], st) t
                end
    end.

  (** [acts h]: the calls made by the application code that runs because of the
      last event of the history [h]; juice.py:329-380, 798-803 *)
  Definition recv (d : str -> option exn) (acts : list entry -> list event)
      (s : session) (b : dict str str) : session * option exn :=
    let '(st, o, x) := boxReceived d (snd s) b in
    let s1 := (fst s ++ [En (ERecv b) o x], st) in
    match x with
    | Some e => (s1, Some e)
    | None => (calls d s1 (acts (fst s1)), None)
    end.

  (** juice.py:772-836: the receiver; whether the transport still delivers; the bytes delivered *)
  Record endpoint := EP { pr : proto (japp session); live : bool; got : str }.

  Definition ses (p : endpoint) : session := jst (app_ (pr p)).
  Definition hist (p : endpoint) : list entry := fst (ses p).

  (** juice.py:304-305, 827-836 *)
  Definition ep0 : endpoint := EP (jstart ([], jp0)) true [].

  Definition set_ses (p : proto (japp session)) (s : session) : proto (japp session) :=
    P (lm p) (buf p) (disc p) (J (reqbuf (app_ p)) (pend (app_ p)) s).

  (** a call from outside; sendBoxCommand and the Deferreds of commands,
      juice.py:333-403 *)
  Definition call (d : str -> option exn) (p : endpoint) (e : event) : option endpoint :=
    match step d (snd (ses p)) e with
    | None => None
    | Some (st, o, x) => Some (EP (set_ses (pr p) (hist p ++ [En e o x], st)) (live p) (got p))
    end.

  (** a piece of the stream arrives; after an exception nothing more does
      (Twisted drops the connection); liner.py:36-63, juice.py:861-866 *)
  Definition deliver (d : str -> option exn) (acts : list entry -> list event) (p : endpoint) (c : str)
      : option endpoint :=
    match dataReceived (jline ulower (recv d acts)) (jraw (recv d acts)) (pr p) c with
    | None => None
    | Some (q, r, _) => Some (EP q (match r with Ok _ => true | Err _ => false end) (got p ++ c))
    end.

  (** juice.py:805-818: the bytes written to the transport *)
  Definition wire (os : list out) : str :=
    flat_map (fun o => match o with OWrite _ w | OFlush _ w => w | _ => [] end) os.

  (** ** What applications may do (specification) *)

  Definition reserved : list str := [lit "_command"; lit "_ask"; lit "_answer"; lit "_error"].

  (** the text of a value, and of the values of a box: bytes are read as
      UTF-8 *)
  Definition reading (p : pv) : str :=
    match p with PS s => s | PB w => match utf8_decode w with Ok s => s | Err _ => [] end end.
  Definition legible (p : pv) : Prop := exists w, ensure_binary p = Ok w /\ utf8_encode (reading p) = Ok w.
  Definition reads (b : box) : dict str str := map (fun kv => (fst kv, reading (snd kv))) b.

  (** arguments: text that can be sent, under keys that are not reserved *)
  Definition args (b : box) : Prop :=
    Forall legible (values b) /\ sendable ulower (reads b) /\ forall k, In k reserved -> ~ In k (keys b).

  Definition plain (k : boxkind) : Prop := match k with KSwitch _ => False | _ => True end.

  Definition good (e : event) : Prop :=
    match e with
    | ESend cmd k b _ => plain k /\ encodable cmd = true /\ args b
    | EComplete _ (RAnswer k b) => plain k /\ args b
    | EComplete _ (RRemote c t _) => legible c /\ legible t
    | EComplete _ _ => True
    | ERecv _ | ESwitch _ => False
    | _ => True
    end.

  (** ** Two endpoints (the pipes are a parameter of the model, not code) *)

  Definition world := bool -> endpoint.
  Definition upd (w : world) (s : bool) (p : endpoint) : world := fun s' => if Bool.eqb s s' then p else w s'.

  Variable dispatch : bool -> str -> option exn.
  Variable acts : bool -> list entry -> list event.
  Hypothesis acts_good : forall s h, Forall good (acts s h).

  (** what two endpoints can come to: one side's application makes a call that
      is [ok], or the next bytes the other side wrote arrive (liner.py:36-63) *)
  Inductive JoinedBy (ok : event -> Prop) : world -> Prop :=
  | W_start : JoinedBy ok (fun _ => ep0)
  | W_call w s e p : JoinedBy ok w -> ok e -> call (dispatch s) (w s) e = Some p -> JoinedBy ok (upd w s p)
  | W_deliver w s c rest p : JoinedBy ok w -> live (w s) = true ->
      wire (outs_of (hist (w (negb s)))) = got (w s) ++ c ++ rest ->
      deliver (dispatch s) (acts s) (w s) c = Some p -> JoinedBy ok (upd w s p).
  Definition Joined : world -> Prop := JoinedBy good.

  (** running a list of calls and of deliveries of the next [n] bytes *)
  Inductive act := ACall (s : bool) (e : event) | ADeliver (s : bool) (n : nat).
  Fixpoint play (w : world) (l : list act) : option world :=
    match l with
    | [] => Some w
    | ACall s e :: l => match call (dispatch s) (w s) e with None => None | Some p => play (upd w s p) l end
    | ADeliver s n :: l =>
        if live (w s) then
          match deliver (dispatch s) (acts s) (w s)
                  (firstn n (skipn (List.length (got (w s))) (wire (outs_of (hist (w (negb s))))))) with
          | None => None
          | Some p => if prefixb (got (w s)) (wire (outs_of (hist (w (negb s))))) then play (upd w s p) l else None
          end
        else None
    end.
  Definition ok_act (ok : event -> Prop) (a : act) : Prop := match a with ACall _ e => ok e | ADeliver _ _ => True end.

  Lemma play_sound ok l : forall w w', JoinedBy ok w -> Forall (ok_act ok) l -> play w l = Some w' -> JoinedBy ok w'.
  Proof.
    induction l as [|[s e|s n] l IH]; intros w w' HJ Hg E; cbn [play] in E.
    - now injection E as <-.
    - inversion Hg as [|? ? H1 H2]; subst. destruct (call (dispatch s) (w s) e) as [p|] eqn:Ec; [|discriminate].
      eapply IH; [|exact H2|exact E]. econstructor; eauto.
    - inversion Hg as [|? ? H1 H2]; subst. destruct (live (w s)) eqn:El; [|discriminate].
      destruct (deliver _ _ _ _) as [p|] eqn:Ed; [|discriminate].
      destruct (prefixb (got (w s)) _) eqn:Ep; [|discriminate]. apply prefixb_spec in Ep. destruct Ep as [rest Hr].
      eapply IH; [|exact H2|exact E]. eapply W_deliver with (rest := skipn n rest); [exact HJ|exact El| |exact Ed].
      rewrite Hr, skipn_app, skipn_all, Nat.sub_diag. cbn [skipn app]. now rewrite firstn_skipn.
  Qed.

  Definition played (l : list act) : world := match play (fun _ => ep0) l with Some w => w | None => fun _ => ep0 end.
  Lemma played_joined ok l : Forall (ok_act ok) l -> JoinedBy ok (played l).
  Proof.
    intros Hg. unfold played. destruct (play _ l) as [w|] eqn:E; [|constructor].
    eapply play_sound; [constructor|exact Hg|exact E].
  Qed.

  (** ** Sending *)

  Definition okbox (b : dict str str) : Prop := Forall (fun v => encodable v = true) (values b).
  Definition okev (e : event) : Prop := match e with ERecv b => okbox b | _ => good e end.
  Definition okhist (h : list entry) : Prop := Forall (fun en => okev (ev en)) h.

  Definition recvd (h : list entry) : list (dict str str) :=
    flat_map (fun en => match ev en with ERecv b => [b] | _ => [] end) h.

  Lemma recvd_snoc h e o x : recvd (h ++ [En e o x]) = recvd h ++ match e with ERecv b => [b] | _ => [] end.
  Proof. unfold recvd. rewrite flat_map_app. cbn. now rewrite app_nil_r. Qed.

  Lemma recvd_ok h : okhist h -> Forall okbox (recvd h).
  Proof.
    induction 1 as [|[e o x] h He Hh IH]; [constructor|]. cbn [recvd flat_map ev]. apply Forall_app. split; [|exact IH].
    destruct e; constructor; [exact He|constructor].
  Qed.

  Lemma encodable_ascii s : Forall (fun c => (c < 128)%N) s -> encodable s = true.
  Proof.
    intros H. unfold encodable. apply forallb_forall. intros c Hc. rewrite Forall_forall in H. specialize (H c Hc).
    unfold is_scalar, is_surrogate. lia.
  Qed.

  Lemma canon_ok k : is_ascii k = true ->
    good_key k && eqb (let l := swap DASH USCORE (map ascii_lower k) in if memb l keywords then title l else l) k && negb (eqb k LENGTH) = true ->
    canonical ulower k = true.
  Proof. intros Ha H. unfold canonical, normalizeKey. now rewrite ulower_ascii. Qed.

  Lemma keys_reads b : keys (reads b) = keys b.
  Proof. unfold keys, reads. now rewrite map_map. Qed.

  Lemma reads_dset b k v : reads (dset b k (PS v)) = dset (reads b) k v.
  Proof.
    induction b as [|[k' v'] b IH]; [reflexivity|]. cbn [reads map dset fst snd].
    destruct (eqb k k'); cbn [map fst snd]; [reflexivity|]. f_equal. exact IH.
  Qed.

  Lemma reads_texts d : reads (texts d) = d.
  Proof. unfold reads, texts. rewrite map_map. cbn [fst snd reading]. induction d as [|[k v] d IH]; [reflexivity|]. cbn. now rewrite IH. Qed.

  Lemma legible_text s : encodable s = true -> legible (PS s).
  Proof. intros H. apply utf8_encode_ok in H as [w Hw]. exists w. auto. Qed.

  Lemma reading_encodable p : legible p -> encodable (reading p) = true.
  Proof. intros (w & _ & H). apply utf8_encode_ok. eauto. Qed.

  Lemma legible_dset (b : box) k v : Forall legible (values b) -> encodable v = true -> Forall legible (values (dset b k (PS v))).
  Proof.
    intros H Hv. apply legible_text in Hv. unfold values. induction b as [|[k' v'] b IH]; [repeat constructor; assumption|].
    inversion H as [|? ? H1 H2]; subst. cbn [dset]. destruct (eqb k k'); constructor; auto.
  Qed.

  Lemma error_legible t c ds : legible (PS t) -> legible c -> legible ds -> Forall legible (values (error_box t c ds)).
  Proof. intros. unfold values, error_box. cbn [map snd]. auto. Qed.

  Lemma legible_len p : legible p -> is_ascii (reading p) = true -> py_len p = List.length (reading p).
  Proof.
    intros (w & H1 & H2) Ha. destruct p as [s|b]; [reflexivity|]. cbn [ensure_binary] in H1. injection H1 as ->.
    rewrite utf8_encode_ascii in H2 by (apply is_ascii_Forall; exact Ha). assert (E : reading (PB w) = w) by congruence.
    now rewrite E.
  Qed.

  (** a box is written as its text is *)
  Lemma serialize_reads b : Forall legible (values b) -> sendable ulower (reads b) -> serialize b = serialize (texts (reads b)).
  Proof.
    intros Hl (Hw & _ & _ & Hb).
    assert (Hk : forall k, dget (texts (reads b)) k = option_map (fun p => PS (reading p)) (dget b k)).
    { intros k. clear. induction b as [|[k' v'] b IH]; [reflexivity|]. cbn [reads texts map dget fst snd]. destruct (eqb k k'); auto. }
    assert (He : forall k p, dget b k = Some p -> legible p).
    { intros k p H. apply dget_In in H. rewrite Forall_forall in Hl. apply Hl, in_map_iff. exists (k, p). auto. }
    assert (Hr : forall k, dget (reads b) k = option_map reading (dget b k)).
    { intros k. clear. induction b as [|[k' v'] b IH]; [reflexivity|]. cbn [reads map dget fst snd]. destruct (eqb k k'); auto. }
    assert (Hbin : forall p, legible p -> ensure_binary (PS (reading p)) = ensure_binary p).
    { intros p (w & -> & H). exact H. }
    assert (Hi : serialize_items b = serialize_items (texts (reads b))).
    { assert (Hlen : forall p, In (BODY, p) b -> py_len p = List.length (reading p)).
      { intros p Hp. assert (Hp' : In (BODY, reading p) (reads b)) by (apply in_map_iff; exists (BODY, p); auto).
        apply legible_len; [rewrite Forall_forall in Hl; apply Hl, in_map_iff; now exists (BODY, p)|].
        apply (Hb (reading p)). now apply In_dget. }
      clear -Hl Hbin Hlen. induction b as [|[k v] b IH]; [reflexivity|]. inversion Hl as [|? ? H1 H2]; subst.
      cbn [reads texts map serialize_items fst snd]. fold (reads b). fold (texts (reads b)).
      rewrite <- (IH H2) by (intros p Hp; apply Hlen; now right). destruct (eqb_spec k BODY) as [->|Hb].
      - cbn [py_len]. rewrite (Hlen v) by now left. reflexivity.
      - now rewrite (Hbin v H1). }
    unfold serialize, din. rewrite (Hk LENGTH), (Hk BODY), <- Hi. destruct (dget b LENGTH); cbn [option_map]; [reflexivity|].
    destruct (dget b BODY) as [p|] eqn:Eb; cbn [option_map]; [|reflexivity]. now rewrite (Hbin p (He _ _ Eb)).
  Qed.

  Lemma values_dset (d : dict str str) k v x : In x (values (dset d k v)) -> x = v \/ In x (values d).
  Proof.
    induction d as [|[k' v'] d IH]; cbn [dset].
    - intros [<-|[]]. now left.
    - destruct (eqb k k'); cbn [values map snd].
      + intros [<-|H]; [now left|right; now right].
      + intros [<-|H]; [right; now left|]. destruct (IH H); [now left|right; now right].
  Qed.

  Lemma sendable_dset d k v : sendable ulower d -> canonical ulower k = true -> encodable v = true -> k <> BODY ->
    sendable ulower (dset d k v).
  Proof.
    intros (H1 & H2 & H3 & H4) Hc Hv Hb. split; [now apply wf_dset|]. split; [|split].
    - rewrite Forall_forall in *. intros k' Hk. apply keys_dset in Hk as [->|Hk]; auto.
    - rewrite Forall_forall in *. intros x Hx. apply values_dset in Hx as [->|Hx]; auto.
    - intros x Hx. rewrite dget_dset_neq in Hx by congruence. auto.
  Qed.

  Lemma canon_reserved k : In k [COMMAND; ASK; ANSWER; ERROR; ERROR_CODE; ERROR_DESCRIPTION] -> canonical ulower k = true.
  Proof. intros H. cbn [In] in H. repeat (destruct H as [<-|H]; [apply canon_ok; vm_compute; reflexivity|]). destruct H. Qed.

  (** the boxes of a request, a command that needs no answer, an answer and an error *)
  Inductive made (h : list entry) : event -> list out -> dict str str -> Prop :=
  | M_req cmd k d r t o : ~ In t (map snd (asked (outs_of h))) -> asked o = [] ->
      made h (ESend cmd k d true) (OAsked r t :: o) (dset (dset (reads d) COMMAND cmd) ASK t)
  | M_cmd cmd k d o : asked o = [] -> made h (ESend cmd k d false) o (dset (reads d) COMMAND cmd)
  | M_answer id k d o cb t : ~ In id (completed h) -> In (id, cb) (started (outs_of h)) -> dget cb ASK = Some t ->
      asked o = [] -> made h (EComplete id (RAnswer k d)) o (dset (reads d) ANSWER t)
  | M_error id oc o cb t c ds : ~ In id (completed h) -> In (id, cb) (started (outs_of h)) -> dget cb ASK = Some t ->
      option_map reads (reply t oc) = Some [(ERROR, t); (ERROR_DESCRIPTION, ds); (ERROR_CODE, c)] ->
      asked o = [] -> (forall k b, oc <> RAnswer k b) ->
      made h (EComplete id oc) o [(ERROR, t); (ERROR_DESCRIPTION, ds); (ERROR_CODE, c)].

  Lemma step_started d st e st' o x : step d st e = Some (st', o, x) ->
    started o = [] \/ exists i b, e = ERecv b /\ started o = [(i, b)].
  Proof.
    intros Hs. destruct (started o) as [|[i b] l] eqn:E; [now left|]. right.
    assert (Hin : In (ORun i b) o).
    { assert (Hi : In (i, b) (started o)) by (rewrite E; now left). unfold started in Hi. apply in_flat_map in Hi as (y & Hy & Hi).
      destruct y; try (destruct Hi; fail). destruct Hi as [Hi|[]]. injection Hi as -> ->. exact Hy. }
    destruct (step_run _ _ _ _ _ _ _ _ Hs Hin) as [-> ->]. exists i, b. auto.
  Qed.

  Lemma started_recvd d h st : Reach d h st -> exists rest, Permutation (recvd h) (map snd (started (outs_of h)) ++ rest).
  Proof.
    induction 1 as [|h st e st' o x HR IH Hs]; [exists []; constructor|]. destruct IH as [rest IH].
    rewrite recvd_snoc, outs_of_snoc, started_app, map_app.
    destruct (step_started _ _ _ _ _ _ Hs) as [->|(i & b & -> & ->)].
    - exists (rest ++ match e with ERecv b => [b] | _ => [] end). cbn [map]. rewrite app_nil_r, app_assoc. now apply Permutation_app_tail.
    - exists rest. cbn [map snd]. rewrite IH, <- !app_assoc. apply Permutation_app_head. symmetry. apply Permutation_cons_append.
  Qed.

  Lemma started_in d h st i b : Reach d h st -> In (i, b) (started (outs_of h)) -> In b (recvd h).
  Proof.
    intros HR Hin. destruct (started_recvd _ _ _ HR) as [rest Hp]. eapply Permutation_in; [symmetry; exact Hp|].
    apply in_or_app. left. apply in_map_iff. exists (i, b). auto.
  Qed.

  Lemma ask_ok b t : okbox b -> dget b ASK = Some t -> encodable t = true.
  Proof.
    intros H Hg. unfold okbox in H. rewrite Forall_forall in H. apply H. apply dget_In in Hg.
    apply in_map_iff. exists (ASK, t). auto.
  Qed.

  Lemma hex_ok n : encodable (hex n) = true.
  Proof. apply encodable_ascii, hex_ascii. Qed.

  Lemma sends_nothing d st e st' o x : step d st e = Some (st', o, x) ->
    match e with ESend _ _ _ _ | EComplete _ _ => True | _ => accepted o = [] end.
  Proof.
    intros Hs. destruct e; try exact I; cbn [step] in Hs.
    - injection Hs as E. unfold boxReceived in E.
      repeat match type of E with
             | (if ?c then _ else _) = _ => destruct c
             | (match ?c with _ => _ end) = _ => destruct c
             end; injection E as <- <- <-; reflexivity.
    - assert (E : prepareTLS st = (st', o, x)) by congruence. unfold prepareTLS in E. injection E as <- <- <-. apply map_odrop.
    - injection Hs as E. apply startTLS_cases in E. destruct (cert st); [destruct E as (_ & -> & _); reflexivity|].
      destruct E as (o' & -> & H & _). exact H.
    - assert (E : lock st = (st', o, x)) by congruence. unfold lock in E. injection E as <- <- <-. reflexivity.
    - injection Hs as E. apply switchTo_cases in E as (_ & _ & _ & E). destruct (inner st); [destruct E as (_ & -> & _)|destruct E as (-> & _)]; reflexivity.
    - destruct (outst st); injection Hs as <- <- <-; reflexivity.
    - destruct (losing st); [discriminate|]. injection Hs as <- <- <-. reflexivity.
  Qed.

  Lemma no_asked d h st e st' o x : Reach d h st -> step d st e = Some (st', o, x) ->
    (forall cmd k b, e <> ESend cmd k b true) -> asked o = [].
  Proof.
    intros HR Hs Hn. destruct e; cbn [step] in Hs.
    - destruct req; [exfalso; eapply Hn; reflexivity|]. injection Hs as E. unfold sendBoxCommand in E.
      destruct (outst st); [|injection E as <- <- <-; reflexivity].
      match type of E with sendTo ?s ?k ?b = _ => pose proof (quiet_sendTo s k b) as Q end. rewrite E in Q.
      destruct Q as (_ & _ & _ & _ & _ & _ & Q). now apply only_asked.
    - injection Hs as E. unfold boxReceived in E.
      repeat match type of E with
             | (if ?c then _ else _) = _ => destruct c
             | (match ?c with _ => _ end) = _ => destruct c
             end; injection E as <- <- <-; reflexivity.
    - destruct (dget (runs st) id); [|discriminate]. injection Hs as E.
      match type of E with complete ?s ?k ?b = _ => pose proof (quiet_complete s k b) as Q end. rewrite E in Q.
      destruct Q as (_ & _ & _ & _ & _ & _ & Q). now apply only_asked.
    - assert (E : prepareTLS st = (st', o, x)) by congruence. pose proof (quiet_prepareTLS st) as Q. rewrite E in Q.
      destruct Q as (_ & _ & _ & _ & _ & _ & Q). now apply only_asked.
    - injection Hs as E. pose proof (quiet_startTLS st c) as Q. rewrite E in Q.
      destruct Q as (_ & _ & _ & _ & _ & _ & Q). now apply only_asked.
    - assert (E : lock st = (st', o, x)) by congruence. unfold lock in E. injection E as <- <- <-. reflexivity.
    - injection Hs as E. pose proof (quiet_switchTo st p) as Q. rewrite E in Q.
      destruct Q as (_ & _ & _ & _ & _ & _ & Q). now apply only_asked.
    - destruct (outst st); injection Hs as <- <- <-; reflexivity.
    - destruct (losing st); [discriminate|]. injection Hs as <- <- <-. reflexivity.
  Qed.

  Lemma step_acc d h st e st' o x : Reach d h st -> okhist h -> okev e -> step d st e = Some (st', o, x) ->
    accepted o = [] \/ exists a, accepted o = [a] /\ Forall legible (values a) /\ sendable ulower (reads a) /\ made h e o (reads a).
  Proof.
    intros HR Hh He Hs. pose proof (sends_nothing _ _ _ _ _ _ Hs) as Hn. destruct e; auto; clear Hn; cbn [okev good] in He.
    - destruct He as (Hk & Hc & Hleg & Ha & Hres). rename b into ad.
      assert (Hb : sendable ulower (dset (reads ad) COMMAND cmd)).
      { apply sendable_dset; auto; [apply canon_reserved; cbn; auto|discriminate]. }
      destruct (was_lost h) eqn:El.
      { rewrite (loss_refuses _ _ _ _ _ _ _ HR El) in Hs. injection Hs as <- <- <-. now left. }
      destruct req.
      + destruct (send_tags _ _ _ _ _ _ _ _ _ HR El Hs) as (r & t & o' & -> & Hf & Ha' & Hc').
        cbv zeta in Hc'. destruct Hc' as [[_ Hacc]|(_ & -> & _)]; [|now left]. right.
        assert (Ht : exists n, t = hex n).
        { pose proof (i_tags _ _ (reach_inv _ _ _ (R_step _ _ _ _ _ _ _ HR Hs))) as (ns & E & _).
          rewrite outs_of_snoc, asked_app, map_app in E. symmetry in E. apply map_eq_app in E as (n1 & n2 & _ & _ & E).
          cbn [asked flat_map app map snd] in E. destruct n2 as [|n n2]; [discriminate|]. injection E as E _. exists n. congruence. }
        destruct Ht as [n Ht].
        assert (Htok : encodable t = true) by (rewrite Ht; apply hex_ok).
        exists (dset (dset ad COMMAND (PS cmd)) ASK (PS t)). split; [exact Hacc|]. split; [auto using legible_dset|].
        rewrite !reads_dset. split.
        * apply sendable_dset; auto; [apply canon_reserved; cbn; auto|discriminate].
        * now constructor.
      + pose proof (reach_tinv _ _ _ HR) as [_ _ _ _ Hp Hlk].
        assert (Hna : asked o = []) by (eapply no_asked; eauto; discriminate).
        cbn [step] in Hs. injection Hs as E. unfold sendBoxCommand in E. destruct (outst st) as [o0|] eqn:Eo.
        2:{ injection E as <- <- <-. now left. }
        eapply sendTo_acc in E; [|exact Hlk|exact Hp]. destruct E as [[_ Hacc]|(_ & -> & _)]; [|now left]. right.
        exists (dset ad COMMAND (PS cmd)). split; [exact Hacc|]. split; [auto using legible_dset|]. rewrite reads_dset.
        split; [exact Hb|]. now constructor.
    - assert (Hna : asked o = []) by (eapply no_asked; eauto; discriminate).
      destruct (reply_once _ _ _ _ _ _ _ _ HR Hs) as (-> & Hnc & cb & Hcb & Hr).
      destruct (dget cb ASK) as [t|] eqn:Et; [|left; tauto].
      assert (Htok : encodable t = true).
      { eapply ask_ok; [|exact Et]. pose proof (recvd_ok h Hh) as Hro. rewrite Forall_forall in Hro. apply Hro.
        eapply started_in; eauto. }
      assert (Herr : forall c ds, encodable c = true -> encodable ds = true ->
                sendable ulower [(ERROR, t); (ERROR_DESCRIPTION, ds); (ERROR_CODE, c)]).
      { intros c ds H1 H2. split; [|split; [|split]].
        - unfold wf_dict. cbn. repeat constructor; cbn; intuition discriminate.
        - repeat constructor; apply canon_reserved; cbn; auto 10.
        - repeat constructor; assumption.
        - intros v Hv. discriminate. }
      destruct oc as [k b| |c ds fatal|]; cbn [reply] in Hr.
      + destruct He as (Hk & Hleg & Ha & Hres). rename b into ad. destruct Hr as [[_ Hacc]|[_ ->]]; [|now left]. right.
        exists (dset ad ANSWER (PS t)). split; [exact Hacc|]. split; [auto using legible_dset|]. rewrite reads_dset. split.
        * apply sendable_dset; auto; [apply canon_reserved; cbn; auto|discriminate].
        * econstructor; eauto.
      + subst o. now left.
      + destruct He as (H1 & H2). destruct Hr as [[_ Hacc]|[_ ->]]; [|now left]. right.
        eexists. split; [exact Hacc|]. split; [apply error_legible; auto using legible_text|].
        split; [apply Herr; now apply reading_encodable|]. eapply M_error; eauto; solve [reflexivity|discriminate].
      + destruct Hr as [[_ Hacc]|[_ ->]]; [|now left]. right.
        eexists. split; [exact Hacc|]. split; [apply error_legible; apply legible_text; auto; vm_compute; reflexivity|].
        split; [apply Herr; vm_compute; reflexivity|]. eapply M_error; eauto; solve [reflexivity|discriminate].
  Qed.

  (** every packet taken so far was made by some event *)
  Definition origin (h : list entry) (b : dict str str) : Prop :=
    exists h1 e o x h2, h = h1 ++ En e o x :: h2 /\ okev e /\ made h1 e o b.

  Lemma origin_snoc h en b : origin h b -> origin (h ++ [en]) b.
  Proof.
    intros (h1 & e & o & x & h2 & -> & He & Hm). exists h1, e, o, x, (h2 ++ [en]). now rewrite <- app_assoc.
  Qed.

  Definition tag_in (b : dict str str) (k : str) : list str := match dget b k with Some t => [t] | None => [] end.
  Definition asks (bs : list (dict str str)) : list str := flat_map (fun b => tag_in b ASK) bs.

  (** the requests that boxes answer *)
  Definition rtags (bs : list (dict str str)) : list str := flat_map (fun b => tag_in b ANSWER ++ tag_in b ERROR) bs.
  Definition answering (h : list entry) (t : str) : Prop :=
    exists id cb, In id (completed h) /\ In (id, cb) (started (outs_of h)) /\ dget cb ASK = Some t.

  Record Sent (h : list entry) (D : list (dict str str)) : Prop := {
    s_acc : map reads (accepted (outs_of h)) = D;
    s_leg : Forall (fun a => Forall legible (values a)) (accepted (outs_of h));
    s_send : Forall (sendable ulower) D;
    s_org : Forall (origin h) D;
    s_asks : NoDup (asks D);
    s_asked : forall t, In t (asks D) -> In t (map snd (asked (outs_of h)));
    s_reps : NoDup (asks (recvd h)) -> NoDup (rtags D);
    s_rep : forall t, In t (rtags D) -> answering h t
  }.

  Lemma okhist_snoc h e o x : okhist (h ++ [En e o x]) <-> okhist h /\ okev e.
  Proof. unfold okhist. rewrite Forall_app. split; intros [H1 H2]; split; auto. now inversion H2. Qed.

  Lemma reserved_get d k : args d -> In k reserved -> dget (reads d) k = None.
  Proof. intros (_ & _ & H) Hk. apply dget_None. rewrite keys_reads. auto. Qed.

  Lemma made_ask h e o b : okev e -> made h e o b ->
    tag_in b ASK = [] \/ exists t, tag_in b ASK = [t] /\ ~ In t (map snd (asked (outs_of h))) /\ In t (map snd (asked o)).
  Proof.
    intros He Hm. unfold tag_in. destruct Hm; cbn [okev good] in He.
    - right. exists t. rewrite dget_dset_eq. split; [reflexivity|]. split; [assumption|]. cbn. now left.
    - left. destruct He as (_ & _ & Ha). rewrite dget_dset_neq by discriminate.
      rewrite reserved_get; auto. cbn. auto.
    - left. destruct He as (_ & Ha). rewrite dget_dset_neq by discriminate.
      rewrite reserved_get; auto. cbn. auto.
    - left. reflexivity.
  Qed.

  Lemma made_rep h e o b : okev e -> made h e o b ->
    rtags [b] = [] \/ exists t id cb oc, rtags [b] = [t] /\ e = EComplete id oc /\ ~ In id (completed h) /\
      In (id, cb) (started (outs_of h)) /\ dget cb ASK = Some t.
  Proof.
    intros He Hm. unfold rtags, tag_in. cbn [flat_map]. rewrite app_nil_r. destruct Hm; cbn [okev good] in He.
    - left. destruct He as (_ & _ & Ha).
      rewrite !dget_dset_neq by discriminate. rewrite !reserved_get; auto; cbn; auto.
    - left. destruct He as (_ & _ & Ha).
      rewrite !dget_dset_neq by discriminate. rewrite !reserved_get; auto; cbn; auto.
    - right. destruct He as (_ & Ha).
      rewrite dget_dset_eq, dget_dset_neq by discriminate. rewrite (reserved_get d ERROR); auto; [|cbn; auto 10].
      do 4 eexists. split; [reflexivity|]. eauto.
    - right. do 4 eexists. split; [reflexivity|]. eauto.
  Qed.

  Lemma asks_app a b : asks (a ++ b) = asks a ++ asks b.
  Proof. apply flat_map_app. Qed.
  Lemma rtags_app a b : rtags (a ++ b) = rtags a ++ rtags b.
  Proof. apply flat_map_app. Qed.

  Lemma asks_perm a b : Permutation a b -> Permutation (asks a) (asks b).
  Proof.
    induction 1; cbn; auto.
    - now apply Permutation_app_head.
    - rewrite !app_assoc. apply Permutation_app_tail, Permutation_app_comm.
    - etransitivity; eauto.
  Qed.

  (** with distinct tags received, two commands with the same tag are one *)
  Lemma run_unique d h st i1 b1 i2 b2 t : Reach d h st -> NoDup (asks (recvd h)) ->
    In (i1, b1) (started (outs_of h)) -> In (i2, b2) (started (outs_of h)) ->
    dget b1 ASK = Some t -> dget b2 ASK = Some t -> i1 = i2 /\ b1 = b2.
  Proof.
    intros HR Hn. destruct (started_recvd _ _ _ HR) as [rest Hp]. apply asks_perm in Hp. rewrite asks_app in Hp.
    apply (Permutation_NoDup Hp) in Hn. apply nodup_l in Hn. clear -Hn. revert Hn.
    generalize (started (outs_of h)) as l. intros l Hn H1 H2 E1 E2.
    induction l as [|[i b] l IH]; [destruct H1|]. cbn [map snd asks flat_map] in Hn. fold (asks (map snd l)) in Hn.
    assert (Hx : forall j c, In (j, c) l -> dget c ASK = Some t -> In t (asks (map snd l))).
    { intros j c Hj Hc. unfold asks. apply in_flat_map. exists c. split; [apply in_map_iff; now exists (j, c)|].
      unfold tag_in. rewrite Hc. now left. }
    destruct H1 as [H1|H1], H2 as [H2|H2].
    - split; congruence.
    - injection H1 as -> ->. unfold tag_in in Hn. rewrite E1 in Hn. inversion Hn as [|? ? Ha _]; subst. exfalso. apply Ha. eauto.
    - injection H2 as -> ->. unfold tag_in in Hn. rewrite E2 in Hn. inversion Hn as [|? ? Ha _]; subst. exfalso. apply Ha. eauto.
    - apply IH; auto. now apply nodup_r in Hn.
  Qed.

  Lemma answering_snoc h e o x t : answering h t -> answering (h ++ [En e o x]) t.
  Proof.
    intros (i & cb & H1 & H2 & H3). exists i, cb. rewrite completed_snoc, outs_of_snoc, started_app.
    split; [apply in_or_app; now left|]. split; [apply in_or_app; now left|exact H3].
  Qed.

  Lemma nodup_app {A} (l1 l2 : list A) : NoDup l1 -> NoDup l2 -> (forall x, In x l1 -> ~ In x l2) -> NoDup (l1 ++ l2).
  Proof.
    induction 1 as [|a l1 Ha H IH]; intros H2 Hd; [exact H2|]. cbn. constructor.
    - rewrite in_app_iff. intros [Hi|Hi]; [auto|]. apply (Hd a); [now left|exact Hi].
    - apply IH; auto. intros y Hy. apply Hd. now right.
  Qed.

  Theorem reach_sent d h st : Reach d h st -> okhist h -> exists D, Sent h D.
  Proof.
    induction 1 as [|h st e st' o x HR IH Hs]; intros Ho.
    { exists []. constructor; cbn; auto; try constructor; intros; contradiction. }
    apply okhist_snoc in Ho as [Ho He]. destruct (IH Ho) as [D [S1 S0 S2 S3 S4 S5 S6 S7]].
    assert (Horg : Forall (origin (h ++ [En e o x])) D).
    { rewrite Forall_forall in *. intros b Hb. apply origin_snoc. auto. }
    destruct (step_acc _ _ _ _ _ _ _ HR Ho He Hs) as [Ha|(a & Ha & Hleg & Hsb & Hm)].
    - exists D. constructor; auto.
      + rewrite outs_of_snoc, accepted_app, Ha, app_nil_r. exact S1.
      + rewrite outs_of_snoc, accepted_app, Ha, app_nil_r. exact S0.
      + intros t Ht. rewrite outs_of_snoc, asked_app, map_app. apply in_or_app. left. auto.
      + rewrite recvd_snoc, asks_app. intros Hn. apply nodup_l in Hn. auto.
      + intros t Ht. apply answering_snoc. auto.
    - set (b := reads a) in *. exists (D ++ [b]). constructor.
      + rewrite outs_of_snoc, accepted_app, Ha, map_app, S1. reflexivity.
      + rewrite outs_of_snoc, accepted_app, Ha. apply Forall_app. auto.
      + apply Forall_app. auto.
      + apply Forall_app. split; [exact Horg|]. constructor; [|constructor]. exists h, e, o, x, []. auto.
      + unfold asks. rewrite flat_map_app. cbn [flat_map]. rewrite app_nil_r.
        destruct (made_ask _ _ _ _ He Hm) as [->|(t & -> & Hf & _)]; [now rewrite app_nil_r|].
        apply nodup_app; auto; [repeat constructor; auto|]. intros y Hy [<-|[]]. apply Hf. auto.
      + intros t Ht. unfold asks in Ht. rewrite flat_map_app in Ht. cbn [flat_map] in Ht. rewrite app_nil_r in Ht.
        rewrite outs_of_snoc, asked_app, map_app. apply in_or_app. apply in_app_or in Ht as [Ht|Ht]; [left; auto|right].
        destruct (made_ask _ _ _ _ He Hm) as [E|(t' & E & _ & Hin)]; rewrite E in Ht; [destruct Ht|].
        destruct Ht as [<-|[]]. exact Hin.
      + rewrite recvd_snoc, asks_app. intros Hn. apply nodup_l in Hn. rewrite rtags_app.
        destruct (made_rep _ _ _ _ He Hm) as [->|(t & id & cb & oc & -> & -> & Hnc & Hcb & Ht)]; [rewrite app_nil_r; auto|].
        apply nodup_app; auto; [repeat constructor; auto|]. intros y Hy [<-|[]].
        destruct (S7 _ Hy) as (id' & cb' & Hc' & Hb' & Ht').
        destruct (run_unique _ _ _ _ _ _ _ _ HR Hn Hcb Hb' Ht Ht') as [-> _]. auto.
      + intros t. rewrite rtags_app. intros Ht. apply in_app_or in Ht as [Ht|Ht]; [apply answering_snoc; auto|].
        destruct (made_rep _ _ _ _ He Hm) as [E|(t' & id & cb & oc & E & -> & Hnc & Hcb & Ht')]; rewrite E in Ht; [destruct Ht|].
        destruct Ht as [<-|[]]. exists id, cb. rewrite completed_snoc, outs_of_snoc, started_app.
        split; [apply in_or_app; right; now left|]. split; [apply in_or_app; now left|exact Ht'].
  Qed.

  (** ** Writing *)

  Definition ser_ok (o : out) : Prop := match o with OWrite b w | OFlush b w => serialize b = Ok w | _ => True end.

  Lemma ser_sendPacket st b st' o x : sendPacket st b = (st', o, x) -> Forall ser_ok o.
  Proof.
    unfold sendPacket. destruct (locked st); [intros E; injection E as <- <- <-; constructor|].
    destruct (held st); [intros E; injection E as <- <- <-; repeat constructor|].
    destruct (serialize b) eqn:Es; intros E; injection E as <- <- <-; repeat constructor. exact Es.
  Qed.

  Lemma ser_flush st q : forall o x, flush st q = (o, x) -> Forall ser_ok o.
  Proof.
    assert (Hf : forall o, Forall ser_ok o -> Forall ser_ok (map as_flush o)).
    { induction 1 as [|y o Hy Ho IH]; constructor; auto. destruct y; exact Hy. }
    induction q as [|b q IH]; intros o x E; cbn [flush] in E; [injection E as <- <-; constructor|].
    destruct (sendPacket st b) as [[st1 o1] [e|]] eqn:E1; apply ser_sendPacket in E1.
    - injection E as <- <-. apply Forall_app. split; [auto|]. apply Forall_forall. intros y Hy. change (In y (map ODrop (b :: q))) in Hy. apply in_map_iff in Hy as (? & <- & _). exact I.
    - destruct (flush st q) as [o' e']. injection E as <- <-. apply Forall_app. eauto.
  Qed.

  Lemma ser_startTLS st c st' o x : startTLS st c = (st', o, x) -> Forall ser_ok o.
  Proof.
    unfold startTLS. destruct (cert st); [intros E; injection E as <- <- <-; constructor|]. destruct (held st) as [q|].
    - destruct (flush _ q) as [o' e'] eqn:Ef. intros E. injection E as <- <- <-. constructor; [exact I|]. eapply ser_flush; eauto.
    - intros E. injection E as <- <- <-. repeat constructor.
  Qed.

  Lemma ser_switchTo st p st' o x : switchTo st p = (st', o, x) -> Forall ser_ok o.
  Proof. unfold switchTo. destruct (inner st); intros E; injection E as <- <- <-; repeat constructor. Qed.

  Lemma ser_sendTo st k b st' o x : sendTo st k b = (st', o, x) -> Forall ser_ok o.
  Proof.
    unfold sendTo. destruct (sendPacket st b) as [[st1 o1] [e|]] eqn:E1; apply ser_sendPacket in E1.
    - intros E. injection E as <- <- <-. exact E1.
    - destruct k as [| |c|p|].
      + intros E. injection E as <- <- <-. exact E1.
      + intros E. injection E as <- <- <-. apply Forall_app. split; [exact E1|repeat constructor].
      + destruct (startTLS st1 c) as [[s2 o2] x2] eqn:E2. intros E. injection E as <- <- <-. apply Forall_app. split; [exact E1|]. eapply ser_startTLS; eauto.
      + destruct (switchTo st1 p) as [[s2 o2] x2] eqn:E2. intros E. injection E as <- <- <-. apply Forall_app. split; [exact E1|]. eapply ser_switchTo; eauto.
      + destruct (pv_int _); intros E; injection E as <- <- <-; exact E1.
  Qed.

  Lemma ser_complete st a oc st' o x : complete st a oc = (st', o, x) -> Forall ser_ok o.
  Proof.
    assert (Hp : forall r, puke r = (st', o, x) -> (forall s1 o1 x1, r = (s1, o1, x1) -> Forall ser_ok o1) -> Forall ser_ok o).
    { intros [[s1 o1] [e|]] E H; cbn in E; injection E as <- <- <-; [apply Forall_app; split; [|repeat constructor]|]; eapply H; reflexivity. }
    destruct a as [t|], oc; cbn [complete]; intros E;
      try (eapply Hp; [exact E|]; intros s1 o1 x1 E1; eapply ser_sendTo; exact E1); injection E as <- <- <-; repeat constructor.
  Qed.

  Lemma ser_step d st e st' o x : step d st e = Some (st', o, x) -> Forall ser_ok o.
  Proof.
    intros Hs. destruct e; cbn [step] in Hs.
    - injection Hs as E. unfold sendBoxCommand in E. destruct (outst st); [|injection E as <- <- <-; repeat constructor].
      destruct req; [|eapply ser_sendTo; eauto]. destruct (sendTo _ _ _) as [[s1 o1] x1] eqn:E1 in E. injection E as <- <- <-.
      constructor; [exact I|]. eapply ser_sendTo; eauto.
    - injection Hs as E. unfold boxReceived in E.
      repeat match type of E with
             | (if ?c then _ else _) = _ => destruct c
             | (match ?c with _ => _ end) = _ => destruct c
             end; injection E as <- <- <-; repeat constructor.
    - destruct (dget (runs st) id); [|discriminate]. injection Hs as E. eapply ser_complete; eauto.
    - assert (E : prepareTLS st = (st', o, x)) by congruence. unfold prepareTLS in E. injection E as <- <- <-.
      apply Forall_forall. intros y Hy. apply in_map_iff in Hy as (? & <- & _). exact I.
    - injection Hs as E. eapply ser_startTLS; eauto.
    - assert (E : lock st = (st', o, x)) by congruence. unfold lock in E. injection E as <- <- <-. constructor.
    - injection Hs as E. eapply ser_switchTo; eauto.
    - destruct (outst st); injection Hs as <- <- <-; constructor.
    - destruct (losing st); [discriminate|]. injection Hs as <- <- <-. repeat constructor.
  Qed.

  Lemma ser_reach d h st : Reach d h st -> Forall ser_ok (outs_of h).
  Proof.
    induction 1 as [|h st e st' o x HR IH Hs]; [constructor|]. rewrite outs_of_snoc. apply Forall_app. split; [exact IH|]. eapply ser_step; eauto.
  Qed.

  (** what was written: boxes that can be sent, each made by some event, one
      after the other *)
  Record Wrote (h : list entry) (W : list (dict str str)) : Prop := {
    w_send : Forall (sendable ulower) W;
    w_org : Forall (origin h) W;
    w_asks : NoDup (asks W);
    w_reps : NoDup (asks (recvd h)) -> NoDup (rtags W);
    w_wire : exists ws, wires W ws /\ concat ws = wire (outs_of h);
    w_written : map reads (written (outs_of h)) = W
  }.

  Lemma rtags_perm a b : Permutation a b -> Permutation (rtags a) (rtags b).
  Proof. intros H. unfold rtags. now apply Permutation_flat_map. Qed.

  Theorem reach_wrote d h st : Reach d h st -> okhist h -> exists W, Wrote h W.
  Proof.
    intros HR Ho. destruct (reach_sent _ _ _ HR Ho) as [D [S1 S0 S2 S3 S4 S5 S6 S7]].
    pose proof (j_cons _ _ (reach_tinv _ _ _ HR)) as Hp.
    assert (HL : Forall (fun a => Forall legible (values a)) (written (outs_of h))).
    { apply (Permutation_Forall Hp) in S0. now apply Forall_app in S0 as [S0 _]. }
    apply (Permutation_map reads) in Hp. rewrite S1, map_app in Hp.
    set (W := map reads (written (outs_of h))) in *.
    assert (EW : map reads (written (outs_of h)) = W) by reflexivity. clearbody W.
    exists W. assert (Hin : forall b, In b W -> In b D). { intros b Hb. eapply Permutation_in; [symmetry; exact Hp|]. apply in_or_app. now left. }
    rewrite Forall_forall in S2, S3. constructor.
    - apply Forall_forall. auto.
    - apply Forall_forall. auto.
    - apply asks_perm in Hp. rewrite asks_app in Hp. apply (Permutation_NoDup Hp) in S4. now apply nodup_l in S4.
    - intros Hn. apply rtags_perm in Hp. rewrite rtags_app in Hp. specialize (S6 Hn). apply (Permutation_NoDup Hp) in S6. now apply nodup_l in S6.
    - assert (HW : Forall (sendable ulower) W) by (apply Forall_forall; auto).
      pose proof (ser_reach _ _ _ HR) as Hs. clear -EW Hs HL HW ulower_ascii. revert W EW HW HL. induction Hs as [|y l Hy Hl IH]; intros W EW HW HL.
      + destruct W; [|discriminate]. exists []. split; [constructor|reflexivity].
      + unfold written in EW, HL. cbn [flat_map] in EW, HL. fold (written l) in EW, HL.
        destruct y; try (destruct (IH W EW HW HL) as (ws & H1 & H2); exists ws; split; [exact H1|exact H2]).
        * destruct W as [|d0 W]; [discriminate|]. cbn [app map] in EW, HL. injection EW as E1 E2.
          inversion HW as [|? ? HW1 HW2]; subst d0. inversion HL as [|? ? HL1 HL2]; subst. destruct (IH _ eq_refl HW2 HL2) as (ws & H1 & H2).
          exists (w :: ws). split; [constructor; [cbn [ser_ok] in Hy; now rewrite <- serialize_reads|exact H1]|]. cbn [concat]. now rewrite H2.
        * destruct W as [|d0 W]; [discriminate|]. cbn [app map] in EW, HL. injection EW as E1 E2.
          inversion HW as [|? ? HW1 HW2]; subst d0. inversion HL as [|? ? HL1 HL2]; subst. destruct (IH _ eq_refl HW2 HL2) as (ws & H1 & H2).
          exists (w :: ws). split; [constructor; [cbn [ser_ok] in Hy; now rewrite <- serialize_reads|exact H1]|]. cbn [concat]. now rewrite H2.
    - exact EW.
  Qed.

  (** ** Receiving *)

  Lemma good_ok e : good e -> okev e.
  Proof. destruct e; auto. intros []. Qed.

  Definition SInv (d : str -> option exn) (s : session) : Prop := Reach d (fst s) (snd s) /\ okhist (fst s).

  Lemma calls_ok d es : forall s, SInv d s -> Forall good es ->
    SInv d (calls d s es) /\ recvd (fst (calls d s es)) = recvd (fst s).
  Proof.
    induction es as [|e es IH]; intros s Hs He; [auto|]. inversion He as [|? ? H1 H2]; subst. cbn [calls].
    destruct (step d (snd s) e) as [[[st o] x]|] eqn:E; [|auto]. destruct Hs as [HR Ho].
    destruct (IH (fst s ++ [En e o x], st)) as [H3 H4]; auto.
    - split; cbn [fst snd]; [econstructor; eauto|]. apply okhist_snoc. split; [exact Ho|now apply good_ok].
    - split; [exact H3|]. rewrite H4. cbn [fst]. rewrite recvd_snoc. destruct e; rewrite ?app_nil_r; auto. destruct H1.
  Qed.

  Lemma recv_ok d a s b s' x : (forall h, Forall good (a h)) -> SInv d s -> okbox b -> recv d a s b = (s', x) ->
    SInv d s' /\ recvd (fst s') = recvd (fst s) ++ [b].
  Proof.
    intros Ha [HR Ho] Hb E. unfold recv in E. destruct (boxReceived d (snd s) b) as [[st o] y] eqn:Eb.
    assert (Hs : SInv d (fst s ++ [En (ERecv b) o y], st)).
    { split; cbn [fst snd]; [econstructor; [exact HR|cbn [step]; now rewrite Eb]|]. apply okhist_snoc. now split. }
    assert (Hr : recvd (fst s ++ [En (ERecv b) o y]) = recvd (fst s) ++ [b]) by apply recvd_snoc.
    destruct y as [e|]; injection E as <- <-; [auto|].
    destruct (calls_ok d (a (fst s ++ [En (ERecv b) o None])) _ Hs (Ha _)) as [H1 H2]. split; [exact H1|]. now rewrite H2.
  Qed.

  Definition Sim (b : bstate (japp session)) (q : bstate (japp (list (dict str str)))) : Prop :=
    b_line b = b_line q /\ b_acc b = b_acc q /\ reqbuf (b_app b) = reqbuf (b_app q) /\ pend (b_app b) = pend (b_app q) /\
    recvd (fst (jst (b_app b))) = jst (b_app q).

  Lemma sim_step d a b q c : (forall h, Forall good (a h)) -> SInv d (jst (b_app b)) -> Sim b q -> b_end b = None -> b_end q = None ->
    Forall okbox (jst (b_app (bfin ulower collect q [c]))) ->
    let b1 := bfin ulower (recv d a) b [c] in let q1 := bfin ulower collect q [c] in
    SInv d (jst (b_app b1)) /\ recvd (fst (jst (b_app b1))) = jst (b_app q1) /\ (b_end b1 = None -> Sim b1 q1 /\ b_end q1 = None).
  Proof.
    intros Ha Hi (S1 & S2 & S3 & S4 & S5) Eb Eq. unfold bfin. cbn [brun]. unfold bstep. rewrite Eb, Eq, S1, S2.
    destruct b as [bl ba be [rb pn s]], q as [ql qa qe [rq pq r]]. cbn [b_line b_acc b_end b_app reqbuf pend jst] in *. subst.
    destruct ql.
    - destruct (suffixb CRLF (qa ++ [c])).
      2:{ cbn. intros _. repeat split; auto; apply Hi. }
      unfold jline. cbn [reqbuf pend jst]. destruct (firstn _ _) as [|z l].
      2:{ cbn. intros _. repeat split; auto; apply Hi. }
      destruct (parseJuiceHeaders ulower rq) as [[n bx]|e].
      2:{ cbn. intros _. repeat split; auto; try apply Hi; discriminate. }
      destruct (Z.eqb n 0).
      2:{ cbn. intros _. repeat split; auto; apply Hi. }
      destruct (recv d a s bx) as [s' x] eqn:Er. cbn. intros Hok. apply Forall_app in Hok as [_ Hok].
      apply Forall_inv in Hok. destruct (recv_ok _ _ _ _ _ _ Ha Hi Hok Er) as [H1 H2]. split; [exact H1|]. split; [exact H2|].
      destruct x; [discriminate|]. intros _. repeat split; auto.
    - unfold jbyte. cbn [pend]. destruct pq as [[[n bb] bx]|].
      2:{ cbn. intros _. repeat split; auto; try apply Hi; discriminate. }
      unfold JuiceStream.deliver. cbn [jst reqbuf].
      destruct (n <=? 0)%Z; [|destruct (n =? 1)%Z].
      + destruct (utf8_decode bb) as [t|e].
        2:{ cbn. intros _. repeat split; auto; try apply Hi; discriminate. }
        destruct (recv d a s (dset bx BODY t)) as [s' x] eqn:Er. cbn. intros Hok. apply Forall_app in Hok as [_ Hok].
        apply Forall_inv in Hok. destruct (recv_ok _ _ _ _ _ _ Ha Hi Hok Er) as [H1 H2].
        destruct x; cbn; (split; [exact H1|]; split; [exact H2|]); [discriminate|]. intros _. repeat split; auto.
      + destruct (utf8_decode (bb ++ [c])) as [t|e].
        2:{ cbn. intros _. repeat split; auto; try apply Hi; discriminate. }
        destruct (recv d a s (dset bx BODY t)) as [s' x] eqn:Er. cbn. intros Hok. apply Forall_app in Hok as [_ Hok].
        apply Forall_inv in Hok. destruct (recv_ok _ _ _ _ _ _ Ha Hi Hok Er) as [H1 H2].
        destruct x; cbn; (split; [exact H1|]; split; [exact H2|]); [discriminate|]. intros _. repeat split; auto.
      + cbn. intros _. repeat split; auto; apply Hi.
  Qed.

  Lemma sim_run d a x : (forall h, Forall good (a h)) -> forall b q, SInv d (jst (b_app b)) -> Sim b q -> b_end b = None -> b_end q = None ->
    Forall okbox (jst (b_app (bfin ulower collect q x))) ->
    let b1 := bfin ulower (recv d a) b x in let q1 := bfin ulower collect q x in
    SInv d (jst (b_app b1)) /\ (exists t, jst (b_app q1) = recvd (fst (jst (b_app b1))) ++ t) /\ (b_end b1 = None -> Sim b1 q1 /\ b_end q1 = None).
  Proof.
    intros Ha. induction x as [|c x IH]; intros b q Hi HS Eb Eq Hok; cbv zeta.
    - unfold bfin. cbn [brun fst]. split; [exact Hi|]. split; [|auto]. exists []. rewrite app_nil_r. symmetry. apply HS.
    - change (c :: x) with ([c] ++ x) in *. rewrite !bfin_app in *.
      destruct (collect_mono ulower x (bfin ulower collect q [c])) as [t Ht].
      assert (Hok1 : Forall okbox (jst (b_app (bfin ulower collect q [c])))).
      { rewrite Ht in Hok. now apply Forall_app in Hok as [Hok _]. }
      destruct (sim_step d a b q c Ha Hi HS Eb Eq Hok1) as (H1 & H2 & H3). cbv zeta in H1, H2, H3.
      set (b1 := bfin ulower (recv d a) b [c]) in *. set (q1 := bfin ulower collect q [c]) in *.
      destruct (b_end b1) as [ee|] eqn:Ee.
      + assert (E1 : bfin ulower (recv d a) b1 x = b1) by (unfold bfin; rewrite brun_ended by congruence; reflexivity).
        rewrite E1. split; [exact H1|]. split; [exists t; now rewrite Ht, H2|]. rewrite Ee. discriminate.
      + destruct (H3 eq_refl) as [HS1 Eq1]. apply (IH b1 q1 H1 HS1 Ee Eq1 Hok).
  Qed.

  (** what a collecting receiver has after a part of the stream *)
  Definition after (x : str) : bstate (japp (list (dict str str))) := bfin ulower collect (at_line [] None []) x.

  Lemma after_prefix W ws x y : Forall (sendable ulower) W -> wires W ws -> concat ws = x ++ y ->
    b_end (after x) = None /\ exists n, jst (b_app (after x)) = firstn n (map received W).
  Proof.
    intros Hs Hw E. pose proof (stream_bfin ulower ulower_ascii W ws [] Hs Hw) as H. rewrite E, bfin_app in H. fold (after x) in H.
    split.
    - destruct (b_end (after x)) eqn:Ee; [|reflexivity]. exfalso.
      unfold bfin in H. rewrite brun_ended in H by congruence. cbn [fst] in H. rewrite H in Ee. discriminate.
    - destruct (collect_mono ulower y (after x)) as [t Ht]. rewrite H in Ht. cbn [at_line b_app jst app] in Ht.
      exists (List.length (jst (b_app (after x)))). rewrite Ht, firstn_app, firstn_all, Nat.sub_diag. cbn [firstn]. now rewrite app_nil_r.
  Qed.

  Lemma after_all W ws : Forall (sendable ulower) W -> wires W ws -> jst (b_app (after (concat ws))) = map received W.
  Proof. intros Hs Hw. unfold after. rewrite (stream_bfin ulower ulower_ascii W ws [] Hs Hw). reflexivity. Qed.

  Lemma received_ok b : sendable ulower b -> okbox (received b).
  Proof.
    intros (Hw & _ & Hv & _). destruct (received_same b Hw) as [Hw' Hd]. unfold okbox in *. rewrite Forall_forall in *. intros v Hin.
    apply in_map_iff in Hin as ([k v'] & <- & Hin). cbn [snd]. apply Hv. eapply In_dget in Hin; [|exact Hw'].
    rewrite <- (Hd k) in Hin. apply dget_In in Hin. apply in_map_iff. exists (k, v'). auto.
  Qed.

  Lemma firstn_ok n W : Forall (sendable ulower) W -> Forall okbox (firstn n (map received W)).
  Proof.
    intros H. apply Forall_forall. intros b Hb.
    assert (Hb' : In b (map received W)) by (rewrite <- (firstn_skipn n); apply in_or_app; now left).
    apply in_map_iff in Hb' as (b0 & <- & Hb'). rewrite Forall_forall in H. apply received_ok. auto.
  Qed.

  (** ** The invariant of the pair *)

  Definition bst (p : proto (japp session)) : bstate (japp session) := B (lm p) (buf p) None (app_ p).

  Record WInv (w : world) (s : bool) : Prop := {
    v_ses : SInv (dispatch s) (ses (w s));
    v_got : exists rest, wire (outs_of (hist (w (negb s)))) = got (w s) ++ rest;
    v_recvd : exists t, jst (b_app (after (got (w s)))) = recvd (hist (w s)) ++ t;
    v_live : live (w s) = true -> settled (pr (w s)) /\ disc (pr (w s)) = false /\ Sim (bst (pr (w s))) (after (got (w s)))
  }.

  Lemma wire_snoc h e o x : wire (outs_of (h ++ [En e o x])) = wire (outs_of h) ++ wire o.
  Proof. rewrite outs_of_snoc. unfold wire. apply flat_map_app. Qed.

  Lemma upd_same w s p : upd w s p s = p.
  Proof. unfold upd. now rewrite Bool.eqb_reflx. Qed.
  Lemma upd_other w s p : upd w s p (negb s) = w (negb s).
  Proof. unfold upd. destruct s; reflexivity. Qed.

  Lemma calls_grows d es : forall s, exists t, fst (calls d s es) = fst s ++ t.
  Proof.
    induction es as [|e es IH]; intros s; [exists []; now rewrite app_nil_r|]. cbn [calls].
    destruct (step d (snd s) e) as [[[st o] x]|]; [|apply IH]. destruct (IH (fst s ++ [En e o x], st)) as [t Ht].
    rewrite Ht. cbn [fst]. eexists. now rewrite <- app_assoc.
  Qed.

  Lemma recv_grows d a s b s' x : recv d a s b = (s', x) -> exists t, fst s' = fst s ++ t.
  Proof.
    unfold recv. destruct (boxReceived d (snd s) b) as [[st o] [e|]]; intros E; injection E as <- <-; [eexists; reflexivity|].
    destruct (calls_grows d (a (fst s ++ [En (ERecv b) o None])) (fst s ++ [En (ERecv b) o None], st)) as [t Ht].
    cbn [fst] in Ht. exists ([En (ERecv b) o None] ++ t). cbn [fst]. rewrite Ht. now rewrite <- app_assoc.
  Qed.

  Lemma bfin_grows d a x : forall b, exists t, fst (jst (b_app (bfin ulower (recv d a) b x))) = fst (jst (b_app b)) ++ t.
  Proof.
    induction x as [|c x IH]; intros b; [exists []; now rewrite app_nil_r|].
    change (c :: x) with ([c] ++ x). rewrite bfin_app. destruct (IH (bfin ulower (recv d a) b [c])) as [t Ht]. rewrite Ht.
    enough (H : exists t1, fst (jst (b_app (bfin ulower (recv d a) b [c]))) = fst (jst (b_app b)) ++ t1).
    { destruct H as [t1 ->]. exists (t1 ++ t). now rewrite app_assoc. }
    assert (Hz : forall s : session, exists t1, fst s = fst s ++ t1) by (intros s; exists []; now rewrite app_nil_r).
    unfold bfin. cbn [brun]. unfold bstep. destruct (b_end b); [apply Hz|].
    destruct (b_line b).
    + destruct (suffixb _ _); [|apply Hz]. unfold jline. destruct (firstn _ _); [|apply Hz].
      destruct (parseJuiceHeaders _ _) as [[n bx]|e]; [|apply Hz]. destruct (Z.eqb n 0); [|apply Hz].
      destruct (recv d a _ bx) as [s' y] eqn:Er. apply recv_grows in Er. exact Er.
    + unfold jbyte. destruct (pend (b_app b)) as [[[n bb] bx]|]; [|apply Hz]. unfold JuiceStream.deliver.
      destruct (n <=? 0)%Z; [destruct (utf8_decode bb) as [u|]; [|apply Hz]|destruct (n =? 1)%Z; [|apply Hz]; destruct (utf8_decode (bb ++ [c])) as [u|]; [|apply Hz]];
        (destruct (recv d a _ (dset bx BODY u)) as [s' [y|]] eqn:Er; apply recv_grows in Er; exact Er).
  Qed.

  Lemma wire_grows (h t : list entry) : wire (outs_of (h ++ t)) = wire (outs_of h) ++ wire (outs_of t).
  Proof. unfold outs_of. rewrite flat_map_app. unfold wire. apply flat_map_app. Qed.

  Lemma deliver_bytes d a p c p' : disc (pr p) = false -> settled (pr p) -> deliver d a p c = Some p' ->
    got p' = got p ++ c /\
    let s := bfin ulower (recv d a) (bst (pr p)) c in
    app_ (pr p') = b_app s /\ lm (pr p') = b_line s /\
    (live p' = true -> (exists e, b_end s = Some None /\ e = 0) \/ (b_end s = None /\ disc (pr p') = false /\ buf (pr p') = b_acc s)).
  Proof.
    intros Hd Hs E. unfold deliver in E.
    destruct (dataReceived (jline ulower (recv d a)) (jraw (recv d a)) (pr p) c) as [[[q r] l]|] eqn:Ed; [|discriminate].
    injection E as <-. cbn [got pr live]. split; [reflexivity|]. cbv zeta.
    unfold dataReceived in Ed. rewrite go_raw_ext in Ed.
    assert (Hf : feed (jline ulower (recv d a)) (rawR (jbyte (recv d a))) (pr p) [c] = Some (q, r, l)).
    { cbn [feed]. unfold dataReceived. rewrite Ed. destruct r as [[]|e]; [|reflexivity]. destruct (disc q); [reflexivity|]. now rewrite app_nil_r. }
    apply feed_bytes in Hf; auto. destruct Hf as (st & Hrun & Happ & Hlm & Hend). cbn [concat] in Hrun. rewrite app_nil_r in Hrun.
    unfold bfin, bst. rewrite Hrun. cbn [fst]. split; [exact Happ|]. split; [exact Hlm|]. intros Hl.
    destruct (b_end st) as [[e|]|]; [subst r; discriminate|left; now exists 0|right; tauto].
  Qed.

  Lemma bfin_no_disc d a x : forall b, b_end b <> Some None -> b_end (bfin ulower (recv d a) b x) <> Some None.
  Proof.
    induction x as [|c x IH]; intros b Hb; [exact Hb|]. change (c :: x) with ([c] ++ x). rewrite bfin_app. apply IH.
    unfold bfin. cbn [brun]. unfold bstep. destruct (b_end b) as [o|] eqn:Ee; [cbn; congruence|].
    destruct (b_line b).
    + destruct (suffixb _ _); [|discriminate]. unfold jline. destruct (firstn _ _); [|discriminate].
      destruct (parseJuiceHeaders _ _) as [[n bx]|e]; [|discriminate]. destruct (Z.eqb n 0); [|discriminate].
      destruct (recv d a _ bx) as [s' [y|]]; discriminate.
    + destruct (jbyte (recv d a) (b_app b) c) as [a1 []]; discriminate.
  Qed.

  Theorem joined_inv w : Joined w -> forall s, WInv w s.
  Proof.
    induction 1 as [|w s e p HJ IH He Hc|w s c rest p HJ IH Hl Hw Hd].
    - intros s. constructor; cbn.
      + split; cbn; constructor.
      + exists []. reflexivity.
      + exists []. reflexivity.
      + intros _. repeat split.
    - unfold call in Hc. destruct (step (dispatch s) (snd (ses (w s))) e) as [[[st o] x]|] eqn:Es; [|discriminate]. injection Hc as <-.
      pose proof (IH s) as [V1 V2 V3 V4]. pose proof (IH (negb s)) as [U1 U2 U3 U4].
      assert (Hr : recvd (hist (w s) ++ [En e o x]) = recvd (hist (w s))).
      { rewrite recvd_snoc. destruct e; rewrite ?app_nil_r; auto. destruct He. }
      intros s'. assert (Hss : s' = s \/ s' = negb s) by (destruct s, s'; auto). destruct Hss as [->| ->].
      + constructor; rewrite ?upd_same, ?upd_other; unfold hist, ses; cbn [pr live got set_ses app_ jst fst].
        * destruct V1 as [HR Ho]. split; cbn [fst snd]; [econstructor; eauto|]. apply okhist_snoc. split; [exact Ho|now apply good_ok].
        * exact V2.
        * destruct V3 as [t V3]. exists t. rewrite V3. f_equal. symmetry. exact Hr.
        * intros Hl. destruct (V4 Hl) as (A1 & A2 & A3 & A4 & A5 & A6 & A7). split; [exact A1|]. split; [exact A2|].
          unfold Sim, bst. cbn [set_ses lm buf disc app_ b_line b_acc b_app reqbuf pend jst fst]. repeat split; auto. etransitivity; [exact Hr|exact A7].
      + constructor; rewrite ?upd_other, ?negb_involutive, ?upd_same; auto.
        destruct U2 as [rest U2]. rewrite negb_involutive in U2. unfold hist, ses. cbn [pr set_ses app_ jst fst].
        rewrite wire_snoc. exists (rest ++ wire o). rewrite app_assoc. now f_equal.
    - pose proof (IH s) as [V1 V2 V3 V4]. pose proof (IH (negb s)) as [U1 U2 U3 U4].
      destruct (V4 Hl) as (A1 & A2 & A3).
      destruct (deliver_bytes _ _ _ _ _ A2 A1 Hd) as (D1 & D2 & D3 & D4). cbv zeta in D2, D3, D4.
      destruct U1 as [HRo Hoo]. destruct (reach_wrote _ _ _ HRo Hoo) as [W [W1 W2 W3 W4 (ws & W5 & W6) _]].
      change (fst (ses (w (negb s)))) with (hist (w (negb s))) in *.
      assert (Eap : after (got (w s) ++ c) = bfin ulower collect (after (got (w s))) c) by (unfold after; apply bfin_app).
      assert (Hx1 : concat ws = got (w s) ++ (c ++ rest)) by congruence.
      assert (Hx2 : concat ws = (got (w s) ++ c) ++ rest) by (rewrite <- app_assoc; congruence).
      destruct (after_prefix W ws _ _ W1 W5 Hx1) as [Ee1 _].
      destruct (after_prefix W ws _ _ W1 W5 Hx2) as [Ee2 [n En2]].
      pose proof (sim_run (dispatch s) (acts s) c (acts_good s) (bst (pr (w s))) (after (got (w s))) V1 A3 eq_refl Ee1) as Hrun.
      cbv zeta in Hrun. rewrite <- Eap in Hrun. rewrite En2 in Hrun. specialize (Hrun (firstn_ok n W W1)).
      rewrite <- En2 in Hrun. destruct Hrun as (R1 & R2 & R3).
      set (b1 := bfin ulower (recv (dispatch s) (acts s)) (bst (pr (w s))) c) in *.
      assert (Hses : ses p = jst (b_app b1)) by (unfold ses; now rewrite D2).
      intros s'. assert (Hss : s' = s \/ s' = negb s) by (destruct s, s'; auto). destruct Hss as [->| ->].
      + constructor; rewrite ?upd_same, ?upd_other.
        * rewrite Hses. exact R1.
        * rewrite D1, Hw. exists rest. now rewrite <- app_assoc.
        * rewrite D1. unfold hist. rewrite Hses. exact R2.
        * intros Hlp. destruct (D4 Hlp) as [(? & Hbad & _)|(E1 & E2 & E3)].
          { exfalso. revert Hbad. apply bfin_no_disc. discriminate. }
          destruct (R3 E1) as [HS _]. split; [|split; [exact E2|]].
          -- unfold deliver in Hd. destruct (dataReceived _ _ (pr (w s)) c) as [[[q r] l]|] eqn:Edr; [|discriminate].
             injection Hd as <-. cbn [pr live] in *. destruct r as [[]|]; [|discriminate]. unfold dataReceived in Edr.
             eapply go_conserves in Edr; [|exact E2]. apply Edr.
          -- rewrite D1. unfold bst. replace (B (lm (pr p)) (buf (pr p)) None (app_ (pr p))) with b1; [exact HS|].
             rewrite D2, D3, E3, <- E1. now destruct b1.
      + constructor; rewrite ?upd_other, ?negb_involutive, ?upd_same; auto.
        * split; assumption.
        * destruct U2 as [r2 U2]. rewrite negb_involutive in U2. destruct (bfin_grows (dispatch s) (acts s) c (bst (pr (w s)))) as [t Ht].
          fold b1 in Ht. unfold hist. rewrite Hses, Ht, wire_grows. cbn [bst b_app]. fold (ses (w s)). fold (hist (w s)).
          exists (r2 ++ wire (outs_of t)). rewrite app_assoc. now f_equal.
  Qed.

  (** ** What ends a connection *)

  (** receiving some box raised an exception *)
  Definition broke (h : list entry) : Prop := exists h1 b o e h2, h = h1 ++ En (ERecv b) o (Some e) :: h2.

  Lemma broke_app h t : broke h -> broke (h ++ t).
  Proof. intros (h1 & b & o & e & h2 & ->). exists h1, b, o, e, (h2 ++ t). now rewrite <- app_assoc. Qed.

  Lemma recv_broke d a s b s' e : recv d a s b = (s', Some e) -> broke (fst s').
  Proof.
    unfold recv. destruct (boxReceived d (snd s) b) as [[st o] [y|]]; intros E; [|discriminate]. injection E as <- ->.
    exists (fst s), b, o, e, []. reflexivity.
  Qed.

  Lemma step_broke d a b q c : Sim b q -> b_end b = None -> b_end q = None -> b_end (bfin ulower collect q [c]) = None ->
    b_end (bfin ulower (recv d a) b [c]) <> None -> broke (fst (jst (b_app (bfin ulower (recv d a) b [c])))).
  Proof.
    intros (S1 & S2 & S3 & S4 & S5) Eb Eq. unfold bfin. cbn [brun]. unfold bstep. rewrite Eb, Eq, S1, S2.
    destruct b as [bl ba be [rb pn s]], q as [ql qa qe [rq pq r]]. cbn [b_line b_acc b_end b_app reqbuf pend jst] in *. subst.
    destruct ql.
    - destruct (suffixb CRLF (qa ++ [c])); [|intros _ X; exfalso; now apply X].
      unfold jline. cbn [reqbuf pend jst]. destruct (firstn _ _) as [|z l]; [|intros _ X; exfalso; now apply X].
      destruct (parseJuiceHeaders ulower rq) as [[n bx]|e]; [|discriminate].
      destruct (Z.eqb n 0); [|intros _ X; exfalso; now apply X].
      destruct (recv d a s bx) as [s' [x|]] eqn:Er; [|intros _ X; exfalso; now apply X]. intros _ _. cbn. eapply recv_broke, Er.
    - unfold jbyte. cbn [pend]. destruct pq as [[[n bb] bx]|]; [|discriminate].
      unfold JuiceStream.deliver. cbn [jst reqbuf].
      destruct (n <=? 0)%Z; [|destruct (n =? 1)%Z; [|intros _ X; exfalso; now apply X]].
      + destruct (utf8_decode bb) as [t|e]; [|discriminate].
        destruct (recv d a s (dset bx BODY t)) as [s' [x|]] eqn:Er; [|intros _ X; exfalso; now apply X]. intros _ _. cbn. eapply recv_broke, Er.
      + destruct (utf8_decode (bb ++ [c])) as [t|e]; [|discriminate].
        destruct (recv d a s (dset bx BODY t)) as [s' [x|]] eqn:Er; [|intros _ X; exfalso; now apply X]. intros _ _. cbn. eapply recv_broke, Er.
  Qed.

  Lemma run_broke d a x : (forall h, Forall good (a h)) -> forall b q, SInv d (jst (b_app b)) -> Sim b q -> b_end b = None -> b_end q = None ->
    Forall okbox (jst (b_app (bfin ulower collect q x))) -> b_end (bfin ulower collect q x) = None ->
    b_end (bfin ulower (recv d a) b x) <> None -> broke (fst (jst (b_app (bfin ulower (recv d a) b x)))).
  Proof.
    intros Ha. induction x as [|c x IH]; intros b q Hi HS Eb Eq Hok Ef.
    - unfold bfin. cbn [brun fst]. congruence.
    - change (c :: x) with ([c] ++ x) in *. rewrite !bfin_app in *.
      destruct (collect_mono ulower x (bfin ulower collect q [c])) as [t Ht].
      assert (Hok1 : Forall okbox (jst (b_app (bfin ulower collect q [c])))).
      { rewrite Ht in Hok. now apply Forall_app in Hok as [Hok _]. }
      assert (Eq1 : b_end (bfin ulower collect q [c]) = None).
      { destruct (b_end (bfin ulower collect q [c])) eqn:Ee; [|reflexivity]. exfalso.
        revert Ef. unfold bfin at 1. rewrite brun_ended by congruence. cbn [fst]. congruence. }
      destruct (sim_step d a b q c Ha Hi HS Eb Eq Hok1) as (H1 & H2 & H3). cbv zeta in H1, H2, H3.
      pose proof (step_broke d a b q c HS Eb Eq Eq1) as HB.
      set (b1 := bfin ulower (recv d a) b [c]) in *. set (q1 := bfin ulower collect q [c]) in *.
      destruct (b_end b1) as [ee|] eqn:Ee.
      + assert (E1 : bfin ulower (recv d a) b1 x = b1) by (unfold bfin; rewrite brun_ended by congruence; reflexivity).
        rewrite E1. intros _. apply HB. congruence.
      + destruct (H3 eq_refl) as [HS1 _]. apply (IH b1 q1 H1 HS1 Ee Eq1 Hok Ef).
  Qed.

  Lemma deliver_dead d a p c p' : disc (pr p) = false -> settled (pr p) -> deliver d a p c = Some p' -> live p' = false ->
    b_end (bfin ulower (recv d a) (bst (pr p)) c) <> None.
  Proof.
    intros Hd Hs E. unfold deliver in E.
    destruct (dataReceived (jline ulower (recv d a)) (jraw (recv d a)) (pr p) c) as [[[q r] l]|] eqn:Ed; [|discriminate].
    injection E as <-. cbn [live]. unfold dataReceived in Ed. rewrite go_raw_ext in Ed.
    assert (Hf : feed (jline ulower (recv d a)) (rawR (jbyte (recv d a))) (pr p) [c] = Some (q, r, l)).
    { cbn [feed]. unfold dataReceived. rewrite Ed. destruct r as [[]|e]; [|reflexivity]. destruct (disc q); [reflexivity|]. now rewrite app_nil_r. }
    apply feed_bytes in Hf; auto. destruct Hf as (st & Hrun & Happ & Hlm & Hend). cbn [concat] in Hrun. rewrite app_nil_r in Hrun.
    unfold bfin, bst. rewrite Hrun. cbn [fst]. intros Hl X. rewrite X in Hend. destruct Hend as [-> _]. discriminate.
  Qed.

  (** between well-behaved endpoints nothing but an exception raised by the
      receiving of a box ends the delivery *)
  Theorem stays_up w : Joined w -> forall s, live (w s) = true \/ broke (hist (w s)).
  Proof.
    induction 1 as [|w s e p HJ IH He Hc|w s c rest p HJ IH Hl Hw Hd]; intros s'; [now left| |];
      (assert (Hss : s' = s \/ s' = negb s) by (destruct s, s'; auto); destruct Hss as [->| ->]; [|rewrite upd_other; apply IH]); rewrite upd_same.
    - unfold call in Hc. destruct (step (dispatch s) (snd (ses (w s))) e) as [[[st o] x]|] eqn:Es; [|discriminate]. injection Hc as <-.
      destruct (IH s) as [H|H]; [now left|right]. unfold hist at 1, ses. cbn [pr set_ses app_ jst fst]. now apply broke_app.
    - destruct (live p) eqn:Elp; [now left|right].
      pose proof (joined_inv w HJ s) as [V1 V2 V3 V4]. pose proof (joined_inv w HJ (negb s)) as [U1 _ _ _].
      destruct (V4 Hl) as (A1 & A2 & A3). destruct (deliver_bytes _ _ _ _ _ A2 A1 Hd) as (D1 & D2 & _). cbv zeta in D2.
      destruct U1 as [HRo Hoo]. destruct (reach_wrote _ _ _ HRo Hoo) as [W [W1 W2 W3 W4 (ws & W5 & W6) _]].
      change (fst (ses (w (negb s)))) with (hist (w (negb s))) in *.
      assert (Eap : after (got (w s) ++ c) = bfin ulower collect (after (got (w s))) c) by (unfold after; apply bfin_app).
      assert (Hx1 : concat ws = got (w s) ++ (c ++ rest)) by congruence.
      assert (Hx2 : concat ws = (got (w s) ++ c) ++ rest) by (rewrite <- app_assoc; congruence).
      destruct (after_prefix W ws _ _ W1 W5 Hx1) as [Ee1 _].
      destruct (after_prefix W ws _ _ W1 W5 Hx2) as [Ee2 [n En2]]. rewrite Eap in Ee2, En2.
      unfold hist, ses. rewrite D2. apply (run_broke (dispatch s) (acts s) c (acts_good s) (bst (pr (w s))) (after (got (w s))) V1 A3 eq_refl Ee1).
      + rewrite En2. exact (firstn_ok n W W1).
      + exact Ee2.
      + exact (deliver_dead _ _ _ _ _ A2 A1 Hd Elp).
  Qed.

  (** ** Requests and answers *)

  Lemma reach_split d h st h1 en h2 : Reach d h st -> h = h1 ++ en :: h2 ->
    exists st1 st2, Reach d h1 st1 /\ step d st1 (ev en) = Some (st2, outs en, raised en).
  Proof.
    intros HR. revert h1 en h2. induction HR as [|h st e st' o x HR IH Hs]; intros h1 en h2 E; [destruct h1; discriminate|].
    destruct h2 as [|en2 h2] using rev_ind.
    - apply app_inj_tail in E as [-> <-]. exists st, st'. auto.
    - clear IHh2. rewrite app_comm_cons, app_assoc in E. apply app_inj_tail in E as [E _]. eapply IH; eauto.
  Qed.

  (** in history [h] request [r], made with these arguments, got tag [t] *)
  Definition requested (h : list entry) (r : nat) (cmd : str) (d : box) (t : str) : Prop :=
    exists k o x, In (En (ESend cmd k d true) (OAsked r t :: o) x) h.
  (** in history [h] the responder of run [id] finished with [oc] *)
  Definition finished (h : list entry) (id : nat) (oc : outcome) : Prop :=
    exists o x, In (En (EComplete id oc) o x) h.

  (** the box of a request and the box of an answer *)
  Definition request_box (cmd : str) (d : box) (t : str) : dict str str := dset (dset (reads d) (lit "_command") cmd) (lit "_ask") t.
  Definition answer_box (d : box) (t : str) : dict str str := dset (reads d) (lit "_answer") t.

  Lemma in_recvd h b : In b (recvd h) <-> exists o x, In (En (ERecv b) o x) h.
  Proof.
    unfold recvd. rewrite in_flat_map. split.
    - intros ([e o x] & Hin & Hb). cbn [ev] in Hb. destruct e; try (destruct Hb; fail). destruct Hb as [->|[]]. eauto.
    - intros (o & x & Hin). exists (En (ERecv b) o x). split; [exact Hin|]. now left.
  Qed.

  Lemma joined_recvd w s : Joined w -> exists W, Wrote (hist (w (negb s))) W /\ (exists n, recvd (hist (w s)) = firstn n (map received W)).
  Proof.
    intros HJ. destruct (joined_inv w HJ s) as [V1 [rest V2] [t V3] _]. destruct (joined_inv w HJ (negb s)) as [[HR Ho] _ _ _].
    destruct (reach_wrote _ _ _ HR Ho) as [W HW]. exists W. split; [exact HW|]. destruct HW as [W1 W2 W3 W4 (ws & W5 & W6) _].
    change (fst (ses (w (negb s)))) with (hist (w (negb s))) in *. rewrite V2 in W6.
    destruct (after_prefix W ws _ _ W1 W5 W6) as [_ [n En]]. rewrite En in V3. exists (List.length (recvd (hist (w s)))).
    assert (E : map received W = recvd (hist (w s)) ++ (t ++ skipn n (map received W))).
    { rewrite app_assoc, <- V3. symmetry. apply firstn_skipn. }
    rewrite E, firstn_app, firstn_all, Nat.sub_diag. cbn [firstn]. now rewrite app_nil_r.
  Qed.

  (** a received box was made by the peer *)
  Lemma recvd_origin w s b : Joined w -> In b (recvd (hist (w s))) ->
    exists b0, dict_eq b b0 /\ origin (hist (w (negb s))) b0.
  Proof.
    intros HJ Hb. destruct (joined_recvd w s HJ) as (W & HW & n & E). rewrite E in Hb.
    assert (Hb' : In b (map received W)) by (rewrite <- (firstn_skipn n); apply in_or_app; now left).
    apply in_map_iff in Hb' as (b0 & <- & Hb0). exists b0. destruct HW as [W1 W2 _ _ _ _]. rewrite Forall_forall in W1, W2.
    split; [|auto]. intros k. destruct (received_same b0) as [_ H]; [apply W1, Hb0|]. symmetry. apply H.
  Qed.

  Lemma received_tag b k : sendable ulower b -> tag_in (received b) k = tag_in b k.
  Proof. intros [Hw _]. unfold tag_in. destruct (received_same b Hw) as [_ H]. now rewrite (H k). Qed.

  Lemma asks_received W : Forall (sendable ulower) W -> asks (map received W) = asks W.
  Proof. induction 1 as [|b W Hb HW IH]; [reflexivity|]. unfold asks in *. cbn [map flat_map]. now rewrite IH, received_tag. Qed.
  Lemma rtags_received W : Forall (sendable ulower) W -> rtags (map received W) = rtags W.
  Proof. induction 1 as [|b W Hb HW IH]; [reflexivity|]. unfold rtags in *. cbn [map flat_map]. now rewrite IH, !received_tag. Qed.

  Lemma asks_nodup w s : Joined w -> NoDup (asks (recvd (hist (w s)))).
  Proof.
    intros HJ. destruct (joined_recvd w s HJ) as (W & [W1 _ W3 _ _ _] & n & E). rewrite E.
    rewrite <- (asks_received W W1), <- (firstn_skipn n (map received W)), asks_app in W3. now apply nodup_l in W3.
  Qed.

  Lemma rtags_nodup w s : Joined w -> NoDup (rtags (recvd (hist (w s)))).
  Proof.
    intros HJ. destruct (joined_recvd w s HJ) as (W & [W1 _ _ W4 _ _] & n & E). rewrite E.
    pose proof (W4 (asks_nodup w (negb s) HJ)) as W4'.
    rewrite <- (rtags_received W W1), <- (firstn_skipn n (map received W)), rtags_app in W4'. now apply nodup_l in W4'.
  Qed.

  Lemma joined_reach w s : Joined w -> exists st, Reach (dispatch s) (hist (w s)) st.
  Proof. intros HJ. destruct (joined_inv w HJ s) as [[HR _] _ _ _]. eauto. Qed.

  (** a box asking for an answer with tag [t] is that of the request with tag [t] *)
  Lemma origin_ask h b t : origin h b -> dget b ASK = Some t -> exists r cmd d, requested h r cmd d t /\ b = request_box cmd d t.
  Proof.
    intros (h1 & e & o & x & h2 & -> & He & Hm) Hg. destruct Hm; cbn [okev good] in He.
    - rewrite dget_dset_eq in Hg. injection Hg as <-. exists r, cmd, d. split; [|reflexivity].
      exists k, o, x. apply in_or_app. right. now left.
    - destruct He as (_ & _ & Ha). rewrite dget_dset_neq in Hg by discriminate.
      rewrite reserved_get in Hg; auto; [discriminate|cbn; auto].
    - destruct He as (_ & Ha). rewrite dget_dset_neq in Hg by discriminate.
      rewrite reserved_get in Hg; auto; [discriminate|cbn; auto].
    - discriminate.
  Qed.

  Lemma started_grows (h t : list entry) : incl (started (outs_of h)) (started (outs_of (h ++ t))).
  Proof. intros y Hy. unfold outs_of. rewrite flat_map_app, started_app. apply in_or_app. now left. Qed.

  Lemma in_started h id cb : In (id, cb) (started (outs_of h)) <-> In (ORun id cb) (outs_of h).
  Proof.
    unfold started. rewrite in_flat_map. split.
    - intros (y & Hy & Hi). destruct y; try (destruct Hi; fail). destruct Hi as [Hi|[]]. injection Hi as -> ->. exact Hy.
    - intros H. exists (ORun id cb). split; [exact H|]. now left.
  Qed.

  (** a box answering tag [t] *)
  Lemma origin_answer h b t : origin h b -> dget b ANSWER = Some t ->
    exists id cb k d, In (ORun id cb) (outs_of h) /\ dget cb ASK = Some t /\ finished h id (RAnswer k d) /\ b = answer_box d t.
  Proof.
    intros (h1 & e & o & x & h2 & -> & He & Hm) Hg. destruct Hm; cbn [okev good] in He.
    - destruct He as (_ & _ & Ha). rewrite !dget_dset_neq in Hg by discriminate.
      rewrite reserved_get in Hg; auto; [discriminate|cbn; auto].
    - destruct He as (_ & _ & Ha). rewrite !dget_dset_neq in Hg by discriminate.
      rewrite reserved_get in Hg; auto; [discriminate|cbn; auto].
    - rewrite dget_dset_eq in Hg. injection Hg as <-. exists id, cb, k, d.
      split; [apply in_started; eapply started_grows; eauto|]. split; [assumption|]. split; [|reflexivity].
      exists o, x. apply in_or_app. right. now left.
    - discriminate.
  Qed.

  (** what an error box says about the outcome it was made of *)
  Definition error_of (oc : outcome) (c ds : str) : Prop :=
    (exists pc pd fatal, oc = RRemote pc pd fatal /\ c = reading pc /\ ds = reading pd) \/
    (oc = RCrash /\ c = lit "UNHANDLED" /\ ds = lit "Unhandled Remote System Exception ").

  Lemma origin_error h b t : origin h b -> dget b ERROR = Some t ->
    exists id cb oc c ds, In (ORun id cb) (outs_of h) /\ dget cb ASK = Some t /\ finished h id oc /\ error_of oc c ds /\
      b = [(ERROR, t); (ERROR_DESCRIPTION, ds); (ERROR_CODE, c)].
  Proof.
    intros (h1 & e & o & x & h2 & -> & He & Hm) Hg. destruct Hm; cbn [okev good] in He.
    - destruct He as (_ & _ & Ha). rewrite !dget_dset_neq in Hg by discriminate.
      rewrite reserved_get in Hg; auto; [discriminate|cbn; auto 10].
    - destruct He as (_ & _ & Ha). rewrite !dget_dset_neq in Hg by discriminate.
      rewrite reserved_get in Hg; auto; [discriminate|cbn; auto 10].
    - destruct He as (_ & Ha). rewrite !dget_dset_neq in Hg by discriminate.
      rewrite reserved_get in Hg; auto; [discriminate|cbn; auto 10].
    - cbn in Hg. injection Hg as <-. exists id, cb, oc, c, ds.
      split; [apply in_started; eapply started_grows; eauto|]. split; [assumption|]. split; [exists o, x; apply in_or_app; right; now left|].
      split; [|reflexivity]. destruct oc as [k' b'| |c' d' fatal|]; cbn [reply option_map reads map fst snd] in *.
      + exfalso. eapply H4. reflexivity.
      + discriminate.
      + injection H2 as <- <-. left. eauto 6.
      + injection H2 as <- <-. right. auto.
  Qed.

  Lemma requested_asked h r cmd d t : requested h r cmd d t -> In (r, t) (asked (outs_of h)).
  Proof.
    intros (k & o & x & Hin). unfold asked, outs_of. apply in_flat_map. exists (OAsked r t). split; [|now left].
    apply in_flat_map. eexists. split; [exact Hin|]. now left.
  Qed.

  (** the command run with tag [t] by the peer is the one requested with tag [t] *)
  Lemma run_request w s id cb t : Joined w -> In (ORun id cb) (outs_of (hist (w (negb s)))) -> dget cb ASK = Some t ->
    exists r cmd d, requested (hist (w s)) r cmd d t /\ dict_eq cb (request_box cmd d t).
  Proof.
    intros HJ Hr Ht. destruct (joined_reach w (negb s) HJ) as [st HR]. apply in_started in Hr.
    pose proof (started_in _ _ _ _ _ HR Hr) as Hin. destruct (recvd_origin w (negb s) cb HJ Hin) as (b0 & Hd & Ho).
    rewrite negb_involutive in Ho. rewrite (Hd ASK) in Ht. destruct (origin_ask _ _ _ Ho Ht) as (r & cmd & d & Hq & ->).
    exists r, cmd, d. auto.
  Qed.

  Lemma run_of w s r t id cb : Joined w -> In (r, t) (asked (outs_of (hist (w s)))) ->
    In (ORun id cb) (outs_of (hist (w (negb s)))) -> dget cb ASK = Some t ->
    exists cmd d, requested (hist (w s)) r cmd d t /\ dict_eq cb (request_box cmd d t).
  Proof.
    intros HJ Ha Hr Ht. destruct (run_request w s id cb t HJ Hr Ht) as (r' & cmd & d & Hq & Hd). exists cmd, d. split; [|exact Hd].
    destruct (joined_reach w s HJ) as [st HR]. pose proof (requested_asked _ _ _ _ _ Hq) as Ha'.
    now rewrite (In_asked_tag _ _ _ _ _ _ HR Ha Ha').
  Qed.

  Lemma in_outs (h : list entry) y : In y (outs_of h) -> exists h1 en h2, h = h1 ++ en :: h2 /\ In y (outs en).
  Proof.
    intros H. unfold outs_of in H. apply in_flat_map in H as (en & Hin & Hy). apply in_split in Hin as (h1 & h2 & ->). eauto.
  Qed.

  Lemma asked_grows (h t : list entry) y : In y (asked (outs_of h)) -> In y (asked (outs_of (h ++ t))).
  Proof. intros Hy. unfold outs_of. rewrite flat_map_app, asked_app. apply in_or_app. now left. Qed.

  (** the request [r] was run by the peer as run [id], once, and finished there with [oc] *)
  Definition served (mine peer : list entry) (r : nat) (t : str) (oc : outcome) : Prop :=
    exists cmd d id cb, requested mine r cmd d t /\ In (ORun id cb) (outs_of peer) /\ dict_eq cb (request_box cmd d t) /\
      (forall id' cb', In (ORun id' cb') (outs_of peer) -> dget cb' ASK = Some t -> id' = id) /\
      finished peer id oc /\ (forall oc', finished peer id oc' -> oc' = oc).

  Lemma finished_unique d h st id oc oc' : Reach d h st -> finished h id oc -> finished h id oc' -> oc = oc'.
  Proof.
    intros HR (o & x & H1) (o' & x' & H2). destruct (runs_settle _ _ _ HR) as (_ & Hn & _). clear HR. unfold completed in Hn.
    induction h as [|en h IH]; [destruct H1|]. cbn [flat_map] in Hn.
    assert (Hx : forall oc o x, In (En (EComplete id oc) o x) h -> In id (flat_map (fun en => match ev en with EComplete i _ => [i] | _ => [] end) h)).
    { intros oc1 o1 x1 Hi. apply in_flat_map. eexists. split; [exact Hi|]. now left. }
    destruct H1 as [->|H1], H2 as [H2|H2].
    - congruence.
    - cbn [ev app] in Hn. inversion Hn as [|? ? Hni _]; subst. exfalso. apply Hni. eauto.
    - subst en. cbn [ev app] in Hn. inversion Hn as [|? ? Hni _]; subst. exfalso. apply Hni. eauto.
    - apply nodup_r in Hn. auto.
  Qed.

  Lemma serve w s r t id cb oc : Joined w -> In (r, t) (asked (outs_of (hist (w s)))) ->
    In (ORun id cb) (outs_of (hist (w (negb s)))) -> dget cb ASK = Some t -> finished (hist (w (negb s))) id oc ->
    served (hist (w s)) (hist (w (negb s))) r t oc.
  Proof.
    intros HJ Ha Hr Ht Hf. destruct (run_of w s r t id cb HJ Ha Hr Ht) as (cmd & d & Hq & Hd).
    destruct (joined_reach w (negb s) HJ) as [st HR].
    exists cmd, d, id, cb. split; [exact Hq|]. split; [exact Hr|]. split; [exact Hd|]. split; [|split; [exact Hf|]].
    - intros id' cb' Hr' Ht'. apply in_started in Hr, Hr'.
      destruct (run_unique _ _ _ _ _ _ _ _ HR (asks_nodup w (negb s) HJ) Hr Hr' Ht Ht') as [-> _]. reflexivity.
    - intros oc' Hf'. eapply finished_unique; eauto.
  Qed.

  Theorem fired_right w s r f : Joined w -> In (OFire r f) (outs_of (hist (w s))) ->
    match f with
    | Answered b => exists t k d, served (hist (w s)) (hist (w (negb s))) r t (RAnswer k d) /\ dict_eq b (answer_box d t)
    | Failed c ds => exists t oc, served (hist (w s)) (hist (w (negb s))) r t oc /\ error_of oc c ds
    | Lost => was_lost (hist (w s)) = true
    end.
  Proof.
    intros HJ Hin. destruct (joined_reach w s HJ) as [st HR].
    destruct (in_outs _ _ Hin) as (h1 & en & h2 & E & Hy). destruct (reach_split _ _ _ _ _ _ HR E) as (st1 & st2 & HR1 & Hs).
    destruct (fires_why _ _ _ _ _ _ _ _ _ HR1 Hs Hy) as [_ Hw]. destruct f as [b|c ds|].
    - destruct Hw as (t & He & Hg & (Ha & _)).
      assert (Hb : In b (recvd (hist (w s)))).
      { apply in_recvd. exists (outs en), (raised en). rewrite E. apply in_or_app. right. left. destruct en. cbn in *. now subst. }
      destruct (recvd_origin w s b HJ Hb) as (b0 & Hd & Ho). rewrite (Hd ANSWER) in Hg.
      destruct (origin_answer _ _ _ Ho Hg) as (id & cb & k & ad & Hr & Ht & Hf & ->).
      exists t, k, ad. split; [|exact Hd]. eapply serve; eauto. rewrite E. now apply asked_grows.
    - destruct Hw as (b & t & He & Hn & Hg & Hc & Hds & (Ha & _)).
      assert (Hb : In b (recvd (hist (w s)))).
      { apply in_recvd. exists (outs en), (raised en). rewrite E. apply in_or_app. right. left. destruct en. cbn in *. now subst. }
      destruct (recvd_origin w s b HJ Hb) as (b0 & Hd & Ho). rewrite (Hd ERROR) in Hg.
      destruct (origin_error _ _ _ Ho Hg) as (id & cb & oc & c' & ds' & Hr & Ht & Hf & Heo & ->).
      rewrite (Hd ERROR_CODE) in Hc. rewrite (Hd ERROR_DESCRIPTION) in Hds. cbn in Hc, Hds. injection Hc as <-. injection Hds as <-.
      exists t, oc. split; [|exact Heo]. eapply serve; eauto. rewrite E. now apply asked_grows.
    - destruct Hw as (_ & Hl & _). rewrite E. unfold was_lost in *. rewrite existsb_app, Hl. reflexivity.
  Qed.

  (** ** No answer is unexpected *)

  Lemma hist_call d p e p' : call d p e = Some p' -> exists o x, hist p' = hist p ++ [En e o x].
  Proof.
    unfold call. destruct (step d (snd (ses p)) e) as [[[st o] x]|]; [|discriminate]. intros E. injection E as <-. exists o, x. reflexivity.
  Qed.

  Lemma hist_deliver w s c p : WInv w s -> live (w s) = true -> deliver (dispatch s) (acts s) (w s) c = Some p ->
    exists t, hist p = hist (w s) ++ t.
  Proof.
    intros [V1 V2 V3 V4] Hl Hd. destruct (V4 Hl) as (A1 & A2 & _). destruct (deliver_bytes _ _ _ _ _ A2 A1 Hd) as (_ & D2 & _).
    cbv zeta in D2. destruct (bfin_grows (dispatch s) (acts s) c (bst (pr (w s)))) as [t Ht]. exists t.
    unfold hist, ses. rewrite D2, Ht. reflexivity.
  Qed.

  Definition replies (b : dict str str) (t : str) : Prop := dget b ANSWER = Some t \/ dget b ERROR = Some t.

  Lemma app_split {A} (h1 : list A) en h2 h t : h1 ++ en :: h2 = h ++ t ->
    (exists l, h = h1 ++ en :: l) \/ (exists l, h1 = h ++ l).
  Proof.
    intros E. apply app_eq_app in E as (l & [[E1 E2]|[E1 E2]]).
    - right. exists l. exact E1.
    - destruct l as [|y l]; [right; exists []; now rewrite app_nil_r in *|]. injection E2 as -> E2. left. exists l. exact E1.
  Qed.

  Lemma reply_run w s b t : Joined w -> In b (recvd (hist (w s))) -> replies b t ->
    exists id cb, In (ORun id cb) (outs_of (hist (w (negb s)))) /\ dget cb ASK = Some t.
  Proof.
    intros HJ Hb Hr. destruct (recvd_origin w s b HJ Hb) as (b0 & Hd & Ho). destruct Hr as [Hr|Hr].
    - rewrite (Hd ANSWER) in Hr. destruct (origin_answer _ _ _ Ho Hr) as (id & cb & k & ad & H1 & H2 & _). eauto.
    - rewrite (Hd ERROR) in Hr. destruct (origin_error _ _ _ Ho Hr) as (id & cb & oc & c & ds & H1 & H2 & _). eauto.
  Qed.

  Lemma reply_after w : Joined w -> forall s h1 b o x h2 t, hist (w s) = h1 ++ En (ERecv b) o x :: h2 -> replies b t ->
    exists r, In (r, t) (asked (outs_of h1)).
  Proof.
    induction 1 as [|w s e p HJ IH He Hc|w s c rest p HJ IH Hl Hw Hd]; intros s' h1 b o x h2 t E Hr.
    - destruct h1; discriminate.
    - assert (Hss : s' = s \/ s' = negb s) by (destruct s, s'; auto). destruct Hss as [->| ->]; [|rewrite upd_other in E; eapply IH; eauto].
      rewrite upd_same in E. destruct (hist_call _ _ _ _ Hc) as (o1 & x1 & E1). rewrite E1 in E. symmetry in E.
      destruct h2 as [|en h2] using rev_ind.
      + apply app_inj_tail in E as [_ E]. injection E as <- _ _. destruct He.
      + clear IHh2. rewrite app_comm_cons, app_assoc in E. apply app_inj_tail in E as [E _]. eapply IH; eauto.
    - pose proof (W_deliver good w s c rest p HJ Hl Hw Hd) as HJ'.
      assert (Hss : s' = s \/ s' = negb s) by (destruct s, s'; auto). destruct Hss as [->| ->]; [|rewrite upd_other in E; eapply IH; eauto].
      destruct (hist_deliver w s c p (joined_inv w HJ s) Hl Hd) as [tl Et].
      assert (Hb : In b (recvd (hist (upd w s p s)))) by (apply in_recvd; exists o, x; rewrite E; apply in_or_app; right; now left).
      destruct (reply_run _ _ _ _ HJ' Hb Hr) as (id & cb & H1 & H2). rewrite upd_other in H1.
      rewrite upd_same, Et in E. symmetry in E. destruct (app_split _ _ _ _ _ E) as [[l El]|[l El]]; [eapply IH; eauto|].
      destruct (run_request w s id cb t HJ H1 H2) as (r & cmd & d & Hq & _). exists r. rewrite El. apply asked_grows.
      eapply requested_asked; eauto.
  Qed.

  Lemma forgot_why d h st e st' o x r : Reach d h st -> step d st e = Some (st', o, x) -> In (OForgot r) o ->
    exists b t, e = ERecv b /\ dget b ERROR = Some t /\ open h r t.
  Proof.
    intros HR Hs Hin.
    assert (Hq : forall s rr, quiet s rr -> rr = (st', o, x) -> False).
    { intros s rr Hq ->. destruct Hq as (_ & _ & _ & _ & _ & _ & Hq). rewrite Forall_forall in Hq. apply (Hq _ Hin). }
    destruct e; cbn [step] in Hs.
    - exfalso. injection Hs as E. unfold sendBoxCommand in E. destruct (outst st) as [o0|].
      + destruct req.
        * destruct (sendTo _ _ _) as [[st1 o1] x1] eqn:E1 in E. injection E as <- <- <-. destruct Hin as [Hin|Hin]; [discriminate|].
          match type of E1 with sendTo ?s ?k ?b = _ => pose proof (quiet_sendTo s k b) as Q end. rewrite E1 in Q.
          destruct Q as (_ & _ & _ & _ & _ & _ & Q). rewrite Forall_forall in Q. apply (Q _ Hin).
        * eapply Hq; [apply quiet_sendTo|exact E].
      + injection E as <- <- <-. destruct Hin as [Hin|[]]. discriminate.
    - injection Hs as E. unfold boxReceived in E.
      destruct (locked st && din b COMMAND && din b ASK); [injection E as <- <- <-; destruct Hin|].
      destruct (dget b ANSWER) as [t|].
      { destruct (outst st) as [o0|]; [destruct (dget o0 t)|]; injection E as <- <- <-; try (destruct Hin; fail); destruct Hin as [Hin|[]]; discriminate. }
      destruct (dget b ERROR) as [t|] eqn:Er.
      { destruct (outst st) as [o0|] eqn:Eo; [destruct (dget o0 t) as [r0|] eqn:Eg|]; [|injection E as <- <- <-; destruct Hin|injection E as <- <- <-; destruct Hin].
        assert (Hr : r0 = r).
        { destruct (dget b ERROR_CODE); [destruct (dget b ERROR_DESCRIPTION)|]; injection E as <- <- <-; destruct Hin as [Hin|[]]; congruence. }
        subst r0. exists b, t. split; [reflexivity|]. split; [exact Er|]. eapply outst_open; eauto. }
      destruct (dget b COMMAND) as [c|]; [destruct (d c)|]; injection E as <- <- <-; try (destruct Hin; fail). destruct Hin as [Hin|[]]; discriminate.
    - exfalso. destruct (dget (runs st) id); [|discriminate]. injection Hs as E. eapply Hq; [apply quiet_complete|exact E].
    - exfalso. assert (E : prepareTLS st = (st', o, x)) by congruence. eapply Hq; [apply quiet_prepareTLS|exact E].
    - exfalso. injection Hs as E. eapply Hq; [apply quiet_startTLS|exact E].
    - exfalso. assert (E : lock st = (st', o, x)) by congruence. unfold lock in E. injection E as <- <- <-. destruct Hin.
    - exfalso. injection Hs as E. eapply Hq; [apply quiet_switchTo|exact E].
    - exfalso. destruct (outst st); injection Hs as <- <- <-; destruct Hin.
    - exfalso. destruct (losing st); [discriminate|]. injection Hs as <- <- <-. destruct Hin as [Hin|[]]; discriminate.
  Qed.

  Lemma asked_fun d h st r t t' : Reach d h st -> In (r, t) (asked (outs_of h)) -> In (r, t') (asked (outs_of h)) -> t = t'.
  Proof.
    intros HR. pose proof (seq_nodup _ _ (reach_inv _ _ _ HR)) as Hn. revert Hn. generalize (asked (outs_of h)). intros l.
    induction l as [|[r0 t0] l IH]; [intros _ []|]. cbn [map fst]. intros Hn H1 H2. inversion Hn as [|? ? Hni Hnl]; subst.
    destruct H1 as [H1|H1], H2 as [H2|H2]; try congruence; auto.
    - injection H1 as -> ->. exfalso. apply Hni. apply in_map_iff. now exists (r, t').
    - injection H2 as -> ->. exfalso. apply Hni. apply in_map_iff. now exists (r, t).
  Qed.

  Lemma rtags_replies b t : replies b t -> In t (rtags [b]).
  Proof.
    unfold rtags, tag_in. cbn [flat_map]. rewrite app_nil_r. intros [H|H]; rewrite H; apply in_or_app; [left|right]; now left.
  Qed.

  Lemma recvd_app a b : recvd (a ++ b) = recvd a ++ recvd b.
  Proof. apply flat_map_app. Qed.

  (** a reply finds its request waiting, unless the connection was lost *)
  Lemma reply_open w s h1 b o x h2 t : Joined w -> hist (w s) = h1 ++ En (ERecv b) o x :: h2 -> replies b t ->
    was_lost h1 = true \/ exists r, open h1 r t.
  Proof.
    intros HJ E Hr. destruct (reply_after w HJ s h1 b o x h2 t E Hr) as [r Ha].
    destruct (was_lost h1) eqn:El; [now left|]. right. exists r.
    destruct (joined_reach w s HJ) as [st HR]. destruct (reach_split _ _ _ _ _ _ HR E) as (st1 & st2 & HR1 & _).
    assert (Htwice : forall g1 en g2 b1 t1, h1 = g1 ++ en :: g2 -> ev en = ERecv b1 -> replies b1 t1 -> In (r, t1) (asked (outs_of g1)) -> False).
    { intros g1 en g2 b1 t1 Eg Ee Hr1 Ha1. assert (t1 = t).
      { eapply asked_fun; [exact HR1| |exact Ha]. rewrite Eg. now apply asked_grows. }
      subst t1. pose proof (rtags_nodup w s HJ) as Hn. rewrite E, Eg in Hn.
      rewrite recvd_app in Hn. change (En (ERecv b) o x :: h2) with ([En (ERecv b) o x] ++ h2) in Hn. rewrite recvd_app in Hn.
      rewrite recvd_app in Hn. change (en :: g2) with ([en] ++ g2) in Hn. rewrite recvd_app in Hn.
      replace (recvd [en]) with [b1] in Hn by (unfold recvd; cbn [flat_map]; rewrite Ee; reflexivity).
      change (recvd [En (ERecv b) o x]) with [b] in Hn. rewrite <- !app_assoc in Hn. rewrite !rtags_app in Hn. apply nodup_r in Hn.
      apply rtags_replies in Hr1, Hr. apply in_split in Hr1 as (l1 & l2 & Hr1). rewrite Hr1 in Hn.
      rewrite <- !app_assoc in Hn. apply nodup_r in Hn. cbn [app] in Hn. inversion Hn as [|? ? Hni _]; subst. apply Hni.
      apply in_or_app. right. apply in_or_app. right. apply in_or_app. now left. }
    split; [exact Ha|]. split.
    - intros Hf. unfold fired in Hf. apply in_flat_map in Hf as (y & Hy & Hyr). destruct y; try (destruct Hyr; fail). destruct Hyr as [->|[]].
      destruct (in_outs _ _ Hy) as (g1 & en & g2 & Eg & Hye). destruct (reach_split _ _ _ _ _ _ HR1 Eg) as (s1 & s2 & HRg & Hs).
      destruct (fires_why _ _ _ _ _ _ _ _ _ HRg Hs Hye) as [_ Hw]. destruct f as [b1|c ds|].
      + destruct Hw as (t1 & He & Hg & (Ha1 & _)). eapply Htwice; eauto. now left.
      + destruct Hw as (b1 & t1 & He & _ & Hg & _ & _ & (Ha1 & _)). eapply Htwice; eauto. now right.
      + destruct Hw as (_ & Hl & _). rewrite Eg in El. unfold was_lost in *. rewrite existsb_app, Hl in El. discriminate.
    - intros Hf. unfold forgot in Hf. apply in_flat_map in Hf as (y & Hy & Hyr). destruct y; try (destruct Hyr; fail). destruct Hyr as [->|[]].
      destruct (in_outs _ _ Hy) as (g1 & en & g2 & Eg & Hye). destruct (reach_split _ _ _ _ _ _ HR1 Eg) as (s1 & s2 & HRg & Hs).
      destruct (forgot_why _ _ _ _ _ _ _ _ HRg Hs Hye) as (b1 & t1 & He & Hg & (Ha1 & _)). eapply Htwice; eauto. now right.
  Qed.

  Lemma origin_kind h b : origin h b -> (exists t, replies b t) \/ (dget b ANSWER = None /\ dget b ERROR = None /\ exists cmd, dget b COMMAND = Some cmd).
  Proof.
    intros (h1 & e & o & x & h2 & -> & He & Hm). destruct Hm; cbn [okev good] in He.
    - right. destruct He as (_ & _ & Ha). rewrite !dget_dset_neq by discriminate.
      rewrite (reserved_get d ANSWER), (reserved_get d ERROR); auto; try (cbn; auto 10; fail).
      split; [reflexivity|]. split; [reflexivity|]. eexists. rewrite ?dget_dset_neq by discriminate. apply dget_dset_eq.
    - right. destruct He as (_ & _ & Ha). rewrite !dget_dset_neq by discriminate.
      rewrite (reserved_get d ANSWER), (reserved_get d ERROR); auto; try (cbn; auto 10; fail).
      split; [reflexivity|]. split; [reflexivity|]. eexists. rewrite ?dget_dset_neq by discriminate. apply dget_dset_eq.
    - left. exists t. left. apply dget_dset_eq.
    - left. exists t. right. reflexivity.
  Qed.

  (** receiving raises only for a command that cannot be looked up, or after
      the connection was lost *)
  Theorem never_confused w s h1 b o e h2 : Joined w -> hist (w s) = h1 ++ En (ERecv b) o (Some e) :: h2 ->
    was_lost h1 = true \/ exists cmd, dget b COMMAND = Some cmd /\ dispatch s cmd = Some e.
  Proof.
    intros HJ E. destruct (joined_reach w s HJ) as [st HR]. destruct (reach_split _ _ _ _ _ _ HR E) as (st1 & st2 & HR1 & Hs).
    cbn [ev outs raised] in Hs.
    assert (Hb : In b (recvd (hist (w s)))) by (apply in_recvd; exists o, (Some e); rewrite E; apply in_or_app; right; now left).
    destruct (recvd_origin w s b HJ Hb) as (b0 & Hd & Ho).
    destruct (was_locked h1 && din b COMMAND && din b ASK) eqn:Elk.
    { exfalso. pose proof (j_lock _ _ (reach_tinv _ _ _ HR1)) as Hl. rewrite <- Hl in Elk. cbn [step] in Hs. unfold boxReceived in Hs.
      rewrite Elk in Hs. discriminate. }
    destruct (dget b ANSWER) as [t|] eqn:Ea.
    { destruct (answer_fires _ _ _ _ _ _ _ _ HR1 Hs Elk Ea) as [(r & _ & _ & Hx)|(_ & _ & _ & Hl)]; [discriminate|].
      destruct (reply_open w s h1 b o (Some e) h2 t HJ E (or_introl Ea)) as [Hlost|[r Hop]]; [now left|]. left. eapply Hl; eauto. }
    destruct (dget b ERROR) as [t|] eqn:Ee.
    { destruct (reply_open w s h1 b o (Some e) h2 t HJ E (or_intror Ee)) as [Hlost|[r Hop]]; [now left|]. left.
      pose proof (error_fires _ _ _ _ _ _ _ _ HR1 Hs Elk Ea Ee) as Hf.
      rewrite (Hd ERROR) in Ee. destruct (origin_error _ _ _ Ho Ee) as (id & cb & oc & c & ds & _ & _ & _ & _ & ->).
      rewrite (Hd ERROR_CODE), (Hd ERROR_DESCRIPTION) in Hf. cbn in Hf.
      destruct Hf as [(r1 & _ & _ & Hx)|(_ & _ & _ & Hl)]; [discriminate|]. eapply Hl; eauto. }
    right. cbn [step] in Hs. injection Hs as Hs. unfold boxReceived in Hs.
    pose proof (j_lock _ _ (reach_tinv _ _ _ HR1)) as Hl. rewrite Hl, Elk, Ea, Ee in Hs.
    destruct (dget b COMMAND) as [cmd|] eqn:Ec.
    - exists cmd. split; [reflexivity|]. destruct (dispatch s cmd); [|discriminate]. congruence.
    - exfalso. destruct (origin_kind _ _ Ho) as [[t [Ht|Ht]]|(_ & _ & cmd & Hc)].
      + rewrite <- (Hd ANSWER) in Ht. congruence.
      + rewrite <- (Hd ERROR) in Ht. congruence.
      + rewrite <- (Hd COMMAND) in Hc. congruence.
  Qed.

  (** ** No answer is lost *)

  (** nothing was raised; no TLS handshake was prepared; the connection was
      neither locked nor lost *)
  Definition calm (h : list entry) : Prop :=
    Forall (fun en => raised en = None /\ ev en <> EPrepare /\ ev en <> ELock /\ ev en <> ELost) h.

  (** both endpoints have received all the other wrote, and every command that
      was run has finished with a result that can be sent *)
  Definition at_rest (w : world) : Prop := forall s,
    got (w s) = wire (outs_of (hist (w (negb s)))) /\ calm (hist (w s)) /\
    (forall id cb, In (ORun id cb) (outs_of (hist (w s))) -> exists oc, finished (hist (w s)) id oc /\ oc <> RNotBox).

  Lemma calm_app a b : calm (a ++ b) -> calm a /\ calm b.
  Proof. unfold calm. now rewrite Forall_app. Qed.

  Lemma calm_live w s : Joined w -> calm (hist (w s)) -> live (w s) = true.
  Proof.
    intros HJ Hc. destruct (stays_up w HJ s) as [H|(h1 & b & o & e & h2 & E)]; [exact H|]. rewrite E in Hc.
    apply calm_app in Hc as [_ Hc]. apply Forall_inv in Hc as [Hc _]. discriminate.
  Qed.

  Lemma calm_flags h : calm h -> was_locked h = false /\ was_lost h = false /\ preparing h = false.
  Proof.
    induction h as [|en h IH] using rev_ind; [auto|]. intros H. apply calm_app in H as [H1 H2]. apply Forall_inv in H2 as (_ & A & B & C).
    destruct (IH H1) as (I1 & I2 & I3). rewrite lock_snoc, lost_snoc, prep_snoc, I1, I2, I3. unfold prep1.
    destruct (ev en); try congruence; repeat split; auto; destruct (tls (outs en)); reflexivity.
  Qed.

  Lemma calm_written d h st : Reach d h st -> calm h -> accepted (outs_of h) = written (outs_of h).
  Proof.
    intros HR Hc. assert (Hd : dropped (outs_of h) = []).
    { clear -HR Hc. induction HR as [|h st e st' o x HR IH Hs]; [reflexivity|]. apply calm_app in Hc as [H1 H2].
      apply Forall_inv in H2 as (_ & A & _). cbn [ev] in A. rewrite outs_of_snoc, dropped_app, (IH H1).
      destruct (dropped o) as [|y l] eqn:E; [reflexivity|]. exfalso. assert (Hn : dropped o <> []) by congruence.
      destruct (calm_flags _ H1) as (_ & _ & Hp). destruct (tls_drops _ _ _ _ _ _ _ HR Hs Hn) as [[H _]|(_ & H & _)]; congruence. }
    destruct (reach_tinv _ _ _ HR) as [_ _ _ Ho Hp _]. rewrite (Ho Hd).
    destruct (calm_flags _ Hc) as (_ & _ & Hpr). unfold heldl. destruct (held st) eqn:Eh; [|now rewrite app_nil_r].
    exfalso. assert (Ht : preparing h = true) by (apply Hp; congruence). congruence.
  Qed.

  (** everything taken by one endpoint has been received by the other *)
  Lemma rest_received w s b : Joined w -> at_rest w -> In b (accepted (outs_of (hist (w s)))) ->
    In (received (reads b)) (recvd (hist (w (negb s)))).
  Proof.
    intros HJ Hr Hb. destruct (Hr s) as (_ & Hc & _). destruct (Hr (negb s)) as (Hg & Hc' & _). rewrite negb_involutive in Hg.
    assert (Hl : live (w (negb s)) = true) by now apply calm_live.
    destruct (joined_inv w HJ s) as [[HR Ho] _ _ _]. change (fst (ses (w s))) with (hist (w s)) in *.
    rewrite (calm_written _ _ _ HR Hc) in Hb. destruct (reach_wrote _ _ _ HR Ho) as [W [W1 _ _ _ (ws & W5 & W6) W7]].
    apply (in_map reads) in Hb. rewrite W7 in Hb.
    destruct (joined_inv w HJ (negb s)) as [_ _ _ V4]. destruct (V4 Hl) as (_ & _ & (_ & _ & _ & _ & HS)).
    cbn [bst b_app] in HS. fold (ses (w (negb s))) in HS. fold (hist (w (negb s))) in HS. rewrite HS, Hg, <- W6, (after_all W ws W1 W5).
    now apply in_map.
  Qed.

  Lemma asked_send d h st e st' o x r t : Reach d h st -> step d st e = Some (st', o, x) -> In (r, t) (asked o) ->
    exists cmd k b, e = ESend cmd k b true.
  Proof.
    intros HR Hs Hin.
    assert (Hn : (forall cmd k b, e <> ESend cmd k b true) -> False).
    { intros Hn. rewrite (no_asked _ _ _ _ _ _ _ HR Hs Hn) in Hin. destruct Hin. }
    destruct e; try (exfalso; apply Hn; discriminate). destruct req; [eauto|]. exfalso. apply Hn. discriminate.
  Qed.

  Lemma asked_in h r t : In (r, t) (asked (outs_of h)) -> exists h1 en h2, h = h1 ++ en :: h2 /\ In (r, t) (asked (outs en)).
  Proof.
    intros H. unfold asked in H. apply in_flat_map in H as (y & Hy & Ha). destruct (in_outs _ _ Hy) as (h1 & en & h2 & E & Hye).
    exists h1, en, h2. split; [exact E|]. apply in_flat_map. eauto.
  Qed.

  Lemma reply_sendable id t oc : okev (EComplete id oc) -> encodable t = true -> oc <> RNotBox ->
    exists a rb, reply t oc = Some a /\ rb = reads a /\ Forall legible (values a) /\ sendable ulower rb /\
      (dget rb ANSWER = Some t \/ (dget rb ANSWER = None /\ dget rb ERROR = Some t /\ dget rb ERROR_CODE <> None /\ dget rb ERROR_DESCRIPTION <> None)).
  Proof.
    intros He Ht Hn.
    assert (Herr : forall c ds, encodable c = true -> encodable ds = true ->
              sendable ulower [(ERROR, t); (ERROR_DESCRIPTION, ds); (ERROR_CODE, c)]).
    { intros c ds H1 H2. split; [|split; [|split]].
      - unfold wf_dict. cbn. repeat constructor; cbn; intuition discriminate.
      - repeat constructor; apply canon_reserved; cbn; auto 10.
      - repeat constructor; assumption.
      - intros v Hv. discriminate. }
    destruct oc as [k b| |c ds fatal|]; cbn [okev good reply] in *.
    - destruct He as (_ & Hl & Ha & _). eexists _, (dset (reads b) ANSWER t). split; [reflexivity|].
      split; [symmetry; apply reads_dset|]. split; [auto using legible_dset|]. split.
      + apply sendable_dset; auto; [apply canon_reserved; cbn; auto|discriminate].
      + left. apply dget_dset_eq.
    - now destruct Hn.
    - destruct He as (H1 & H2). eexists _, _. split; [reflexivity|]. split; [reflexivity|].
      split; [apply error_legible; auto using legible_text|]. split; [apply Herr; now apply reading_encodable|]. right. repeat split; discriminate.
    - eexists _, _. split; [reflexivity|]. split; [reflexivity|].
      split; [apply error_legible; apply legible_text; auto; vm_compute; reflexivity|]. split; [apply Herr; vm_compute; reflexivity|].
      right. repeat split; discriminate.
  Qed.

  Lemma calm_entry h h1 en h2 : calm h -> h = h1 ++ en :: h2 -> calm h1 /\ raised en = None.
  Proof. intros Hc ->. apply calm_app in Hc as [H1 H2]. apply Forall_inv in H2. tauto. Qed.

  Lemma okhist_split h h1 en h2 : okhist h -> h = h1 ++ en :: h2 -> okhist h1 /\ okev (ev en).
  Proof. intros Ho ->. unfold okhist in Ho. apply Forall_app in Ho as [H1 H2]. now apply Forall_inv in H2. Qed.

  Lemma accepted_in (h : list entry) h1 en h2 b : h = h1 ++ en :: h2 -> In b (accepted (outs en)) -> In b (accepted (outs_of h)).
  Proof.
    intros -> Hb. unfold outs_of. rewrite flat_map_app. cbn [flat_map]. rewrite !accepted_app. apply in_or_app. right. apply in_or_app. now left.
  Qed.

  Lemma reply_fires w s b t : Joined w -> calm (hist (w s)) -> In b (recvd (hist (w s))) ->
    (dget b ANSWER = Some t \/ (dget b ANSWER = None /\ dget b ERROR = Some t /\ dget b ERROR_CODE <> None /\ dget b ERROR_DESCRIPTION <> None)) ->
    exists r f, In (OFire r f) (outs_of (hist (w s))) /\ f <> Lost /\ In (r, t) (asked (outs_of (hist (w s)))).
  Proof.
    intros HJ Hc Hb Hk. destruct (joined_reach w s HJ) as [st HR].
    apply in_recvd in Hb as (o & x & Hin). apply in_split in Hin as (h1 & h2 & E).
    destruct (calm_entry _ _ _ _ Hc E) as [Hc1 Hx]. cbn [raised] in Hx. subst x.
    destruct (reach_split _ _ _ _ _ _ HR E) as (st1 & st2 & HR1 & Hs). cbn [ev outs raised] in Hs.
    destruct (calm_flags _ Hc1) as (F1 & F2 & F3).
    assert (Hlk : was_locked h1 && din b COMMAND && din b ASK = false) by (now rewrite F1).
    assert (Hout : forall r f, o = [OFire r f] -> open h1 r t -> f <> Lost ->
              exists r f, In (OFire r f) (outs_of (hist (w s))) /\ f <> Lost /\ In (r, t) (asked (outs_of (hist (w s))))).
    { intros r f -> (Ha & _) Hf. exists r, f. rewrite E. split; [|split; [exact Hf|now apply asked_grows]].
      unfold outs_of. apply in_flat_map. eexists. split; [apply in_or_app; right; now left|]. now left. }
    destruct Hk as [Ha|(Ha & He & H1 & H2)].
    - destruct (answer_fires _ _ _ _ _ _ _ _ HR1 Hs Hlk Ha) as [(r & Hop & Ho & _)|(_ & Hx & _)]; [|now destruct Hx].
      eapply Hout; eauto. discriminate.
    - pose proof (error_fires _ _ _ _ _ _ _ _ HR1 Hs Hlk Ha He) as Hf.
      destruct (dget b ERROR_CODE) as [c|]; [|now destruct H1]. destruct (dget b ERROR_DESCRIPTION) as [ds|]; [|now destruct H2].
      destruct Hf as [(r & Hop & Ho & _)|(_ & Hx & _)]; [|now destruct Hx]. eapply Hout; eauto. discriminate.
  Qed.

  Theorem all_answered w s r t : Joined w -> at_rest w -> In (r, t) (asked (outs_of (hist (w s)))) ->
    exists f, In (OFire r f) (outs_of (hist (w s))) /\ f <> Lost.
  Proof.
    intros HJ Hrest Hask. destruct (joined_inv w HJ s) as [[HR Ho] _ _ _]. change (fst (ses (w s))) with (hist (w s)) in *.
    destruct (Hrest s) as (_ & Hc & _). destruct (Hrest (negb s)) as (_ & Hcp & Hrun).
    destruct (asked_in _ _ _ Hask) as (h1 & [e o x] & h2 & E & Ha). cbn [outs] in Ha.
    destruct (reach_split _ _ _ _ _ _ HR E) as (st1 & st2 & HR1 & Hs). cbn [ev outs raised] in Hs.
    destruct (calm_entry _ _ _ _ Hc E) as [Hc1 Hx]. cbn [raised] in Hx. subst x. destruct (calm_flags _ Hc1) as (F1 & F2 & F3).
    destruct (okhist_split _ _ _ _ Ho E) as [Ho1 He]. cbn [ev] in He.
    destruct (asked_send _ _ _ _ _ _ _ _ _ HR1 Hs Ha) as (cmd & k & b & ->).
    destruct (send_tags _ _ _ _ _ _ _ _ _ HR1 F2 Hs) as (r1 & t1 & o' & -> & Hf & Ha' & Hc').
    cbn [asked flat_map app] in Ha. fold (asked o') in Ha. rewrite Ha' in Ha. destruct Ha as [Ha|[]]. injection Ha as -> ->.
    cbv zeta in Hc'. destruct Hc' as [[_ Hacc]|(_ & _ & Hx)]; [|now destruct Hx].
    destruct He as (_ & _ & Hargs). rename b into d. set (a := dset (dset d COMMAND (PS cmd)) ASK (PS t)) in *.
    assert (Era : reads a = request_box cmd d t) by (unfold a; now rewrite !reads_dset).
    assert (Hin : In a (accepted (outs_of (hist (w s))))).
    { eapply accepted_in; [exact E|]. cbn [outs]. change (OAsked r t :: o') with ([OAsked r t] ++ o'). rewrite accepted_app.
      apply in_or_app. right. rewrite Hacc. now left. }
    pose proof (rest_received w s _ HJ Hrest Hin) as Hrb. rewrite Era in Hrb.
    assert (Hsb : sendable ulower (request_box cmd d t)).
    { destruct (reach_sent _ _ _ HR Ho) as [D [S1 _ S2 _ _ _ _ _]].
      apply (in_map reads) in Hin. rewrite S1, Era in Hin. rewrite Forall_forall in S2. auto. }
    destruct (received_same _ (proj1 Hsb)) as [_ Hd].
    (* the peer runs it *)
    destruct (joined_inv w HJ (negb s)) as [[HRp Hop] _ _ _]. change (fst (ses (w (negb s)))) with (hist (w (negb s))) in *.
    destruct (in_recvd (hist (w (negb s))) (received (request_box cmd d t))) as [Hi _]. destruct (Hi Hrb) as (op & xp & Hip).
    apply in_split in Hip as (p1 & p2 & Ep). destruct (calm_entry _ _ _ _ Hcp Ep) as [Hcp1 Hxp]. cbn [raised] in Hxp. subst xp.
    destruct (reach_split _ _ _ _ _ _ HRp Ep) as (sp1 & sp2 & HRp1 & Hsp). cbn [ev outs raised] in Hsp.
    destruct (calm_flags _ Hcp1) as (G1 & G2 & G3).
    assert (Hgo : exists id, op = [ORun id (received (request_box cmd d t))]).
    { cbn [step] in Hsp. injection Hsp as Hsp. unfold boxReceived in Hsp. pose proof (j_lock _ _ (reach_tinv _ _ _ HRp1)) as Hl.
      rewrite Hl, G1 in Hsp. cbn [andb] in Hsp. rewrite <- !(Hd _) in Hsp. unfold request_box in Hsp.
      rewrite !dget_dset_neq in Hsp by discriminate. rewrite (reserved_get d ANSWER), (reserved_get d ERROR) in Hsp; auto; try (cbn; auto 10; fail).
      rewrite dget_dset_eq in Hsp. destruct (dispatch (negb s) cmd); [discriminate|]. injection Hsp as _ <-. eexists. reflexivity. }
    destruct Hgo as [id ->].
    assert (HinR : In (ORun id (received (request_box cmd d t))) (outs_of (hist (w (negb s))))).
    { rewrite Ep. unfold outs_of. apply in_flat_map. eexists. split; [apply in_or_app; right; now left|]. now left. }
    destruct (Hrun _ _ HinR) as (oc & (oq & xq & Hq) & Hnb).
    (* and answers *)
    apply in_split in Hq as (q1 & q2 & Eq). destruct (calm_entry _ _ _ _ Hcp Eq) as [Hcq1 Hxq]. cbn [raised] in Hxq. subst xq.
    destruct (reach_split _ _ _ _ _ _ HRp Eq) as (sq1 & sq2 & HRq1 & Hsq). cbn [ev outs raised] in Hsq.
    destruct (okhist_split _ _ _ _ Hop Eq) as [Hoq1 Heq]. cbn [ev] in Heq.
    destruct (reply_once _ _ _ _ _ _ _ _ HRq1 Hsq) as (_ & _ & cb & Hcb & Hrep).
    assert (Hcb' : In (id, cb) (started (outs_of (hist (w (negb s)))))) by (rewrite Eq; now apply started_grows).
    assert (Ecb : cb = received (request_box cmd d t)).
    { destruct (runs_settle _ _ _ HRp) as (Hn & _). apply in_started in HinR. revert Hn Hcb' HinR.
      generalize (started (outs_of (hist (w (negb s))))). clear. intros l. induction l as [|[i0 b0] l IH]; [intros _ []|].
      cbn [map fst]. intros Hn H1 H2. inversion Hn as [|? ? Hni Hnl]; subst. destruct H1 as [H1|H1], H2 as [H2|H2]; try congruence; auto.
      - injection H1 as -> ->. exfalso. apply Hni. apply in_map_iff. eexists. split; [|exact H2]. reflexivity.
      - injection H2 as -> ->. exfalso. apply Hni. apply in_map_iff. eexists. split; [|exact H1]. reflexivity. }
    subst cb. rewrite <- (Hd ASK) in Hrep. unfold request_box in Hrep. rewrite dget_dset_eq in Hrep.
    assert (Htok : encodable t = true).
    { eapply ask_ok; [apply received_ok; exact Hsb|]. rewrite <- (Hd ASK). unfold request_box. apply dget_dset_eq. }
    destruct (reply_sendable id t oc Heq Htok Hnb) as (ra & rb & Erb & Era2 & Hlr & Hsrb & Hkind). rewrite Erb in Hrep.
    destruct (calm_flags _ Hcq1) as (K1 & K2 & K3).
    destruct Hrep as [[_ Hacc2]|[Hno _]].
    2:{ exfalso. apply Hno. split; [exact K1|]. right. destruct (box_wire ulower ulower_ascii rb Hsrb) as (wb & c & Hser & _).
      exists (wb ++ [c]). subst rb. rewrite (serialize_reads ra Hlr Hsrb). exact Hser. }
    assert (Hin2 : In ra (accepted (outs_of (hist (w (negb s)))))).
    { eapply accepted_in; [exact Eq|]. cbn [outs]. rewrite Hacc2. now left. }
    pose proof (rest_received w (negb s) _ HJ Hrest Hin2) as Hrb2. rewrite negb_involutive, <- Era2 in Hrb2.
    destruct (received_same _ (proj1 Hsrb)) as [_ Hd2].
    destruct (reply_fires w s (received rb) t HJ Hc Hrb2) as (r2 & f & Hfire & Hnl & Ha2).
    { rewrite <- !(Hd2 _). exact Hkind. }
    exists f. split; [|exact Hnl]. now rewrite (In_asked_tag _ _ _ _ _ _ HR Hask Ha2).
  Qed.
End Pair.
