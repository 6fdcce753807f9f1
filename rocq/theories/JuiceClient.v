(** * epsilon/juice.py: the client half of a protocol switch

    [ProtocolSwitchCommand.do] and the end of [connectionLost], on top of the
    connection of JuiceProto.v.  The protocol that is built does not raise in
    [makeConnection]; converting the arguments ([objectsToStrings]) did not
    raise. *)

From Coq Require Import ZArith NArith String List Bool Arith Lia Permutation.
From Verif Require Import Py PyStr PyHex JuiceCodec JuiceProto.
Import ListNotations.
Open Scope nat_scope.

(** what [buildProtocol] of the factory does: a protocol, None, an exception *)
Inductive built := BOk (p : N) | BNone | BRaise.

(** Effects, in order.  [CB en]: a call into the connection, with its effects.
    The calls of [do] are numbered; [k] stands for the factory given to number
    [k].  [FBuild k]: [buildProtocol] is called; [FFailed k]:
    [clientConnectionFailed]; [FLost k]: [clientConnectionLost]; [PLost p]:
    [connectionLost] of the inner protocol; [CDie]: [die] calls
    transport.loseConnection(); [FConn k p]: the protocol [p] of factory [k] is
    connected; [CBegun k q]: [do] number [k] returns its Deferred, which is that
    of request [q], or has failed already. *)
Inductive cout := CB (en : entry) | FBuild (k : nat) | FFailed (k : nat) | FConn (k : nat) (p : N) | CDie | PLost (p : N) | FLost (k : nat)
  | CBegun (k : nat) (q : option nat).

(** the connection; the switch requests that wait for their answer; the number
    of calls of [do]; [innerProtocolClientFactory]; [connectionLost] has still
    to tell the inner protocol *)
Record cs := CS { jst : jp; pend : dict nat nat; ndo : nat; ifac : option nat; owed : bool }.

Definition cs0 : cs := CS jp0 [] 0 None false.

Inductive cevent :=
| CE (e : event)                     (** anything else that happens to the connection *)
| CDo (cmd : str) (b : box)          (** [do] *)
| CInner.                            (** the end of [connectionLost] *)

Section Client.
  Variable d : str -> option exn.
  (** [decode k b]: converting the answer [b] by the response schema of number
      [k] and adding the extra arguments succeeds *)
  Variable decode : nat -> dict str str -> bool.
  Variable build : nat -> built.

  (** juice.py:704-707 [switchNow], with 784-794 [_switchTo]; 708-710 [die] *)
  Definition switchNow (k : nat) (s : cs) : cs * list cout :=
    match build k with
    | BRaise => (s, [FBuild k; CDie])
    | BNone =>
        match inner (jst s) with
        | Some _ => (s, [FBuild k; CDie])
        | None => (CS (jst s) (pend s) (ndo s) (Some k) (owed s), [FBuild k; CDie])
        end
    | BOk p =>
        match switchTo (jst s) p with
        | (j, o, None) => (CS j (pend s) (ndo s) (Some k) (owed s), [FBuild k; CB (En (ESwitch p) o None); FConn k p])
        | (j, o, Some e) => (CS j (pend s) (ndo s) (ifac s) (owed s), [FBuild k; CB (En (ESwitch p) o (Some e)); CDie])
        end
    end.

  (** juice.py:660-663, 670-673, 711-714: what the callbacks of the Deferred
      do.  An error answer or a lost connection passes [_massageError] as a
      failure, as does an answer that cannot be converted; then [handle] and
      [die]. *)
  Definition react (k : nat) (f : firing) (s : cs) : cs * list cout :=
    match f with
    | Answered b => if decode k b then switchNow k s else (s, [FFailed k; CDie])
    | Failed _ _ | Lost => (s, [FFailed k; CDie])
    end.

  (** a Deferred fired in the course of one call *)
  Definition fire_of (o : list out) : option (nat * firing) := match o with [OFire r f] => Some (r, f) | _ => None end.

  Definition switched (o : list out) : bool := existsb (fun x => match x with OInner _ => true | _ => false end) o.

  Definition cstep (s : cs) (e : cevent) : option (cs * list cout) :=
    match e with
    | CE e =>
        match step d (jst s) e with
        | None => None
        | Some (j, o, x) =>
            let s1 := CS j (pend s) (ndo s) (if switched o then None else ifac s)
                         (match e, x with ELost, None => true | _, _ => owed s end) in
            match fire_of o with
            | None => Some (s1, [CB (En e o x)])
            | Some (r, f) =>
                match dget (pend s) r with
                | None => Some (s1, [CB (En e o x)])
                | Some k => let '(s2, os) := react k f (CS j (ddel (pend s) r) (ndo s) (ifac s1) (owed s1)) in
                            Some (s2, CB (En e o x) :: os)
                end
            end
        end
    | CDo cmd b =>
        (* juice.py:701-703 [do], 655-675 [Command.do] *)
        let k := ndo s in
        match sendBoxCommand (jst s) cmd KPlain b true with
        | (j, o, Some e) => Some (CS j (pend s) (S k) (ifac s) (owed s), [CB (En (ESend cmd KPlain b true) o (Some e))])
        | (j, o, None) =>
            let '(j', o', _) := lock j in
            let os := [CB (En (ESend cmd KPlain b true) o None); CB (En ELock o' None)] in
            match outst (jst s) with
            | None => let '(s2, os2) := react k Lost (CS j' (pend s) (S k) (ifac s) (owed s)) in
                      Some (s2, os ++ os2 ++ [CBegun k None])
            | Some _ => Some (CS j' (dset (pend s) (fresh (jst s)) k) (S k) (ifac s) (owed s), os ++ [CBegun k (Some (fresh (jst s)))])
            end
        end
    | CInner =>
        (* juice.py:874-878 *)
        if owed s && (match losing (jst s) with [] => true | _ => false end) then
          Some (CS (jst s) (pend s) (ndo s) (ifac s) false,
                match inner (jst s) with
                | None => []
                | Some p => PLost p :: match ifac s with Some k => [FLost k] | None => [] end
                end)
        else None
    end.

  (** all executions from a new connection *)
  Inductive CReach : list cout -> cs -> Prop :=
  | C_init : CReach [] cs0
  | C_step h s e s' o : CReach h s -> cstep s e = Some (s', o) -> CReach (h ++ o) s'.

  Fixpoint cexecs (s : cs) (es : list cevent) : option (list cout * cs) :=
    match es with
    | [] => Some ([], s)
    | e :: t => match cstep s e with
                | None => None
                | Some (s', o) => match cexecs s' t with None => None | Some (h, s'') => Some (o ++ h, s'') end
                end
    end.

  Lemma cexecs_sound es : forall s h0 h s', CReach h0 s -> cexecs s es = Some (h, s') -> CReach (h0 ++ h) s'.
  Proof.
    induction es as [|e es IH]; intros s h0 h s' R E; cbn [cexecs] in E.
    - injection E as <- <-. now rewrite app_nil_r.
    - destruct (cstep s e) as [[s1 o]|] eqn:Es; [|discriminate]. destruct (cexecs s1 es) as [[h1 s2]|] eqn:Ee; [|discriminate].
      injection E as <- <-. rewrite app_assoc. eapply IH; [|exact Ee]. econstructor; eauto.
  Qed.

  (** ** Specification *)

  (** the calls into the connection *)
  Definition base (h : list cout) : list entry := flat_map (fun o => match o with CB en => [en] | _ => [] end) h.
  (** the calls of [do] that returned a Deferred *)
  Definition begun (h : list cout) : list nat := flat_map (fun o => match o with CBegun k _ => [k] | _ => [] end) h.
  (** the factories asked for a protocol, and those told of a failure *)
  Definition asked_to_build (h : list cout) : list nat := flat_map (fun o => match o with FBuild k => [k] | _ => [] end) h.
  Definition told_failed (h : list cout) : list nat := flat_map (fun o => match o with FFailed k => [k] | _ => [] end) h.
  Definition told (h : list cout) : list nat := flat_map (fun o => match o with FBuild k | FFailed k => [k] | _ => [] end) h.
  (** the factories told that their connection is lost *)
  Definition told_lost (h : list cout) : list nat := flat_map (fun o => match o with FLost k => [k] | _ => [] end) h.
  Definition connected (h : list cout) : list (nat * N) := flat_map (fun o => match o with FConn k p => [(k, p)] | _ => [] end) h.
  Definition inner_lost (h : list cout) : list N := flat_map (fun o => match o with PLost p => [p] | _ => [] end) h.

  (** ** Proofs *)

  Lemma base_app a b : base (a ++ b) = base a ++ base b. Proof. apply flat_map_app. Qed.
  Lemma begun_app a b : begun (a ++ b) = begun a ++ begun b. Proof. apply flat_map_app. Qed.
  Lemma told_app a b : told (a ++ b) = told a ++ told b. Proof. apply flat_map_app. Qed.

  (** what a reaction puts out *)
  Lemma react_shape k f s s' o : react k f s = (s', o) ->
    pend s' = pend s /\ ndo s' = ndo s /\ owed s' = owed s /\ told o = [k] /\ begun o = [] /\
    outst (jst s') = outst (jst s) /\ losing (jst s') = losing (jst s) /\ fresh (jst s') = fresh (jst s) /\
    (forall h0, Reach d h0 (jst s) -> Reach d (h0 ++ base o) (jst s')) /\
    (fired (outs_of (base o)) = [] /\ asked (outs_of (base o)) = []).
  Proof.
    intros E. unfold react in E.
    assert (F : (s, [FFailed k; CDie]) = (s', o) -> pend s' = pend s /\ ndo s' = ndo s /\ owed s' = owed s /\ told o = [k] /\ begun o = [] /\
      outst (jst s') = outst (jst s) /\ losing (jst s') = losing (jst s) /\ fresh (jst s') = fresh (jst s) /\
      (forall h0, Reach d h0 (jst s) -> Reach d (h0 ++ base o) (jst s')) /\ (fired (outs_of (base o)) = [] /\ asked (outs_of (base o)) = [])).
    { intros X. injection X as <- <-. repeat split. intros h0 R. cbn. now rewrite app_nil_r. }
    destruct f as [b| |]; try exact (F E). destruct (decode k b); [|exact (F E)]. clear F. unfold switchNow in E.
    destruct (build k) as [p| |].
    - unfold switchTo in E. destruct (inner (jst s)) eqn:In; injection E as <- <-; cbn [pend ndo owed told begun flat_map app jst outst losing fresh]; repeat split.
      + intros h0 R. cbn [base flat_map app]. eapply R_step; [exact R|]. cbn [step]. unfold switchTo. now rewrite In.
      + intros h0 R. cbn [base flat_map app]. eapply R_step; [exact R|]. cbn [step]. unfold switchTo. now rewrite In.
    - destruct (inner (jst s)); injection E as <- <-; repeat split; intros h0 R; cbn; now rewrite app_nil_r.
    - injection E as <- <-; repeat split; intros h0 R; cbn; now rewrite app_nil_r.
  Qed.

  Record CInv (h : list cout) (s : cs) : Prop := {
    c_base : Reach d (base h) (jst s);
    c_perm : Permutation (begun h) (values (pend s) ++ told h);
    c_nodup : NoDup (begun h);
    c_ndo : Forall (fun k => k < ndo s) (begun h);
    c_wf : wf_dict (pend s);
    c_asked : forall r, In r (keys (pend s)) -> In r (map fst (asked (outs_of (base h))));
    c_fired : forall r, In r (keys (pend s)) -> ~ In r (fired (outs_of (base h)))
  }.

  Lemma nodup_snoc {A} (l : list A) x : NoDup l -> ~ In x l -> NoDup (l ++ [x]).
  Proof.
    intros N I. apply NoDup_rev in N. rewrite <- (rev_involutive l) in *. rewrite <- in_rev in I. rewrite rev_involutive in N.
    change [x] with (rev [x]). rewrite <- rev_app_distr. apply NoDup_rev. cbn. constructor; [exact I|exact N].
  Qed.
  Lemma values_del {V} (p : dict nat V) r v : dget p r = Some v -> Permutation (values p) (v :: values (ddel p r)).
  Proof.
    induction p as [|[k w] p IH]; cbn [dget ddel]; [discriminate|]. destruct (eqb r k); intros E.
    - injection E as ->. reflexivity.
    - cbn [values map snd]. rewrite (IH E). apply perm_swap.
  Qed.
  Lemma values_new {V} (p : dict nat V) r v : ~ In r (keys p) -> values (dset p r v) = values p ++ [v].
  Proof.
    induction p as [|[k w] p IH]; cbn [dset]; [reflexivity|]. intros H. destruct (eqb_spec r k) as [->|N]; [exfalso; apply H; now left|].
    cbn [values map snd app]. f_equal. apply IH. intros I. apply H. now right.
  Qed.

  Lemma fresh_new h j : Reach d h j -> ~ In (fresh j) (map fst (asked (outs_of h))).
  Proof. intros R. rewrite (i_fresh _ _ (reach_inv _ _ _ R)), in_seq. lia. Qed.

  Lemma send_req j cmd b j' o x : sendBoxCommand j cmd KPlain b true = (j', o, x) -> outst j <> None ->
    map fst (asked o) = [fresh j] /\ fired o = [].
  Proof.
    unfold sendBoxCommand. destruct (outst j) as [o0|]; [|intros _ H; now destruct H]. intros E _.
    destruct (sendTo _ _ _) as [[j1 o1] x1] eqn:S1 in E. injection E as <- <- <-.
    match type of S1 with sendTo ?a ?b ?c = _ => pose proof (quiet_sendTo a b c) as Q end. rewrite S1 in Q. destruct Q as (_ & _ & _ & _ & _ & _ & Q).
    destruct (only_asked d _ Q) as (A & F & _). change (OAsked (fresh j) (hex (counter j + 1)) :: o1) with ([OAsked (fresh j) (hex (counter j + 1))] ++ o1).
    rewrite asked_app, fired_app, A, F. split; reflexivity.
  Qed.

  Lemma send_refused j cmd b j' o x : sendBoxCommand j cmd KPlain b true = (j', o, x) -> outst j = None -> j' = j /\ o = [ORefused] /\ x = None.
  Proof. unfold sendBoxCommand. intros E H. rewrite H in E. now injection E as <- <- <-. Qed.

  Lemma fire_of_some o r f : fire_of o = Some (r, f) -> o = [OFire r f].
  Proof. destruct o as [|[] [|]]; cbn; intros E; try discriminate. now injection E as <- <-. Qed.

  Lemma fire_of_none h j e j' o x : Reach d h j -> step d j e = Some (j', o, x) -> fire_of o = None -> fired o = [].
  Proof.
    intros R S1 F. destruct (fired o) as [|r l] eqn:E; [reflexivity|]. exfalso.
    assert (I : In r (fired o)) by (rewrite E; now left). unfold fired in I. apply in_flat_map in I as (y & Iy & Hy). destruct y; cbn in Hy; try (now destruct Hy). destruct Hy as [->|[]].
    destruct (fires_why _ _ _ _ _ _ _ _ _ R S1 Iy) as [-> _]. discriminate.
  Qed.

  Lemma outs_base h o : outs_of (base (h ++ o)) = outs_of (base h) ++ outs_of (base o).
  Proof. rewrite base_app. unfold outs_of. apply flat_map_app. Qed.

  Theorem creach_inv h s : CReach h s -> CInv h s.
  Proof.
    induction 1 as [|h s e s' o R IH E].
    { constructor; cbn; try constructor; intros r []. }
    destruct IH. destruct e as [e|cmd b|]; cbn [cstep] in E.
    - destruct (step d (jst s) e) as [[[j o1] x]|] eqn:S1; [|discriminate].
      pose proof (R_step d _ _ _ _ _ _ c_base0 S1) as RB.
      destruct (fire_of o1) as [[r f]|] eqn:F.
      + apply fire_of_some in F. subst o1. destruct (dget (pend s) r) as [k|] eqn:G.
        * cbn [ifac owed] in E. destruct (react _ _ _) as [s2 os] eqn:Re in E. injection E as <- <-.
          destruct (react_shape _ _ _ _ _ Re) as (P1 & P2 & P3 & P4 & P5 & P6 & P7 & P8 & P9 & P10 & P11). cbn [pend ndo] in P1, P2.
          constructor; rewrite ?P1, ?P2.
          -- change (CB (En e [OFire r f] x) :: os) with ([CB (En e [OFire r f] x)] ++ os). rewrite app_assoc, base_app. apply P9. rewrite base_app. exact RB.
          -- rewrite begun_app, told_app. cbn [begun told flat_map app]. fold (begun os). fold (told os). rewrite P5, P4, app_nil_r, c_perm0.
             rewrite (values_del _ _ _ G). cbn [app]. rewrite app_assoc. apply Permutation_cons_append.
          -- rewrite begun_app. cbn [begun flat_map app]. fold (begun os). now rewrite P5, app_nil_r.
          -- rewrite begun_app. cbn [begun flat_map app]. fold (begun os). now rewrite P5, app_nil_r.
          -- now apply wf_ddel.
          -- intros q Hq. rewrite outs_base, asked_app, map_app. apply in_or_app. left. apply c_asked0. now apply keys_ddel_subset in Hq.
          -- intros q Hq. apply keys_ddel in Hq; [|exact c_wf0]. destruct Hq as [N Hq]. rewrite outs_base, fired_app, in_app_iff. intros [X|X]; [now apply (c_fired0 q)|].
             change (CB (En e [OFire r f] x) :: os) with ([CB (En e [OFire r f] x)] ++ os) in X. rewrite outs_base, fired_app, P10, app_nil_r in X. cbn in X. destruct X as [X|[]]. now apply N.
        * injection E as <- <-. constructor; cbn [pend ndo jst]; rewrite ?base_app, ?begun_app, ?told_app; cbn [base begun told flat_map]; rewrite ?app_nil_r; auto.
          -- intros q Hq. rewrite outs_of_snoc, asked_app, map_app. apply in_or_app. left. auto.
          -- intros q Hq. rewrite outs_of_snoc, fired_app, in_app_iff. intros [X|X]; [now apply (c_fired0 q)|]. cbn in X. destruct X as [X|[]]. subst q. apply dget_None in G. now apply G.
      + injection E as <- <-. constructor; cbn [pend ndo jst]; rewrite ?base_app, ?begun_app, ?told_app; cbn [base begun told flat_map]; rewrite ?app_nil_r; auto.
        -- intros q Hq. rewrite outs_of_snoc, asked_app, map_app. apply in_or_app. left. auto.
        -- intros q Hq. rewrite outs_of_snoc, fired_app, (fire_of_none _ _ _ _ _ _ c_base0 S1 F), app_nil_r. auto.
    - destruct (sendBoxCommand (jst s) cmd KPlain b true) as [[j o1] [x|]] eqn:S1.
      + injection E as <- <-. assert (S2 : step d (jst s) (ESend cmd KPlain b true) = Some (j, o1, Some x)) by (cbn [step]; now rewrite S1).
        pose proof (R_step d _ _ _ _ _ _ c_base0 S2) as RB.
        assert (On : outst (jst s) <> None) by (intros O; destruct (send_refused _ _ _ _ _ _ S1 O) as (_ & _ & ?); discriminate).
        destruct (send_req _ _ _ _ _ _ S1 On) as [A F].
        constructor; cbn [pend ndo jst]; rewrite ?base_app, ?begun_app, ?told_app; cbn [base begun told flat_map]; rewrite ?app_nil_r; auto.
        -- eapply Forall_impl; [|exact c_ndo0]. cbn. lia.
        -- intros q Hq. rewrite outs_of_snoc, asked_app, map_app. apply in_or_app. left. auto.
        -- intros q Hq. rewrite outs_of_snoc, fired_app, F, app_nil_r. auto.
      + assert (S2 : step d (jst s) (ESend cmd KPlain b true) = Some (j, o1, None)) by (cbn [step]; now rewrite S1).
        pose proof (R_step d _ _ _ _ _ _ c_base0 S2) as RB.
        destruct (lock j) as [[j' o'] xl] eqn:L.
        assert (S3 : step d j ELock = Some (j', o', xl)) by (cbn [step]; now rewrite L).
        assert (xl = None /\ o' = []) as [-> ->] by (unfold lock in L; now injection L as <- <- <-).
        pose proof (R_step d _ _ _ _ _ _ RB S3) as RB2.
        assert (Hn : ~ In (ndo s) (begun h)) by (intros X; rewrite Forall_forall in c_ndo0; apply c_ndo0 in X; lia).
        destruct (outst (jst s)) as [o0|] eqn:O.
        * assert (On : outst (jst s) <> None) by congruence. destruct (send_req _ _ _ _ _ _ S1 On) as [A F].
          injection E as <- <-. cbn [app].
          assert (NI : ~ In (fresh (jst s)) (keys (pend s))) by (intros X; apply c_asked0 in X; now apply (fresh_new _ _ c_base0)).
          constructor; cbn [pend ndo jst].
          -- rewrite base_app. cbn [base flat_map app]. rewrite <- app_assoc in RB2. exact RB2.
          -- rewrite begun_app, told_app. cbn [begun told flat_map app]. rewrite app_nil_r, (values_new _ _ _ NI), c_perm0, <- !app_assoc.
             apply Permutation_app_head. apply Permutation_app_comm.
          -- rewrite begun_app. cbn [begun flat_map app]. now apply nodup_snoc.
          -- rewrite begun_app. cbn [begun flat_map app]. apply Forall_app. split; [eapply Forall_impl; [|exact c_ndo0]; cbn; lia|repeat constructor].
          -- now apply wf_dset.
          -- intros q Hq. rewrite outs_base, asked_app, map_app. apply in_or_app. apply keys_dset in Hq. destruct Hq as [->|Hq]; [right|left; auto].
             cbn [base flat_map app outs_of outs]. rewrite !app_nil_r, A. now left.
          -- intros q Hq. rewrite outs_base, fired_app. cbn [base flat_map app outs_of outs]. rewrite !app_nil_r, F, app_nil_r. apply keys_dset in Hq.
             destruct Hq as [->|Hq]; [|auto]. intros X. apply (fresh_new _ _ c_base0).
             pose proof (i_perm _ _ (reach_inv _ _ _ c_base0)) as PM. apply (Permutation_in _ (Permutation_sym PM)). apply in_or_app. right. apply in_or_app. now left.
        * destruct (send_refused _ _ _ _ _ _ S1 O) as (-> & -> & _). cbn [react] in E. injection E as <- <-. cbn [app].
          constructor; cbn [pend ndo jst].
          -- rewrite base_app. cbn [base flat_map app]. rewrite <- app_assoc in RB2. exact RB2.
          -- rewrite begun_app, told_app. cbn [begun told flat_map app]. rewrite c_perm0, <- !app_assoc. reflexivity.
          -- rewrite begun_app. cbn [begun flat_map app]. now apply nodup_snoc.
          -- rewrite begun_app. cbn [begun flat_map app]. apply Forall_app. split; [eapply Forall_impl; [|exact c_ndo0]; cbn; lia|repeat constructor].
          -- exact c_wf0.
          -- intros q Hq. rewrite outs_base, asked_app, map_app. apply in_or_app. left. auto.
          -- intros q Hq. rewrite outs_base, fired_app. cbn. rewrite app_nil_r. auto.
    - destruct (owed s && _); [|discriminate]. injection E as <- <-.
      assert (B : forall k l, base (match inner (jst s) with None => [] | Some p => PLost p :: match ifac s with Some k => [FLost k] | None => [] end end) = [] /\
        begun (match inner (jst s) with None => [] | Some p => PLost p :: match ifac s with Some k => [FLost k] | None => [] end end) = [] /\
        told (match inner (jst s) with None => [] | Some p => PLost p :: match ifac s with Some k => [FLost k] | None => [] end end) = [] /\ k = k :> nat /\ l = l :> nat).
      { intros k l. destruct (inner (jst s)), (ifac s); repeat split. }
      destruct (B 0 0) as (B1 & B2 & B3 & _). constructor; cbn [pend ndo jst]; rewrite ?base_app, ?begun_app, ?told_app, ?B1, ?B2, ?B3, ?app_nil_r; auto.
  Qed.

  (** *** which requests wait, and that the connection is locked *)
  Record CReq (h : list cout) (s : cs) : Prop := {
    q_req : forall r k, dget (pend s) r = Some k -> In (CBegun k (Some r)) h;
    q_told : forall r k, In (CBegun k (Some r)) h -> dget (pend s) r = Some k \/ In k (told h);
    q_lock : begun h <> [] -> was_locked (base h) = true
  }.

  Lemma locked_app a b : was_locked (a ++ b) = was_locked a || was_locked b.
  Proof. unfold was_locked. apply existsb_app. Qed.

  Lemma begun_in k q o : In (CBegun k q) o -> In k (begun o).
  Proof. intros H. unfold begun. apply in_flat_map. eexists. split; [exact H|]. now left. Qed.

  (** a step that begins nothing *)
  Lemma creq_quiet h s s' o : CReq h s -> begun o = [] ->
    (forall r k, dget (pend s') r = Some k -> dget (pend s) r = Some k) ->
    (forall r k, dget (pend s) r = Some k -> dget (pend s') r = Some k \/ In k (told o)) -> CReq (h ++ o) s'.
  Proof.
    intros [Q1 Q2 Q3] B P1 P2. constructor.
    - intros r k G. apply in_or_app. left. apply Q1, P1, G.
    - intros r k I. rewrite told_app, in_app_iff. apply in_app_or in I as [I|I]; [|apply begun_in in I; rewrite B in I; destruct I].
      destruct (Q2 r k I) as [G|G]; [destruct (P2 r k G); auto|auto].
    - rewrite begun_app, B, app_nil_r, base_app, locked_app. intros H. now rewrite (Q3 H).
  Qed.

  Theorem creach_req h s : CReach h s -> CReq h s.
  Proof.
    induction 1 as [|h s e s' o R IH E].
    { constructor; cbn; try discriminate; try tauto. }
    destruct (creach_inv _ _ R). destruct e as [e|cmd b|]; cbn [cstep] in E.
    - destruct (step d (jst s) e) as [[[j o1] x]|] eqn:S1; [|discriminate].
      destruct (fire_of o1) as [[r f]|] eqn:F; [destruct (dget (pend s) r) as [k|] eqn:G|].
      + cbn [ifac owed] in E. destruct (react _ _ _) as [s2 os] eqn:Re in E. injection E as <- <-.
        destruct (react_shape _ _ _ _ _ Re) as (P1 & P2 & P3 & P4 & P5 & _). cbn [pend] in P1.
        apply (creq_quiet h s); [exact IH|exact P5| |]; rewrite P1; intros q k' Gq.
        * rewrite dget_ddel in Gq by exact c_wf0. destruct (eqb_spec q r); [discriminate|exact Gq].
        * rewrite dget_ddel by exact c_wf0. destruct (eqb_spec q r) as [->|N]; [|now left]. right. cbn [told flat_map app]. fold (told os). rewrite P4. left. congruence.
      + injection E as <- <-. apply (creq_quiet h s); [exact IH|reflexivity|auto|auto].
      + injection E as <- <-. apply (creq_quiet h s); [exact IH|reflexivity|auto|auto].
    - destruct (sendBoxCommand (jst s) cmd KPlain b true) as [[j o1] [x|]] eqn:S1.
      + injection E as <- <-. apply (creq_quiet h s); [exact IH|reflexivity|auto|auto].
      + destruct (lock j) as [[j' o'] xl] eqn:L. destruct IH as [Q1 Q2 Q3].
        assert (o' = []) as -> by (unfold lock in L; now injection L as <- <- <-).
        destruct (outst (jst s)) as [o0|] eqn:O.
        * injection E as <- <-. cbn [app].
          assert (NI : ~ In (fresh (jst s)) (keys (pend s))) by (intros X; apply c_asked0 in X; now apply (fresh_new _ _ c_base0)).
          constructor; cbn [pend].
          -- intros r k G. apply in_or_app. destruct (eqb_spec r (fresh (jst s))) as [->|N].
             ++ rewrite dget_dset_eq in G. injection G as <-. right. do 2 right. now left.
             ++ rewrite dget_dset_neq in G by exact N. left. auto.
          -- intros r k I. apply in_app_or in I as [I|I].
             ++ rewrite told_app. destruct (Q2 r k I) as [G|G]; [left|right; apply in_or_app; now left].
                rewrite dget_dset_neq; [exact G|]. intros ->. apply NI. rewrite <- din_keys. unfold din. now rewrite G.
             ++ destruct I as [I|[I|[I|[]]]]; try discriminate. injection I as <- <-. left. apply dget_dset_eq.
          -- intros _. rewrite base_app, locked_app. cbn. now rewrite orb_true_r.
        * cbn [react] in E. injection E as <- <-. cbn [app]. constructor; cbn [pend].
          -- intros r k G. apply in_or_app. left. auto.
          -- intros r k I. rewrite told_app, in_app_iff. apply in_app_or in I as [I|I]; [destruct (Q2 r k I); auto|].
             destruct I as [I|[I|[I|[I|[I|[]]]]]]; try discriminate.
          -- intros _. rewrite base_app, locked_app. cbn. now rewrite orb_true_r.
    - destruct (owed s && _); [|discriminate]. injection E as <- <-. apply (creq_quiet h s); [exact IH| |auto|auto].
      destruct (inner (jst s)), (ifac s); reflexivity.
  Qed.

  (** *** what follows a call of the factory *)
  Definition after (x : cout) (b : list cout) : Prop :=
    match x with
    | FFailed k => exists t, b = CDie :: t
    | FBuild k =>
        (exists t, b = CDie :: t) \/
        (exists p t, build k = BOk p /\ b = CB (En (ESwitch p) [OInner p] None) :: FConn k p :: t) \/
        (exists p t, build k = BOk p /\ b = CB (En (ESwitch p) [] (Some AssertionError)) :: CDie :: t)
    | _ => True
    end.
  Definition orderly (h : list cout) : Prop := forall a x b, h = a ++ x :: b -> after x b.

  Lemma after_app x b c : after x b -> after x (b ++ c).
  Proof.
    destruct x; cbn [after]; try exact (fun H => H).
    - intros [(t & ->)|[(p & t & B & ->)|(p & t & B & ->)]]; [left|right; left|right; right]; cbn; eauto.
    - intros (t & ->). cbn. eauto.
  Qed.
  Lemma orderly_cons x t : after x t -> orderly t -> orderly (x :: t).
  Proof. intros A O [|y a] z b E; cbn in E; injection E as <- E; [subst; exact A|exact (O a z b E)]. Qed.
  Lemma orderly_nil : orderly [].
  Proof. intros [|y a] z b E; discriminate. Qed.
  Lemma orderly_app a b : orderly a -> orderly b -> orderly (a ++ b).
  Proof.
    intros Oa Ob. induction a as [|x a IH]; [exact Ob|]. cbn [app]. apply orderly_cons.
    - apply after_app. exact (Oa [] x a eq_refl).
    - apply IH. intros p y q E. apply (Oa (x :: p) y q). cbn. now rewrite E.
  Qed.

  Lemma react_orderly k f s s' o : react k f s = (s', o) -> orderly o.
  Proof.
    assert (D : orderly [FFailed k; CDie]) by (apply orderly_cons; [cbn; eauto|apply orderly_cons; [exact I|apply orderly_nil]]).
    assert (D2 : orderly [FBuild k; CDie]) by (apply orderly_cons; [cbn; eauto|apply orderly_cons; [exact I|apply orderly_nil]]).
    unfold react, switchNow, switchTo. destruct f as [b| |]; [|intros E; injection E as _ <-; exact D|intros E; injection E as _ <-; exact D].
    destruct (decode k b); [|intros E; injection E as _ <-; exact D]. destruct (build k) as [p| |] eqn:B.
    - destruct (inner (jst s)); intros E; injection E as _ <-; repeat apply orderly_cons; try apply orderly_nil; try exact I; cbn [after]; right; [right|left]; eauto.
    - destruct (inner (jst s)); intros E; injection E as _ <-; exact D2.
    - intros E; injection E as _ <-; exact D2.
  Qed.

  Theorem creach_orderly h s : CReach h s -> orderly h.
  Proof.
    induction 1 as [|h s e s' o R IH E]; [apply orderly_nil|]. apply orderly_app; [exact IH|].
    destruct e as [e|cmd b|]; cbn [cstep] in E.
    - destruct (step d (jst s) e) as [[[j o1] x]|] eqn:S1; [|discriminate].
      destruct (fire_of o1) as [[r f]|] eqn:F; [destruct (dget (pend s) r) as [k|] eqn:G|].
      + cbn [ifac owed] in E. destruct (react _ _ _) as [s2 os] eqn:Re in E. injection E as <- <-. apply orderly_cons; [exact I|eapply react_orderly, Re].
      + injection E as <- <-. apply orderly_cons; [exact I|apply orderly_nil].
      + injection E as <- <-. apply orderly_cons; [exact I|apply orderly_nil].
    - destruct (sendBoxCommand (jst s) cmd KPlain b true) as [[j o1] [x|]] eqn:S1.
      + injection E as <- <-. apply orderly_cons; [exact I|apply orderly_nil].
      + destruct (lock j) as [[j' o'] xl] eqn:L. destruct (outst (jst s)) as [o0|] eqn:O.
        * injection E as <- <-. repeat apply orderly_cons; try exact I. apply orderly_nil.
        * cbn [react] in E. injection E as <- <-. repeat (apply orderly_cons; [first [exact I|cbn; eauto]|]). apply orderly_nil.
    - destruct (owed s && _); [|discriminate]. injection E as <- <-. destruct (inner (jst s)); [|apply orderly_nil].
      destruct (ifac s); repeat (apply orderly_cons; [exact I|]); apply orderly_nil.
  Qed.

  (** *** the inner protocol *)
  Record CInn (h : list cout) (s : cs) : Prop := {
    n_conn : forall k p, In (FConn k p) h -> inner (jst s) = Some p /\ ifac s = Some k /\ build k = BOk p /\ In (FBuild k) h;
    n_fac : forall k p, ifac s = Some k -> inner (jst s) = Some p -> In (FConn k p) h;
    n_owed : owed s = true -> outst (jst s) = None /\ inner_lost h = [];
    n_over : inner_lost h <> [] -> outst (jst s) = None;
    n_once : length (inner_lost h) <= 1;
    n_flost : length (told_lost h) <= length (inner_lost h);
    n_which : forall k, In (FLost k) h -> exists p, In (FConn k p) h /\ In (PLost p) h
  }.

  Lemma inner_lost_app a b : inner_lost (a ++ b) = inner_lost a ++ inner_lost b. Proof. apply flat_map_app. Qed.
  Lemma told_lost_app a b : told_lost (a ++ b) = told_lost a ++ told_lost b. Proof. apply flat_map_app. Qed.

  Lemma inner_step h j e j' o x : Reach d h j -> step d j e = Some (j', o, x) ->
    if switched o then inner j = None else inner j' = inner j.
  Proof.
    intros R S1. pose proof (j_inner _ _ (reach_tinv _ _ _ R)) as A. pose proof (j_inner _ _ (reach_tinv _ _ _ (R_step _ _ _ _ _ _ _ R S1))) as B.
    rewrite outs_of_snoc, inners_app, <- A in B. destruct (switched o) eqn:Sw.
    - destruct (inner j); [|reflexivity]. exfalso. assert (N : inners o = []).
      { destruct (inner j'); cbn in B; [injection B as _ B|discriminate]. destruct (inners o); [reflexivity|discriminate]. }
      unfold switched in Sw. apply existsb_exists in Sw as (y & Iy & Hy). destruct y; try discriminate.
      assert (X : In p (inners o)) by (unfold inners; apply in_flat_map; eexists; split; [exact Iy|now left]). rewrite N in X. destruct X.
    - assert (N : inners o = []).
      { apply inners_none. intros c Ic. assert (X : switched o = true); [|congruence]. apply existsb_exists. eexists. split; [exact Ic|reflexivity]. }
      rewrite N, app_nil_r in B. destruct (inner j), (inner j'); cbn in B; congruence.
  Qed.

  Lemma step_lost j e j' o x : step d j e = Some (j', o, x) -> outst j = None -> outst j' = None.
  Proof.
    intros S1 O. destruct e; try (apply (step_outst d _ _ _ _ _ S1); [discriminate|exact O]).
    cbn [step] in S1. rewrite O in S1. now injection S1 as <- <- <-.
  Qed.

  (** a call into the connection *)
  Lemma cinn_call h s e j o x : Reach d (base h) (jst s) -> CInn h s -> step d (jst s) e = Some (j, o, x) -> forall pd n,
    CInn (h ++ [CB (En e o x)]) (CS j pd n (if switched o then None else ifac s) (match e, x with ELost, None => true | _, _ => owed s end)).
  Proof.
    intros R [] S1 pd n. pose proof (inner_step _ _ _ _ _ _ R S1) as Hi.
    assert (Il : inner_lost (h ++ [CB (En e o x)]) = inner_lost h) by (rewrite inner_lost_app; apply app_nil_r).
    assert (Tl : told_lost (h ++ [CB (En e o x)]) = told_lost h) by (rewrite told_lost_app; apply app_nil_r).
    assert (In1 : forall y, In y (h ++ [CB (En e o x)]) -> y = CB (En e o x) \/ In y h) by (intros y Y; apply in_app_or in Y as [Y|[Y|[]]]; auto).
    assert (In2 : forall y, In y h -> In y (h ++ [CB (En e o x)])) by (intros y Y; apply in_or_app; now left).
    constructor; rewrite ?Il, ?Tl; cbn [jst ifac owed]; auto.
    - intros k p I. apply In1 in I as [I|I]; [discriminate|]. destruct (n_conn0 k p I) as (A & B & C & D). destruct (switched o); [congruence|]. rewrite Hi. auto.
    - intros k p. destruct (switched o); [discriminate|]. rewrite Hi. auto.
    - intros Ow. assert (X : owed s = true \/ e = ELost /\ x = None) by (destruct e; auto; destruct x; auto). destruct X as [X|[-> ->]].
      + destruct (n_owed0 X) as [A B]. split; [eapply step_lost; eauto|exact B].
      + cbn [step] in S1. destruct (outst (jst s)) as [o0|] eqn:O; [|discriminate]. injection S1 as <- <-. split; [reflexivity|].
        destruct (inner_lost h); [reflexivity|]. exfalso. assert (Y : Some o0 = None) by (apply n_over0; discriminate). discriminate.
    - intros H. eapply step_lost; [exact S1|auto].
    - intros k I. apply In1 in I as [I|I]; [discriminate|]. destruct (n_which0 k I) as (p & A & B). exists p. auto.
  Qed.

  (** effects that are no calls into the connection *)
  Lemma cinn_plain h s s' o : CInn h s -> inner (jst s') = inner (jst s) -> outst (jst s') = outst (jst s) -> owed s' = owed s ->
    (ifac s' = ifac s \/ inner (jst s) = None) ->
    (forall y, In y o -> match y with FBuild _ | FFailed _ | CDie | CBegun _ _ => True | _ => False end) -> CInn (h ++ o) s'.
  Proof.
    intros [] Hi Ho Hw Hf Hp.
    assert (Il : inner_lost o = [] /\ told_lost o = []).
    { clear -Hp. induction o as [|y o IH]; [split; reflexivity|]. destruct IH as [A B]; [intros z Z; apply Hp; now right|].
      specialize (Hp y (or_introl eq_refl)). destruct y; try destruct Hp; cbn; fold (inner_lost o) (told_lost o); auto. }
    destruct Il as [Il Tl].
    assert (In1 : forall y, In y (h ++ o) -> match y with FConn _ _ | PLost _ | FLost _ => In y h | _ => True end).
    { intros y Y. apply in_app_or in Y as [Y|Y]; [destruct y; auto|]. apply Hp in Y. destruct y; auto; destruct Y. }
    assert (In2 : forall y, In y h -> In y (h ++ o)) by (intros y Y; apply in_or_app; now left).
    constructor; rewrite ?inner_lost_app, ?told_lost_app, ?Il, ?Tl, ?app_nil_r, ?Hi, ?Ho, ?Hw; auto.
    - intros k p I. apply In1 in I. destruct (n_conn0 k p I) as (A & B & C & D). destruct Hf as [->|N]; [auto|congruence].
    - intros k p F. destruct Hf as [Hf|N]; [rewrite Hf in F; auto|congruence].
    - intros k I. apply In1 in I. destruct (n_which0 k I) as (p & A & B). exists p. auto.
  Qed.

  Lemma cinn_react h s k f s' o : Reach d (base h) (jst s) -> CInn h s -> react k f s = (s', o) -> CInn (h ++ o) s'.
  Proof.
    intros R C. assert (F : (s, [FFailed k; CDie]) = (s', o) -> CInn (h ++ o) s').
    { intros E. injection E as <- <-. apply (cinn_plain h s); auto. intros y [<-|[<-|[]]]; exact I. }
    unfold react. destruct f as [b| |]; [|exact F|exact F]. destruct (decode k b); [|exact F]. clear F. unfold switchNow.
    assert (P : forall s1, inner (jst s1) = inner (jst s) -> outst (jst s1) = outst (jst s) -> owed s1 = owed s ->
       (ifac s1 = ifac s \/ inner (jst s) = None) -> (s1, [FBuild k; CDie]) = (s', o) -> CInn (h ++ o) s').
    { intros s1 A1 A2 A3 A4 E. injection E as <- <-. apply (cinn_plain h s); auto. intros y [<-|[<-|[]]]; exact I. }
    destruct (build k) as [p| |] eqn:B.
    - unfold switchTo. destruct (inner (jst s)) as [p0|] eqn:Hi; intros E; injection E as <- <-.
      + assert (S1 : step d (jst s) (ESwitch p) = Some (jst s, [], Some AssertionError)) by (cbn [step]; unfold switchTo; now rewrite Hi).
        pose proof (cinn_plain h s s [FBuild k] C eq_refl eq_refl eq_refl (or_introl eq_refl)) as C1.
        assert (C1' : CInn (h ++ [FBuild k]) s) by (apply C1; intros y [<-|[]]; exact I). clear C1.
        assert (R1 : Reach d (base (h ++ [FBuild k])) (jst s)) by (rewrite base_app; cbn; now rewrite app_nil_r).
        pose proof (cinn_call _ _ _ _ _ _ R1 C1' S1 (pend s) (ndo s)) as C2. cbn [switched existsb] in C2.
        pose proof (cinn_plain _ _ (CS (jst s) (pend s) (ndo s) (ifac s) (owed s)) [CDie] C2 eq_refl eq_refl eq_refl (or_introl eq_refl)) as C3.
        rewrite <- !app_assoc in C3. apply C3. intros y [<-|[]]; exact I.
      + destruct C. constructor; cbn [jst ifac owed inner outst].
        * intros k' p' X. apply in_app_or in X as [X|X]; [destruct (n_conn0 _ _ X) as (A & _); congruence|].
          destruct X as [X|[X|[X|[]]]]; try discriminate. injection X as <- <-. repeat split; auto. apply in_or_app. right. now left.
        * intros k' p' X Y. injection X as <-. injection Y as <-. apply in_or_app. right. do 2 right. now left.
        * intros Ow. rewrite inner_lost_app. cbn. rewrite app_nil_r. auto.
        * rewrite inner_lost_app. cbn. rewrite app_nil_r. auto.
        * rewrite inner_lost_app. cbn. now rewrite app_nil_r.
        * rewrite inner_lost_app, told_lost_app. cbn. now rewrite !app_nil_r.
        * intros k' X. apply in_app_or in X as [X|X]; [|destruct X as [X|[X|[X|[]]]]; discriminate]. destruct (n_which0 _ X) as (p' & A & _). destruct (n_conn0 _ _ A). congruence.
    - destruct (inner (jst s)) eqn:Hi; (apply P; auto).
    - apply P; auto.
  Qed.

  Theorem creach_inn h s : CReach h s -> CInn h s.
  Proof.
    induction 1 as [|h s e s' o R IH E].
    { constructor; cbn; auto; try discriminate; try tauto. }
    pose proof (c_base _ _ (creach_inv _ _ R)) as RB. pose proof (creach_inv _ _ (C_step _ _ _ _ _ R E)) as CI'.
    destruct e as [e|cmd b|]; cbn [cstep] in E.
    - destruct (step d (jst s) e) as [[[j o1] x]|] eqn:S1; [|discriminate].
      destruct (fire_of o1) as [[r f]|] eqn:F; [destruct (dget (pend s) r) as [k|] eqn:G|].
      + cbn [ifac owed] in E. destruct (react _ _ _) as [s2 os] eqn:Re in E. injection E as <- <-.
        change (CB (En e o1 x) :: os) with ([CB (En e o1 x)] ++ os). rewrite app_assoc. eapply cinn_react; [|eapply cinn_call; eauto|exact Re].
        rewrite base_app. cbn. eapply R_step; eauto.
      + injection E as <- <-. eapply cinn_call; eauto.
      + injection E as <- <-. eapply cinn_call; eauto.
    - assert (S0 : forall j o1 x, sendBoxCommand (jst s) cmd KPlain b true = (j, o1, x) -> switched o1 = false).
      { intros j o1 x. unfold sendBoxCommand. destruct (outst (jst s)); [|intros Z; now injection Z as _ <- _]. unfold sendTo, sendPacket. cbn [locked held].
        destruct (locked (jst s)); [intros Z; injection Z as _ <- _; reflexivity|].
        destruct (held (jst s)); [intros Z; injection Z as _ <- _; reflexivity|]. destruct (serialize _); intros Z; injection Z as _ <- _; reflexivity. }
      destruct (sendBoxCommand (jst s) cmd KPlain b true) as [[j o1] x] eqn:S1.
      assert (S2 : step d (jst s) (ESend cmd KPlain b true) = Some (j, o1, x)) by (cbn [step]; now rewrite S1).
      specialize (S0 _ _ _ eq_refl). destruct x as [x|].
      + injection E as <- <-. pose proof (cinn_call _ _ _ _ _ _ RB IH S2 (pend s) (S (ndo s))) as C. now rewrite S0 in C.
      + destruct (lock j) as [[j' o'] xl] eqn:L. assert (o' = [] /\ xl = None) as [-> ->] by (unfold lock in L; now injection L as <- <- <-).
        assert (S3 : step d j ELock = Some (j', [], None)) by (cbn [step]; now rewrite L).
        assert (RB1 : Reach d (base (h ++ [CB (En (ESend cmd KPlain b true) o1 None)])) j) by (rewrite base_app; cbn; eapply R_step; eauto).
        assert (C : forall pd, CInn (h ++ [CB (En (ESend cmd KPlain b true) o1 None); CB (En ELock [] None)]) (CS j' pd (S (ndo s)) (ifac s) (owed s))).
        { intros pd. pose proof (cinn_call _ _ _ _ _ _ RB IH S2 pd (S (ndo s))) as C. rewrite S0 in C.
          pose proof (cinn_call _ (CS j pd (S (ndo s)) (ifac s) (owed s)) _ _ _ _ RB1 C S3 pd (S (ndo s))) as C2. cbn [switched existsb ifac owed] in C2. rewrite <- app_assoc in C2. exact C2. }
        destruct (outst (jst s)) as [o0|] eqn:O.
        * injection E as <- <-. cbn [app]; match goal with |- CInn (h ++ ?a :: ?b :: ?t) _ => change (a :: b :: t) with ([a; b] ++ t); rewrite (app_assoc h [a; b] t) end.
          eapply cinn_plain; [apply C|reflexivity|reflexivity|reflexivity|now left|]. intros y [<-|[]]; exact I.
        * cbn [react] in E. injection E as <- <-. cbn [app]; match goal with |- CInn (h ++ ?a :: ?b :: ?t) _ => change (a :: b :: t) with ([a; b] ++ t); rewrite (app_assoc h [a; b] t) end.
          eapply cinn_plain; [apply C|reflexivity|reflexivity|reflexivity|now left|]. intros y [<-|[<-|[<-|[]]]]; exact I.
    - destruct (owed s && _) eqn:Ow; [|discriminate]. apply andb_true_iff in Ow as [Ow _]. injection E as <- <-. destruct IH.
      destruct (n_owed0 Ow) as [O L]. rewrite L in *. assert (TL : told_lost h = []) by (cbn in n_flost0; destruct (told_lost h); [reflexivity|cbn in n_flost0; lia]).
      constructor; cbn [jst ifac owed].
      + intros k p X. apply in_app_or in X as [X|X].
        * destruct (n_conn0 _ _ X) as (A & B & C & D). repeat split; auto. apply in_or_app. now left.
        * destruct (inner (jst s)), (ifac s); cbn in X; repeat destruct X as [X|X]; try discriminate; destruct X.
      + intros k p A B. apply in_or_app. left. auto.
      + discriminate.
      + auto.
      + rewrite inner_lost_app, L. destruct (inner (jst s)), (ifac s); cbn; lia.
      + rewrite inner_lost_app, told_lost_app, L, TL. destruct (inner (jst s)), (ifac s); cbn; lia.
      + intros k X. apply in_app_or in X as [X|X].
        * destruct (n_which0 _ X) as (p & A & B). exists p. split; apply in_or_app; now left.
        * destruct (inner (jst s)) as [p|] eqn:Hi; [|destruct X]. destruct X as [X|X]; [discriminate|]. destruct (ifac s) as [k'|] eqn:Hf; [|destruct X].
          destruct X as [X|[]]. injection X as ->. exists p. split; apply in_or_app; [left; auto|right; now left].
  Qed.

  (** *** the statements *)
  Lemma told_once h s : CReach h s -> NoDup (told h) /\ incl (told h) (begun h).
  Proof.
    intros R. destruct (creach_inv _ _ R). pose proof (Permutation_NoDup c_perm0 c_nodup0) as N. apply nodup_r in N. split; [exact N|].
    intros k K. apply (Permutation_in _ (Permutation_sym c_perm0)). apply in_or_app. now right.
  Qed.

  Lemma told_when_fired h s k r : CReach h s -> In (CBegun k (Some r)) h -> In r (fired (outs_of (base h))) -> In k (told h).
  Proof.
    intros R B F. destruct (q_told _ _ (creach_req _ _ R) r k B) as [G|G]; [|exact G]. exfalso.
    apply (c_fired _ _ (creach_inv _ _ R) r); [|exact F]. rewrite <- din_keys. unfold din. now rewrite G.
  Qed.

  Lemma told_settled h s : CReach h s -> was_lost (base h) = true -> losing (jst s) = [] -> forgot (outs_of (base h)) = [] ->
    Permutation (begun h) (told h).
  Proof.
    intros R L Lo F. destruct (creach_inv _ _ R). assert (E : pend s = []).
    { destruct (pend s) as [|[r k] t] eqn:P; [reflexivity|]. exfalso.
      assert (K : In r (keys ((r, k) :: t))) by now left. apply (c_fired0 r K). apply c_asked0 in K.
      assert (S1 : step d (jst s) EFailNext = None) by (cbn [step]; now rewrite Lo).
      pose proof (loss_settles d _ _ c_base0 L S1) as PM. rewrite F, app_nil_r in PM. exact (Permutation_in _ PM K). }
    now rewrite E in c_perm0.
  Qed.

  Lemma build_why h s e s' o k : CReach h s -> cstep s e = Some (s', o) -> In (FBuild k) o ->
    exists r t b, In (CBegun k (Some r)) h /\ e = CE (ERecv b) /\ dget b ANSWER = Some t /\ JuiceProto.open (base h) r t /\ decode k b = true.
  Proof.
    intros R E Hin. pose proof (c_base _ _ (creach_inv _ _ R)) as RB. destruct e as [e|cmd b|]; cbn [cstep] in E.
    - destruct (step d (jst s) e) as [[[j o1] x]|] eqn:S1; [|discriminate].
      destruct (fire_of o1) as [[r f]|] eqn:F; [destruct (dget (pend s) r) as [k'|] eqn:G|].
      + cbn [ifac owed] in E. destruct (react _ _ _) as [s2 os] eqn:Re in E. injection E as <- <-. destruct Hin as [Hin|Hin]; [discriminate|].
        apply fire_of_some in F. subst o1. destruct (fires_why _ _ _ _ _ _ _ r f RB S1 (or_introl eq_refl)) as [_ W].
        assert (K : In k (told os)) by (unfold told; apply in_flat_map; eexists; split; [exact Hin|now left]).
        destruct (react_shape _ _ _ _ _ Re) as (_ & _ & _ & P4 & _). rewrite P4 in K. destruct K as [<-|[]].
        unfold react in Re. destruct f as [b| |].
        * destruct (decode k' b) eqn:D; [|injection Re as _ <-; destruct Hin as [Hin|[Hin|[]]]; discriminate].
          destruct W as (t & -> & A & Op). exists r, t, b. split; [exact (q_req _ _ (creach_req _ _ R) _ _ G)|auto].
        * injection Re as _ <-. destruct Hin as [Hin|[Hin|[]]]; discriminate.
        * injection Re as _ <-. destruct Hin as [Hin|[Hin|[]]]; discriminate.
      + injection E as <- <-. destruct Hin as [Hin|[]]; discriminate.
      + injection E as <- <-. destruct Hin as [Hin|[]]; discriminate.
    - exfalso. destruct (sendBoxCommand (jst s) cmd KPlain b true) as [[j o1] [x|]] eqn:S1.
      + injection E as <- <-. destruct Hin as [Hin|[]]; discriminate.
      + destruct (lock j) as [[j' o'] xl]. destruct (outst (jst s)).
        * injection E as <- <-. cbn in Hin. repeat destruct Hin as [Hin|Hin]; try discriminate; destruct Hin.
        * cbn [react] in E. injection E as <- <-. cbn in Hin. repeat destruct Hin as [Hin|Hin]; try discriminate; destruct Hin.
    - exfalso. destruct (owed s && _); [|discriminate]. injection E as <- <-. destruct (inner (jst s)), (ifac s); cbn in Hin; repeat destruct Hin as [Hin|Hin]; try discriminate; destruct Hin.
  Qed.

  Lemma silent h s e s' o : CReach h s -> begun h <> [] -> cstep s e = Some (s', o) ->
    accepted (outs_of (base o)) = [] /\ written (outs_of (base o)) = [].
  Proof.
    intros R B E. pose proof (c_base _ _ (creach_inv _ _ R)) as RB. pose proof (q_lock _ _ (creach_req _ _ R) B) as L.
    assert (Re0 : forall k f s1 s2 os, react k f s1 = (s2, os) -> accepted (outs_of (base os)) = [] /\ written (outs_of (base os)) = []).
    { intros k f s1 s2 os. unfold react, switchNow, switchTo. destruct f as [b| |]; [|intros X; injection X as _ <-; auto..].
      destruct (decode k b); [|intros X; injection X as _ <-; auto]. destruct (build k); destruct (inner (jst s1)); intros X; injection X as _ <-; auto. }
    destruct e as [e|cmd b|]; cbn [cstep] in E.
    - destruct (step d (jst s) e) as [[[j o1] x]|] eqn:S1; [|discriminate].
      destruct (locked_quiet _ _ _ _ _ _ _ RB L S1) as (Q1 & Q2 & _).
      destruct (fire_of o1) as [[r f]|] eqn:F; [destruct (dget (pend s) r) as [k|] eqn:G|].
      + cbn [ifac owed] in E. destruct (react _ _ _) as [s2 os] eqn:Re in E. injection E as <- <-. destruct (Re0 _ _ _ _ _ Re) as [A1 A2].
        cbn [base flat_map app outs_of outs]. fold (base os) (outs_of (base os)). now rewrite accepted_app, written_app, Q1, Q2, A1, A2.
      + injection E as <- <-. cbn [base flat_map app outs_of outs]. now rewrite app_nil_r.
      + injection E as <- <-. cbn [base flat_map app outs_of outs]. now rewrite app_nil_r.
    - destruct (sendBoxCommand (jst s) cmd KPlain b true) as [[j o1] x] eqn:S1.
      assert (S2 : step d (jst s) (ESend cmd KPlain b true) = Some (j, o1, x)) by (cbn [step]; now rewrite S1).
      destruct (locked_quiet _ _ _ _ _ _ _ RB L S2) as (Q1 & Q2 & _). destruct x as [x|].
      + injection E as <- <-. cbn [base flat_map app outs_of outs]. now rewrite app_nil_r.
      + destruct (lock j) as [[j' o'] xl] eqn:Lk. assert (o' = []) as -> by (unfold lock in Lk; now injection Lk as <- <- <-). destruct (outst (jst s)).
        * injection E as <- <-. cbn [base flat_map app outs_of outs]. now rewrite app_nil_r.
        * cbn [react] in E. injection E as <- <-. cbn [base flat_map app outs_of outs]. now rewrite app_nil_r.
    - destruct (owed s && _); [|discriminate]. injection E as <- <-. destruct (inner (jst s)), (ifac s); split; reflexivity.
  Qed.

  Lemma lost_told h s k p : CReach h s -> In (FConn k p) h -> forall s' o, cstep s CInner = Some (s', o) -> o = [PLost p; FLost k].
  Proof.
    intros R C s' o E. destruct (n_conn _ _ (creach_inn _ _ R) k p C) as (Hi & Hf & _). cbn [cstep] in E. destruct (owed s && _); [|discriminate].
    injection E as _ <-. now rewrite Hi, Hf.
  Qed.

  Lemma lost_once h s : CReach h s -> length (inner_lost h) <= 1 /\ length (told_lost h) <= 1 /\
    forall k, In (FLost k) h -> exists p, In (FConn k p) h /\ In (PLost p) h.
  Proof. intros R. destruct (creach_inn _ _ R). repeat split; auto. lia. Qed.

  Lemma open_unique h j r r' t : Reach d h j -> JuiceProto.open h r t -> JuiceProto.open h r' t -> r = r'.
  Proof.
    intros R [A _] [B _]. pose proof (tags_distinct _ _ _ R) as N. revert A B N. generalize (asked (outs_of h)). clear.
    induction l as [|[q u] l IH]; cbn; intros A B N; [destruct A|]. inversion N as [|? ? N1 N2]; subst.
    destruct A as [A|A], B as [B|B]; [congruence| | |auto].
    - injection A as -> ->. exfalso. apply N1. exact (in_map snd _ _ B).
    - injection B as -> ->. exfalso. apply N1. exact (in_map snd _ _ A).
  Qed.

  Lemma begun_unique h k q q' : NoDup (begun h) -> In (CBegun k q) h -> In (CBegun k q') h -> q = q'.
  Proof.
    induction h as [|y h IH]; intros N A B; [destruct A|]. destruct A as [A|A], B as [B|B].
    - congruence.
    - subst y. cbn in N. inversion N; subst. apply begun_in in B. contradiction.
    - subst y. cbn in N. inversion N; subst. apply begun_in in A. contradiction.
    - apply IH; auto. destruct y; cbn in N; auto. now inversion N.
  Qed.

  Lemma told_fired h s k r : CReach h s -> In (CBegun k (Some r)) h -> In k (told h) -> In r (fired (outs_of (base h))).
  Proof.
    intros R. revert k r. induction R as [|h s e s' o R IH E]; intros k r B T; [destruct B|].
    pose proof (c_nodup _ _ (creach_inv _ _ (C_step _ _ _ _ _ R E))) as ND. pose proof (told_once _ _ R) as [_ TI].
    pose proof (creach_inv _ _ R) as CI. rewrite outs_base, fired_app. apply in_or_app. rewrite told_app in T.
    assert (Old : In (CBegun k (Some r)) h -> In k (told h) -> In r (fired (outs_of (base h))) \/ In r (fired (outs_of (base o)))) by (intros; left; eauto).
    destruct e as [e|cmd b|]; cbn [cstep] in E.
    - destruct (step d (jst s) e) as [[[j o1] x]|] eqn:S1; [|discriminate].
      destruct (fire_of o1) as [[r0 f]|] eqn:F; [destruct (dget (pend s) r0) as [k0|] eqn:G|].
      + cbn [ifac owed] in E. destruct (react _ _ _) as [s2 os] eqn:Re in E. injection E as <- <-. apply fire_of_some in F. subst o1.
        destruct (react_shape _ _ _ _ _ Re) as (_ & _ & _ & P4 & P5 & _).
        apply in_app_or in B as [B|B]; [|apply begun_in in B; cbn [begun flat_map app] in B; fold (begun os) in B; rewrite P5 in B; destruct B].
        apply in_app_or in T as [T|T]; [auto|]. cbn [told flat_map app] in T. fold (told os) in T. rewrite P4 in T. destruct T as [->|[]].
        apply (q_req _ _ (creach_req _ _ R)) in G.
        assert (X : Some r = Some r0) by (apply (begun_unique _ k _ _ (c_nodup _ _ CI)); assumption). injection X as ->. right.
        cbn [base flat_map app outs_of outs fired]. now left.
      + injection E as <- <-. apply in_app_or in B as [B|[B|[]]]; [|discriminate]. cbn in T. rewrite app_nil_r in T. auto.
      + injection E as <- <-. apply in_app_or in B as [B|[B|[]]]; [|discriminate]. cbn in T. rewrite app_nil_r in T. auto.
    - destruct (sendBoxCommand (jst s) cmd KPlain b true) as [[j o1] [x|]] eqn:S1.
      + injection E as <- <-. apply in_app_or in B as [B|[B|[]]]; [|discriminate]. cbn in T. rewrite app_nil_r in T. auto.
      + destruct (lock j) as [[j' o'] xl] eqn:Lk.
        assert (Hn : ~ In (ndo s) (begun h)) by (intros X; pose proof (c_ndo _ _ CI) as Y; rewrite Forall_forall in Y; apply Y in X; lia).
        destruct (outst (jst s)).
        * injection E as <- <-. cbn in T. rewrite app_nil_r in T. apply in_app_or in B as [B|B]; [auto|].
          cbn in B. destruct B as [B|[B|[B|[]]]]; try discriminate. injection B as <- <-. apply TI in T. contradiction.
        * cbn [react] in E. injection E as <- <-. cbn in T. apply in_app_or in B as [B|B]; [|cbn in B; repeat destruct B as [B|B]; try discriminate; destruct B].
          apply in_app_or in T as [T|[T|[]]]; [auto|]. subst k. apply begun_in in B. contradiction.
    - destruct (owed s && _); [|discriminate]. injection E as <- <-.
      assert (X : forall y, In y (match inner (jst s) with None => [] | Some p => PLost p :: match ifac s with Some k => [FLost k] | None => [] end end) ->
         match y with CBegun _ _ | FBuild _ | FFailed _ => False | _ => True end) by (intros y; destruct (inner (jst s)), (ifac s); cbn; intuition (subst; auto)).
      apply in_app_or in B as [B|B]; [|now apply X in B]. apply in_app_or in T as [T|T]; [auto|]. unfold told in T. apply in_flat_map in T as (y & Y & T). apply X in Y. destruct y; cbn in T; auto; destruct T; contradiction.
  Qed.

  (** an answer that can be read *)
  Lemma answer_builds h s k r t b : CReach h s -> In (CBegun k (Some r)) h -> JuiceProto.open (base h) r t -> was_lost (base h) = false ->
    dget b ANSWER = Some t -> din b COMMAND = false -> decode k b = true ->
    exists s' o, cstep s (CE (ERecv b)) = Some (s', o) /\ In (FBuild k) o /\
      forall p, build k = BOk p -> inners (outs_of (base h)) = [] -> In (FConn k p) o.
  Proof.
    intros R B Op L An Co De. pose proof (c_base _ _ (creach_inv _ _ R)) as RB.
    destruct (step d (jst s) (ERecv b)) as [[[j o1] x]|] eqn:S1; [|discriminate].
    destruct (answer_fires _ _ _ _ _ _ _ _ RB S1 ltac:(rewrite Co; now rewrite andb_false_r) An) as [(r' & Op' & -> & ->)|(_ & _ & _ & X)].
    2:{ apply X in Op. congruence. }
    pose proof (open_unique _ _ _ _ _ RB Op Op'). subst r'.
    assert (G : dget (pend s) r = Some k).
    { destruct (q_told _ _ (creach_req _ _ R) r k B) as [G|G]; [exact G|]. exfalso.
      (* the request of [k] is [r]; [k] was told, so [r] has fired *)
      destruct Op as (_ & NF & _). exact (NF (told_fired h s k r R B G)). }
    cbn [cstep]. rewrite S1. cbn [fire_of]. rewrite G. cbn [switched existsb ifac owed react]. rewrite De. unfold switchNow.
    pose proof (j_inner _ _ (reach_tinv _ _ _ (R_step _ _ _ _ _ _ _ RB S1))) as Ji. rewrite outs_of_snoc, inners_app in Ji. cbn in Ji. rewrite app_nil_r in Ji.
    destruct (build k) as [p| |].
    - unfold switchTo. cbn [jst]. destruct (inner j) eqn:Hi.
      + do 2 eexists. split; [reflexivity|]. split; [cbn; auto|]. intros p' _ N. rewrite N in Ji. discriminate.
      + do 2 eexists. split; [reflexivity|]. split; [cbn; auto|]. intros p' E _. injection E as ->. cbn. auto.
    - cbn [jst]. destruct (inner j); (do 2 eexists; split; [reflexivity|]; split; [cbn; auto|discriminate]).
    - do 2 eexists. split; [reflexivity|]. split; [cbn; auto|discriminate].
  Qed.

  (** every other end of the request *)
  Lemma else_fails h s k r e s' o f : CReach h s -> In (CBegun k (Some r)) h -> cstep s (CE e) = Some (s', o) -> ~ In r (fired (outs_of (base h))) ->
    In (OFire r f) (outs_of (base o)) -> (forall b, f = Answered b -> decode k b = false) -> In (FFailed k) o.
  Proof.
    intros R B E NF F De. pose proof (c_base _ _ (creach_inv _ _ R)) as RB. cbn [cstep] in E.
    destruct (step d (jst s) e) as [[[j o1] x]|] eqn:S1; [|discriminate].
    assert (G : dget (pend s) r = Some k).
    { destruct (q_told _ _ (creach_req _ _ R) r k B) as [G|G]; [exact G|]. exfalso. exact (NF (told_fired h s k r R B G)). }
    assert (F1 : In (OFire r f) o1).
    { destruct (fire_of o1) as [[r0 f0]|]; [destruct (dget (pend s) r0) as [k0|]|]; [|injection E as _ <-; cbn in F; rewrite app_nil_r in F; exact F..].
      cbn [ifac owed] in E. destruct (react _ _ _) as [s2 os] eqn:Re in E. injection E as _ <-. cbn [base flat_map app outs_of outs] in F. apply in_app_or in F as [F|F]; [exact F|].
      destruct (react_shape _ _ _ _ _ Re) as (_ & _ & _ & _ & _ & _ & _ & _ & _ & P & _). fold (base os) (outs_of (base os)) in F.
      assert (X : In r (fired (outs_of (base os)))) by (unfold fired; apply in_flat_map; eexists; split; [exact F|now left]). rewrite P in X. destruct X. }
    destruct (fires_why _ _ _ _ _ _ _ r f RB S1 F1) as [-> _]. cbn [fire_of] in E. rewrite G in E. cbn [switched existsb ifac owed] in E.
    unfold react in E. destruct f as [b| |]; [rewrite (De b eq_refl) in E|..]; injection E as _ <-; cbn; auto.
  Qed.
End Client.
