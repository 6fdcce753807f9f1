(** * epsilon/juice.py: receiving bytes when the protocol may be switched *)

From Coq Require Import ZArith NArith String List Bool Arith Lia.
From Verif Require Import Py PyStr PyNum PyInt Utf8 Liner JuiceCodec JuiceStream.
Import ListNotations.
Open Scope nat_scope.

(** What the connection hands out: a box to [juiceBoxReceived]; the transport
    to the inner protocol ([makeConnection]); data to the inner protocol *)
Inductive tev := TBox (b : dict str str) | TConn | TData (d : str).

Section Switch.
  Variable ulower : str -> str.
  (** the state of the protocol and of the inner protocol; [sw]: an inner
      protocol is set (juice.py:782 [innerProtocol]) *)
  Variable S : Type.
  Variable sw : S -> bool.
  (** [juiceBoxReceived], including all the callbacks it runs: it may switch
      ([_switchTo], juice.py:784-794), raise, and disconnect *)
  Variable recv : S -> dict str str -> S * option exn * bool.
  (** [dataReceived] of the inner protocol: may raise, and disconnect *)
  Variable idata : S -> str -> S * option exn * bool.

  (** [_requestBuffer]; [_bodyRemaining], [_bodyBuffer] (joined) and
      [_pendingBox]; the rest; what was handed out so far *)
  Record sapp := SA { s_req : list str; s_pend : option (Z * str * dict str str); s_st : S; s_tr : list tev }.

  (** juice.py:784-794 [_switchTo] connects the new protocol *)
  Definition conn (was now : bool) : list tev := if negb was && now then [TConn] else [].

  (** juice.py:880-893 [lineReceived]; a switch sets raw mode (791) *)
  Definition sline (a : sapp) (l : str) : sapp * lact :=
    match l with
    | _ :: _ => (SA (s_req a ++ [l]) (s_pend a) (s_st a) (s_tr a), Build_lact false false None)
    | [] =>
        match parseJuiceHeaders ulower (s_req a) with
        | Err e => (SA [] (s_pend a) (s_st a) (s_tr a), Build_lact false false (Some e))
        | Ok (n, b) =>
            if Z.eqb n 0 then
              let '(s, e, d) := recv (s_st a) b in
              (SA [] (s_pend a) s (s_tr a ++ TBox b :: conn (sw (s_st a)) (sw s)), Build_lact (sw s) d e)
            else (SA [] (Some (n, [], b)) (s_st a) (s_tr a), Build_lact true false None)
        end
    end.

  (** [innerProtocol.dataReceived(data)] *)
  Definition inner_data (a : sapp) (data : str) : sapp * ract * bool :=
    let '(s, e, d) := idata (s_st a) data in
    (SA (s_req a) (s_pend a) s (s_tr a ++ [TData data]),
     match e with Some e => RRaise (length data) e | None => RStay end, d).

  (** juice.py:895-918 [rawDataReceived].  After a switch by a box with a body
      the inner protocol is connected a second time (911). *)
  Definition sraw (a : sapp) (data : str) : sapp * ract * bool :=
    if sw (s_st a) then inner_data a data
    else match s_pend a with
    | None => (a, RRaise 1 AttributeError, false)
    | Some (n, bb, b) =>
        let rem := (n - Z.of_nat (length data))%Z in
        if (rem <=? 0)%Z then
          let '(part, extra) := split_body data rem in
          match utf8_decode (bb ++ part) with
          | Err e => (SA (s_req a) None (s_st a) (s_tr a), RRaise (Nat.max 1 (length part)) e, false)
          | Ok t =>
              let '(s, e, d) := recv (s_st a) (dset b BODY t) in
              let a1 := SA (s_req a) None s (s_tr a ++ TBox (dset b BODY t) :: conn (sw (s_st a)) (sw s)) in
              match e with
              | Some e => (a1, RRaise (Nat.max 1 (length part)) e, d)
              | None =>
                  if sw s then
                    let a2 := SA (s_req a1) (s_pend a1) s (s_tr a1 ++ [TConn]) in
                    match extra with
                    | [] => (a2, RStay, d)
                    | _ => let '(a3, r, d') := inner_data a2 extra in (a3, r, d || d')
                    end
                  else (a1, RLine (length part), d)
              end
          end
        else (SA (s_req a) (Some (rem, bb ++ data, b)) (s_st a) (s_tr a), RStay, false)
    end.

  (** Anything else that happens to the protocol between two arrivals of data;
      a switch then sets raw mode and leaves the line buffer alone. *)
  Definition between (p : proto sapp) (f : S -> S) : proto sapp :=
    let a := app_ p in
    let s := f (s_st a) in
    P (lm p && negb (negb (sw (s_st a)) && sw s)) (buf p) (disc p)
      (SA (s_req a) (s_pend a) s (s_tr a ++ conn (sw (s_st a)) (sw s))).

  (** a switch is for ever: [_switchTo] asserts there is no inner protocol, and
      nothing resets it *)
  Hypothesis recv_sw : forall s b, sw s = true -> sw (fst (fst (recv s b))) = true.
  Hypothesis idata_sw : forall s d, sw s = true -> sw (fst (fst (idata s d))) = true.

  Inductive op := Chunk (d : str) | App (f : S -> S).

  Definition sstart (s : S) : proto sapp := start (SA [] None s []).

  (** what can happen as long as nothing was raised and the transport is not
      disconnecting *)
  Inductive Run (s0 : S) : list op -> proto sapp -> res unit -> Prop :=
  | Run_nil : Run s0 [] (sstart s0) (Ok tt)
  | Run_chunk ops p d p' r l : Run s0 ops p (Ok tt) -> disc p = false ->
      dataReceived sline sraw p d = Some (p', r, l) -> Run s0 (ops ++ [Chunk d]) p' r
  | Run_app ops p f : Run s0 ops p (Ok tt) -> disc p = false ->
      (forall s, sw s = true -> sw (f s) = true) -> Run s0 (ops ++ [App f]) (between p f) (Ok tt).

  Definition arrived (ops : list op) : str :=
    concat (map (fun o => match o with Chunk d => d | App _ => [] end) ops).
  Definition boxes (tr : list tev) : list (dict str str) :=
    flat_map (fun t => match t with TBox b => [b] | _ => [] end) tr.
  Definition data (tr : list tev) : str :=
    concat (map (fun t => match t with TData d => d | _ => [] end) tr).

  (** a receiver that only collects boxes *)
  Definition seen (x : str) : bstate (japp (list (dict str str))) := bfin ulower collect (at_line [] None []) x.
  (** the boxes that are complete in [x]; what [x] holds beyond them and beyond
      the last complete line *)
  Definition boxes_in (x : str) : list (dict str str) := jst (b_app (seen x)).
  Definition unread (x : str) : str := b_acc (seen x).

  Definition is_box (t : tev) : bool := match t with TBox _ => true | _ => false end.
  Definition boxes_first (tr : list tev) : Prop :=
    exists rest, tr = map TBox (boxes tr) ++ rest /\ Forall (fun t => is_box t = false) rest.

  Lemma boxes_app t1 t2 : boxes (t1 ++ t2) = boxes t1 ++ boxes t2.
  Proof. apply flat_map_app. Qed.
  Lemma data_app t1 t2 : data (t1 ++ t2) = data t1 ++ data t2.
  Proof. unfold data. now rewrite map_app, concat_app. Qed.
  Lemma boxes_conn a b : boxes (conn a b) = [].
  Proof. now destruct a, b. Qed.
  Lemma data_conn a b : data (conn a b) = [].
  Proof. now destruct a, b. Qed.
  Lemma boxes_map bs : boxes (map TBox bs) = bs.
  Proof. induction bs as [|b bs IH]; [reflexivity|]. cbn. now f_equal. Qed.
  Lemma data_map bs : data (map TBox bs) = [].
  Proof. induction bs as [|b bs IH]; [reflexivity|]. exact IH. Qed.
  Lemma first_only tr : tr = map TBox (boxes tr) -> boxes_first tr.
  Proof. intros E. exists []. now rewrite app_nil_r. Qed.
  Lemma first_more tr t : boxes_first tr -> Forall (fun t => is_box t = false) t -> boxes_first (tr ++ t).
  Proof.
    intros (rest & E & Hr) Ht. exists (rest ++ t).
    assert (Eb : boxes t = []). { clear -Ht. induction Ht as [|[]]; cbn in *; auto; discriminate. }
    rewrite boxes_app, Eb, app_nil_r, app_assoc, <- E. split; [reflexivity|]. apply Forall_app. auto.
  Qed.
  Lemma first_box tr b t : tr = map TBox (boxes tr) -> Forall (fun t => is_box t = false) t -> boxes_first (tr ++ TBox b :: t).
  Proof.
    intros E Ht. change (TBox b :: t) with ([TBox b] ++ t). rewrite app_assoc. apply first_more; [|exact Ht].
    apply first_only. rewrite boxes_app. cbn. rewrite map_app. cbn. now rewrite <- E.
  Qed.
  Lemma conn_nobox a b : Forall (fun t => is_box t = false) (conn a b).
  Proof. destruct a, b; cbn; repeat constructor. Qed.

  Lemma seen_app x y : seen (x ++ y) = bfin ulower collect (seen x) y.
  Proof. apply bfin_app. Qed.

  (** the collecting receiver is where the real one is *)
  Definition here (p : proto sapp) : bstate (japp (list (dict str str))) :=
    B (lm p) [] None (J (s_req (app_ p)) (s_pend (app_ p)) (boxes (s_tr (app_ p)))).

  Record Pre (X b : str) (p : proto sapp) : Prop := {
    pre_sw : sw (s_st (app_ p)) = false;
    pre_tr : s_tr (app_ p) = map TBox (boxes (s_tr (app_ p)));
    pre_nil : b = [] -> seen X = here p;
    pre_raw : lm p = false -> seen X = here p;
    pre_seen : exists k, k <= length b /\ (if lm p then find CRLF (firstn k b) = None else k = 0) /\
      forall b1 b2, b = b1 ++ b2 -> b1 <> [] -> k <= length b1 -> seen (X ++ b1) = bfin ulower collect (here p) b1
  }.

  (** the last byte of [K] completes a box *)
  Definition ends_box (K : str) : Prop :=
    exists K0 c, K = K0 ++ [c] /\ length (boxes_in K0) < length (boxes_in K).

  Definition Post (Q : str -> Prop) (X : str) (p : proto sapp) (r : res unit) : Prop :=
    exists K R, X = K ++ R /\ boxes (s_tr (app_ p)) = boxes_in K /\ boxes_first (s_tr (app_ p)) /\
      (r = Ok tt -> disc p = false ->
         if sw (s_st (app_ p)) then Q K /\ lm p = false /\ data (s_tr (app_ p)) ++ buf p = unread K ++ R
         else R = [] /\ seen K = B (lm p) (buf p) None (J (s_req (app_ p)) (s_pend (app_ p)) (boxes (s_tr (app_ p)))) /\
              s_tr (app_ p) = map TBox (boxes (s_tr (app_ p))) /\ settled p /\ exists X0, X = X0 ++ buf p).

  Lemma pre_strong X b p : sw (s_st (app_ p)) = false ->
    s_tr (app_ p) = map TBox (boxes (s_tr (app_ p))) -> seen X = here p -> Pre X b p.
  Proof.
    intros H2 H3 H4. split; auto. exists 0. split; [apply Nat.le_0_l|]. split; [now destruct (lm p)|].
    intros b1 b2 _ _ _. now rewrite seen_app, H4.
  Qed.

  (** the collecting receiver reads a line *)
  Lemma bfin_a_line (rq : list str) pn bs l : find CRLF (l ++ [CR]) = None ->
    bfin ulower collect (B true [] None (J rq pn bs)) (l ++ CRLF) =
    match l with
    | _ :: _ => B true [] None (J (rq ++ [l]) pn bs)
    | [] => match parseJuiceHeaders ulower rq with
            | Err e => B true [] (Some (Some e)) (J [] pn bs)
            | Ok (n, b) => if Z.eqb n 0 then B true [] None (J [] pn (bs ++ [b]))
                           else B false [] None (J [] (Some (n, [], b)) bs)
            end
    end.
  Proof.
    intros Hf. destruct l as [|c l].
    - apply (bfin_blank ulower _ collect rq pn bs).
    - unfold bfin. rewrite <- (app_nil_r CRLF), brun_line by exact Hf. reflexivity.
  Qed.

  Lemma bfin_raw (a : japp (list (dict str str))) d : d <> [] ->
    bfin ulower collect (B false [] None a) d =
    let '(a1, r, _) := jraw collect a d in
    match r with
    | RStay => B false [] None a1
    | RRaise n e => B false [] (Some (Some e)) a1
    | RLine n => bfin ulower collect (B true [] None a1) (skipn n d)
    end.
  Proof.
    intros Hd. rewrite (jraw_bytes ulower) by exact Hd. unfold bfin, rawR. rewrite brun_raw.
    destruct (rawrun (jbyte collect) a d) as [a1 r]. destruct r; try reflexivity.
    destruct (brun _ _ (B true [] None a1) (skipn n d)) as [s2 l2]. reflexivity.
  Qed.

  Lemma sline_nil a : sline a [] =
    match parseJuiceHeaders ulower (s_req a) with
    | Err e => (SA [] (s_pend a) (s_st a) (s_tr a), Build_lact false false (Some e))
    | Ok (n, b) =>
        if Z.eqb n 0 then
          let '(s, e, d) := recv (s_st a) b in
          (SA [] (s_pend a) s (s_tr a ++ TBox b :: conn (sw (s_st a)) (sw s)), Build_lact (sw s) d e)
        else (SA [] (Some (n, [], b)) (s_st a) (s_tr a), Build_lact true false None)
    end.
  Proof. reflexivity. Qed.
  Lemma sraw_eq a data : sraw a data =
    if sw (s_st a) then inner_data a data
    else match s_pend a with
    | None => (a, RRaise 1 AttributeError, false)
    | Some (n, bb, b) =>
        let rem := (n - Z.of_nat (length data))%Z in
        if (rem <=? 0)%Z then
          let '(part, extra) := split_body data rem in
          match utf8_decode (bb ++ part) with
          | Err e => (SA (s_req a) None (s_st a) (s_tr a), RRaise (Nat.max 1 (length part)) e, false)
          | Ok t =>
              let '(s, e, d) := recv (s_st a) (dset b BODY t) in
              let a1 := SA (s_req a) None s (s_tr a ++ TBox (dset b BODY t) :: conn (sw (s_st a)) (sw s)) in
              match e with
              | Some e => (a1, RRaise (Nat.max 1 (length part)) e, d)
              | None =>
                  if sw s then
                    let a2 := SA (s_req a1) (s_pend a1) s (s_tr a1 ++ [TConn]) in
                    match extra with
                    | [] => (a2, RStay, d)
                    | _ => let '(a3, r, d') := inner_data a2 extra in (a3, r, d || d')
                    end
                  else (a1, RLine (length part), d)
              end
          end
        else (SA (s_req a) (Some (rem, bb ++ data, b)) (s_st a) (s_tr a), RStay, false)
    end.
  Proof. reflexivity. Qed.

  Lemma go_after f p b p' r l : disc p = false -> sw (s_st (app_ p)) = true -> lm p = false ->
    go sline sraw f p b = Some (p', r, l) ->
    (b = [] /\ p' = P false [] false (app_ p) /\ r = Ok tt) \/
    (b <> [] /\ exists s e d, idata (s_st (app_ p)) b = (s, e, d) /\
       p' = P false [] d (SA (s_req (app_ p)) (s_pend (app_ p)) s (s_tr (app_ p) ++ [TData b])) /\
       r = match e with Some e => Err e | None => Ok tt end).
  Proof.
    intros Hd Hs Hl Hg. destruct f as [|f]; [discriminate|]. cbn [go] in Hg. rewrite Hl, Hd in Hg.
    destruct (eqb_spec b []) as [->|Hb].
    - left. injection Hg as <- <- <-. auto.
    - right. split; [exact Hb|]. rewrite sraw_eq, Hs in Hg. unfold inner_data in Hg.
      destruct (idata (s_st (app_ p)) b) as [[s e] d]. exists s, e, d.
      destruct e; injection Hg as <- <- <-; auto.
  Qed.

  Lemma split_body_eq d r : (r <= 0)%Z -> d = fst (split_body d r) ++ snd (split_body d r).
  Proof.
    intros Hr. unfold split_body. destruct (r <? 0)%Z; cbn [fst snd]; [|now rewrite app_nil_r].
    unfold upto, from. now rewrite firstn_skipn.
  Qed.

  Lemma go_sim : forall f X b p p' r l, Pre X b p -> go sline sraw f p b = Some (p', r, l) -> Post ends_box (X ++ b) p' r.
  Proof.
    induction f as [|f IH]; intros X b p p' r l HP Hg; [discriminate|].
    destruct HP as [Hs Htr Hnil Hraw (k & Hkb & Hk & Hse)].
    assert (Hseen : forall b1 b2, b = b1 ++ b2 -> b1 <> [] -> (lm p = true -> find CRLF b1 = None -> b2 = []) ->
      seen (X ++ b1) = bfin ulower collect (here p) b1).
    { intros b1 b2 E1 Hb1 Hc. apply (Hse _ _ E1 Hb1). destruct (lm p); [|lia].
      destruct (find CRLF b1) as [i|] eqn:Ef.
      - destruct (le_lt_dec k (length b1)) as [Hl|Hl]; [exact Hl|]. exfalso.
        assert (E2 : firstn k b = b1 ++ firstn (k - length b1) b2).
        { rewrite E1, firstn_app. f_equal. apply firstn_all2. lia. }
        rewrite E2 in Hk. apply find_None_app in Hk. congruence.
      - rewrite (Hc eq_refl eq_refl), app_nil_r in E1. now subst. }
    cbn [go] in Hg.
    destruct (lm p) eqn:El.
    - destruct (find CRLF b) as [e|] eqn:Ef.
      + destruct (find_split _ Ef) as (Eb & _ & Hcr). set (ln := firstn e b) in *. set (rest := skipn (e + length CRLF) b) in *.
        assert (Eb' : b = (ln ++ CRLF) ++ rest). { rewrite <- app_assoc. exact Eb. }
        assert (HK : seen (X ++ ln ++ CRLF) = bfin ulower collect (here p) (ln ++ CRLF)).
        { apply (Hseen _ rest Eb'); [destruct ln; discriminate|]. intros _ Hn. exfalso.
          revert Hn. apply suffix_found, suffixb_CRLF. }
        unfold here in HK. rewrite El in HK. rewrite (bfin_a_line _ _ _ _ Hcr) in HK.
        destruct ln as [|c ln'] eqn:Eln.
        * (* a blank line *)
          cbn [app] in HK, Eb'. rewrite sline_nil in Hg. destruct (parseJuiceHeaders ulower (s_req (app_ p))) as [[n bx]|er].
          2:{ cbn in Hg. injection Hg as <- <- <-. exists (X ++ CRLF), rest.
              split; [rewrite Eb' at 1; now rewrite <- app_assoc|]. unfold boxes_in. rewrite HK. cbn [app_ s_tr b_app jst].
              split; [reflexivity|]. split; [now apply first_only|]. discriminate. }
          destruct (Z.eqb n 0) eqn:En.
          -- destruct (recv (s_st (app_ p)) bx) as [[s e0] d]. cbn [l_raw l_disc l_exn] in Hg. rewrite Hs in Hg.
             assert (Hbx : boxes (s_tr (app_ p) ++ TBox bx :: conn false (sw s)) = boxes_in (X ++ CRLF)).
             { unfold boxes_in. rewrite HK. cbn [b_app jst]. rewrite boxes_app. f_equal. cbn. now rewrite boxes_conn. }
             assert (Hbf : boxes_first (s_tr (app_ p) ++ TBox bx :: conn false (sw s))).
             { apply first_box; [exact Htr|apply conn_nobox]. }
             assert (Hend : ends_box (X ++ CRLF)).
             { exists (X ++ [CR]), LF. split; [now rewrite <- app_assoc|].
               assert (HK0 : seen (X ++ [CR]) = B true [CR] None (J (s_req (app_ p)) (s_pend (app_ p)) (boxes (s_tr (app_ p))))).
               { rewrite (Hse [CR] (LF :: rest) Eb' ltac:(discriminate)).
                 - unfold here. rewrite El. reflexivity.
                 - cbn [length]. destruct k as [|[|k]]; [lia|lia|]. exfalso. rewrite Eb' in Hk. discriminate. }
               unfold boxes_in. rewrite HK, HK0. cbn [b_app jst]. rewrite app_length. cbn. lia. }
             assert (HXb : X ++ b = (X ++ CRLF) ++ rest) by (rewrite Eb' at 1; now rewrite <- app_assoc).
             destruct e0 as [e0|].
             { injection Hg as <- <- <-. exists (X ++ CRLF), rest. split; [exact HXb|]. cbn [app_ s_tr].
               split; [exact Hbx|]. split; [exact Hbf|]. discriminate. }
             destruct (disc p || d).
             { injection Hg as <- <- <-. exists (X ++ CRLF), rest. split; [exact HXb|]. cbn [app_ s_tr].
               split; [exact Hbx|]. split; [exact Hbf|]. discriminate. }
             destruct (go sline sraw f _ _) as [[[p2 r2] l2]|] eqn:Eg; [|discriminate]. injection Hg as <- <- <-.
             destruct (sw s) eqn:Esw.
             ++ apply go_after in Eg; [|reflexivity|exact Esw|reflexivity]. cbn [app_ s_st s_tr s_req s_pend] in Eg.
                destruct Eg as [(Er & -> & ->)|(Er & s' & e' & d' & Ei & -> & ->)].
                ** fold rest in Er. exists (X ++ CRLF), rest. split; [exact HXb|]. cbn [app_ s_tr s_st].
                   split; [exact Hbx|]. split; [exact Hbf|]. intros _ _. rewrite Esw. split; [exact Hend|]. split; [reflexivity|].
                   cbn [buf]. rewrite app_nil_r, data_app. unfold unread. rewrite HK, Er. cbn [b_acc app].
                   rewrite Htr, data_map. reflexivity.
                ** fold rest in Er, Ei. exists (X ++ CRLF), rest. split; [exact HXb|]. cbn [app_ s_tr s_st lm buf].
                   split; [rewrite boxes_app; cbn; rewrite app_nil_r; exact Hbx|].
                   split; [apply first_more; [exact Hbf|repeat constructor]|]. intros _ _.
                   pose proof (idata_sw s rest Esw) as Hsw'. rewrite Ei in Hsw'. cbn [fst] in Hsw'. rewrite Hsw'.
                   split; [exact Hend|]. split; [reflexivity|]. rewrite app_nil_r, !data_app. unfold unread. rewrite HK. cbn [b_acc app].
                   rewrite Htr, data_map. cbn. now rewrite app_nil_r.
             ++ rewrite HXb. eapply IH; [|exact Eg]. apply pre_strong; cbn [disc app_ s_st s_tr]; auto.
                { cbn. rewrite boxes_app. cbn. rewrite map_app. cbn. now rewrite <- Htr. }
                unfold here. cbn [lm negb app_ s_req s_pend s_tr]. rewrite HK. do 2 f_equal. rewrite boxes_app. reflexivity.
          -- (* a body follows *)
             cbn [l_raw l_disc l_exn] in Hg. rewrite orb_false_r in Hg.
             destruct (disc p).
             { injection Hg as <- <- <-. exists (X ++ CRLF), rest. split; [rewrite Eb' at 1; now rewrite <- app_assoc|].
               cbn [app_ s_tr]. split; [unfold boxes_in; now rewrite HK|]. split; [now apply first_only|discriminate]. }
             destruct (go sline sraw f _ _) as [[[p2 r2] l2]|] eqn:Eg; [|discriminate]. injection Hg as <- <- <-.
             replace (X ++ b) with ((X ++ CRLF) ++ rest) by (rewrite Eb' at 1; now rewrite <- app_assoc).
             eapply IH; [|exact Eg]. apply pre_strong; cbn [disc app_ s_st s_tr]; auto.
        * (* a header line *)
          cbn [sline l_raw l_disc l_exn] in Hg. rewrite orb_false_r in Hg.
          destruct (disc p).
          { injection Hg as <- <- <-. exists (X ++ (c :: ln') ++ CRLF), rest.
            split; [rewrite Eb' at 1; now rewrite <- !app_assoc|].
            cbn [app_ s_tr]. split; [unfold boxes_in; now rewrite HK|]. split; [now apply first_only|discriminate]. }
          destruct (go sline sraw f _ _) as [[[p2 r2] l2]|] eqn:Eg; [|discriminate]. injection Hg as <- <- <-.
          replace (X ++ b) with ((X ++ (c :: ln') ++ CRLF) ++ rest) by (rewrite Eb' at 1; now rewrite <- !app_assoc).
          eapply IH; [|exact Eg]. apply pre_strong; cbn [disc app_ s_st s_tr]; auto.
      + injection Hg as <- <- <-. exists (X ++ b), []. rewrite app_nil_r. split; [reflexivity|]. cbn [app_ s_tr s_st lm buf].
        assert (HK : seen (X ++ b) = B true b None (J (s_req (app_ p)) (s_pend (app_ p)) (boxes (s_tr (app_ p))))).
        { destruct b as [|c b'].
          - rewrite app_nil_r. rewrite Hnil by reflexivity. unfold here. now rewrite El.
          - rewrite (Hseen (c :: b') []) by (rewrite ?app_nil_r; auto; congruence).
            unfold here, bfin. rewrite El, brun_noline by exact Ef. reflexivity. }
        split; [unfold boxes_in; now rewrite HK|]. split; [now apply first_only|]. intros _ _. rewrite Hs.
        repeat split; auto. now exists X.
    - specialize (Hraw eq_refl). destruct (disc p) eqn:Hd.
      { injection Hg as <- <- <-. exists X, b. split; [reflexivity|]. cbn [app_ s_tr].
        split; [unfold boxes_in; now rewrite Hraw|]. split; [now apply first_only|discriminate]. }
      destruct (eqb_spec b []) as [->|Hb].
      { injection Hg as <- <- <-. exists X, []. split; [reflexivity|]. cbn [app_ s_tr s_st lm buf].
        split; [unfold boxes_in; now rewrite Hraw|]. split; [now apply first_only|]. intros _ _. rewrite Hs.
        split; [reflexivity|]. split; [rewrite Hraw; unfold here; now rewrite El|]. split; [exact Htr|]. split; [reflexivity|]. now exists X. }
      rewrite sraw_eq, Hs in Hg.
      assert (Hwk : forall q e, app_ q = app_ p \/ app_ q = SA (s_req (app_ p)) None (s_st (app_ p)) (s_tr (app_ p)) ->
                    Post ends_box (X ++ b) q (Err e)).
      { intros q e Hq. exists X, b. split; [reflexivity|].
        assert (Et : s_tr (app_ q) = s_tr (app_ p)) by (destruct Hq as [-> | ->]; reflexivity). rewrite Et.
        split; [unfold boxes_in; now rewrite Hraw|]. split; [now apply first_only|]. discriminate. }
      destruct (s_pend (app_ p)) as [[[n bb] bx]|] eqn:Ep.
      2:{ injection Hg as <- <- <-. apply Hwk. now left. }
      cbv zeta in Hg. set (rem := (n - Z.of_nat (length b))%Z) in *.
      destruct (rem <=? 0)%Z eqn:Er.
      2:{ injection Hg as <- <- <-. exists (X ++ b), []. rewrite app_nil_r. split; [reflexivity|].
          assert (HK : seen (X ++ b) = B false [] None (J (s_req (app_ p)) (Some (rem, bb ++ b, bx)) (boxes (s_tr (app_ p))))).
          { rewrite (Hseen b []) by (rewrite ?app_nil_r; auto). unfold here. rewrite El, (bfin_raw _ b Hb).
            unfold jraw. cbn [pend reqbuf jst]. rewrite Ep. fold rem. now rewrite Er. }
          cbn [app_ s_tr s_st s_req s_pend lm buf].
          split; [unfold boxes_in; now rewrite HK|]. split; [now apply first_only|]. intros _ _. rewrite Hs.
          repeat split; auto. exists (X ++ b). now rewrite app_nil_r. }
      apply Z.leb_le in Er. pose proof (split_body_eq b rem Er) as Esp.
      destruct (split_body b rem) as [part extra] eqn:Esb. cbn [fst snd] in Esp.
      destruct (utf8_decode (bb ++ part)) as [t|er] eqn:Eu.
      2:{ injection Hg as <- <- <-. apply Hwk. now right. }
      (* the collecting receiver has the box at K *)
      set (a1 := J (s_req (app_ p)) None (boxes (s_tr (app_ p)) ++ [dset bx BODY t])).
      assert (Hfull : forall b1 b2, b = b1 ++ b2 -> b1 <> [] -> length part <= length b1 ->
                seen (X ++ b1) = bfin ulower collect (B true [] None a1) (skipn (length part) b1)).
      { intros b1 b2 E1 Hb1 Hlen. rewrite (Hseen b1 b2 E1 Hb1) by congruence. unfold here. rewrite El, (bfin_raw _ b1 Hb1).
        unfold jraw. cbn [pend reqbuf jst]. rewrite Ep.
        assert (Hpart : length part = Z.to_nat n \/ (length part = 0 /\ (n <= 0)%Z)).
        { unfold split_body in Esb. destruct (Z.ltb_spec rem 0).
          - injection Esb as <- _. unfold upto. rewrite firstn_length. unfold rem in *. destruct (Z.leb_spec n 0); [right|left]; lia.
          - injection Esb as <- _. unfold rem in *. left. lia. }
        assert (Hn1 : (n - Z.of_nat (length b1) <= 0)%Z) by lia.
        apply Z.leb_le in Hn1. rewrite Hn1.
        assert (Esb1 : fst (split_body b1 (n - Z.of_nat (length b1))) = part).
        { assert (Epf : part = firstn (length part) b1).
          { assert (E2 : firstn (length part) b = part) by (rewrite Esp, firstn_app, Nat.sub_diag, firstn_all; cbn; apply app_nil_r).
            rewrite <- E2 at 1. rewrite E1, firstn_app. replace (length part - length b1) with 0 by lia. cbn. apply app_nil_r. }
          rewrite Epf at 1. unfold split_body. destruct (Z.ltb_spec (n - Z.of_nat (length b1)) 0); cbn [fst].
          - unfold upto. f_equal. lia.
          - apply Z.leb_le in Hn1. rewrite firstn_all2 by lia. reflexivity. }
        destruct (split_body b1 (n - Z.of_nat (length b1))) as [part1 extra1]. cbn [fst] in Esb1. subst part1. rewrite Eu.
        reflexivity. }
      assert (HK : exists K, exists R, X ++ b = K ++ R /\ boxes_in K = boxes (s_tr (app_ p)) ++ [dset bx BODY t] /\
                   unread K ++ R = extra /\ ends_box K).
      { destruct part as [|c part'] eqn:Epart.
        - destruct b as [|c b']; [congruence|]. exists (X ++ [c]), b'. split; [now rewrite <- app_assoc|].
          assert (HS : seen (X ++ [c]) = B true [c] None a1).
          { rewrite (Hfull [c] b' eq_refl ltac:(discriminate)) by (cbn; lia). cbn [skipn length].
            unfold bfin. rewrite brun_noline; [reflexivity|]. cbn [app find]. destruct (prefixb CRLF [c]) eqn:Epx; [|reflexivity].
            cbn in Epx. rewrite andb_false_r in Epx. discriminate. }
          unfold boxes_in, unread. rewrite HS. cbn [b_app jst b_acc app]. split; [reflexivity|].
          split; [cbn in Esp; congruence|]. exists X, c. split; [reflexivity|]. unfold boxes_in. rewrite HS, Hraw.
          cbn [b_app jst here a1]. rewrite app_length. cbn. lia.
        - rewrite <- Epart in *. exists (X ++ part), extra. split; [rewrite Esp at 1; now rewrite app_assoc|].
          assert (HS : seen (X ++ part) = B true [] None a1).
          { rewrite (Hfull part extra Esp) by (rewrite ?Epart; try discriminate; lia). rewrite skipn_all. reflexivity. }
          unfold boxes_in, unread. rewrite HS. split; [reflexivity|]. split; [reflexivity|].
          destruct (exists_last (l := part) ltac:(rewrite Epart; discriminate)) as (part0 & c0 & Ep0).
          exists (X ++ part0), c0. split; [rewrite Ep0; apply app_assoc|]. unfold boxes_in. rewrite HS.
          replace (seen (X ++ part0)) with (B false [] None (J (s_req (app_ p)) (Some ((n - Z.of_nat (length part0))%Z, bb ++ part0, bx)) (boxes (s_tr (app_ p))))).
          { cbn [b_app jst a1]. rewrite app_length. cbn. lia. }
          symmetry. rewrite seen_app, Hraw. unfold here. rewrite El, Ep. apply bfin_body_part.
          assert (Hn : (Z.of_nat (length part) <= n)%Z).
          { unfold split_body in Esb. unfold rem in *. destruct (Z.ltb_spec (n - Z.of_nat (length b)) 0).
            - injection Esb as E1 _. rewrite <- E1. unfold upto. rewrite firstn_length.
              assert (length part <> 0) by (rewrite Epart; discriminate). rewrite <- E1 in H0. unfold upto in H0. rewrite firstn_length in H0. lia.
            - injection Esb as E1 _. rewrite <- E1. lia. }
          rewrite Ep0, app_length in Hn. cbn in Hn. lia. }
      destruct HK as (K & R & HX & HKb & HKu & Hend).
      destruct (recv (s_st (app_ p)) (dset bx BODY t)) as [[s e0] d] eqn:Erecv.
      assert (Hbx : boxes (s_tr (app_ p) ++ TBox (dset bx BODY t) :: conn false (sw s)) = boxes_in K).
      { rewrite HKb, boxes_app. f_equal. cbn. now rewrite boxes_conn. }
      assert (Hbf : boxes_first (s_tr (app_ p) ++ TBox (dset bx BODY t) :: conn false (sw s))).
      { apply first_box; [exact Htr|apply conn_nobox]. }
      destruct e0 as [e0|].
      { injection Hg as <- <- <-. exists K, R. split; [exact HX|]. cbn [app_ s_tr].
        split; [exact Hbx|]. split; [exact Hbf|]. discriminate. }
      destruct (sw s) eqn:Esw.
      + cbn [s_req s_pend s_tr] in Hg. destruct extra as [|c extra'] eqn:Eex.
        * injection Hg as <- <- <-. exists K, R. split; [exact HX|]. cbn [app_ s_tr s_st lm buf].
          split; [rewrite boxes_app; cbn; rewrite app_nil_r; exact Hbx|].
          split; [apply first_more; [exact Hbf|repeat constructor]|]. intros _ _. rewrite Esw. split; [exact Hend|]. split; [reflexivity|].
          rewrite HKu, !data_app, Htr, data_map. reflexivity.
        * unfold inner_data in Hg. cbn [s_st s_req s_pend s_tr] in Hg.
          destruct (idata s (c :: extra')) as [[s' e'] d'] eqn:Ei.
          pose proof (idata_sw s (c :: extra') Esw) as Hsw'. rewrite Ei in Hsw'. cbn [fst] in Hsw'.
          assert (G : forall q rr, app_ q = SA (s_req (app_ p)) None s'
                     (((s_tr (app_ p) ++ TBox (dset bx BODY t) :: conn false true) ++ [TConn]) ++ [TData (c :: extra')]) ->
                     lm q = false -> buf q = [] -> Post ends_box (X ++ b) q rr).
          { intros q rr Eq Hlq Hbq. exists K, R. split; [exact HX|]. rewrite Eq, Hbq. cbn [s_tr s_st].
            split; [rewrite !boxes_app in *; cbn in *; rewrite !app_nil_r; exact Hbx|].
            split; [do 2 (apply first_more; [|repeat constructor]); exact Hbf|]. intros _ _. rewrite Hsw'. split; [exact Hend|]. split; [exact Hlq|].
            rewrite HKu, !data_app, Htr, data_map. cbn. now rewrite !app_nil_r. }
          destruct e' as [e'|]; injection Hg as <- <- <-; apply G; reflexivity.
      + destruct (eqb_spec (skipn (length part) b) []) as [Hnx|Hnx].
        * injection Hg as <- <- <-. 
          assert (Ex : extra = []).
          { rewrite Esp in Hnx. rewrite skipn_app, skipn_all, Nat.sub_diag in Hnx. exact Hnx. }
          assert (HX2 : seen (X ++ b) = B true [] None a1).
          { rewrite (Hfull b []) by (rewrite ?app_nil_r; auto; rewrite Esp, app_length; lia). now rewrite Hnx. }
          exists (X ++ b), []. rewrite app_nil_r. split; [reflexivity|]. cbn [app_ s_tr s_st s_req s_pend lm buf].
          assert (Eb2 : boxes (s_tr (app_ p) ++ TBox (dset bx BODY t) :: conn false false) = boxes (s_tr (app_ p)) ++ [dset bx BODY t]).
          { rewrite boxes_app. reflexivity. }
          rewrite Eb2. split; [unfold boxes_in; now rewrite HX2|]. split; [exact Hbf|]. intros _ _. rewrite Esw.
          split; [reflexivity|]. split; [exact HX2|]. split; [|split; [reflexivity|exists (X ++ b); now rewrite app_nil_r]].
          cbn [conn negb andb]. rewrite map_app. cbn [map]. now rewrite <- Htr.
        * destruct (go sline sraw f _ _) as [[[p2 r2] l2]|] eqn:Eg; [|discriminate]. injection Hg as <- <- <-.
          assert (Ex : skipn (length part) b = extra).
          { rewrite Esp. rewrite skipn_app, skipn_all, Nat.sub_diag. reflexivity. }
          rewrite Ex in *. replace (X ++ b) with ((X ++ part) ++ extra) by (rewrite Esp at 1; now rewrite app_assoc).
          eapply IH; [|exact Eg]. split; cbn [disc app_ s_st s_tr]; auto.
          -- cbn [conn negb andb]. rewrite boxes_app. cbn. rewrite map_app. cbn. now rewrite <- Htr.
          -- intros E. congruence.
          -- discriminate.
          -- exists 0. split; [apply Nat.le_0_l|]. split; [reflexivity|].
             intros b1 b2 E1 Hb1 _. rewrite <- app_assoc. rewrite (Hfull (part ++ b1) b2).
             ++ rewrite skipn_app, skipn_all, Nat.sub_diag. cbn [skipn app]. unfold here. cbn [lm app_ s_req s_pend s_tr].
                f_equal. unfold a1. do 2 f_equal. rewrite boxes_app. reflexivity.
             ++ rewrite <- app_assoc, <- E1. exact Esp.
             ++ destruct part; [exact Hb1|discriminate].
             ++ rewrite app_length. lia.
  Qed.

  Lemma arrived_app o1 o2 : arrived (o1 ++ o2) = arrived o1 ++ arrived o2.
  Proof. unfold arrived. now rewrite map_app, concat_app. Qed.

  (** ** Every schedule *)

  (** where the juice part of the stream ends: with a box, or with what had
      arrived when the protocol was switched from outside *)
  Definition switch_point (ops : list op) (K : str) : Prop :=
    ends_box K \/ exists ops1 f ops2 s, ops = ops1 ++ App f :: ops2 /\ K = arrived ops1 /\ sw s = false /\ sw (f s) = true.

  Lemma post_weaken (Q Q' : str -> Prop) X p r : (forall K, Q K -> Q' K) -> Post Q X p r -> Post Q' X p r.
  Proof.
    intros HQ (K & R & HX & Hb & Hbf & Hok). exists K, R. split; [exact HX|]. split; [exact Hb|]. split; [exact Hbf|].
    intros Hr Hd. specialize (Hok Hr Hd). destruct (sw (s_st (app_ p))); [|exact Hok]. destruct Hok as [H1 H2]. split; auto.
  Qed.

  Lemma point_more ops o K : switch_point ops K -> switch_point (ops ++ [o]) K.
  Proof.
    intros [H|(ops1 & f & ops2 & s & -> & -> & H1 & H2)]; [now left|right]. exists ops1, f, (ops2 ++ [o]), s.
    split; [now rewrite <- app_assoc|auto].
  Qed.

  Lemma chunk_post (Q : str -> Prop) X p d p' r l : disc p = false -> sw (s_st (app_ p)) = false -> Post Q X p (Ok tt) ->
    dataReceived sline sraw p d = Some (p', r, l) -> Post ends_box (X ++ d) p' r.
  Proof.
    intros Hd Es (K & R & HX & Hb & Hbf & Hok) Hg. specialize (Hok eq_refl Hd). rewrite Es in Hok. unfold dataReceived in Hg.
    destruct Hok as (-> & HK & Htr & Hset & X0 & HX0). rewrite app_nil_r in HX. subst K.
    (* the buffered bytes are seen again *)
    assert (HS : forall b1, seen (X ++ b1) =
              bfin ulower collect (B (lm p) [] None (J (s_req (app_ p)) (s_pend (app_ p)) (boxes (s_tr (app_ p))))) (buf p ++ b1)).
    { intros b1. rewrite seen_app, HK, bfin_app. f_equal. unfold settled in Hset. destruct (lm p).
      - unfold bfin. now rewrite brun_noline by exact Hset.
      - now rewrite Hset. }
    (* the bytes consumed so far *)
    destruct (buf p) as [|c bf] eqn:Ebuf.
    * cbn [app] in Hg. eapply go_sim; [|exact Hg]. apply pre_strong; auto.
    * assert (Hlm : lm p = true). { unfold settled in Hset. destruct (lm p); [reflexivity|]. rewrite Ebuf in Hset. discriminate. }
      replace (X ++ d) with (X0 ++ (c :: bf) ++ d) by (rewrite HX0, <- app_assoc; reflexivity).
      eapply go_sim; [|exact Hg]. split; auto; try discriminate; [congruence|].
        exists (length (c :: bf)). split; [rewrite app_length; lia|]. rewrite Hlm. unfold settled in Hset. rewrite Hlm, Ebuf in Hset.
        split; [rewrite firstn_app, Nat.sub_diag, firstn_all; cbn [firstn]; rewrite app_nil_r; exact Hset|].
      intros b1 b2 E1 Hb1 Hl. assert (Hlong : exists b1', b1 = (c :: bf) ++ b1').
      { exists (skipn (length (c :: bf)) b1).
        assert (E2 : firstn (length (c :: bf)) b1 = c :: bf).
        { pose proof (f_equal (firstn (length (c :: bf))) E1) as E3.
          rewrite firstn_app, Nat.sub_diag, firstn_all, firstn_app in E3.
          replace (length (c :: bf) - length b1) with 0 in E3 by lia. cbn [firstn] in E3. rewrite !app_nil_r in E3. auto. }
        rewrite <- E2 at 1. symmetry. apply firstn_skipn. }
      destruct Hlong as [b1' ->]. rewrite app_assoc, <- HX0. rewrite HS. reflexivity.
  Qed.

  Theorem run_post s0 ops p r : sw s0 = false -> Run s0 ops p r -> Post (switch_point ops) (arrived ops) p r.
  Proof.
    intros H0 HR. induction HR as [|ops p d p' r l HR IH Hd Hg|ops p f HR IH Hd Hf].
    - exists [], []. cbn. rewrite H0. split; [reflexivity|]. split; [reflexivity|]. split; [exists []; split; [reflexivity|constructor]|].
      intros _ _. repeat split. now exists [].
    - rewrite arrived_app. unfold arrived at 2. cbn. rewrite app_nil_r.
      destruct IH as (K & R & HX & Hb & Hbf & Hok). specialize (Hok eq_refl Hd).
      destruct (sw (s_st (app_ p))) eqn:Es.
      + destruct Hok as (Hq & Hlm & Hdat). unfold dataReceived in Hg. apply go_after in Hg; [|exact Hd|exact Es|exact Hlm].
        exists K, (R ++ d). split; [now rewrite HX, app_assoc|].
        destruct Hg as [(Eb & -> & ->)|(Eb & s & e & d0 & Ei & -> & ->)]; cbn [app_ s_tr s_st lm buf].
        * apply app_eq_nil in Eb as [Eb ->]. split; [exact Hb|]. split; [exact Hbf|]. intros _ _. rewrite Es.
          split; [now apply point_more|]. split; [reflexivity|]. rewrite Eb in Hdat. now rewrite !app_nil_r in *.
        * pose proof (idata_sw _ (buf p ++ d) Es) as Hsw. rewrite Ei in Hsw. cbn [fst] in Hsw.
          split; [rewrite boxes_app; cbn; now rewrite app_nil_r|].
          split; [apply first_more; [exact Hbf|repeat constructor]|]. intros _ _. rewrite Hsw. split; [now apply point_more|]. split; [reflexivity|].
          rewrite data_app, app_nil_r. cbn. rewrite app_nil_r, !app_assoc, Hdat. reflexivity.
      + eapply post_weaken; [|eapply (chunk_post (switch_point ops)); [exact Hd|exact Es| |exact Hg]]; [now left|].
        exists K, R. split; [exact HX|]. split; [exact Hb|]. split; [exact Hbf|]. intros _ _. rewrite Es. exact Hok.
    - rewrite arrived_app. unfold arrived at 2. cbn. rewrite app_nil_r.
      destruct IH as (K & R & HX & Hb & Hbf & Hok). specialize (Hok eq_refl Hd).
      exists K, R. unfold between. cbn [app_ s_tr s_st s_req s_pend lm buf disc].
      split; [exact HX|]. split; [now rewrite boxes_app, boxes_conn, app_nil_r|].
      split; [apply first_more; [exact Hbf|apply conn_nobox]|]. intros _ _.
      destruct (sw (s_st (app_ p))) eqn:Es.
      + rewrite (Hf _ Es). destruct Hok as (Hq & Hlm & Hdat). split; [now apply point_more|]. split; [now rewrite Hlm|].
        cbn [conn negb andb]. now rewrite app_nil_r.
      + destruct Hok as (-> & HK & Htr & Hset & HX0). destruct (sw (f (s_st (app_ p)))) eqn:Es'; cbn [conn negb andb].
        * split; [right; exists ops, f, [], (s_st (app_ p)); split; [reflexivity|]; split; [now rewrite HX, app_nil_r|auto]|].
          split; [apply andb_false_r|]. rewrite app_nil_r. unfold unread. rewrite HK. cbn [b_acc].
          rewrite data_app, Htr, data_map. reflexivity.
        * rewrite app_nil_r. split; [reflexivity|]. rewrite andb_true_r. split; [exact HK|]. split; [exact Htr|]. split; [exact Hset|exact HX0].
  Qed.

  (** once switched, what arrives goes to the inner protocol, whole, and no
      box is delivered *)
  Theorem after_switch s0 ops p d p' r l : sw s0 = false -> Run s0 ops p (Ok tt) -> disc p = false -> sw (s_st (app_ p)) = true ->
    dataReceived sline sraw p d = Some (p', r, l) ->
    sw (s_st (app_ p')) = true /\ buf p' = [] /\
    s_tr (app_ p') = s_tr (app_ p) ++ match buf p ++ d with [] => [] | x => [TData x] end.
  Proof.
    intros H0 HR Hd Hs Hg. destruct (run_post _ _ _ _ H0 HR) as (K & R & _ & _ & _ & Hok). specialize (Hok eq_refl Hd).
    rewrite Hs in Hok. destruct Hok as (_ & Hlm & _). unfold dataReceived in Hg. apply go_after in Hg; auto.
    destruct Hg as [(E & -> & _)|(E & s & e & d0 & Ei & -> & _)]; cbn [app_ s_tr s_st buf].
    - rewrite E, app_nil_r. auto.
    - pose proof (idata_sw _ (buf p ++ d) Hs) as Hsw. rewrite Ei in Hsw. cbn [fst] in Hsw.
      split; [exact Hsw|]. split; [reflexivity|]. destruct (buf p ++ d); [congruence|reflexivity].
  Qed.

  (** the switch happens while data is being read *)
  Theorem switch_in_chunk s0 ops p d p' l : sw s0 = false -> Run s0 ops p (Ok tt) -> disc p = false -> sw (s_st (app_ p)) = false ->
    dataReceived sline sraw p d = Some (p', Ok tt, l) -> disc p' = false -> sw (s_st (app_ p')) = true ->
    exists K R, arrived ops ++ d = K ++ R /\ ends_box K /\ boxes (s_tr (app_ p')) = boxes_in K /\
      data (s_tr (app_ p')) ++ buf p' = unread K ++ R.
  Proof.
    intros H0 HR Hd Hs Hg Hd' Hs'. pose proof (chunk_post _ _ _ _ _ _ _ Hd Hs (run_post _ _ _ _ H0 HR) Hg) as (K & R & HX & Hb & _ & Hok).
    specialize (Hok eq_refl Hd'). rewrite Hs' in Hok. destruct Hok as (Hq & _ & Hdat). exists K, R. auto.
  Qed.

  (** the switch happens between two arrivals *)
  Theorem switch_between s0 ops p f : sw s0 = false -> Run s0 ops p (Ok tt) -> disc p = false -> sw (s_st (app_ p)) = false ->
    sw (f (s_st (app_ p))) = true ->
    boxes (s_tr (app_ (between p f))) = boxes_in (arrived ops) /\ data (s_tr (app_ (between p f))) = [] /\
    buf (between p f) = unread (arrived ops).
  Proof.
    intros H0 HR Hd Hs Hf. destruct (run_post _ _ _ _ H0 HR) as (K & R & HX & Hb & _ & Hok). specialize (Hok eq_refl Hd).
    rewrite Hs in Hok. destruct Hok as (-> & HK & Htr & _). rewrite app_nil_r in HX. subst K.
    unfold between. cbn [app_ s_tr buf]. rewrite boxes_app, boxes_conn, app_nil_r. split; [exact Hb|].
    split; [now rewrite data_app, data_conn, app_nil_r, Htr, data_map|]. unfold unread. now rewrite HK.
  Qed.

  (** ** What the peer wrote: boxes, then data for the inner protocol *)
  Lemma boxes_mono x y : length (boxes_in x) <= length (boxes_in (x ++ y)).
  Proof.
    unfold boxes_in. rewrite seen_app. destruct (collect_mono ulower y (seen x)) as [t ->]. rewrite app_length. lia.
  Qed.

  Lemma prefix_or (A B C D : str) : A ++ B = C ++ D -> (exists t, C = A ++ t) \/ (exists c t, A = C ++ c :: t).
  Proof.
    revert C. induction A as [|a A IH]; intros C E; [left; now exists C|].
    destruct C as [|c C]; [right; now exists a, A|]. cbn in E. injection E as -> E.
    destruct (IH C E) as [[t ->]|(c' & t & ->)]; [left|right]; cbn; eauto.
  Qed.

  Theorem written_switch s0 ops p bs ws z : (forall s, is_ascii s = true -> ulower s = map ascii_lower s) ->
    sw s0 = false -> Run s0 ops p (Ok tt) -> disc p = false -> sw (s_st (app_ p)) = true ->
    (forall f, In (App f) ops -> forall s, sw (f s) = sw s) ->
    bs <> [] -> Forall (sendable ulower) bs -> wires bs ws -> arrived ops = concat ws ++ z ->
    length (boxes (s_tr (app_ p))) = length bs ->
    boxes (s_tr (app_ p)) = map received bs /\ data (s_tr (app_ p)) ++ buf p = z.
  Proof.
    intros Hl H0 HR Hd Hs Happ Hne Hsend Hw HX Hlen. destruct (run_post _ _ _ _ H0 HR) as (K & R & HK & Hb & _ & Hok).
    specialize (Hok eq_refl Hd). rewrite Hs in Hok. destruct Hok as (Hq & _ & Hdat).
    destruct Hq as [(K0 & c & EK & Hlt)|(ops1 & f & ops2 & s & E & _ & Hs1 & Hs2)].
    2:{ exfalso. rewrite (Happ f) in Hs2; [congruence|]. rewrite E. apply in_or_app. right. now left. }
    assert (HS : seen (concat ws) = at_line [] None (map received bs)).
    { unfold seen. now rewrite (stream_bfin ulower Hl bs ws [] Hsend Hw). }
    assert (EKw : K = concat ws).
    { rewrite HX in HK. destruct (prefix_or _ _ _ _ HK) as [[t Et]|(c' & t & Et)].
      - (* K is at least as long *)
        destruct t as [|c' t]; [now rewrite app_nil_r in Et|]. exfalso.
        destruct (exists_last (l := c' :: t) ltac:(discriminate)) as (t0 & c0 & E0). rewrite E0, app_assoc in Et.
        rewrite EK in Et. apply app_inj_tail in Et. destruct Et as [EK0 _].
        pose proof (boxes_mono (concat ws) t0) as Hm. rewrite <- EK0 in Hm. unfold boxes_in at 1 in Hm. rewrite HS in Hm.
        cbn [at_line b_app jst] in Hm. rewrite map_length in Hm. rewrite <- Hb in Hlt. lia.
      - (* K is shorter *)
        exfalso. destruct (exists_last Hne) as (bs0 & b & Ebs). subst bs.
        apply Forall2_app_inv_l in Hw. destruct Hw as (ws0 & ws1 & Hw0 & Hw1 & ->). inversion Hw1 as [|? w ? ? Hser Hnil]; subst.
        inversion Hnil; subst. apply Forall_app in Hsend. destruct Hsend as [Hsend0 Hsend1]. inversion Hsend1 as [|? ? Hsb _]; subst.
        destruct (box_wire ulower Hl b Hsb) as (w1 & c1 & Ew & Hw' & _). assert (w = w1 ++ [c1]) by congruence. subst w.
        rewrite concat_app in Et. cbn [concat] in Et. rewrite app_nil_r in Et.
        destruct (exists_last (l := c' :: t) ltac:(discriminate)) as (t0 & c0 & E0). rewrite E0, !app_assoc in Et.
        apply app_inj_tail in Et. destruct Et as [Et _].
        assert (Hn : length (boxes_in (concat ws0 ++ w1)) = length bs0).
        { unfold boxes_in. rewrite seen_app. unfold seen. rewrite (stream_bfin ulower Hl bs0 ws0 [] Hsend0 Hw0). cbn [app].
          destruct (Hw' _ collect (map received bs0)) as [-> _]. apply map_length. }
        pose proof (boxes_mono (K0 ++ [c]) t0) as Hm. rewrite <- app_assoc in Hm, Et. cbn [app] in Hm, Et. rewrite <- Et, Hn in Hm.
        rewrite <- Hb, Hlen, app_length in Hm. cbn in Hm. lia. }
    subst K. rewrite EKw in *. rewrite HX in HK. apply app_inv_head in HK. subst R.
    unfold boxes_in in Hb. unfold unread in Hdat. rewrite HS in Hb, Hdat. cbn in Hb, Hdat. auto.
  Qed.

  (** ** How often the inner protocol is connected *)
  Definition is_conn (t : tev) : bool := match t with TConn => true | _ => false end.
  Definition conns (tr : list tev) : nat := length (filter is_conn tr).
  Definition with_body (b : dict str str) : Prop := In BODY (keys b).

  (** data only after the transport *)
  Fixpoint conn_first (c : bool) (tr : list tev) : bool :=
    match tr with
    | [] => true
    | TBox _ :: t => conn_first c t
    | TConn :: t => conn_first true t
    | TData _ :: t => c && conn_first c t
    end.

  Lemma conn_first_app t1 : forall c t2, conn_first c (t1 ++ t2) = conn_first c t1 && conn_first (c || negb (conns t1 =? 0)) t2.
  Proof.
    unfold conns. induction t1 as [|[b| |d] t1 IH]; intros c t2; cbn [app conn_first filter is_conn].
    - cbn. now rewrite orb_false_r.
    - apply IH.
    - rewrite IH. cbn. now rewrite orb_true_r.
    - rewrite IH. now rewrite andb_assoc.
  Qed.

  Lemma conn_first_spec : forall tr c, conn_first c tr = true -> forall t1 d t2, tr = t1 ++ TData d :: t2 -> c = true \/ In TConn t1.
  Proof.
    induction tr as [|t tr IH]; intros c H t1 d t2 E; [now destruct t1|].
    destruct t1 as [|t1h t1]; cbn in E.
    - injection E as -> _. cbn in H. apply andb_true_iff in H. now left.
    - injection E as <- E. destruct t as [b| |d']; cbn in H.
      + destruct (IH _ H _ _ _ E); [now left|right; now right].
      + right. now left.
      + apply andb_true_iff in H. destruct H as [-> _]. now left.
  Qed.

  Definition connected (a : sapp) : Prop :=
    conn_first false (s_tr a) = true /\
    if sw (s_st a) then conns (s_tr a) = 1 \/ conns (s_tr a) = 2 /\ exists b, In b (boxes (s_tr a)) /\ with_body b
    else conns (s_tr a) = 0.

  Lemma conns_app t1 t2 : conns (t1 ++ t2) = conns t1 + conns t2.
  Proof. unfold conns. now rewrite filter_app, app_length. Qed.

  Lemma sline_connected a l : connected a -> connected (fst (sline a l)).
  Proof.
    intros H. destruct l as [|c l]; [|exact H]. rewrite sline_nil.
    destruct (parseJuiceHeaders ulower (s_req a)) as [[n b]|e]; [|exact H].
    destruct (Z.eqb n 0); [|exact H]. pose proof (recv_sw (s_st a) b) as Hsw.
    destruct (recv (s_st a) b) as [[s e] d]. cbn [fst] in *. unfold connected in *. cbn [s_st s_tr].
    change (TBox b :: conn (sw (s_st a)) (sw s)) with ([TBox b] ++ conn (sw (s_st a)) (sw s)).
    rewrite !conns_app, !boxes_app, conn_first_app. destruct H as [Hf H]. rewrite Hf. split.
    { cbn. now destruct (sw (s_st a)), (sw s). }
    destruct (sw (s_st a)); cbn.
    - rewrite (Hsw eq_refl). cbn. rewrite Nat.add_0_r. destruct H as [H|[H (b' & Hb & Hw)]]; [now left|right]. split; [exact H|].
      exists b'. rewrite !in_app_iff. auto.
    - rewrite H. destruct (sw s); cbn; auto.
  Qed.

  Lemma inner_connected a d : sw (s_st a) = true -> connected a -> connected (fst (fst (inner_data a d))).
  Proof.
    intros Hs H. unfold inner_data. pose proof (idata_sw (s_st a) d Hs) as Hsw. destruct (idata (s_st a) d) as [[s e] d0].
    cbn [fst] in *. unfold connected in *. cbn [s_st s_tr]. rewrite Hsw. rewrite Hs in H.
    destruct H as [Hf H]. rewrite conns_app, boxes_app, conn_first_app, Hf. split.
    { destruct H as [-> |[-> _]]; reflexivity. }
    cbn. now rewrite Nat.add_0_r, app_nil_r.
  Qed.

  Lemma sraw_connected a d : connected a -> connected (fst (fst (sraw a d))).
  Proof.
    intros H. rewrite sraw_eq. destruct (sw (s_st a)) eqn:Es; [now apply inner_connected|].
    destruct (s_pend a) as [[[n bb] b]|]; [|exact H]. cbv zeta.
    destruct (n - Z.of_nat (length d) <=? 0)%Z.
    2:{ exact H. }
    destruct (split_body d (n - Z.of_nat (length d))) as [part extra].
    destruct (utf8_decode (bb ++ part)) as [t|e]; [|exact H].
    destruct (recv (s_st a) (dset b BODY t)) as [[s e] d0].
    assert (H1 : connected (SA (s_req a) None s (s_tr a ++ TBox (dset b BODY t) :: conn false (sw s)))).
    { unfold connected in *. rewrite Es in H. cbn [s_st s_tr]. destruct H as [Hf H].
      change (TBox (dset b BODY t) :: conn false (sw s)) with ([TBox (dset b BODY t)] ++ conn false (sw s)).
      rewrite conn_first_app, Hf, !conns_app, H. destruct (sw s); cbn; auto. }
    destruct e as [e|]; [exact H1|]. destruct (sw s) eqn:Esw; [|exact H1].
    assert (H2 : connected (SA (s_req a) None s ((s_tr a ++ TBox (dset b BODY t) :: conn false true) ++ [TConn]))).
    { unfold connected in *. rewrite Es in H. cbn [s_st s_tr]. rewrite Esw. destruct H as [Hf H].
      split; [rewrite !conn_first_app, Hf; reflexivity|]. right.
      change (TBox (dset b BODY t) :: conn false true) with ([TBox (dset b BODY t)] ++ conn false true).
      rewrite !conns_app, H. split; [reflexivity|]. exists (dset b BODY t). rewrite !boxes_app, !in_app_iff.
      split; [cbn; auto|]. unfold with_body. eapply dget_Some_keys. apply dget_dset_eq. }
    cbn [s_req s_pend s_tr]. destruct extra as [|c extra]; [exact H2|].
    assert (H3 : connected (fst (fst (inner_data (SA (s_req a) None s ((s_tr a ++ TBox (dset b BODY t) :: conn false true) ++ [TConn])) (c :: extra)))))
      by (apply inner_connected; [exact Esw|exact H2]).
    destruct (inner_data _ (c :: extra)) as [[a3 r3] d3]. exact H3.
  Qed.

  Lemma go_connected : forall f p b p' r l, connected (app_ p) -> go sline sraw f p b = Some (p', r, l) -> connected (app_ p').
  Proof.
    induction f as [|f IH]; intros p b p' r l H Hg; [discriminate|]. cbn [go] in Hg.
    destruct (lm p).
    - destruct (find CRLF b) as [e|]; [|injection Hg as <- <- <-; exact H].
      pose proof (sline_connected _ (firstn e b) H) as H1. destruct (sline (app_ p) (firstn e b)) as [a act]. cbn [fst] in H1.
      destruct (l_exn act); [injection Hg as <- <- <-; exact H1|].
      destruct (disc p || l_disc act); [injection Hg as <- <- <-; exact H1|].
      destruct (go sline sraw f _ _) as [[[p2 r2] l2]|] eqn:Eg; [|discriminate]. injection Hg as <- <- <-.
      eapply IH; [|exact Eg]. exact H1.
    - destruct (disc p); [injection Hg as <- <- <-; exact H|]. destruct (eqb b []); [injection Hg as <- <- <-; exact H|].
      pose proof (sraw_connected _ b H) as H1. destruct (sraw (app_ p) b) as [[a act] d]. cbn [fst] in H1.
      destruct act; try (injection Hg as <- <- <-; exact H1).
      destruct (eqb (skipn n b) []); [injection Hg as <- <- <-; exact H1|].
      destruct (go sline sraw f _ _) as [[[p2 r2] l2]|] eqn:Eg; [|discriminate]. injection Hg as <- <- <-.
      eapply IH; [|exact Eg]. exact H1.
  Qed.

  Theorem run_connected s0 ops p r : sw s0 = false -> Run s0 ops p r -> connected (app_ p).
  Proof.
    intros H0 HR. induction HR as [|ops p d p' r l HR IH Hd Hg|ops p f HR IH Hd Hf].
    - unfold connected. cbn. rewrite H0. now split.
    - eapply go_connected; [exact IH|exact Hg].
    - unfold connected, between in *. cbn [app_ s_st s_tr]. rewrite conns_app, boxes_app, boxes_conn, app_nil_r.
      destruct IH as [Hc IH]. rewrite conn_first_app, Hc. split.
      { cbn. now destruct (sw (s_st (app_ p))), (sw (f (s_st (app_ p)))). }
      destruct (sw (s_st (app_ p))) eqn:Es.
      + rewrite (Hf _ Es). cbn. now rewrite Nat.add_0_r.
      + rewrite IH. destruct (sw (f (s_st (app_ p)))); cbn; auto.
  Qed.

  Theorem dataReceived_defined p d : exists r, dataReceived sline sraw p d = Some r.
  Proof. apply dataReceived_total. Qed.
End Switch.

Arguments SA {S}. Arguments s_req {S}. Arguments s_pend {S}. Arguments s_st {S}. Arguments s_tr {S}.
Arguments sline ulower {S}. Arguments sraw {S}. Arguments between {S}. Arguments Chunk {S}. Arguments App {S}.
Arguments sstart {S}. Arguments Run ulower {S}. Arguments arrived {S}.

(** an inner protocol, once set, stays *)
Definition for_ever {S} (sw : S -> bool) (recv : S -> dict str str -> S * option exn * bool)
  (idata : S -> str -> S * option exn * bool) : Prop :=
  (forall s b, sw s = true -> sw (fst (fst (recv s b))) = true) /\
  (forall s d, sw s = true -> sw (fst (fst (idata s d))) = true).
