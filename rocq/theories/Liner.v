(** * epsilon/liner.py: LineReceiver *)

From Coq Require Import NArith String List Bool Arith Lia.
From Verif Require Import Py PyStr.
Import ListNotations.
Open Scope nat_scope.

Set Implicit Arguments.

Definition CR : N := 13%N.
Definition LF : N := 10%N.
Definition CRLF : str := [CR; LF].            (* liner.py:11 *)

(** What a line handler did besides changing its own state: whether it called
    setRawMode, whether the transport is disconnecting afterwards, whether it
    raised.  Simplification: a line handler does not call setLineMode or
    dataReceived itself. *)
Record lact := { l_raw : bool; l_disc : bool; l_exn : option exn }.

(** What a raw handler did: it took all the data; or took [n] bytes and
    finally called setLineMode with the rest; or raised after [n] bytes. *)
Inductive ract := RStay | RLine (n : nat) | RRaise (n : nat) (e : exn).

(** Deliveries: lines (with "is disconnecting afterwards"), and raw data with
    the number of bytes the handler took. *)
Inductive delivery := DLine (l : str) (disc : bool) | DRaw (d : str) (n : nat).

Section Liner.
  Variable A : Type.                        (* the subclass's own state *)
  Variable lineR : A -> str -> A * lact.    (* lineReceived *)
  Variable rawR : A -> str -> A * ract * bool.  (* rawDataReceived; disconnecting *)

  Record proto := P { lm : bool; buf : str; disc : bool; app_ : A }.

  (** liner.py:8, 10 *)
  Definition start (a : A) : proto := P true [] false a.

  (** The body of [dataReceived] after the first two lines (liner.py:38-63),
      on [buffer[begin:]]; the re-entry through [setLineMode] (liner.py:19-22)
      in a raw handler is the same loop on the extra data, [self.buffer]
      being empty then.  [None]: out of fuel.  On an exception [self.buffer]
      keeps the value it has at that moment. *)
  Fixpoint go (fuel : nat) (p : proto) (b : str) : option (proto * res unit * list delivery) :=
    match fuel with
    | O => None
    | S f =>
        if lm p then
          match find CRLF b with
          | None => Some (P true b (disc p) (app_ p), Ok tt, [])
          | Some e =>
              let '(a, act) := lineR (app_ p) (firstn e b) in
              let d := disc p || l_disc act in
              let p1 := P (negb (l_raw act)) (buf p) d a in
              let ev := DLine (firstn e b) d in
              match l_exn act with
              | Some e' => Some (p1, Err e', [ev])
              | None =>
                  if d then Some (P (lm p1) [] d a, Ok tt, [ev])
                  else match go f p1 (skipn (e + length CRLF) b) with
                       | Some (p2, r, l) => Some (p2, r, ev :: l)
                       | None => None
                       end
              end
          end
        else
          let p1 := P false [] (disc p) (app_ p) in
          if disc p then Some (p1, Ok tt, [])
          else if eqb b [] then Some (p1, Ok tt, [])
          else
            let '(a, act, d) := rawR (app_ p) b in
            match act with
            | RStay => Some (P false [] d a, Ok tt, [DRaw b (length b)])
            | RRaise n e => Some (P false [] d a, Err e, [DRaw b n])
            | RLine n =>
                let extra := skipn n b in
                if eqb extra [] then Some (P true [] d a, Ok tt, [DRaw b n])
                else match go f (P true [] d a) extra with
                     | Some (p2, r, l) => Some (p2, r, DRaw b n :: l)
                     | None => None
                     end
            end
    end.

  Definition measure (p : proto) (b : str) : nat := 2 * length b + (if lm p then 0 else 1).

  (** liner.py:36-63 [dataReceived] *)
  Definition dataReceived (p : proto) (data : str) : option (proto * res unit * list delivery) :=
    let b := buf p ++ data in go (S (measure p b)) p b.

  (** a sequence of chunks; the transport delivers nothing after an exception
      or once it is disconnecting *)
  Fixpoint feed (p : proto) (chunks : list str) : option (proto * res unit * list delivery) :=
    match chunks with
    | [] => Some (p, Ok tt, [])
    | c :: t =>
        match dataReceived p c with
        | Some (p1, Ok _, l1) =>
            if disc p1 then Some (p1, Ok tt, l1)
            else match feed p1 t with
                 | Some (p2, r, l2) => Some (p2, r, l1 ++ l2)
                 | None => None
                 end
        | Some (p1, Err e, l1) => Some (p1, Err e, l1)
        | None => None
        end
    end.

  (** ** Specification *)

  (** the bytes of the stream that a delivery accounts for *)
  Fixpoint accounted (l : list delivery) : str :=
    match l with
    | [] => []
    | DLine x _ :: t => x ++ CRLF ++ accounted t
    | DRaw d n :: t => firstn n d ++ accounted t
    end.

  (** the complete lines of a stream, and the rest *)
  Fixpoint lines_of (x : str) : list str * str :=
    match x with
    | [] => ([], [])
    | c :: t =>
        match t with
        | c2 :: t2 =>
            if N.eqb c 13 && N.eqb c2 10 then let '(ls, r) := lines_of t2 in ([] :: ls, r)
            else let '(ls, r) := lines_of t in
                 match ls with [] => ([], c :: r) | l :: ls' => ((c :: l) :: ls', r) end
        | [] => ([], [c])
        end
    end.

  (** *** Basic facts about the first CRLF *)

  Lemma find_split x e : find CRLF x = Some e ->
    x = firstn e x ++ CRLF ++ skipn (e + 2) x /\ length (firstn e x) = e
    /\ find CRLF (firstn e x ++ [CR]) = None.
  Proof.
    intros H. pose proof (find_spec CRLF x) as Hs. rewrite H in Hs.
    destruct Hs as [(a & b & E & Hl) Hmin]. subst x.
    assert (F : firstn e (a ++ CRLF ++ b) = a).
    { subst e. rewrite firstn_app, Nat.sub_diag, firstn_all. cbn. now rewrite app_nil_r. }
    assert (K : skipn (e + 2) (a ++ CRLF ++ b) = b).
    { subst e. rewrite skipn_app. replace (length a + 2 - length a) with 2 by lia.
      rewrite skipn_all2 by lia. reflexivity. }
    rewrite F, K. split; [reflexivity|]. split; [exact Hl|].
    destruct (find CRLF (a ++ [CR])) as [j|] eqn:Ej; auto. exfalso.
    pose proof (find_spec CRLF (a ++ [CR])) as Hs. rewrite Ej in Hs.
    destruct Hs as [(a' & b' & E' & Hl') _].
    assert (Hj : j < e).
    { assert (Hlen : length (a ++ [CR]) = length (a' ++ CRLF ++ b')) by now rewrite E'.
      rewrite !app_length in Hlen. cbn in Hlen.
      destruct b' as [|y b']; [|cbn in Hlen; lia].
      exfalso. rewrite app_nil_r in E'. change CRLF with ([CR] ++ [LF]) in E'. rewrite app_assoc in E'.
      apply app_inj_tail in E'. destruct E' as [_ E']. discriminate. }
    apply (Hmin j Hj). exists a'.
    assert (E2 : a ++ CRLF ++ b = (a' ++ CRLF ++ b') ++ [LF] ++ b).
    { rewrite <- E'. change CRLF with ([CR] ++ [LF]). rewrite <- !app_assoc. reflexivity. }
    exists (b' ++ [LF] ++ b). rewrite E2, <- !app_assoc. auto.
  Qed.

  Lemma find_None_app x y : find CRLF (x ++ y) = None -> find CRLF x = None.
  Proof.
    intros H. destruct (find CRLF x) as [e|] eqn:E; auto. exfalso.
    pose proof (find_spec CRLF x) as Hs. rewrite E in Hs. destruct Hs as [(a & b & -> & Hl) _].
    pose proof (find_spec CRLF ((a ++ CRLF ++ b) ++ y)) as Hn. rewrite H in Hn.
    apply (Hn e). exists a, (b ++ y). rewrite <- !app_assoc. auto.
  Qed.

  Lemma find_len x e : find CRLF x = Some e -> e + 2 <= length x.
  Proof.
    intros H. destruct (find_split _ H) as (E & L & _).
    rewrite E. rewrite !app_length. cbn. lia.
  Qed.

  (** *** The fuel suffices *)
  Lemma go_total : forall f p b, measure p b < f -> exists r, go f p b = Some r.
  Proof.
    induction f as [|f IH]; intros p b Hm; [lia|]. cbn [go].
    destruct (lm p) eqn:El.
    - destruct (find CRLF b) as [e|] eqn:Ef; [|eauto].
      destruct (lineR (app_ p) (firstn e b)) as [a act]. destruct (l_exn act); [eauto|].
      destruct (disc p || l_disc act); [eauto|].
      apply find_len in Ef. unfold measure in Hm. rewrite El in Hm.
      destruct (IH (P (negb (l_raw act)) (buf p) false a) (skipn (e + length CRLF) b)) as [[[p2 r] l] E].
      { unfold measure. cbn [lm length CRLF]. rewrite skipn_length. destruct (negb _); lia. }
      rewrite E. eauto.
    - destruct (disc p); [eauto|]. destruct (eqb b []); [eauto|].
      destruct (rawR (app_ p) b) as [[a act] d]. destruct act as [|n|n e]; eauto.
      destruct (eqb (skipn n b) []); [eauto|].
      unfold measure in Hm. rewrite El in Hm.
      destruct (IH (P true [] d a) (skipn n b)) as [[[p2 r] l] E].
      { unfold measure. cbn [lm]. rewrite skipn_length. lia. }
      rewrite E. eauto.
  Qed.

  Theorem dataReceived_total p data : exists r, dataReceived p data = Some r.
  Proof. unfold dataReceived. apply go_total. lia. Qed.

  Theorem feed_total : forall chunks p, exists r, feed p chunks = Some r.
  Proof.
    induction chunks as [|c t IH]; intros p; cbn [feed]; [eauto|].
    destruct (dataReceived_total p c) as [[[p1 [[]|e]] l1] E]; rewrite E; [|eauto].
    destruct (disc p1); [eauto|]. destruct (IH p1) as [[[p2 r2] l2] E2]. rewrite E2. eauto.
  Qed.

  (** *** Conservation: every byte is delivered once and in order *)

  (** the state between two calls *)
  Definition settled (p : proto) : Prop :=
    if lm p then find CRLF (buf p) = None else buf p = [].

  Lemma go_conserves : forall f p b p' l,
    go f p b = Some (p', Ok tt, l) -> disc p' = false ->
    accounted l ++ buf p' = b /\ settled p'.
  Proof.
    induction f as [|f IH]; intros p b p' l Hg Hd; [discriminate|]. cbn [go] in Hg.
    destruct (lm p) eqn:El.
    - destruct (find CRLF b) as [e|] eqn:Ef.
      + destruct (lineR (app_ p) (firstn e b)) as [a act].
        destruct (l_exn act); [discriminate|].
        destruct (disc p || l_disc act) eqn:Edisc.
        { inversion Hg; subst. cbn [disc] in Hd. discriminate. }
        destruct (find_split _ Ef) as (Es & _ & _).
        destruct (go f _ _) as [[[p2 r] l2]|] eqn:Eg; [|discriminate].
        inversion Hg; subst. cbn [accounted].
        destruct (IH _ _ _ _ Eg Hd) as [H1 H2].
        split; auto. rewrite <- !app_assoc, H1. symmetry. exact Es.
      + inversion Hg; subst. cbn [accounted app buf disc settled lm]. split; auto.
    - destruct (disc p) eqn:Edp.
      { inversion Hg; subst. cbn [disc] in Hd. discriminate. }
      destruct (eqb_spec b []) as [->|Hne].
      { inversion Hg; subst. split; reflexivity. }
      destruct (rawR (app_ p) b) as [[a act] d]. destruct act as [|n|n e]; [| |discriminate].
      + inversion Hg; subst. cbn [accounted buf]. rewrite firstn_all, !app_nil_r.
        split; reflexivity.
      + destruct (eqb_spec (skipn n b) []) as [Hnil|Hnn].
        * inversion Hg; subst. cbn [accounted buf app]. rewrite !app_nil_r.
          split; [|reflexivity]. rewrite <- (firstn_skipn n b) at 2. now rewrite Hnil, app_nil_r.
        * destruct (go f (P true [] d a) (skipn n b)) as [[[p2 r] l2]|] eqn:Eg; [|discriminate].
          inversion Hg; subst. cbn [accounted].
          destruct (IH _ _ _ _ Eg Hd) as [H1 H2].
          split; auto. rewrite <- app_assoc, H1. apply firstn_skipn.
  Qed.

  Lemma accounted_app l1 l2 : accounted (l1 ++ l2) = accounted l1 ++ accounted l2.
  Proof.
    induction l1 as [|[x d|d n] l1 IH]; cbn [accounted app]; auto.
    - now rewrite IH, <- !app_assoc.
    - now rewrite IH, <- app_assoc.
  Qed.

  Theorem conservation : forall chunks p p' l, settled p ->
    feed p chunks = Some (p', Ok tt, l) -> disc p' = false ->
    accounted l ++ buf p' = buf p ++ concat chunks /\ settled p'.
  Proof.
    induction chunks as [|c t IH]; intros p p' l Hs Hf Hd; cbn [feed concat] in *.
    - inversion Hf; subst. cbn [accounted app]. now rewrite app_nil_r.
    - unfold dataReceived in Hf.
      destruct (go (S (measure p (buf p ++ c))) p (buf p ++ c)) as [[[p1 [[]|e]] l1]|] eqn:Eg;
        [|discriminate|discriminate].
      destruct (disc p1) eqn:Ed1.
      { inversion Hf; subst. congruence. }
      destruct (feed p1 t) as [[[p2 r2] l2]|] eqn:Ef; [|discriminate].
      inversion Hf; subst.
      destruct (go_conserves _ _ _ Eg Ed1) as [H1 H2].
      destruct (IH p1 p' l2 H2 Ef Hd) as [H3 H4].
      split; auto. rewrite accounted_app, <- app_assoc, H3, !app_assoc, H1. reflexivity.
  Qed.

  (** every delivered line is the text up to the first delimiter *)
  Lemma go_lines : forall f p b p' r l, go f p b = Some (p', r, l) ->
    Forall (fun d => match d with DLine x _ => find CRLF (x ++ [CR]) = None | _ => True end) l.
  Proof.
    induction f as [|f IH]; intros p b p' r l Hg; [discriminate|]. cbn [go] in Hg.
    destruct (lm p).
    - destruct (find CRLF b) as [e|] eqn:Ef; [|inversion Hg; constructor].
      destruct (find_split _ Ef) as (_ & _ & Hl).
      destruct (lineR (app_ p) (firstn e b)) as [a act].
      destruct (l_exn act); [inversion Hg; subst; constructor; auto|].
      destruct (disc p || l_disc act); [inversion Hg; subst; constructor; auto|].
      destruct (go f _ _) as [[[p2 r2] l2]|] eqn:Eg; [|discriminate]. inversion Hg; subst.
      constructor; eauto.
    - destruct (disc p); [inversion Hg; constructor|].
      destruct (eqb b []); [inversion Hg; constructor|].
      destruct (rawR (app_ p) b) as [[a act] d]. destruct act as [|n|n e];
        try (inversion Hg; subst; constructor; [exact I|constructor]).
      destruct (eqb (skipn n b) []); [inversion Hg; subst; constructor; [exact I|constructor]|].
      destruct (go f _ _) as [[[p2 r2] l2]|] eqn:Eg; [|discriminate]. inversion Hg; subst.
      constructor; [exact I|eauto].
  Qed.

  (** *** Disconnecting *)
  Lemma go_disc : forall f p b p' r l, go f p b = Some (p', r, l) ->
    forall l1 x l2, l = l1 ++ DLine x true :: l2 ->
    l2 = [] /\ (r = Ok tt -> buf p' = []) /\ disc p' = true.
  Proof.
    induction f as [|f IH]; intros p b p' r l Hg l1 x l2 E; [discriminate|]. cbn [go] in Hg.
    destruct (lm p).
    - destruct (find CRLF b) as [e|] eqn:Ef; [|inversion Hg; subst; destruct l1; discriminate].
      destruct (lineR (app_ p) (firstn e b)) as [a act].
      destruct (l_exn act) as [ex|].
      { inversion Hg; subst. destruct l1 as [|y l1]; inversion H2; subst.
        - cbn [disc]. repeat split; auto. discriminate.
        - destruct l1; discriminate. }
      destruct (disc p || l_disc act) eqn:Ed.
      { inversion Hg; subst. destruct l1 as [|y l1]; inversion H2; subst; auto.
        destruct l1; discriminate. }
      destruct (go f _ _) as [[[p2 r2] l3]|] eqn:Eg; [|discriminate]. inversion Hg; subst.
      destruct l1 as [|y l1]; inversion H2; subst. eapply IH; eauto.
    - destruct (disc p); [inversion Hg; subst; destruct l1; discriminate|].
      destruct (eqb b []); [inversion Hg; subst; destruct l1; discriminate|].
      destruct (rawR (app_ p) b) as [[a act] d]. destruct act as [|n|n e].
      + inversion Hg; subst. destruct l1 as [|y l1]; inversion H2; subst. destruct l1; discriminate.
      + destruct (eqb (skipn n b) []).
        { inversion Hg; subst. destruct l1 as [|y l1]; inversion H2; subst. destruct l1; discriminate. }
        destruct (go f _ _) as [[[p2 r2] l3]|] eqn:Eg; [|discriminate]. inversion Hg; subst.
        destruct l1 as [|y l1]; inversion H2; subst. eapply IH; eauto.
      + inversion Hg; subst. destruct l1 as [|y l1]; inversion H2; subst. destruct l1; discriminate.
  Qed.
End Liner.

(** ** Lines *)
Section Lines.
  Variable A : Type.
  Variable lineR : A -> str -> A * lact.
  Variable rawR : A -> str -> A * ract * bool.

  Lemma find_cons c x : find CRLF (c :: x) =
    if prefixb CRLF (c :: x) then Some 0 else option_map S (find CRLF x).
  Proof. reflexivity. Qed.

  Lemma lines_of_None : forall x, find CRLF x = None -> lines_of x = ([], x).
  Proof.
    induction x as [|c t IH]; [reflexivity|]. rewrite find_cons.
    destruct (prefixb CRLF (c :: t)) eqn:Ep; [discriminate|].
    intros H. assert (Ht : find CRLF t = None) by (destruct (find CRLF t); [discriminate|auto]).
    specialize (IH Ht). destruct t as [|c2 t2]; [reflexivity|].
    cbn [lines_of]. cbn [lines_of] in IH.
    destruct (N.eqb c 13 && N.eqb c2 10) eqn:E.
    - exfalso. apply andb_prop in E. destruct E as [E1 E2].
      apply N.eqb_eq in E1, E2. subst. discriminate.
    - now rewrite IH.
  Qed.

  Lemma lines_of_step : forall a b, find CRLF (a ++ [CR]) = None ->
    lines_of (a ++ CRLF ++ b) = (a :: fst (lines_of b), snd (lines_of b)).
  Proof.
    induction a as [|c a IH]; intros b H.
    - cbn [app CRLF lines_of]. destruct (lines_of b). reflexivity.
    - cbn [app] in H. rewrite find_cons in H.
      destruct (prefixb CRLF (c :: a ++ [CR])) eqn:Ep; [discriminate|].
      assert (Ht : find CRLF (a ++ [CR]) = None) by (destruct (find CRLF (a ++ [CR])); [discriminate|auto]).
      specialize (IH b Ht).
      cbn [app]. cbn [lines_of].
      destruct (a ++ CRLF ++ b) as [|c2 t2] eqn:E; [destruct a; discriminate|].
      assert (Hn : N.eqb c 13 && N.eqb c2 10 = false).
      { destruct (N.eqb c 13 && N.eqb c2 10) eqn:En; auto. exfalso.
        apply andb_prop in En. destruct En as [E1 E2]. apply N.eqb_eq in E1, E2. subst.
        destruct a as [|y a]; cbn [app CRLF] in E; injection E as E3 E4; [discriminate|].
        subst y. discriminate. }
      rewrite Hn, IH. reflexivity.
  Qed.

  (** a handler that never leaves line mode, disconnects or raises *)
  Definition plain_lines : Prop :=
    forall a l, snd (lineR a l) = {| l_raw := false; l_disc := false; l_exn := None |}.

  Definition only_lines (l : list delivery) : list str :=
    flat_map (fun d => match d with DLine x _ => [x] | DRaw _ _ => [] end) l.

  Lemma go_plain : plain_lines -> forall f p b p' r l, lm p = true -> disc p = false ->
    go lineR rawR f p b = Some (p', r, l) ->
    r = Ok tt /\ l = map (fun x => DLine x false) (fst (lines_of b)) /\
    buf p' = snd (lines_of b) /\ lm p' = true /\ disc p' = false /\
    app_ p' = fold_left (fun a x => fst (lineR a x)) (fst (lines_of b)) (app_ p).
  Proof.
    intros Hp. induction f as [|f IH]; intros p b p' r l Hl Hd Hg; [discriminate|].
    cbn [go] in Hg. rewrite Hl in Hg.
    destruct (find CRLF b) as [e|] eqn:Ef.
    - destruct (find_split _ Ef) as (Es & _ & Hc).
      pose proof (Hp (app_ p) (firstn e b)) as Hx.
      destruct (lineR (app_ p) (firstn e b)) as [a act] eqn:El. cbn [snd] in Hx. subst act.
      rewrite Hd in Hg. cbn [l_raw l_disc l_exn negb orb] in Hg.
      destruct (go _ _ _ _ _) as [[[p2 r2] l2]|] eqn:Eg; [|discriminate].
      inversion Hg; subst p2 r2 l. clear Hg.
      apply IH in Eg; auto. destruct Eg as (-> & -> & Hb & Hm & Hdd & Ha).
      assert (HL : lines_of b = (firstn e b :: fst (lines_of (skipn (e + 2) b)), snd (lines_of (skipn (e + 2) b)))).
      { etransitivity; [apply (f_equal lines_of Es)|]. apply lines_of_step, Hc. }
      rewrite HL. cbn [fst snd map fold_left CRLF length] in *. rewrite El.
      repeat split; auto.
    - inversion Hg; subst. rewrite lines_of_None by exact Ef. cbn. repeat split; auto.
  Qed.

  Theorem feed_lines : plain_lines -> forall chunks p p' r l,
    lm p = true -> disc p = false ->
    feed lineR rawR p chunks = Some (p', r, l) ->
    let all := lines_of (buf p ++ concat chunks) in
    find CRLF (buf p) = None ->
    r = Ok tt /\ l = map (fun x => DLine x false) (fst all) /\ buf p' = snd all /\
    app_ p' = fold_left (fun a x => fst (lineR a x)) (fst all) (app_ p).
  Proof.
    intros Hp. induction chunks as [|c t IH]; intros p p' r l Hl Hd Hf all Hn; unfold all; clear all.
    - cbn [feed concat] in *. inversion Hf; subst.
      rewrite app_nil_r, lines_of_None by exact Hn. auto.
    - cbn [feed] in Hf. unfold dataReceived in Hf.
      destruct (go lineR rawR (S (measure p (buf p ++ c))) p (buf p ++ c)) as [[[p1 r1] l1]|] eqn:Eg;
        [|discriminate].
      apply go_plain in Eg; auto. destruct Eg as (-> & -> & Hb & Hm & Hdd & Ha).
      rewrite Hdd in Hf. destruct (feed lineR rawR p1 t) as [[[p2 r2] l2]|] eqn:Ef; [|discriminate].
      inversion Hf; subst p2 r2 l. clear Hf.
      assert (Hsplit : forall n x y, length x <= n ->
        find CRLF (snd (lines_of x)) = None /\
        lines_of (x ++ y) = (fst (lines_of x) ++ fst (lines_of (snd (lines_of x) ++ y)),
                             snd (lines_of (snd (lines_of x) ++ y)))).
      { clear. induction n as [|n IHn]; intros x y Hlen.
        - destruct x; [|cbn in Hlen; lia]. cbn [lines_of fst snd app]. split; auto.
          destruct (lines_of y); reflexivity.
        - destruct (find CRLF x) as [e|] eqn:Ef.
          + destruct (find_split _ Ef) as (Es & _ & Hc).
            assert (Hl2 : length (skipn (e + 2) x) <= n).
            { apply find_len in Ef. rewrite skipn_length. lia. }
            destruct (IHn (skipn (e + 2) x) y Hl2) as [H1 H2].
            assert (HL : lines_of x = (firstn e x :: fst (lines_of (skipn (e + 2) x)), snd (lines_of (skipn (e + 2) x)))).
            { etransitivity; [apply (f_equal lines_of Es)|]. apply lines_of_step, Hc. }
            assert (HL2 : lines_of (x ++ y) = (firstn e x :: fst (lines_of (skipn (e + 2) x ++ y)), snd (lines_of (skipn (e + 2) x ++ y)))).
            { etransitivity; [apply (f_equal (fun x => lines_of (x ++ y)) Es)|].
              rewrite <- !app_assoc. apply lines_of_step, Hc. }
            rewrite HL, HL2. cbn [fst snd]. split; auto. rewrite H2. reflexivity.
          + rewrite lines_of_None by exact Ef. cbn [fst snd app]. split; auto.
            destruct (lines_of (x ++ y)); reflexivity. }
      destruct (Hsplit _ (buf p ++ c) (concat t) (le_n _)) as [H1 H2].
      rewrite <- Hb in H1. destruct (IH _ _ _ _ Hm Hdd Ef H1) as (-> & -> & Hb2 & Ha2).
      cbn [concat]. rewrite app_assoc, H2. cbn [fst snd]. rewrite <- Hb.
      rewrite map_app, fold_left_app, <- Ha. auto.
  Qed.
End Lines.

(** ** Chunking does not matter *)
Section Bytes.
  Variable A : Type.
  Variable lineR : A -> str -> A * lact.

  (** a raw handler that looks at its data byte by byte: after a byte it may
      ask for more, give control back to line mode after or before this byte,
      or raise *)
  Inductive verdict := Continue | DoneAfter | DoneBefore | Raise (e : exn).
  Variable rawB : A -> N -> A * verdict.

  Fixpoint rawrun (a : A) (d : str) : A * ract :=
    match d with
    | [] => (a, RStay)
    | b :: t =>
        let '(a1, v) := rawB a b in
        match v with
        | Continue =>
            let '(a2, r) := rawrun a1 t in
            (a2, match r with RStay => RStay | RLine n => RLine (S n) | RRaise n e => RRaise (S n) e end)
        | DoneAfter => (a1, RLine 1)
        | DoneBefore => (a1, RLine 0)
        | Raise e => (a1, RRaise 1 e)
        end
    end.

  Definition rawR (a : A) (d : str) : A * ract * bool := (rawrun a d, false).

  (** *** Specification: the stream is consumed one byte at a time *)
  Inductive bevent := BLine (l : str) (disc : bool) | BByte (b : N).

  (** [b_end]: None while the connection goes on; [Some None] after
      disconnecting; [Some (Some e)] after an exception *)
  Record bstate := B { b_line : bool; b_acc : str; b_end : option (option exn); b_app : A }.

  Definition bstep (s : bstate) (b : N) : bstate * list bevent :=
    match b_end s with
    | Some _ => (s, [])
    | None =>
        if b_line s then
          let acc := b_acc s ++ [b] in
          if suffixb CRLF acc then
            let line := firstn (length acc - 2) acc in
            let '(a, act) := lineR (b_app s) line in
            let ended := match l_exn act with
                         | Some e => Some (Some e)
                         | None => if l_disc act then Some None else None
                         end in
            (B (negb (l_raw act)) [] ended a, [BLine line (l_disc act)])
          else (B true acc None (b_app s), [])
        else
          let '(a, v) := rawB (b_app s) b in
          match v with
          | Continue => (B false [] None a, [BByte b])
          | DoneAfter => (B true [] None a, [BByte b])
          | DoneBefore => (B true [b] None a, [])
          | Raise e => (B false [] (Some (Some e)) a, [BByte b])
          end
    end.

  Fixpoint brun (s : bstate) (x : str) : bstate * list bevent :=
    match x with
    | [] => (s, [])
    | b :: t => let '(s1, l1) := bstep s b in
                let '(s2, l2) := brun s1 t in (s2, l1 ++ l2)
    end.

  Fixpoint flat (l : list delivery) : list bevent :=
    match l with
    | [] => []
    | DLine x d :: t => BLine x d :: flat t
    | DRaw d n :: t => map BByte (firstn n d) ++ flat t
    end.

  Lemma flat_app l1 l2 : flat (l1 ++ l2) = flat l1 ++ flat l2.
  Proof.
    induction l1 as [|[x d|d n] l1 IH]; cbn [flat app]; auto.
    - now rewrite IH.
    - now rewrite IH, app_assoc.
  Qed.

  Lemma brun_app : forall x s y, brun s (x ++ y) =
    let '(s1, l1) := brun s x in let '(s2, l2) := brun s1 y in (s2, l1 ++ l2).
  Proof.
    induction x as [|b x IH]; intros s y; cbn [app brun].
    - destruct (brun s y). reflexivity.
    - destruct (bstep s b) as [s1 l1]. rewrite IH. destruct (brun s1 x) as [s2 l2].
      destruct (brun s2 y) as [s3 l3]. now rewrite app_assoc.
  Qed.

  Lemma brun_ended : forall x s, b_end s <> None -> brun s x = (s, []).
  Proof.
    induction x as [|b x IH]; intros s H; cbn [brun]; auto.
    unfold bstep. destruct (b_end s) eqn:E; [|congruence]. rewrite IH by congruence. reflexivity.
  Qed.

  Lemma suffix_found x : suffixb CRLF x = true -> find CRLF x <> None.
  Proof.
    intros H Hf. unfold suffixb in H.
    pose proof (find_spec CRLF x) as Hs. rewrite Hf in Hs.
    apply prefixb_spec in H. destruct H as [t Ht].
    assert (E : x = rev t ++ CRLF) by (rewrite <- (rev_involutive x), Ht, rev_app_distr; reflexivity).
    apply (Hs (length (rev t))). exists (rev t), []. now rewrite app_nil_r.
  Qed.

  Lemma brun_noline : forall x acc a, find CRLF (acc ++ x) = None ->
    brun (B true acc None a) x = (B true (acc ++ x) None a, []).
  Proof.
    induction x as [|b x IH]; intros acc a H; cbn [brun].
    - now rewrite app_nil_r.
    - unfold bstep. cbn [b_end b_line b_acc b_app].
      assert (E : acc ++ b :: x = (acc ++ [b]) ++ x) by now rewrite <- app_assoc.
      rewrite E in *.
      destruct (suffixb CRLF (acc ++ [b])) eqn:Es.
      { exfalso. exact (suffix_found _ Es (find_None_app _ _ H)). }
      rewrite IH by exact H. reflexivity.
  Qed.

  Lemma suffixb_CRLF x : suffixb CRLF (x ++ CRLF) = true.
  Proof. unfold suffixb. rewrite rev_app_distr. apply prefixb_app. Qed.

  Lemma brun_line l x a : find CRLF (l ++ [CR]) = None ->
    brun (B true [] None a) (l ++ CRLF ++ x) =
    let '(a1, act) := lineR a l in
    let ended := match l_exn act with
                 | Some e => Some (Some e)
                 | None => if l_disc act then Some None else None
                 end in
    let '(s2, l2) := brun (B (negb (l_raw act)) [] ended a1) x in
    (s2, BLine l (l_disc act) :: l2).
  Proof.
    intros H. change CRLF with ([CR] ++ [LF]). rewrite <- app_assoc, app_assoc.
    rewrite brun_app, brun_noline by exact H. cbn [app brun]. unfold bstep at 1.
    cbn [b_end b_line b_acc b_app].
    assert (E : (l ++ [CR]) ++ [LF] = l ++ CRLF) by (rewrite <- app_assoc; reflexivity).
    rewrite E, suffixb_CRLF.
    assert (F : firstn (length (l ++ CRLF) - 2) (l ++ CRLF) = l).
    { rewrite app_length. cbn [length CRLF]. replace (length l + 2 - 2) with (length l) by lia.
      rewrite firstn_app, Nat.sub_diag, firstn_all. cbn. apply app_nil_r. }
    rewrite F. destruct (lineR a l) as [a1 act]. destruct (brun _ x) as [s2 l2]. reflexivity.
  Qed.

  Lemma brun_raw : forall d a,
    brun (B false [] None a) d =
    let '(a1, r) := rawrun a d in
    match r with
    | RStay => (B false [] None a1, map BByte d)
    | RRaise n e => (B false [] (Some (Some e)) a1, map BByte (firstn n d))
    | RLine n => let '(s2, l2) := brun (B true [] None a1) (skipn n d) in
                 (s2, map BByte (firstn n d) ++ l2)
    end.
  Proof.
    induction d as [|b t IH]; intros a; cbn [brun rawrun]; auto.
    unfold bstep at 1. cbn [b_end b_line b_acc b_app].
    destruct (rawB a b) as [a1 v]. destruct v as [| | |e].
    - rewrite IH. destruct (rawrun a1 t) as [a2 r]. destruct r as [|n|n e]; cbn [firstn skipn map]; auto.
      destruct (brun _ (skipn n t)) as [s2 l2]. reflexivity.
    - cbn [firstn skipn map app]. destruct (brun _ t) as [s2 l2]. reflexivity.
    - cbn [firstn skipn map app brun]. unfold bstep. cbn [b_end b_line b_acc b_app app].
      assert (E : suffixb CRLF [b] = false).
      { unfold suffixb. cbn [rev app CRLF prefixb]. apply andb_false_r. }
      rewrite E. destruct (brun _ t) as [s2 l2]. reflexivity.
    - rewrite brun_ended by discriminate. reflexivity.
  Qed.

  (** what the byte machine's final state says about the receiver *)
  Definition agrees (p : proto A) (r : res unit) (s : bstate) : Prop :=
    app_ p = b_app s /\ lm p = b_line s /\
    match b_end s with
    | None => r = Ok tt /\ disc p = false /\ buf p = b_acc s
    | Some None => r = Ok tt /\ disc p = true
    | Some (Some e) => r = Err e
    end.

  Lemma go_bytes : forall f p x p' r l, disc p = false ->
    go lineR rawR f p x = Some (p', r, l) ->
    exists s, brun (B (lm p) [] None (app_ p)) x = (s, flat l) /\ agrees p' r s /\
              (b_end s = None -> settled p').
  Proof.
    induction f as [|f IH]; intros p x p' r l Hd Hg; [discriminate|]. cbn [go] in Hg.
    destruct (lm p) eqn:El.
    - destruct (find CRLF x) as [e|] eqn:Ef.
      + destruct (find_split _ Ef) as (Es & _ & Hc).
        rewrite (f_equal (brun (B true [] None (app_ p))) Es). rewrite brun_line by exact Hc. cbv zeta.
        destruct (lineR (app_ p) (firstn e x)) as [a act]. rewrite Hd in Hg. cbn [orb] in Hg.
        destruct (l_exn act) as [ex|].
        { inversion Hg; subst. rewrite brun_ended by discriminate.
          eexists. split; [reflexivity|]. split; [|discriminate]. repeat split; reflexivity. }
        destruct (l_disc act).
        { inversion Hg; subst. rewrite brun_ended by discriminate.
          eexists. split; [reflexivity|]. split; [|discriminate]. repeat split; reflexivity. }
        destruct (go _ _ _ _ _) as [[[p2 r2] l2]|] eqn:Eg; [|discriminate].
        inversion Hg; subst p2 r2 l.
        apply IH in Eg; auto. cbn [lm app_] in Eg. destruct Eg as (s & E & Ha & Hs).
        cbn [CRLF length] in E. rewrite E. exists s. cbn [flat]. auto.
      + inversion Hg; subst. rewrite brun_noline by exact Ef. eexists. split; [reflexivity|].
        split; [repeat split; auto|]. intros _. exact Ef.
    - rewrite Hd in Hg. rewrite brun_raw.
      destruct (eqb_spec x []) as [->|Hne].
      { inversion Hg; subst. cbn [rawrun]. eexists. split; [reflexivity|].
        split; [repeat split; auto|reflexivity]. }
      unfold rawR in Hg. destruct (rawrun (app_ p) x) as [a act]. destruct act as [|n|n e].
      + inversion Hg; subst. cbn [flat]. rewrite firstn_all, app_nil_r.
        eexists. split; [reflexivity|]. split; [repeat split; auto|reflexivity].
      + destruct (eqb_spec (skipn n x) []) as [Hnil|Hnn].
        * rewrite Hnil. inversion Hg; subst. cbn [brun flat].
          eexists. split; [reflexivity|]. split; [repeat split; auto|reflexivity].
        * destruct (go _ _ _ _ _) as [[[p2 r2] l2]|] eqn:Eg; [|discriminate].
          inversion Hg; subst p2 r2 l. apply IH in Eg; auto. cbn [lm app_] in Eg.
          destruct Eg as (s & E & Ha & Hs). rewrite E. exists s. cbn [flat]. auto.
      + inversion Hg; subst. cbn [flat]. rewrite app_nil_r.
        eexists. split; [reflexivity|]. split; [repeat split; auto|discriminate].
  Qed.

  Theorem feed_bytes : forall chunks p p' r l, disc p = false -> settled p ->
    feed lineR rawR p chunks = Some (p', r, l) ->
    exists s, brun (B (lm p) (buf p) None (app_ p)) (concat chunks) = (s, flat l) /\ agrees p' r s.
  Proof.
    induction chunks as [|c t IH]; intros p p' r l Hd Hs Hf.
    - cbn [feed concat brun] in *. inversion Hf; subst. eexists. split; [reflexivity|].
      repeat split; auto.
    - cbn [feed concat] in *. unfold dataReceived in Hf.
      destruct (go lineR rawR (S (measure p (buf p ++ c))) p (buf p ++ c)) as [[[p1 r1] l1]|] eqn:Eg;
        [|discriminate].
      apply go_bytes in Eg; auto. destruct Eg as (s1 & E1 & Ha1 & Hs1).
      assert (E2 : brun (B (lm p) (buf p) None (app_ p)) c = (s1, flat l1)).
      { unfold settled in Hs. destruct (lm p) eqn:El.
        - rewrite brun_app, brun_noline in E1 by exact Hs. cbn [app] in E1.
          destruct (brun _ c) as [s2 l2]. exact E1.
        - rewrite Hs in E1 |- *. exact E1. }
      rewrite brun_app, E2. unfold agrees in Ha1. destruct Ha1 as (Happ & Hlm & Hend).
      destruct (b_end s1) as [[e|]|] eqn:Ee.
      + subst r1. inversion Hf; subst. rewrite brun_ended by congruence.
        exists s1. rewrite app_nil_r. split; [reflexivity|]. unfold agrees. rewrite Ee. auto.
      + destruct Hend as [-> Hdd]. rewrite Hdd in Hf. inversion Hf; subst.
        rewrite brun_ended by congruence.
        exists s1. rewrite app_nil_r. split; [reflexivity|]. unfold agrees. rewrite Ee. auto.
      + destruct Hend as (-> & Hdd & Hbuf). rewrite Hdd in Hf.
        destruct (feed lineR rawR p1 t) as [[[p2 r2] l2]|] eqn:Ef; [|discriminate].
        inversion Hf; subst p2 r2 l. apply IH in Ef; auto. destruct Ef as (s2 & E3 & Ha2).
        assert (Hs1e : B (lm p1) (buf p1) None (app_ p1) = s1).
        { destruct s1; cbn in *. congruence. }
        rewrite Hs1e in E3. rewrite E3. exists s2. rewrite flat_app. auto.
  Qed.

  (** two ways of cutting the same stream *)
  Theorem chunking : forall cs1 cs2 p p1 r1 l1 p2 r2 l2,
    disc p = false -> settled p -> concat cs1 = concat cs2 ->
    feed lineR rawR p cs1 = Some (p1, r1, l1) ->
    feed lineR rawR p cs2 = Some (p2, r2, l2) ->
    r1 = r2 /\ flat l1 = flat l2 /\ app_ p1 = app_ p2 /\ lm p1 = lm p2 /\
    (r1 = Ok tt -> disc p1 = disc p2) /\
    (r1 = Ok tt -> disc p1 = false -> buf p1 = buf p2).
  Proof.
    intros cs1 cs2 p p1 r1 l1 p2 r2 l2 Hd Hs Hc H1 H2.
    apply feed_bytes in H1; auto. apply feed_bytes in H2; auto.
    destruct H1 as (s1 & E1 & A1 & B1 & C1). destruct H2 as (s2 & E2 & A2 & B2 & C2).
    rewrite Hc in E1. rewrite E1 in E2. injection E2 as <- <-.
    split; [|split; [reflexivity|split; [congruence|split; [congruence|]]]].
    - destruct (b_end s1) as [[e|]|]; intuition congruence.
    - destruct (b_end s1) as [[e|]|]; intuition congruence.
  Qed.
End Bytes.

(** ** A raw handler that keeps everything *)
Section Keep.
  Variable A : Type.
  Variable lineR : A -> str -> A * lact.
  Variable rawR : A -> str -> A * ract * bool.

  Definition keeps_raw : Prop := forall a d, snd (fst (rawR a d)) = RStay /\ snd (rawR a d) = false.

  Definition lines_then_raw (was : bool) (l : list delivery) (now : bool) : Prop :=
    exists ls rs,
      l = map (fun x => DLine x false) ls ++ map (fun d => DRaw d (length d)) rs /\
      (was = false -> ls = []) /\ (now = true -> rs = []) /\ (was = false -> now = false).

  Lemma go_shape : keeps_raw -> forall f p b p' l, disc p = false ->
    go lineR rawR f p b = Some (p', Ok tt, l) -> disc p' = false ->
    lines_then_raw (lm p) l (lm p').
  Proof.
    intros Hk. induction f as [|f IH]; intros p b p' l Hd Hg Hd'; [discriminate|].
    cbn [go] in Hg. destruct (lm p) eqn:El.
    - destruct (find CRLF b) as [e|].
      + destruct (lineR (app_ p) (firstn e b)) as [a act]. destruct (l_exn act); [discriminate|].
        destruct (disc p || l_disc act).
        { inversion Hg; subst. discriminate. }
        destruct (go _ _ _ _ _) as [[[p2 r2] l2]|] eqn:Eg; [|discriminate].
        inversion Hg; subst. apply IH in Eg; auto. cbn [lm] in Eg.
        destruct Eg as (ls & rs & -> & H1 & H2 & H3).
        exists (firstn e b :: ls), rs. cbn [map app]. split; [reflexivity|].
        split; [discriminate|]. split; [auto|discriminate].
      + inversion Hg; subst. exists [], []. repeat split; auto.
    - rewrite Hd in Hg. destruct (eqb b []).
      { inversion Hg; subst. exists [], []. repeat split; auto. }
      destruct (Hk (app_ p) b) as [H1 H2].
      destruct (rawR (app_ p) b) as [[a act] d]. cbn [fst snd] in *. subst act d.
      inversion Hg; subst. exists [], [b]. repeat split; auto. discriminate.
  Qed.

  Theorem feed_raw_rest : keeps_raw -> forall chunks p p' l, settled p -> disc p = false ->
    feed lineR rawR p chunks = Some (p', Ok tt, l) -> disc p' = false ->
    exists lines raws,
      l = map (fun x => DLine x false) lines ++ map (fun d => DRaw d (length d)) raws /\
      buf p ++ concat chunks =
        concat (map (fun x => x ++ CRLF) lines) ++ concat raws ++ buf p' /\
      (lm p' = false -> buf p' = []) /\ (lm p' = true -> raws = []).
  Proof.
    intros Hk chunks p p' l Hs Hd Hf Hd'.
    assert (Hshape : lines_then_raw (lm p) l (lm p')).
    { clear Hs. revert p l Hd Hf. induction chunks as [|c t IH]; intros p l Hd Hf; cbn [feed] in Hf.
      - inversion Hf; subst. exists [], []. repeat split; auto.
      - unfold dataReceived in Hf.
        destruct (go lineR rawR (S (measure p (buf p ++ c))) p (buf p ++ c)) as [[[p1 [[]|e]] l1]|] eqn:Eg;
          [|discriminate|discriminate].
        destruct (disc p1) eqn:Ed1.
        { inversion Hf; subst. congruence. }
        destruct (feed lineR rawR p1 t) as [[[p2 r2] l2]|] eqn:Ef; [|discriminate].
        inversion Hf; subst p2 r2 l.
        destruct (go_shape Hk _ _ _ Hd Eg Ed1) as (ls & rs & -> & H1 & H2 & H3).
        destruct (IH _ _ Ed1 Ef) as (ls' & rs' & -> & H1' & H2' & H3').
        destruct (lm p1) eqn:E1.
        + rewrite (H2 eq_refl). exists (ls ++ ls'), rs'. rewrite map_app. cbn [map].
          rewrite app_nil_r, app_assoc. repeat split; auto; intros E; specialize (H3 E); discriminate.
        + rewrite (H1' eq_refl). exists ls, (rs ++ rs'). cbn [map app]. rewrite map_app, app_assoc.
          repeat split; auto. intros E. rewrite (H3' eq_refl) in E. discriminate. }
    destruct (conservation _ _ _ _ Hs Hf Hd') as [Hc Hset].
    destruct Hshape as (ls & rs & -> & _ & H2 & _).
    exists ls, rs. split; [reflexivity|]. split; [|split; [|exact H2]].
    - rewrite <- Hc, accounted_app, <- app_assoc. f_equal.
      + clear. induction ls as [|x ls IH]; cbn [map accounted concat]; auto.
        now rewrite IH, <- app_assoc.
      + f_equal. clear. induction rs as [|x rs IH]; cbn [map accounted concat]; auto.
        now rewrite IH, firstn_all.
    - intros E. unfold settled in Hset. now rewrite E in Hset.
  Qed.
End Keep.
