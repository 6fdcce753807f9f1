(** * epsilon/liner.py:8-63, epsilon/juice.py:745, 880-918: what a receiver holds of a
    stream that is not complete

    Both classes declare a greatest length (liner.py:9 MAX_LINE_LENGTH, juice.py:745
    MAX_LENGTH), which no code looks at; the model of the receivers is that of Liner.v and
    JuiceStream.v. *)

From Coq Require Import ZArith NArith String List Bool Arith Lia.
From Verif Require Import Py PyStr PyNum PyInt Utf8 Liner JuiceCodec JuiceStream.
Import ListNotations.
Open Scope nat_scope.
Open Scope py_scope.

(** liner.py:9 *)
Definition MAX_LINE_LENGTH : N := (1024 * 1024)%N.

(** ** Specification *)

(** the bytes of the header lines that are kept, with their ends *)
Definition lines_size (ls : list str) : nat := list_sum (map (fun l => length l + 2) ls).

(** the bytes a Juice connection keeps: the unfinished line, the header lines of the
    unfinished box, its body so far *)
Definition held {S} (p : proto (japp S)) : nat :=
  length (buf p) + lines_size (reqbuf (app_ p)) + match pend (app_ p) with Some (_, bb, _) => length bb | None => 0 end.

(** ** Proofs *)

Section Hold.
  Variable ulower : str -> str.
  Variable S : Type.
  Variable recv : S -> dict str str -> S * option exn.
  Notation bfin := (bfin ulower recv).

  Lemma lines_size_app a b : lines_size (a ++ b) = lines_size a + lines_size b.
  Proof. unfold lines_size. now rewrite map_app, list_sum_app. Qed.

  (** since a box was delivered at [d], [r] has come, and nothing else was delivered *)
  Definition since (s0 : S) (x d r : str) (st : bstate (japp S)) : Prop :=
    x = d ++ r /\
    exists a0, length a0 <= 1 /\ bfin (at_line [] None s0) d = B true a0 None (J [] None (jst (b_app st))) /\
    (if b_line st then pend (b_app st) = None /\ length (b_acc st) + lines_size (reqbuf (b_app st)) = length a0 + length r
     else b_acc st = [] /\ reqbuf (b_app st) = [] /\ exists n bb b, pend (b_app st) = Some (n, bb, b) /\ length bb <= length a0 + length r).

  Lemma bfin_snoc b x c : bfin b (x ++ [c]) = fst (bstep (jline ulower recv) (jbyte recv) (bfin b x) c).
  Proof. rewrite bfin_app. unfold JuiceStream.bfin at 1. cbn [brun]. destruct (bstep _ _ _ _) as [s1 l1]. reflexivity. Qed.

  Lemma hold_since s0 x : b_end (bfin (at_line [] None s0) x) = None -> exists d r, since s0 x d r (bfin (at_line [] None s0) x).
  Proof.
    induction x as [|c x IH] using rev_ind; intros He.
    - exists [], []. split; [reflexivity|]. exists []. split; [cbn; lia|]. split; [reflexivity|]. cbn. auto.
    - pose proof (bfin_snoc (at_line [] None s0) x c) as Ex. rewrite Ex in *. set (st := bfin (at_line [] None s0) x) in *.
      assert (Fresh : forall st', bfin (at_line [] None s0) (x ++ [c]) = st' -> (exists a0, length a0 <= 1 /\ st' = B true a0 None (J [] None (jst (b_app st')))) -> exists d r, since s0 (x ++ [c]) d r st').
      { intros st' E' (a0 & La & Es). exists (x ++ [c]), []. split; [now rewrite app_nil_r|]. exists a0. split; [exact La|]. split; [now rewrite E'|]. rewrite Es. cbn. split; [reflexivity|]. lia. }
      unfold bstep in *. destruct (b_end st) as [e|] eqn:Ee; [cbn [fst] in He; congruence|]. destruct (IH eq_refl) as (d & r & Hx & a0 & La & Ed & Hs). clear IH.
      assert (Go : forall st', jst (b_app st') = jst (b_app st) ->
        (if b_line st' then pend (b_app st') = None /\ length (b_acc st') + lines_size (reqbuf (b_app st')) = length a0 + length (r ++ [c])
         else b_acc st' = [] /\ reqbuf (b_app st') = [] /\ exists n bb b, pend (b_app st') = Some (n, bb, b) /\ length bb <= length a0 + length (r ++ [c])) -> exists d r, since s0 (x ++ [c]) d r st').
      { intros st' Ej H. exists d, (r ++ [c]). split; [rewrite Hx; now rewrite app_assoc|]. exists a0. rewrite Ej. auto. }
      destruct (b_line st) eqn:El.
      + destruct Hs as [Hp Hl]. destruct (suffixb CRLF (b_acc st ++ [c])) eqn:Es.
        * assert (L2 : 2 <= length (b_acc st ++ [c])).
          { destruct (find CRLF (b_acc st ++ [c])) as [e|] eqn:Ef; [apply find_len in Ef; lia|]. destruct (suffix_found _ Es Ef). }
          set (line := firstn (length (b_acc st ++ [c]) - 2) (b_acc st ++ [c])) in *. assert (Lline : length line + 2 = length (b_acc st) + 1) by (unfold line; rewrite firstn_length, app_length in *; cbn [length] in *; lia).
          unfold jline in *. destruct line as [|c0 line'] eqn:Eline.
          -- destruct (parseJuiceHeaders ulower (reqbuf (b_app st))) as [[n b]|e]; cbn [fst snd l_exn l_raw l_disc b_end] in *; [|discriminate].
             destruct (n =? 0)%Z; [destruct (recv (jst (b_app st)) b) as [s' [e|]] eqn:Erv|]; cbn [fst snd l_exn l_raw l_disc b_end negb] in *; try discriminate.
             ++ apply Fresh; [exact Ex|]. exists []. split; [cbn; lia|]. cbn [b_app jst]. now rewrite Hp.
             ++ apply Go; [reflexivity|]. cbn [b_line b_acc b_app reqbuf pend]. split; [reflexivity|]. split; [reflexivity|]. exists n, [], b. split; [reflexivity|cbn [length]; lia].
          -- cbn [fst snd l_exn l_raw l_disc b_end negb] in *. apply Go; [reflexivity|]. cbn [b_line b_acc b_app reqbuf pend]. split; [exact Hp|]. rewrite lines_size_app, app_length. cbn [lines_size map list_sum fold_right length] in *. lia.
        * cbn [fst] in *. apply Go; [reflexivity|]. cbn [b_line b_acc b_app]. split; [exact Hp|]. rewrite !app_length. cbn [length]. lia.
      + destruct Hs as (Ha & Hr & n & bb & b & Hp & Hl). unfold jbyte in *. rewrite Hp in *. destruct (n <=? 0)%Z; [|destruct (n =? 1)%Z].
        * unfold deliver in *. destruct (utf8_decode bb) as [t|e]; cbn [fst b_end] in *; [|discriminate]. destruct (recv (jst (b_app st)) (dset b BODY t)) as [s' [e|]]; cbn [fst b_end] in *; [discriminate|].
          apply Fresh; [exact Ex|]. exists [c]. split; [cbn; lia|]. cbn [b_app jst]. now rewrite Hr.
        * unfold deliver in *. destruct (utf8_decode (bb ++ [c])) as [t|e]; cbn [fst b_end] in *; [|discriminate]. destruct (recv (jst (b_app st)) (dset b BODY t)) as [s' [e|]]; cbn [fst b_end] in *; [discriminate|].
          apply Fresh; [exact Ex|]. exists []. split; [cbn; lia|]. cbn [b_app jst]. now rewrite Hr.
        * cbn [fst] in *. apply Go; [reflexivity|]. cbn [b_line b_acc b_app reqbuf pend]. split; [reflexivity|]. split; [exact Hr|]. eexists _, _, _. split; [reflexivity|]. rewrite !app_length. cbn [length]. lia.
  Qed.

  Theorem hold_box cs s0 p l : feed (jline ulower recv) (jraw recv) (jstart s0) cs = Some (p, Ok tt, l) -> disc p = false ->
    exists d r p0 l0, concat cs = d ++ r /\
      feed (jline ulower recv) (jraw recv) (jstart s0) [d] = Some (p0, Ok tt, l0) /\ held p0 <= 1 /\ jst (app_ p0) = jst (app_ p) /\
      held p <= held p0 + length r /\ (lm p = true -> held p = held p0 + length r).
  Proof.
    intros H Hd. destruct (feed_bfin ulower S recv cs s0) as (p' & r' & l' & H' & A). rewrite H in H'. injection H' as <- <- <-.
    destruct A as (A1 & A2 & A3). set (st := bfin (at_line [] None s0) (concat cs)) in *. destruct (b_end st) as [[e|]|] eqn:Ee; [discriminate|destruct A3; congruence|]. destruct A3 as (_ & _ & A3).
    destruct (hold_since s0 (concat cs) Ee) as (d & r & Hx & a0 & La & Ed & Hs). fold st in Ed, Hs.
    destruct (feed_bfin ulower S recv [d] s0) as (p0 & r0 & l0 & H0 & B1 & B2 & B3). cbn [concat] in *. rewrite app_nil_r in *. rewrite Ed in B1, B2, B3. cbn [b_end b_app b_line b_acc] in *. destruct B3 as (-> & _ & B3).
    assert (E0 : held p0 = length a0) by (unfold held; rewrite B1, B3; cbn; lia).
    exists d, r, p0, l0. split; [exact Hx|]. split; [exact H0|]. rewrite E0. split; [exact La|]. split; [rewrite B1; cbn [jst]; now rewrite A1|].
    unfold held. rewrite A1, A2, A3. destruct (b_line st).
    - destruct Hs as [-> Hl]. split; [lia|]. intros _. lia.
    - destruct Hs as (-> & -> & n & bb & b & -> & Hl). cbn [length lines_size map list_sum fold_right]. split; [lia|discriminate].
  Qed.

  Lemma no_end k : find CRLF (repeat 120%N k) = None.
  Proof. induction k as [|k IH]; [reflexivity|]. cbn [repeat]. rewrite find_cons, IH. destruct k; reflexivity. Qed.

  (** without a line end, and with line ends but no blank line, everything is kept *)
  Lemma hold_line s0 k : exists p l, feed (jline ulower recv) (jraw recv) (jstart s0) [repeat 120%N k] = Some (p, Ok tt, l) /\ disc p = false /\ length (buf p) = k /\ held p = k.
  Proof.
    destruct (feed_bfin ulower S recv [repeat 120%N k] s0) as (p & r & l & H & A). cbn [concat] in A. rewrite app_nil_r in A.
    assert (F : find CRLF ([] ++ repeat 120%N k) = None) by exact (no_end k).
    unfold JuiceStream.bfin, at_line in A. rewrite brun_noline in A by exact F. cbn [fst app] in A. destruct A as (A1 & A2 & -> & A3 & A4). cbn [b_app b_acc] in *.
    exists p, l. split; [exact H|]. split; [exact A3|]. unfold held. rewrite A4, A1, repeat_length. cbn. lia.
  Qed.

  Lemma hold_lines s0 k : exists p l, feed (jline ulower recv) (jraw recv) (jstart s0) [endl (repeat (lit "a: b") k)] = Some (p, Ok tt, l) /\ disc p = false /\ buf p = [] /\ held p = 6 * k.
  Proof.
    destruct (feed_bfin ulower S recv [endl (repeat (lit "a: b") k)] s0) as (p & r & l & H & A). cbn [concat] in A. rewrite app_nil_r in A.
    assert (G : Forall good_line (repeat (lit "a: b") k)) by (apply Forall_forall; intros x Hx; apply repeat_spec in Hx; subst; split; [discriminate|vm_compute; reflexivity]).
    rewrite bfin_lines in A by exact G. destruct A as (A1 & A2 & A3). cbn [at_line b_end b_app b_acc] in *. destruct A3 as (-> & A3 & A4).
    exists p, l. split; [exact H|]. split; [exact A3|]. split; [exact A4|]. unfold held. rewrite A4, A1. cbn [app reqbuf pend length Nat.add]. rewrite Nat.add_0_r. clear. induction k as [|k IH]; [reflexivity|]. cbn [repeat lines_size map list_sum fold_right]. change (fold_right Nat.add 0 (map (fun l : list N => length l + 2) (repeat (lit "a: b") k))) with (lines_size (repeat (lit "a: b") k)). rewrite IH. cbn. lia.
  Qed.
End Hold.

Lemma no_end_CR k : find CRLF (repeat 120%N k ++ [CR]) = None.
Proof. induction k as [|k IH]; [reflexivity|]. cbn [repeat app]. rewrite find_cons, IH. destruct k; reflexivity. Qed.

(** any handler that stays in line mode *)
Theorem hold_plain A (lineR : A -> str -> A * lact) rawR a k : plain_lines lineR ->
  (exists p, feed lineR rawR (start a) [repeat 120%N k] = Some (p, Ok tt, []) /\ length (buf p) = k) /\
  (exists p, feed lineR rawR (start a) [repeat 120%N k ++ CRLF] = Some (p, Ok tt, [DLine (repeat 120%N k) false])).
Proof.
  intros Hp. split.
  - destruct (feed_total lineR rawR [repeat 120%N k] (start a)) as [[[p r] l] H]. pose proof (@feed_lines A lineR rawR Hp [repeat 120%N k] (start a) p r l eq_refl eq_refl H eq_refl) as K. cbn [buf start app concat] in K. rewrite app_nil_r in K.
    rewrite lines_of_None in K by apply no_end. cbn [fst snd map fold_left] in K. destruct K as (-> & -> & K & _). exists p. split; [exact H|]. rewrite K. apply repeat_length.
  - destruct (feed_total lineR rawR [repeat 120%N k ++ CRLF] (start a)) as [[[p r] l] H]. pose proof (@feed_lines A lineR rawR Hp [repeat 120%N k ++ CRLF] (start a) p r l eq_refl eq_refl H eq_refl) as K. cbn [buf start app concat] in K.
    rewrite <- app_assoc in K. rewrite lines_of_step in K by apply no_end_CR. cbn [fst snd lines_of map fold_left] in K. destruct K as (-> & -> & _). exists p. exact H.
Qed.
