(** What a copy may change when there are links in the destination
    (epsilon/hotfixes/filepath_copyTo.py:335-367; the model is in FileLinks.v). *)
From Coq Require Import NArith String List Bool Arith Lia ZifyBool.
From Verif Require Import Py PyStr PySplit FilePath FileTree FileTreeMore FileLinks.
Import ListNotations.
Open Scope list_scope.

(** ** Specification *)

(** what may be written in a link: names, "." and ".." *)
Definition part (c : str) : Prop := name c \/ c = lit "." \/ c = lit "..".
Definition links_ok (f : lfs) : Prop := forall l r t, dget f l = Some (LLink r t) -> Forall part t.

(** from [f] to [g] directories and files may have been made and files
    written; nothing else *)
Definition grows (f g : lfs) : Prop := forall l,
  match dget f l with
  | None => dget g l = None \/ dget g l = Some LDir \/ exists c, dget g l = Some (LFile c)
  | Some (LFile _) => exists c, dget g l = Some (LFile c)
  | Some e => dget g l = Some e
  end.

(** [l] is where a path at or below [q] leads *)
Definition leads (B : nat) (f : lfs) (q l : loc) : Prop := exists r, Forall name r /\ goes B f true (q ++ r) = Ok l.

(** ** Proofs *)

Lemma grows_refl f : grows f f.
Proof. intros l. destruct (dget f l) as [[c| | |]|]; eauto. Qed.
Lemma grows_trans f g h : grows f g -> grows g h -> grows f h.
Proof.
  intros A C l. pose proof (A l) as Al. pose proof (C l) as Cl. destruct (dget f l) as [[c| | |]|].
  - destruct Al as (c' & E). now rewrite E in Cl.
  - now rewrite Al in Cl.
  - now rewrite Al in Cl.
  - now rewrite Al in Cl.
  - destruct Al as [E|[E|(c & E)]]; rewrite E in Cl; auto.
Qed.

Lemma find_grows f g : grows f g -> forall b todo fol here x, find f fol b here todo = Ok x -> find g fol b here todo = Ok x.
Proof.
  intros W b. induction b as [b IHb] using (well_founded_induction lt_wf).
  induction todo as [|c todo IHt]; intros fol here x H.
  - rewrite find_nil in *. exact H.
  - rewrite find_cons in H |- *. pose proof (W here) as Wh. destruct (dget f here) as [[| | |]|]; try discriminate. rewrite Wh.
    destruct (eqb c (lit ".")); [now apply IHt|]. destruct (eqb c (lit "..")); [now apply IHt|].
    pose proof (W (here ++ [c])) as Wc. destruct (dget f (here ++ [c])) as [[| | |r t]|].
    + destruct Wc as (y & ->). now apply IHt.
    + rewrite Wc. now apply IHt.
    + rewrite Wc. now apply IHt.
    + rewrite Wc. destruct (fol || negb (isnil todo)); [|exact H]. destruct b as [|b0]; [discriminate|]. apply (IHb b0 ltac:(lia) _ _ _ _ H).
    + destruct todo; cbn [isnil] in H |- *; [|discriminate]. destruct Wc as [->|[->|(y & ->)]]; [exact H|now rewrite find_nil|now rewrite find_nil].
Qed.
Lemma goes_grows B f g fol p l : grows f g -> goes B f fol p = Ok l -> goes B g fol p = Ok l.
Proof.
  intros W H. unfold goes in *. destruct (find f fol B [] p) as [[x b]|] eqn:E; [|discriminate]. now rewrite (find_grows f g W _ _ _ _ _ E).
Qed.
Lemma leads_grows B f g q l : grows f g -> leads B f q l -> leads B g q l.
Proof. intros W (r & Hr & H). exists r. split; [exact Hr|now apply (goes_grows B f g)]. Qed.

(** where nothing or no link is, following makes no difference *)
Lemma find_follow f : forall b todo here l b', find f false b here todo = Ok (l, b') -> (forall r t, dget f l <> Some (LLink r t)) -> find f true b here todo = Ok (l, b').
Proof.
  intros b. induction b as [b IHb] using (well_founded_induction lt_wf).
  induction todo as [|c todo IHt]; intros here l b' H Hl.
  - rewrite find_nil in *. exact H.
  - rewrite find_cons in H |- *. destruct (dget f here) as [[| | |]|]; try discriminate.
    destruct (eqb c (lit ".")); [now apply IHt|]. destruct (eqb c (lit "..")); [now apply IHt|].
    destruct (dget f (here ++ [c])) as [[| | |r t]|] eqn:E; try (now apply IHt); [|exact H].
    cbn [orb] in H |- *. destruct (negb (isnil todo)).
    + destruct b as [|b0]; [discriminate|]. now apply (IHb b0 ltac:(lia)).
    + injection H as <- <-. now elim (Hl r t).
Qed.

Record fit (f : lfs) : Prop := {
  fit_keys : wf_dict f;
  fit_names : forall (l : loc) e, dget f l = Some e -> Forall name l;
  fit_links : links_ok f }.

Lemma find_names f : fit f -> forall b todo fol here l b', Forall part todo -> Forall name here -> find f fol b here todo = Ok (l, b') -> Forall name l.
Proof.
  intros W b. induction b as [b IHb] using (well_founded_induction lt_wf).
  induction todo as [|c todo IHt]; intros fol here l b' Ht Hh H.
  - rewrite find_nil in H. injection H as <- _. exact Hh.
  - inversion Ht as [|? ? Hc Ht']; subst. rewrite find_cons in H. destruct (dget f here) as [[| | |]|]; try discriminate.
    destruct (eqb_spec c (lit ".")) as [_|N1]; [now apply (IHt fol here l b')|].
    destruct (eqb_spec c (lit "..")) as [_|N2].
    { apply (IHt fol (removelast here) l b'); [exact Ht'| |exact H]. destruct here as [|y here]; [constructor|].
      rewrite (@app_removelast_last _ (y :: here) [] ltac:(discriminate)) in Hh. now apply Forall_app in Hh. }
    assert (Hn : Forall name (here ++ [c])). { apply Forall_app. split; [exact Hh|]. constructor; [|constructor]. destruct Hc as [Hc|[Hc|Hc]]; [exact Hc|contradiction|contradiction]. }
    destruct (dget f (here ++ [c])) as [[| | |r t]|] eqn:E; try (now apply (IHt fol (here ++ [c]) l b')).
    + destruct (fol || negb (isnil todo)); [|injection H as <- _; exact Hn]. destruct b as [|b0]; [discriminate|].
      apply (IHb b0 ltac:(lia) _ _ _ _ _) in H; [exact H| |destruct r; [constructor|exact Hh]]. apply Forall_app. split; [exact (fit_links f W _ _ _ E)|exact Ht'].
    + destruct (isnil todo); [|discriminate]. injection H as <- _. exact Hn.
Qed.
Lemma goes_names B f fol p l : fit f -> Forall name p -> goes B f fol p = Ok l -> Forall name l.
Proof.
  intros W Hp H. unfold goes in H. destruct (find f fol B [] p) as [[x b]|] eqn:E; [|discriminate]. injection H as <-.
  apply (find_names f W _ _ _ _ _ _) in E; [exact E| |constructor]. eapply Forall_impl; [|exact Hp]. intros c Hc. now left.
Qed.

Lemma fit_dset f l e : fit f -> Forall name l -> (forall r t, e <> LLink r t) -> fit (dset f l e).
Proof.
  intros [H1 H2 H3] Hn He. split.
  - now apply wf_dset.
  - intros k e'. rewrite dget_dset. destruct (eqb_spec (k : loc) l) as [->|_]; [auto|apply H2].
  - intros k r t. rewrite dget_dset. destruct (eqb_spec (k : loc) l) as [->|_]; [|apply H3]. intros E. injection E as E. now elim (He r t).
Qed.

Section Reach.
  Variable B : nat.
  Variable fates : nat -> fate.
  Variable q : loc.
  Hypothesis Hq : Forall name q.

  (** from [f] to [g], only what paths at or below [q] lead to has changed *)
  Definition ok (f g : lfs) : Prop := fit g /\ grows f g /\ forall l, dget g l <> dget f l -> leads B g q l.

  Lemma ok_refl f : fit f -> ok f f.
  Proof. intros H. split; [exact H|]. split; [apply grows_refl|]. intros l E. now elim E. Qed.
  Lemma lentry_dec (a b : option lentry) : {a = b} + {a <> b}.
  Proof. repeat decide equality. Qed.
  Lemma ok_trans f g h : ok f g -> ok g h -> ok f h.
  Proof.
    intros (A1 & A2 & A3) (C1 & C2 & C3). split; [exact C1|]. split; [now apply (grows_trans f g)|]. intros l E.
    destruct (lentry_dec (dget h l) (dget g l)) as [E'|N]; [|now apply C3]. apply (leads_grows B g h); [exact C2|]. apply A3. congruence.
  Qed.

  Lemma ok_dset f l e : fit f -> Forall name l -> leads B f q l -> 
    match dget f l with None => e = LDir \/ exists c, e = LFile c | Some (LFile _) => exists c, e = LFile c | _ => False end -> ok f (dset f l e).
  Proof.
    intros Hf Hn Hl He.
    assert (Gr : grows f (dset f l e)).
    { intros k. rewrite dget_dset. destruct (eqb_spec (k : loc) l) as [->|_].
      - destruct (dget f l) as [[| | |]|]; try contradiction; [destruct He as (c & ->); eauto|]. destruct He as [->|(c & ->)]; eauto.
      - destruct (dget f k) as [[| | |]|]; eauto. }
    split; [apply fit_dset; [exact Hf|exact Hn|]|split; [exact Gr|]].
    - intros r t ->. destruct (dget f l) as [[| | |]|]; try contradiction; [destruct He as (c & E); discriminate|]. destruct He as [E|(c & E)]; discriminate.
    - intros k. rewrite dget_dset. destruct (eqb_spec (k : loc) l) as [->|_]; [|congruence]. intros _. now apply (leads_grows B f).
  Qed.

  Definition run {A} (P : lfs -> Prop) (m : LM A) (Q : A -> lfs -> Prop) : Prop := forall f t, fit f -> P f ->
    ok f (fst (fst (m (f, t)))) /\ forall a, snd (m (f, t)) = Ok a -> Q a (fst (fst (m (f, t)))).

  Lemma run_bind {A C} P (m : LM A) (k : A -> LM C) Q R : run P m Q -> (forall a, run (Q a) (k a) R) -> run P (lbind m k) R.
  Proof.
    intros Hm Hk f t Hf HP. destruct (Hm f t Hf HP) as (A1 & A2). unfold lbind. destruct (m (f, t)) as [[g u] [a|e]]; cbn [fst snd] in *.
    - destruct (Hk a g u (proj1 A1) (A2 a eq_refl)) as (B1 & B2). split; [now apply (ok_trans f g)|exact B2].
    - split; [exact A1|discriminate].
  Qed.
  Lemma run_ret {A} (P : lfs -> Prop) (a : A) (Q : A -> lfs -> Prop) : (forall f, P f -> Q a f) -> run P (lret a) Q.
  Proof. intros H f t Hf HP. cbn. split; [now apply ok_refl|]. intros b E. injection E as <-. now apply H. Qed.
  Lemma run_raise {A} P e (Q : A -> lfs -> Prop) : run P (lraise e) Q.
  Proof. intros f t Hf HP. cbn. split; [now apply ok_refl|discriminate]. Qed.
  Lemma run_sys {A} (P : lfs -> Prop) (call : lfs -> lfs * res A) part (Q : A -> lfs -> Prop) :
    (forall f, fit f -> P f -> ok f (fst (call f)) /\ forall a, snd (call f) = Ok a -> Q a (fst (call f))) ->
    (forall n f, fit f -> P f -> ok f (part n f)) -> run P (lsys fates call part) Q.
  Proof.
    intros Hc Hp f t Hf HP. unfold lsys. destruct (fates t) as [|n|n].
    - destruct (Hc f Hf HP) as (A1 & A2). destruct (call f) as [g r]. cbn [fst snd] in *. auto.
    - cbn [fst snd]. split; [now apply Hp|discriminate].
    - cbn [fst snd]. split; [now apply Hp|discriminate].
  Qed.
  Lemma run_whole {A} (P : lfs -> Prop) (call : lfs -> lfs * res A) (Q : A -> lfs -> Prop) :
    (forall f, fit f -> P f -> ok f (fst (call f)) /\ forall a, snd (call f) = Ok a -> Q a (fst (call f))) -> run P (lwhole fates call) Q.
  Proof. intros H. apply run_sys; [exact H|]. intros n f Hf _. now apply ok_refl. Qed.
  Lemma run_looks {A} (P : lfs -> Prop) (call : lfs -> lfs * res A) (Q : A -> lfs -> Prop) : (forall f, fst (call f) = f) ->
    (forall f a, fit f -> P f -> snd (call f) = Ok a -> Q a f) -> run P (lwhole fates call) Q.
  Proof. intros H H'. apply run_whole. intros f Hf HP. rewrite (H f). split; [now apply ok_refl|]. intros a. now apply H'. Qed.

  Lemma run_probe P p : run P (lprobe B fates p) (fun _ => P).
  Proof. intros f t Hf HP. destruct (run_lprobe B fates p f t) as (o & E & _). rewrite E. cbn [fst snd]. split; [now apply ok_refl|auto]. Qed.
  Lemma run_children p : run (fun _ => True) (lchildren B fates p) (fun cs _ => Forall (fun c => name (last c [])) cs).
  Proof.
    unfold lchildren. apply (run_bind _ _ _ (fun ns _ => Forall name ns)).
    - apply run_looks; [reflexivity|]. intros f a Hf _. unfold los_listdir. cbn [snd]. destruct (goes B f true p) as [l|]; [|discriminate]. destruct (dget f l) as [[| | |]|]; try discriminate.
      intros E. injection E as <-. apply Forall_forall. intros c Hc. apply lnames_spec in Hc; [|apply Hf]. destruct (dget f (l ++ [c])) as [e|] eqn:E; [|congruence].
      apply (fit_names f Hf) in E. apply Forall_app in E. destruct E as [_ E]. now inversion E.
    - intros ns. apply run_ret. intros _ Hns. apply Forall_forall. intros x Hx. apply in_map_iff in Hx. destruct Hx as (c & <- & Hc). rewrite last_last. rewrite Forall_forall in Hns. now apply Hns.
  Qed.

  Lemma ok_append to bytes f : fit f -> leads B f q to -> ok f (fst (los_append to bytes f)) /\ leads B (fst (los_append to bytes f)) q to.
  Proof.
    intros Hf Hl. assert (O : ok f (fst (los_append to bytes f))).
    { unfold los_append. destruct (dget f to) as [[c| | |]|] eqn:E; cbn [fst]; try (now apply ok_refl).
      apply ok_dset; [exact Hf|exact (fit_names f Hf to _ E)|exact Hl|rewrite E; eauto]. }
    split; [exact O|]. now apply (leads_grows B f); [apply O|].
  Qed.
  Lemma run_loop k from to : forall fuel pos, run (fun f => leads B f q to) (lcopy_loop fates k fuel from to pos) (fun _ _ => True).
  Proof.
    induction fuel as [|fuel IH]; intros pos; cbn [lcopy_loop]; [apply run_raise|].
    apply (run_bind _ _ _ (fun _ f => leads B f q to)); [apply run_looks; auto|]. intros chunk.
    apply (run_bind _ _ _ (fun _ f => leads B f q to)).
    - apply run_sys; [|intros n f Hf Hl; now apply ok_append]. intros f Hf Hl. destruct (ok_append to chunk f Hf Hl). auto.
    - intros _. destruct (length chunk <? k)%nat; [now apply run_ret|apply IH].
  Qed.

  Theorem run_copy k : forall fuel p r, Forall name r -> run (fun _ => True) (lcopyTo B fates k fuel p (q ++ r)) (fun _ _ => True).
  Proof.
    induction fuel as [|fuel IH]; intros p r Hr; cbn [lcopyTo]; [apply run_raise|].
    assert (Hn : Forall name (q ++ r)) by (now apply Forall_app).
    apply (run_bind _ _ _ (fun _ _ => True)); [apply run_probe|]. intros st.
    assert (Other : run (fun _ => True) (lbind (match st with Some e => lret (Some e) | None => lprobe B fates p end)
              (fun st' => match st' with
                          | Some (LFile _) =>
                              lbind (lwhole fates (los_open_w B (q ++ r))) (fun to => lbind (lwhole fates (los_open_r B p)) (fun from =>
                              lbind (fun s => lcopy_loop fates k (S (match dget (fst s) from with Some (LFile c) => length c | _ => 0 end)) from to 0 s) (fun _ =>
                              lbind (lwhole fates (fun f => (f, Ok tt))) (fun _ => lwhole fates (fun f => (f, Ok tt))))))
                          | _ => lraise NotImplementedErr end)) (fun _ _ => True)).
    { apply (run_bind _ _ _ (fun _ _ => True)); [destruct st; [now apply run_ret|apply run_probe]|]. intros st'. destruct st' as [[c| | |]|]; try apply run_raise.
      apply (run_bind _ _ _ (fun to f => leads B f q to)).
      - apply run_whole. intros f Hf _. unfold los_open_w. destruct (goes B f true (q ++ r)) as [l|e] eqn:G; [|cbn [fst snd]; split; [now apply ok_refl|discriminate]].
        assert (L : leads B f q l) by (now exists r).
        pose proof (goes_names B f true _ l Hf Hn G) as Hl.
        destruct (dget f l) as [[| | |]|] eqn:E; cbn [fst snd]; try (split; [now apply ok_refl|discriminate]);
          (assert (O : ok f (dset f l (LFile []))) by (apply ok_dset; [exact Hf|exact Hl|exact L|rewrite E; eauto]);
           split; [exact O|]; intros a X; injection X as <-; apply (leads_grows B f); [apply O|exact L]).
      - intros to. apply (run_bind _ _ _ (fun _ f => leads B f q to)); [apply run_looks; auto|]. intros from.
        apply (run_bind _ _ _ (fun _ _ => True)); [intros f t Hf Hl; now apply run_loop|]. intros _.
        apply (run_bind _ _ _ (fun _ _ => True)); [apply run_looks; auto|]. intros _. apply run_looks; auto. }
    destruct st as [[| | |]|]; try exact Other. clear Other.
    apply (run_bind _ _ _ (fun _ _ => True)); [apply run_probe|]. intros ex.
    apply (run_bind _ _ _ (fun _ _ => True)).
    { destruct ex; [now apply run_ret|]. apply run_whole. intros f Hf _. unfold los_mkdir. destruct (goes B f false (q ++ r)) as [l|e] eqn:G; [|cbn [fst snd]; split; [now apply ok_refl|discriminate]].
      pose proof (goes_names B f false _ l Hf Hn G) as Hl.
      destruct (dget f l) eqn:E; cbn [fst snd]; [split; [now apply ok_refl|discriminate]|]. split; [|auto].
      apply ok_dset; [exact Hf|exact Hl| |rewrite E; auto]. exists r. split; [exact Hr|]. unfold goes in *. destruct (find f false B [] (q ++ r)) as [[x b]|] eqn:F; [|discriminate].
      injection G as ->. rewrite (find_follow f _ _ _ _ _ F); [reflexivity|]. intros ? ?. congruence. }
    intros _. apply (run_bind _ _ _ _ _ (run_children p)). intros cs.
    enough (X : forall cs, Forall (fun c => name (last c [])) cs -> run (fun _ => True) (literM (fun c => lcopyTo B fates k fuel c ((q ++ r) ++ [last c []])) cs) (fun _ _ => True)).
    { intros f t Hf Hcs. now apply X. }
    clear cs. intros cs Hcs. induction Hcs as [|c cs Hc _ IHc]; cbn [literM]; [now apply run_ret|].
    apply (run_bind _ _ _ (fun _ _ => True)); [|intros _; exact IHc]. rewrite <- app_assoc. apply IH. apply Forall_app. split; [exact Hr|now constructor].
  Qed.
End Reach.

Theorem copy_reach B fates k fuel p q f t : okl f -> links_ok f -> Forall name q ->
  grows f (fst (fst (lcopyTo B fates k fuel p q (f, t)))) /\
  forall l, dget (fst (fst (lcopyTo B fates k fuel p q (f, t)))) l <> dget f l -> leads B (fst (fst (lcopyTo B fates k fuel p q (f, t)))) q l.
Proof.
  intros Hf Hl Hq. pose proof (run_copy B fates q Hq k fuel p [] ltac:(constructor) f t) as X. rewrite app_nil_r in X.
  destruct X as ((_ & A & C) & _); [split; [apply Hf|apply Hf|exact Hl]|exact I|]. split; assumption.
Qed.

(** ** Removing *)

Section Unlinked.
  Variable B : nat.
  Variable fates : nat -> fate.
  Variable q : loc.
  Variable f0 : lfs.
  Hypothesis H0 : okl f0.

  (** what is left is as it was, and what is not there is what a path at or
      below [q], not followed at its end, named *)
  Definition less (f : lfs) : Prop := wf_dict f /\ within f f0 /\
    forall l, dget f l = dget f0 l \/ exists r, Forall name r /\ goes B f0 false (q ++ r) = Ok l.

  Definition keeps {A} (m : LM A) (Q : A -> Prop) : Prop := forall f t, less f ->
    less (fst (fst (m (f, t)))) /\ forall a, snd (m (f, t)) = Ok a -> Q a.
  Lemma keeps_bind {A C} (m : LM A) (k : A -> LM C) Q R : keeps m Q -> (forall a, Q a -> keeps (k a) R) -> keeps (lbind m k) R.
  Proof.
    intros Hm Hk f t Hf. destruct (Hm f t Hf) as (A1 & A2). unfold lbind. destruct (m (f, t)) as [[g u] [a|e]]; cbn [fst snd] in *.
    - now apply (Hk a (A2 a eq_refl)).
    - split; [exact A1|discriminate].
  Qed.
  Lemma keeps_ret {A} (a : A) (Q : A -> Prop) : Q a -> keeps (lret a) Q.
  Proof. intros H f t Hf. cbn. split; [exact Hf|]. intros b E. now injection E as <-. Qed.
  Lemma keeps_raise {A} e (Q : A -> Prop) : keeps (lraise e) Q.
  Proof. intros f t Hf. cbn. split; [exact Hf|discriminate]. Qed.
  Lemma keeps_whole {A} (call : lfs -> lfs * res A) (Q : A -> Prop) :
    (forall f, less f -> less (fst (call f)) /\ forall a, snd (call f) = Ok a -> Q a) -> keeps (lwhole fates call) Q.
  Proof.
    intros Hc f t Hf. unfold lwhole, lsys. destruct (fates t) as [|n|n].
    - destruct (Hc f Hf) as (A1 & A2). destruct (call f) as [g r]. cbn [fst snd] in *. auto.
    - cbn [fst snd]. split; [exact Hf|discriminate].
    - cbn [fst snd]. split; [exact Hf|discriminate].
  Qed.
  Lemma keeps_probe p : keeps (lprobe B fates p) (fun _ => True).
  Proof. intros f t Hf. destruct (run_lprobe B fates p f t) as (o & E & _). rewrite E. cbn [fst snd]. split; [exact Hf|auto]. Qed.
  Lemma keeps_children r : Forall name r -> keeps (lchildren B fates (q ++ r)) (fun cs => Forall (fun c => exists r', Forall name r' /\ c = q ++ r') cs).
  Proof.
    intros Hr. unfold lchildren. apply (keeps_bind _ _ (fun ns => Forall name ns)).
    - apply keeps_whole. intros f Hf. unfold los_listdir. cbn [fst snd]. split; [exact Hf|]. intros a. destruct (goes B f true (q ++ r)) as [l|]; [|discriminate]. destruct (dget f l) as [[| | |]|]; try discriminate.
      intros E. injection E as <-. apply Forall_forall. intros c Hc. apply lnames_spec in Hc; [|apply Hf]. destruct (dget f (l ++ [c])) as [e|] eqn:E; [|congruence].
      apply (proj1 (proj2 Hf)) in E. apply (okl_names f0 H0) in E. apply Forall_app in E. destruct E as [_ E]. now inversion E.
    - intros ns Hns. apply keeps_ret. apply Forall_forall. intros x Hx. apply in_map_iff in Hx. destruct Hx as (c & <- & Hc). exists (r ++ [c]). rewrite app_assoc. split; [|reflexivity].
      apply Forall_app. split; [exact Hr|]. constructor; [|constructor]. rewrite Forall_forall in Hns. now apply Hns.
  Qed.
  Lemma less_ddel f r l e : Forall name r -> less f -> goes B f false (q ++ r) = Ok l -> dget f l = Some e -> less (ddel f l).
  Proof.
    intros Hr (W1 & W2 & W3) G E. split; [now apply wf_ddel|]. split.
    - intros k x. rewrite dget_ddel by exact W1. destruct (eqb (k : loc) l); [discriminate|apply W2].
    - intros k. rewrite dget_ddel by exact W1. destruct (eqb_spec (k : loc) l) as [->|_]; [|apply W3]. right. exists r. split; [exact Hr|].
      unfold goes in *. destruct (find f false B [] (q ++ r)) as [[x b]|] eqn:F; [|discriminate]. injection G as ->. now rewrite (find_within f f0 W2 _ _ _ _ _ _ _ F E).
  Qed.

  Theorem keeps_remove : forall fuel r, Forall name r -> keeps (lremove B fates fuel (q ++ r)) (fun _ => True).
  Proof.
    induction fuel as [|fuel IH]; intros r Hr; cbn [lremove]; [apply keeps_raise|].
    assert (U : keeps (lwhole fates (los_unlink B (q ++ r))) (fun _ => True)).
    { apply keeps_whole. intros f Hf. split; [|auto]. unfold los_unlink. destruct (goes B f false (q ++ r)) as [l|] eqn:G; [|exact Hf].
      destruct (dget f l) as [[| | |]|] eqn:E; cbn [fst]; try exact Hf; now apply (less_ddel f r l _ Hr Hf G E). }
    apply (keeps_bind _ _ (fun _ => True)); [apply keeps_probe|]. intros st _.
    apply (keeps_bind _ _ (fun _ => True)).
    - destruct st as [[| | |]|]; try exact U. apply (keeps_bind _ _ _ _ (keeps_children r Hr)). intros cs Hcs.
      apply (keeps_bind _ _ (fun _ => True)).
      + induction Hcs as [|c cs (r' & Hr' & ->) _ IHc]; cbn [literM]; [now apply keeps_ret|]. apply (keeps_bind _ _ (fun _ => True)); [now apply IH|auto].
      + intros _ _. apply keeps_whole. intros f Hf. split; [|auto]. unfold los_rmdir. destruct (goes B f false (q ++ r)) as [l|] eqn:G; [|exact Hf].
        destruct (dget f l) as [[| | |]|] eqn:E; try exact Hf. destruct l as [|x l]; [exact Hf|]. destruct (lnames f (x :: l)); [|exact Hf]. cbn [fst]. now apply (less_ddel f r _ _ Hr Hf G E).
    - intros _ _. apply (keeps_bind _ _ (fun _ => True)); [apply keeps_probe|]. intros _ _. now apply keeps_ret.
  Qed.
End Unlinked.

Theorem remove_reach B fates fuel q f t : okl f -> forall l,
  dget (fst (fst (lremove B fates fuel q (f, t)))) l = dget f l \/
  (dget (fst (fst (lremove B fates fuel q (f, t)))) l = None /\ exists r, Forall name r /\ goes B f false (q ++ r) = Ok l).
Proof.
  intros Hf l. pose proof (keeps_remove B fates q f Hf fuel [] ltac:(constructor) f t) as X. rewrite app_nil_r in X.
  destruct X as ((_ & W & C) & _); [split; [apply Hf|]; split; [intros k e; exact (fun x => x)|intros k; now left]|].
  destruct (dget (fst (fst (lremove B fates fuel q (f, t)))) l) as [e|] eqn:E; [left; symmetry; now apply W|].
  destruct (C l) as [<-|R]; [left; now symmetry|right]. now split.
Qed.
