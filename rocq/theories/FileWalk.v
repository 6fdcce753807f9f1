(** * walk of a tree with any links

    FilePath.walk (epsilon/hotfixes/filepath_copyTo.py:326-331; the model is
    [lwalk] in FileLinks.v) through links that lead to directories, also to
    directories they are in. *)
From Coq Require Import NArith String List Bool Arith Lia ZifyBool.
From Verif Require Import Py PyStr PySplit FilePath FileTree FileTreeMore FileLinks FileLinksCopy.
Import ListNotations.
Open Scope list_scope.

(** ** Specification *)

(** there is something at this path, perhaps a link (os.path.lexists) *)
Definition lexists (B : nat) (f : lfs) (p : loc) : Prop := exists l, goes B f false p = Ok l /\ dget f l <> None.

(** the path itself and every existing path made by adding names to it, each
    once, each after the one it is in *)
Record walked (B : nat) (f : lfs) (p : loc) (ws : list loc) : Prop := {
  walked_once : NoDup ws;
  walked_all : forall l, In l ws <-> l = p \/ exists r, r <> [] /\ Forall name r /\ l = p ++ r /\ lexists B f l;
  walked_order : forall a k c b, ws = a ++ (k ++ [c]) :: b -> k ++ [c] = p \/ In k a }.

(** ** Proofs *)

Section Walk.
  Variable B : nat.
  Variable fates : nat -> fate.
  Hypothesis calm : forall t, fates t = Run.
  Variable f : lfs.
  Hypothesis Hf : okl f.

  Lemma exists_in s d x r : goes B f true s = Ok d -> dget f d = Some LDir -> Forall name (x :: r) -> lexists B f (s ++ x :: r) -> dget f (d ++ [x]) <> None.
  Proof.
    intros G Hd Hr (l & Gl & Hl) Hx. destruct (find_goes B f s d G) as (b & F). inversion Hr as [|? ? Hxn Hrn]; subst. unfold goes in Gl.
    rewrite (find_app f B s [] d b F Hd false (x :: r)) in Gl by discriminate. destruct r as [|y r].
    - rewrite find_name, Hx in Gl by assumption. injection Gl as <-. contradiction.
    - destruct (find_stuck f b [x] d false (y :: r) ltac:(discriminate)) as (e & E); [rewrite find_name by assumption; rewrite Hx; congruence|]. cbn [app] in E. now rewrite E in Gl.
  Qed.
  Lemma exists_child s d x : goes B f true s = Ok d -> dget f d = Some LDir -> name x -> dget f (d ++ [x]) <> None -> lexists B f (s ++ [x]).
  Proof.
    intros G Hd Hx He. destruct (find_goes B f s d G) as (b & F). exists (d ++ [x]). split; [|exact He]. unfold goes.
    rewrite (find_app f B s [] d b F Hd false [x]) by discriminate. rewrite find_name by assumption. destruct (dget f (d ++ [x])) as [[| | |]|]; reflexivity.
  Qed.
  Lemma exists_not s x r : view B f s <> Some LDir -> ~ lexists B f (s ++ x :: r).
  Proof.
    intros H (l & Gl & _). unfold goes in Gl. destruct (find_stuck f B s [] false (x :: r) ltac:(discriminate)) as (e & E); [|now rewrite E in Gl].
    unfold view, goes in H. destruct (find f true B [] s) as [[d b]|]; [exact H|exact I].
  Qed.

  Variable D : nat.
  Hypothesis HD : forall l, dget f l <> None -> (length l <= D)%nat.

  Lemma view_step s d b x d' b' : find f true B [] s = Ok (d, b) -> dget f d = Some LDir -> name x -> find f true B [] (s ++ [x]) = Ok (d', b') -> dget f d' = Some LDir ->
    (b' * S D + (D - length d') < b * S D + (D - length d))%nat.
  Proof.
    intros F Hd Hx F' Hd'. rewrite (find_app f B s [] d b F Hd true [x]) in F' by discriminate. rewrite find_name in F' by assumption.
    assert (L' : (length d' <= D)%nat) by (apply HD; rewrite Hd'; discriminate).
    destruct (dget f (d ++ [x])) as [[| | |r t]|] eqn:E; try (injection F' as <- <-; rewrite app_length in *; cbn [length] in *; lia).
    destruct b as [|b]; [discriminate|]. apply find_le in F'. nia.
  Qed.

  Lemma run_children p d t : goes B f true p = Ok d -> dget f d = Some LDir -> lchildren B fates p (f, t) = ((f, S t), Ok (map (fun c => p ++ [c]) (lnames f d))).
  Proof. intros G E. unfold lchildren, lbind, lwhole, lsys, los_listdir. rewrite calm, G, E. reflexivity. Qed.

  Definition small (s : loc) (fuel : nat) : Prop := forall d b, find f true B [] s = Ok (d, b) -> dget f d = Some LDir -> (b * S D + (D - length d) < fuel)%nat.

  Theorem walk_spec : forall fuel s t, small s fuel -> exists t' ws, lwalk B fates (S fuel) s (f, t) = ((f, t'), Ok ws) /\ walked B f s ws.
  Proof.
    assert (Single : forall s t, view B f s <> Some LDir -> exists t' ws, lret [s] (f, S t) = ((f, t'), Ok ws) /\ walked B f s ws).
    { intros s t H. exists (S t), [s]. split; [reflexivity|]. split.
      - constructor; [intros []|constructor].
      - intros l. cbn [In]. split; [intros [->|[]]; now left|]. intros [->|(r & Hr & _ & -> & He)]; [now left|]. exfalso. destruct r as [|x r]; [congruence|]. now apply (exists_not s x r H).
      - intros a k c b E. left. destruct a as [|y a]; [injection E as -> _; reflexivity|]. exfalso. destruct a; discriminate E. }
    induction fuel as [|fuel IH]; intros s t Hs; cbn [lwalk];
      destruct (run_lprobe B fates s f t) as (o & Ho & _ & Hr); specialize (Hr calm); subst o; rewrite (lbind_run _ _ _ _ _ Ho); clear Ho;
      change (match goes B f true s with Ok l => dget f l | Err _ => None end) with (view B f s); destruct (view B f s) as [[| | |]|] eqn:V; try (apply Single; congruence);
      (assert (Gd : exists d b, goes B f true s = Ok d /\ find f true B [] s = Ok (d, b) /\ dget f d = Some LDir);
       [unfold view, goes in V |- *; destruct (find f true B [] s) as [[d b]|]; [exists d, b; now split|discriminate]|]); destruct Gd as (d & b & G & F & Hd).
    { specialize (Hs d b F Hd). lia. }
    clear Single. rewrite (lbind_run _ _ _ _ _ (run_children s d (S t) G Hd)).
    set (go := fix go (l : list loc) : LM (list loc) := match l with [] => lret [] | c :: l' => lbind (lwalk B fates (S fuel) c) (fun a => lbind (go l') (fun b => lret (a ++ b))) end).
    assert (W : forall cs t, Forall name cs -> NoDup cs -> (forall c, In c cs -> dget f (d ++ [c]) <> None) ->
      exists t' ws, go (map (fun c => s ++ [c]) cs) (f, t) = ((f, t'), Ok ws) /\
        NoDup ws /\ (forall l, In l ws <-> exists c r, In c cs /\ Forall name r /\ l = s ++ c :: r /\ lexists B f l) /\
        (forall a k c b, ws = a ++ (k ++ [c]) :: b -> k = s \/ In k a)).
    { induction cs as [|c cs IHc]; intros u Hn Hu Hc.
      - exists u, []. split; [reflexivity|]. split; [constructor|]. split; [intros l; split; [intros []|now intros (c & r & [] & _)]|]. intros a k c b0 E. destruct a; discriminate E.
      - inversion Hn as [|? ? Hcn Hn']; subst. inversion Hu as [|? ? Hi Hu']; subst.
        assert (Hfc : dget f (d ++ [c]) <> None) by (apply Hc; now left).
        destruct (IH (s ++ [c]) u) as (u1 & w1 & E1 & [V1 V2 V3]).
        { intros d' b' F' Hd'. pose proof (view_step s d b c d' b' F Hd Hcn F' Hd'). specialize (Hs d b F Hd). lia. }
        destruct (IHc u1 Hn' Hu' (fun d0 Hd0 => Hc d0 (or_intror Hd0))) as (u2 & w2 & E2 & X1 & X2 & X3).
        exists u2, (w1 ++ w2). split; [|split; [|split]].
        + cbn [map go]. fold go. rewrite (lbind_run _ _ _ _ _ E1), (lbind_run _ _ _ _ _ E2). reflexivity.
        + assert (Dis : forall l, In l w1 -> ~ In l w2).
          { intros l H1 H2. apply V2 in H1. apply X2 in H2. destruct H2 as (x & r & Hx & _ & E & _).
            assert (E' : exists r', s ++ c :: r' = s ++ x :: r). { destruct H1 as [->|(r' & _ & _ & -> & _)]; [exists []; now rewrite <- E|exists r'; now rewrite <- E, <- app_assoc]. }
            destruct E' as (r' & E'). apply app_inv_head in E'. injection E' as -> _. contradiction. }
          clear - V1 X1 Dis. induction V1 as [|x w1 Hx _ IHw]; [exact X1|]. cbn [app]. constructor; [|apply IHw; intros l Hl; apply Dis; now right].
          rewrite in_app_iff. intros [H|H]; [contradiction|]. apply (Dis x (or_introl eq_refl) H).
        + intros l. rewrite in_app_iff, V2, X2. split.
          * intros [[->|(r & _ & H1 & -> & H2)]|(x & r & H1 & H2)].
            -- exists c, []. split; [now left|]. split; [constructor|]. split; [reflexivity|]. now apply (exists_child s d c).
            -- exists c, r. split; [now left|]. split; [exact H1|]. split; [now rewrite <- app_assoc|exact H2].
            -- exists x, r. split; [now right|exact H2].
          * intros (x & r & [<-|Hx] & Hr & -> & He); [left|right; exists x, r; auto]. destruct r as [|y r]; [now left|right]. exists (y :: r). rewrite <- app_assoc. split; [discriminate|]. auto.
        + intros a k x b0 E. apply app_split in E. destruct E as [(b' & E)|(a' & -> & E)].
          * destruct (V3 a k x b' E) as [E'|H]; [left; apply app_inj_tail in E'; apply E'|now right].
          * destruct (X3 a' k x b0 E) as [->|H]; [now left|right; apply in_or_app; now right]. }
    destruct (W (lnames f d) (S (S t)) (lnames_names f d Hf) (lnames_nodup f d (okl_keys f Hf))) as (t' & ws & E & N1 & N2 & N3). { intros c Hc. apply lnames_spec in Hc; [exact Hc|apply Hf]. }
    rewrite (lbind_run _ _ _ _ _ E). exists t', (s :: ws). split; [reflexivity|]. split.
    - constructor; [|exact N1]. intros H. apply N2 in H. destruct H as (c & r & _ & _ & H & _). rewrite <- (app_nil_r s) in H at 1. apply app_inv_head in H. discriminate H.
    - intros l. cbn [In]. rewrite N2. split.
      + intros [<-|(c & r & Hc & Hr & -> & He)]; [now left|right]. exists (c :: r). split; [discriminate|]. split; [constructor; [|exact Hr]|auto].
        pose proof (lnames_names f d Hf) as Hn. rewrite Forall_forall in Hn. now apply Hn.
      + intros [->|(r & Hr & Hn & -> & He)]; [now left|right]. destruct r as [|c r]; [congruence|]. exists c, r. split.
        * apply lnames_spec; [apply Hf|]. now apply (exists_in s d c r).
        * inversion Hn; subst. auto.
    - intros a k c b0 Ew. destruct a as [|y a]; [injection Ew as Ew _; left; now rewrite Ew|]. injection Ew as <- Ew. right. destruct (N3 a k c b0 Ew) as [->|H]; [now left|now right].
  Qed.
End Walk.

Theorem walk_links B fates f t p : (forall t, fates t = Run) -> okl f ->
  exists depth, forall fuel, (depth <= fuel)%nat -> exists t' ws, lwalk B fates fuel p (f, t) = ((f, t'), Ok ws) /\ walked B f p ws.
Proof.
  intros calm Hf. destruct (ldeep_exists f []) as (D & HD). exists (S (S (B * S D + D))). intros fuel Hfu. destruct fuel as [|fuel]; [lia|].
  apply (walk_spec B fates calm f Hf D).
  - intros l Hl. specialize (HD l Hl). lia.
  - intros d b F Hd. apply find_le in F. nia.
Qed.

(** however links lead, what is seen through them ends *)
Lemma view_depth B f D : okl f -> (forall l, dget f l <> None -> (length l <= D)%nat) -> forall p r, Forall name r ->
  forall d b, find f true B [] (p ++ r) = Ok (d, b) -> dget f d = Some LDir -> (b * S D + (D - length d) + length r <= B * S D + D)%nat.
Proof.
  intros Hf HD p r Hr. induction r as [|x r IH] using rev_ind; intros d b F Hd.
  - apply find_le in F. cbn [length]. nia.
  - apply Forall_app in Hr. destruct Hr as [Hr Hx]. inversion Hx; subst. rewrite app_assoc in F. rewrite app_length. cbn [length].
    destruct (find f true B [] (p ++ r)) as [[d0 b0]|e] eqn:F0.
    2:{ destruct (find_stuck f B (p ++ r) [] true [x] ltac:(discriminate)) as (e' & E); [now rewrite F0|congruence]. }
    destruct (dget f d0) as [[| | |]|] eqn:E0;
      try (destruct (find_stuck f B (p ++ r) [] true [x] ltac:(discriminate)) as (e' & E); [rewrite F0; congruence|congruence]).
    specialize (IH Hr d0 b0 eq_refl E0). pose proof (view_step B f D HD (p ++ r) d0 b0 x d b F0 E0 ltac:(assumption) F Hd). lia.
Qed.
Theorem view_ends B f : okl f -> exists n, forall p r, Forall name r -> view B f (p ++ r) <> None -> (length r < n)%nat.
Proof.
  intros Hf. destruct (ldeep_exists f []) as (D & HD). exists (S (S (B * S D + D))). intros p r Hr V.
  assert (HD' : forall l, dget f l <> None -> (length l <= D)%nat) by (intros l Hl; specialize (HD l Hl); lia).
  destruct r as [|x r] using rev_ind; [cbn; lia|]. clear IHr. rewrite app_assoc in V. rewrite app_length. cbn [length].
  apply Forall_app in Hr. destruct Hr as [Hr _].
  destruct (find f true B [] (p ++ r)) as [[d0 b0]|e] eqn:F0.
  2:{ exfalso. apply V. unfold view, goes. destruct (find_stuck f B (p ++ r) [] true [x] ltac:(discriminate)) as (e' & ->); [now rewrite F0|reflexivity]. }
  destruct (dget f d0) as [[| | |]|] eqn:E0;
    try (exfalso; apply V; unfold view, goes; destruct (find_stuck f B (p ++ r) [] true [x] ltac:(discriminate)) as (e' & ->); [rewrite F0; congruence|reflexivity]).
  pose proof (view_depth B f D Hf HD' p r Hr d0 b0 F0 E0). lia.
Qed.
