(** * Files and directories: rename, setContent, moveTo, remove, walk *)

From Coq Require Import NArith String List Bool Arith Lia ZifyBool.
From Verif Require Import Py PyStr PySplit FilePath FileTree.
Import ListNotations.
Open Scope list_scope.

(** ** rename *)

Definition moved_key (a b l : loc) : loc := match strip a l with Some r => b ++ r | None => l end.

Lemma moved_key_below a b r : moved_key a b (a ++ r) = b ++ r.
Proof. unfold moved_key. now rewrite (proj2 (strip_spec a (a ++ r) r) eq_refl). Qed.
Lemma moved_key_out a b l : ~ below a l -> moved_key a b l = l.
Proof. intros H. unfold moved_key. now rewrite (proj2 (strip_none a l) H). Qed.

Lemma relocate_in a b f l e : In (l, e) (relocate a b f) <-> exists k, In (k, e) f /\ k <> b /\ l = moved_key a b k.
Proof.
  unfold relocate. rewrite in_map_iff. split.
  - intros ([k e'] & E & Hi). apply filter_In in Hi. destruct Hi as [Hi Hb]. cbn [fst snd] in *. exists k. apply negb_true_iff, eqb_neq in Hb.
    unfold moved_key. destruct (strip a k); injection E as <- <-; auto.
  - intros (k & Hi & Hb & ->). exists (k, e). cbn [fst snd]. split; [unfold moved_key; destruct (strip a k); reflexivity|]. apply filter_In. split; [exact Hi|]. cbn [fst]. now apply negb_true_iff, eqb_neq.
Qed.

Section Relocate.
  Variables (a b : loc) (f : fs).
  Hypothesis Hf : okfs f.
  Hypothesis Hab : apart a b.
  (** the target holds nothing *)
  Hypothesis Hb : forall r, r <> [] -> dget f (b ++ r) = None.

  Lemma moved_key_inj k k' : In k (keys f) -> In k' (keys f) -> k <> b -> k' <> b -> moved_key a b k = moved_key a b k' -> k = k'.
  Proof.
    intros Hk Hk' Hkb Hkb' E. assert (N : forall l r, In l (keys f) -> l <> b -> l = b ++ r -> False).
    { intros l r Hl Hlb ->. destruct r as [|x r]; [now rewrite app_nil_r in Hlb|]. apply (proj1 (dget_None f _) (Hb (x :: r) ltac:(discriminate))). exact Hl. }
    destruct (below_dec a k) as [(r & ->)|B]; destruct (below_dec a k') as [(r' & ->)|B'].
    - rewrite !moved_key_below in E. apply app_inv_head in E. now subst.
    - rewrite moved_key_below, (moved_key_out a b k' B') in E. exfalso. now apply (N k' r).
    - rewrite moved_key_below, (moved_key_out a b k B) in E. exfalso. now apply (N k r').
    - now rewrite (moved_key_out a b k B), (moved_key_out a b k' B') in E.
  Qed.

  Lemma relocate_keys g : incl g f -> NoDup (keys g) -> NoDup (keys (relocate a b g)).
  Proof.
    intros Hi Hn. induction g as [|[k e] g IH]; [constructor|]. cbn [keys map fst] in Hn. inversion Hn as [|? ? Hk Hn']; subst.
    assert (IH' : NoDup (keys (relocate a b g))) by (apply IH; [intros x Hx; apply Hi; now right|exact Hn']). unfold relocate. cbn [filter fst]. destruct (eqb_spec k b) as [->|Hkb]; cbn [negb]; [exact IH'|].
    cbn [map fst snd keys]. fold (relocate a b g). constructor; [|exact IH']. intros Hin. apply in_map_iff in Hin. destruct Hin as ([l e'] & El & Hl). apply relocate_in in Hl.
    destruct Hl as (k' & Hk' & Hkb' & ->). cbn [fst] in El. assert (k = k'); [|subst k'; apply Hk; apply in_map_iff; now exists (k, e')].
    apply moved_key_inj; auto; [apply in_map_iff; exists (k, e); split; [reflexivity|apply Hi; now left]|apply in_map_iff; exists (k', e'); split; [reflexivity|apply Hi; now right]|].
    rewrite El. unfold moved_key. destruct (strip a k); reflexivity.
  Qed.

  Lemma relocate_wf : wf_dict (relocate a b f).
  Proof. apply relocate_keys; [apply incl_refl|apply Hf]. Qed.

  Lemma relocate_get l e : dget (relocate a b f) l = Some e <-> exists k, dget f k = Some e /\ k <> b /\ l = moved_key a b k.
  Proof.
    split.
    - intros H. apply dget_In, relocate_in in H. destruct H as (k & Hk & Hkb & ->). exists k. split; [|now split]. apply In_dget; [apply Hf|exact Hk].
    - intros (k & Hk & Hkb & ->). apply In_dget; [apply relocate_wf|]. apply relocate_in. exists k. split; [now apply dget_In|]. now split.
  Qed.

  Lemma relocate_at r : dget (relocate a b f) (b ++ r) = dget f (a ++ r).
  Proof.
    destruct (dget f (a ++ r)) as [e|] eqn:E.
    - apply relocate_get. exists (a ++ r). split; [exact E|]. split; [|now rewrite moved_key_below]. intros H. apply (apart_app a b r [] Hab). now rewrite app_nil_r.
    - destruct (dget (relocate a b f) (b ++ r)) as [e|] eqn:E'; [|reflexivity]. exfalso. apply relocate_get in E'. destruct E' as (k & Hk & Hkb & El).
      destruct (below_dec a k) as [(r' & ->)|B].
      + rewrite moved_key_below in El. apply app_inv_head in El. subst. congruence.
      + rewrite (moved_key_out a b k B) in El. subst k. destruct r as [|x r]; [now rewrite app_nil_r in Hkb|]. rewrite Hb in Hk by discriminate. discriminate.
  Qed.

  Lemma relocate_source r : dget (relocate a b f) (a ++ r) = None.
  Proof.
    destruct (dget (relocate a b f) (a ++ r)) as [e|] eqn:E; [|reflexivity]. exfalso. apply relocate_get in E. destruct E as (k & Hk & Hkb & El).
    destruct (below_dec a k) as [(r' & ->)|B].
    - rewrite moved_key_below in El. now apply (apart_app a b r r' Hab).
    - rewrite (moved_key_out a b k B) in El. apply B. now exists r.
  Qed.

  Lemma relocate_other l : ~ below a l -> ~ below b l -> dget (relocate a b f) l = dget f l.
  Proof.
    intros Ha Hlb. destruct (dget f l) as [e|] eqn:E.
    - apply relocate_get. exists l. split; [exact E|]. split; [intros ->; apply Hlb, below_refl|now rewrite moved_key_out].
    - destruct (dget (relocate a b f) l) as [e|] eqn:E'; [|reflexivity]. exfalso. apply relocate_get in E'. destruct E' as (k & Hk & Hkb & ->).
      destruct (below_dec a k) as [(r & ->)|B]; [rewrite moved_key_below in Hlb; apply Hlb, below_app|]. rewrite (moved_key_out a b k B) in *. congruence.
  Qed.
End Relocate.

(** what rename did: the whole tree is now at the target, and nothing else
    changed *)
Record moved (a b : loc) (f g : fs) : Prop := {
  moved_at : forall r, dget g (b ++ r) = dget f (a ++ r);
  moved_from : forall r, dget g (a ++ r) = None;
  moved_other : forall l, ~ below a l -> ~ below b l -> dget g l = dget f l }.

Lemma names_nil f l : okfs f -> names f l = [] -> forall r, r <> [] -> dget f (l ++ r) = None.
Proof.
  intros Hf Hn r Hr. destruct (dget f (l ++ r)) as [e|] eqn:E; [|reflexivity]. exfalso. destruct r as [|c r]; [congruence|].
  assert (Hc : dget f (l ++ [c]) <> None).
  { destruct r as [|d r]; [rewrite E; discriminate|]. rewrite (ok_below f (l ++ [c]) (d :: r) Hf); [discriminate|discriminate|]. rewrite <- app_assoc. cbn [app]. rewrite E. discriminate. }
  apply names_spec in Hc; [|apply Hf]. rewrite Hn in Hc. exact Hc.
Qed.

Lemma rename_cases samedev n (a : loc) m (b : loc) f : absolute n a -> absolute m b -> okfs f ->
  match os_rename samedev (render n a) (render m b) f with
  | (g, Ok _) => dget f a <> None /\ (a = b /\ g = f \/ apart a b /\ samedev a b = true /\ moved a b f g)
  | (g, Err e) => g = f /\ (e = OSError \/ (e = EXDEV /\ dget f a <> None /\ a <> b /\ samedev a b = false))
  end.
Proof.
  intros Ha Hb Hf. unfold os_rename. rewrite (place_render n a Ha), (place_render m b Hb). destruct (dget f a) as [e|] eqn:Ea; [|split; [reflexivity|now left]].
  destruct (eqb_spec a b) as [->|Hab]; [split; [discriminate|now left]|]. destruct (samedev a b); cbn [negb]; [|split; [reflexivity|right; repeat split; [discriminate|exact Hab]]].
  destruct (strip a b) as [r|] eqn:Es; [split; [reflexivity|now left]|]. apply strip_none in Es.
  assert (G : forall fits : bool, (fits = true -> forall r, r <> [] -> dget f (b ++ r) = None) ->
    match (if fits then (relocate a b f, Ok tt) else (f, Err OSError)) with
    | (g, Ok _) => Some e <> None /\ (a = b /\ g = f \/ apart a b /\ true = true /\ moved a b f g)
    | (g, Err e0) => g = f /\ (e0 = OSError \/ (e0 = EXDEV /\ Some e <> None /\ a <> b /\ true = false))
    end).
  { intros fits Hfit. destruct fits; [|split; [reflexivity|now left]]. specialize (Hfit eq_refl). split; [discriminate|]. right.
    assert (Hap : apart a b). { split; [exact Es|]. intros (r & ->). destruct r as [|x r]; [now rewrite app_nil_r in Hab|]. rewrite Hfit in Ea by discriminate. discriminate. }
    split; [exact Hap|]. split; [reflexivity|]. split; intros; [apply relocate_at|apply relocate_source|apply relocate_other]; auto. }
  apply G. clear G. intros H. destruct (dget f b) as [[c| |]|] eqn:Eb.
  - intros r Hr. apply (no_below f b r Hf); [rewrite Eb; discriminate|exact Hr].
  - destruct e as [c'| |]; try discriminate. destruct (names f b) eqn:En; [|discriminate]. now apply names_nil.
  - intros r Hr. apply (no_below f b r Hf); [rewrite Eb; discriminate|exact Hr].
  - intros r Hr. apply (no_below f b r Hf); [rewrite Eb; discriminate|exact Hr].
Qed.

(** ** setContent *)

Lemma sibling_render cwd n l c ext : absolute n (l ++ [c]) -> ext <> [] -> ~ In 47%N ext ->
  siblingExtension cwd (render n (l ++ [c])) ext = render n (l ++ [c ++ ext]) /\ absolute n (l ++ [c ++ ext]).
Proof.
  intros Ha He Hs. assert (Hc : name c) by (destruct Ha as [_ Ha]; apply Forall_app in Ha; destruct Ha as [_ Ha]; now inversion Ha).
  assert (Hce : name (c ++ ext)).
  { destruct Hc as (C1 & C2 & C3 & C4). repeat split.
    - destruct c; [congruence|discriminate].
    - intros E. destruct c as [|x [|y c]]; [congruence| |discriminate]. destruct ext; [congruence|discriminate].
    - intros E. destruct c as [|x [|y [|z c]]]; [congruence| | |discriminate].
      + destruct ext as [|w [|v ext]]; try discriminate. injection E as -> ->. now apply C2.
      + destruct ext; [congruence|discriminate].
    - intros H. apply in_app_or in H. tauto. }
  assert (Ha' : absolute n (l ++ [c ++ ext])). { destruct Ha as [H1 H2]. split; [exact H1|]. apply Forall_app in H2. apply Forall_app. split; [apply H2|]. now constructor. }
  split; [|exact Ha']. unfold siblingExtension, filePath. replace (render n (l ++ [c]) ++ ext) with (render n (l ++ [c ++ ext])); [now apply abspath_render|].
  unfold render. rewrite <- app_assoc. f_equal. destruct l as [|d l]; [reflexivity|]. rewrite !join_snoc by discriminate. now rewrite <- !app_assoc.
Qed.

(** no call fails: they work, or the process stops *)
Definition no_failure (fates : nat -> fate) : Prop := forall t n, fates t <> Fail n.

Section Set_.
  Variable cwd : str.
  Variable fates : nat -> fate.
  Variable samedev : loc -> loc -> bool.

  Lemma flush_spec n (q : loc) direct content f t : absolute n q -> okfs f -> dget f q = Some (EFile (firstn direct content)) ->
    let (s', r) := catchOS (bindM (write fates (render n q) (skipn direct content)) (fun _ => close fates)) (retM tt) (f, t) in
    okfs (fst s') /\ frame q f (fst s') /\
    (r = Ok tt -> exists i, dget (fst s') q = Some (EFile (firstn i content)) /\ (no_failure fates \/ (length content <= direct)%nat -> (length content <= i)%nat)) /\
    (r = Ok tt \/ r = Err KILLED).
  Proof.
    intros Ha Hf Hq. unfold catchOS, bindM, write, sys, os_append. rewrite (place_render n q Ha), Hq. destruct (fates t) as [|j|j] eqn:Et; cbn [fst].
    - unfold close, whole, sys. rewrite firstn_skipn.
      assert (A : okfs (dset f q (EFile content))) by now apply (ok_set_file f q content (firstn direct content)).
      assert (B : exists i, dget (dset f q (EFile content)) q = Some (EFile (firstn i content)) /\ (no_failure fates \/ (length content <= direct)%nat -> (length content <= i)%nat)) by (exists (length content); rewrite dget_dset_eq, firstn_all; auto).
      destruct (fates (S t)); cbn [fst retM]; (split; [exact A|]; split; [apply frame_dset|]; split; [intros _; exact B|auto]).
    - cbn [retM fst]. rewrite <- firstn_add. split; [now apply (ok_set_file f q _ (firstn direct content))|]. split; [apply frame_dset|]. split; [|now left]. intros _. exists (direct + j)%nat. rewrite dget_dset_eq. split; [reflexivity|].
      intros [H|H]; [now destruct (H t j)|lia].
    - rewrite <- firstn_add. split; [now apply (ok_set_file f q _ (firstn direct content))|]. split; [apply frame_dset|]. split; [discriminate|now right].
  Qed.

  (** what a run of setContent can leave, whatever happens *)
  Theorem set_states direct n l c content ext f t : absolute n (l ++ [c]) -> ext <> [] -> ~ In 47%N ext -> okfs f ->
    let p := l ++ [c] in let q := l ++ [c ++ ext] in
    let good := no_failure fates \/ (length content <= direct)%nat in
    let (s', r) := setContent cwd fates samedev direct (render n p) content ext (f, t) in
    (forall x, ~ below p x -> ~ below q x -> dget (fst s') x = dget f x) /\
    (dget (fst s') p = dget f p \/ exists i, dget (fst s') p = Some (EFile (firstn i content)) /\ dget (fst s') q = None /\ (good -> (length content <= i)%nat)) /\
    (r = Ok tt -> exists i, dget (fst s') p = Some (EFile (firstn i content)) /\ dget (fst s') q = None /\ (good -> (length content <= i)%nat)).
  Proof.
    intros Ha He Hs Hf p q good. destruct (sibling_render cwd n l c ext Ha He Hs) as [Es Hq]. fold p q in Es, Hq. fold p in Ha. unfold setContent. rewrite Es. clear Es.
    assert (Hpq : apart q p). { subst p q. split; intros (r & E); rewrite <- app_assoc in E; apply app_inv_head in E; injection E as E1 E2; apply He. - apply (f_equal (@length _)) in E1. rewrite app_length in E1. destruct ext; [reflexivity|cbn in E1; lia]. - apply (f_equal (@length _)) in E1. rewrite app_length in E1. destruct ext; [reflexivity|cbn in E1; lia]. }
    assert (Out : forall g, frame q f g -> (forall x, ~ below p x -> ~ below q x -> dget g x = dget f x) /\ dget g p = dget f p).
    { intros g Hg. split; [auto|]. apply Hg. apply Hpq. }
    destruct (keeps_open_w fates n q Hq (f, t) Hf) as (A1 & A2 & A3). unfold bindM at 1. destruct (open_w fates (render n q) (f, t)) as [[f1 t1] r1]. cbn [fst snd] in *.
    destruct r1 as [[]|e]; cbn [fst]; [|destruct (Out f1 A2); repeat split; auto; discriminate]. destruct (A3 tt eq_refl) as (_ & E1). clear A3.
    destruct (keeps_write fates n q (firstn direct content) Hq (f1, t1) A1) as (B1 & B2 & B3). unfold bindM at 1. destruct (write fates (render n q) (firstn direct content) (f1, t1)) as [[f2 t2] r2]. cbn [fst snd] in *.
    pose proof (frame_trans q _ _ _ A2 B2) as F2. destruct r2 as [[]|e]; cbn [fst]; [|destruct (Out f2 F2); repeat split; auto; discriminate]. destruct (B3 tt eq_refl) as (d & Ed & E2). clear B3.
    assert (E2q : dget f2 q = Some (EFile (firstn direct content))). { rewrite E2, dget_dset_eq. rewrite E1, dget_dset_eq in Ed. now injection Ed as <-. }
    pose proof (flush_spec n q direct content f2 t2 Hq B1 E2q) as C. unfold bindM at 1. destruct (catchOS _ _ (f2, t2)) as [[f3 t3] r3]. cbn [fst] in C. destruct C as (C1 & C2 & C3 & C4).
    pose proof (frame_trans q _ _ _ F2 C2) as F3. destruct C4 as [->| ->]; cbn [fst]; [|destruct (Out f3 F3); repeat split; auto; discriminate]. destruct (C3 eq_refl) as (i & Ei & Gi). clear C3.
    unfold rename, whole, sys. destruct (fates t3); cbn [fst]; [|destruct (Out f3 F3); repeat split; auto; discriminate..].
    pose proof (rename_cases samedev n q n p f3 Hq Ha C1) as R. destruct (os_rename samedev (render n q) (render n p) f3) as [g r]. cbn [fst].
    destruct r as [[]|e]; [|destruct R as (-> & _); destruct (Out f3 F3); repeat split; auto; discriminate].
    destruct R as (_ & [(E & _)|(_ & _ & Mv)]); [exfalso; apply (apart_neq q p Hpq E)|].
    assert (P : exists i, dget g p = Some (EFile (firstn i content)) /\ dget g q = None /\ (good -> (length content <= i)%nat)).
    { exists i. pose proof (moved_at _ _ _ _ Mv []) as M1. rewrite !app_nil_r in M1. rewrite M1. pose proof (moved_from _ _ _ _ Mv []) as M2. rewrite app_nil_r in M2. auto. }
    split; [|split; [now right|auto]]. intros x Hx1 Hx2. rewrite (moved_other _ _ _ _ Mv x Hx2 Hx1). now apply F3.
  Qed.
End Set_.

Section Works.
  Variable cwd : str.
  Variable fates : nat -> fate.
  Variable samedev : loc -> loc -> bool.
  Hypothesis calm : forall t, fates t = Run.

  Lemma run_rename n (a : loc) m (b : loc) f t : rename fates samedev (render n a) (render m b) (f, t) =
    (let (g, r) := os_rename samedev (render n a) (render m b) f in ((g, S t), r)).
  Proof. unfold rename, whole, sys. now rewrite calm. Qed.

  Theorem set_works direct n l c content ext f t : absolute n (l ++ [c]) -> ext <> [] -> ~ In 47%N ext -> okfs f ->
    (forall a b, samedev a b = true) -> dget f l = Some EDir ->
    (dget f (l ++ [c]) = None \/ exists x, dget f (l ++ [c]) = Some (EFile x)) ->
    (dget f (l ++ [c ++ ext]) = None \/ exists x, dget f (l ++ [c ++ ext]) = Some (EFile x)) ->
    snd (setContent cwd fates samedev direct (render n (l ++ [c])) content ext (f, t)) = Ok tt.
  Proof.
    intros Ha He Hs Hf Hsame Hl Hp Hq. destruct (sibling_render cwd n l c ext Ha He Hs) as [Es Haq]. unfold setContent. rewrite Es. clear Es.
    set (p := l ++ [c]) in *. set (q := l ++ [c ++ ext]) in *.
    assert (Hpq : p <> q). { subst p q. intros E. apply app_inv_head in E. injection E as E. apply (f_equal (@length _)) in E. rewrite app_length in E. destruct ext; [congruence|cbn in E; lia]. }
    assert (O : open_w fates (render n q) (f, t) = ((dset f q (EFile []), S t), Ok tt)).
    { apply run_open_w; auto. destruct Hq as [E|E]; [left; split; [exact E|]|now right]. unfold q. rewrite has_parent_snoc, Hl. reflexivity. }
    rewrite (bind_run _ _ _ _ _ O). set (f1 := dset f q (EFile [])).
    rewrite (bind_run _ _ _ _ _ (run_write fates calm n q f1 (S t) [] (firstn direct content) Haq (dget_dset_eq f q _))). cbn [app]. set (f2 := dset f1 q (EFile (firstn direct content))).
    assert (C : catchOS (bindM (write fates (render n q) (skipn direct content)) (fun _ => close fates)) (retM tt) (f2, S (S t)) = ((dset f2 q (EFile content), S (S (S (S t)))), Ok tt)).
    { unfold catchOS. rewrite (bind_run _ _ _ _ _ (run_write fates calm n q f2 (S (S t)) (firstn direct content) (skipn direct content) Haq (dget_dset_eq f1 q _))), (run_close fates calm), firstn_skipn. reflexivity. }
    rewrite (bind_run _ _ _ _ _ C), run_rename. set (f3 := dset f2 q (EFile content)).
    assert (E3 : forall x, x <> q -> dget f3 x = dget f x) by (intros x Hx; unfold f3, f2, f1; rewrite !dget_dset_neq by exact Hx; reflexivity).
    unfold os_rename. rewrite (place_render n q Haq), (place_render n p Ha). replace (dget f3 q) with (Some (EFile content)) by (symmetry; apply dget_dset_eq).
    destruct (eqb_spec (q : loc) p) as [E|_]; [congruence|]. rewrite Hsame. cbn [negb]. destruct (strip q p) as [r|] eqn:Es.
    { exfalso. apply strip_spec in Es. unfold p, q in Es. rewrite <- app_assoc in Es. apply app_inv_head in Es. injection Es as Es _. apply (f_equal (@length _)) in Es. rewrite app_length in Es. destruct ext; [congruence|cbn in Es; lia]. }
    rewrite (E3 p Hpq). destruct Hp as [Hp|(x & Hp)]; rewrite Hp; [|reflexivity]. unfold p. rewrite has_parent_snoc, E3, Hl; [reflexivity|].
    intros E. apply (f_equal (@length _)) in E. unfold q in E. rewrite app_length in E. cbn in E. lia.
  Qed.
End Works.

(** ** moveTo *)

Theorem move_states fates samedev n (p : loc) m (q : loc) f t : absolute n p -> absolute m q -> okfs f ->
  let (s', r) := moveTo fates samedev (render n p) (render m q) (f, t) in
  (fst s' = f \/ apart p q /\ moved p q f (fst s')) /\
  (r = Ok tt -> dget f p <> None /\ (p = q /\ fst s' = f \/ apart p q /\ moved p q f (fst s'))) /\
  (r <> Ok tt -> fst s' = f \/ r = Err KILLED).
Proof.
  intros Hp Hq Hf. unfold moveTo, rename, whole, sys. destruct (fates t) eqn:Et; cbn [fst].
  2,3: split; [now left|]; split; [discriminate|now left].
  pose proof (rename_cases samedev n p m q f Hp Hq Hf) as R. destruct (os_rename samedev (render n p) (render m q) f) as [g r]. destruct r as [[]|e].
  - destruct R as (Hex & R). pose proof (looks_probe fates (render n p) (g, S t)) as L. unfold bindM.
    assert (Q : forall e, snd (probe fates (render n p) (g, S t)) = Err e -> e = KILLED).
    { unfold probe, catchOS, bindM, stat, whole, sys, os_stat. destruct (fates (S t)); cbn [snd retM]; [|discriminate|now intros e H; injection H as <-].
      destruct (dget g _); cbn [snd retM]; discriminate. }
    destruct (probe fates (render n p) (g, S t)) as [s' r]. cbn [fst snd] in *. assert (D : g = f \/ apart p q /\ moved p q f g) by (destruct R as [(_ & ->)|(R1 & _ & R2)]; [now left|now right]).
    assert (D2 : p = q /\ g = f \/ apart p q /\ moved p q f g) by (destruct R as [R|(R1 & _ & R2)]; [now left|now right]).
    destruct r as [x|e]; cbn [retM fst]; rewrite L; (split; [exact D|]).
    + split; [intros _; split; [exact Hex|exact D2]|congruence].
    + split; [discriminate|]. intros _. right. f_equal. now apply Q.
  - destruct R as (-> & R). assert (E : (match e with OtherExn 18 => (f, S t, @Err unit AttributeError) | e0 => (f, S t, Err e0) end) = (f, S t, Err (match e with OtherExn 18 => AttributeError | e0 => e0 end))).
    { destruct R as [->|(-> & _)]; reflexivity. }
    destruct R as [->|(-> & _)]; cbn; (split; [now left|]; split; [discriminate|now left]).
Qed.

Theorem move_other_device fates samedev n (p : loc) m (q : loc) f t : (forall t, fates t = Run) -> absolute n p -> absolute m q -> dget f p <> None -> p <> q -> samedev p q = false ->
  moveTo fates samedev (render n p) (render m q) (f, t) = ((f, S t), Err AttributeError).
Proof.
  intros calm Hp Hq Hex Hpq Hs. unfold moveTo. rewrite (run_rename fates samedev calm). unfold os_rename. rewrite (place_render n p Hp), (place_render m q Hq).
  destruct (dget f p) as [e|]; [|congruence]. destruct (eqb_spec p q); [congruence|]. rewrite Hs. reflexivity.
Qed.

Theorem move_works fates samedev n (p : loc) m (q : loc) f t : (forall t, fates t = Run) -> absolute n p -> absolute m q -> dget f p <> None -> apart p q -> samedev p q = true ->
  dget f q = None -> has_parent f q = true -> snd (moveTo fates samedev (render n p) (render m q) (f, t)) = Ok tt.
Proof.
  intros calm Hp Hq Hex Hpq Hs Hnq Hpar. unfold moveTo. rewrite (run_rename fates samedev calm). unfold os_rename. rewrite (place_render n p Hp), (place_render m q Hq).
  destruct (dget f p) as [e|] eqn:Ep; [|congruence]. destruct (eqb_spec p q) as [E|_]; [exfalso; now apply (apart_neq p q Hpq)|]. rewrite Hs. cbn [negb].
  rewrite (proj2 (strip_none p q) (proj1 Hpq)), Hnq. assert (E : (match e with EDir => has_parent f q | _ => has_parent f q end) = true) by (destruct e; exact Hpar).
  assert (G : forall b : bool, b = true -> snd (match (let (g, r) := if b then (relocate p q f, Ok tt) else (f, Err OSError) in (g, S t, r)) with
      | (s', Err (OtherExn 18)) => (s', Err AttributeError) | (s', Ok _) => (bindM (probe fates (render n p)) (fun _ => retM tt)) s' | (s', Err e) => (s', Err e) end) = Ok tt).
  { intros b ->. rewrite (bind_run _ _ _ _ _ (run_probe fates calm n p (relocate p q f) (S t) Hp)). reflexivity. }
  destruct e; apply G; exact Hpar.
Qed.

(** ** remove *)

Lemma ok_ddel f l e : okfs f -> l <> [] -> dget f l = Some e -> (forall r, r <> [] -> dget f (l ++ r) = None) -> okfs (ddel f l).
Proof.
  intros Hf Hl He Hn. split.
  - apply wf_ddel, Hf.
  - rewrite dget_ddel_neq by (intros E; now apply Hl). apply Hf.
  - intros k e'. rewrite dget_ddel by apply Hf. destruct (eqb k l); [discriminate|apply Hf].
  - intros k c e'. rewrite !dget_ddel by apply Hf. destruct (eqb_spec (k ++ [c] : loc) l); [discriminate|]. intros H. destruct (eqb_spec (k : loc) l) as [->|]; [|now apply (ok_above f Hf k c e')].
    rewrite Hn in H by discriminate. discriminate.
Qed.

Lemma frame_ddel f l : wf_dict f -> frame l f (ddel f l).
Proof. intros Hw x Hx. rewrite dget_ddel_neq; [reflexivity|]. intros ->. apply Hx, below_refl. Qed.

(** a run after which every place is as it was, or empty *)
Definition shrinks {A} (m : M A) : Prop := forall s, wf_dict (fst s) ->
  wf_dict (fst (fst (m s))) /\ forall l, dget (fst (fst (m s))) l = None \/ dget (fst (fst (m s))) l = dget (fst s) l.

Section Remove.
  Variable cwd : str.
  Variable fates : nat -> fate.

  Lemma keeps_unlink n (p : loc) : absolute n p -> keeps p (unlink fates (render n p)) (fun f g _ => forall r, dget g (p ++ r) = None).
  Proof.
    intros Ha [f t] Hf. cbn [fst] in Hf. unfold unlink, whole, sys, os_unlink. rewrite (place_render n p Ha). destruct (fates t); cbn [fst snd]; [|split; [exact Hf|]; split; [apply frame_refl|discriminate]..].
    assert (G : forall e, e <> EDir -> dget f p = Some e -> okfs (ddel f p) /\ frame p f (ddel f p) /\ forall r, dget (ddel f p) (p ++ r) = None).
    { intros e He E. assert (Hp : p <> []) by (intros ->; rewrite (ok_root f Hf) in E; congruence).
      assert (N : forall r, r <> [] -> dget f (p ++ r) = None) by (intros r Hr; apply (no_below f p r Hf); [rewrite E; congruence|exact Hr]).
      split; [now apply (ok_ddel f p e)|]. split; [apply frame_ddel, Hf|]. intros r. rewrite dget_ddel by apply Hf. destruct (eqb_spec (p ++ r : loc) p) as [|Hr]; [reflexivity|]. apply N. intros ->. now rewrite app_nil_r in Hr. }
    destruct (dget f p) as [[c| |]|] eqn:E; cbn [fst snd]; try (split; [exact Hf|]; split; [apply frame_refl|discriminate]);
      [destruct (G (EFile c) ltac:(discriminate) eq_refl) as (G1 & G2 & G3)|destruct (G EOther ltac:(discriminate) eq_refl) as (G1 & G2 & G3)]; (split; [exact G1|]; split; [exact G2|]; intros _ _; exact G3).
  Qed.

  Lemma keeps_rmdir n (p : loc) : absolute n p -> keeps p (rmdir fates (render n p)) (fun f g _ => forall r, dget g (p ++ r) = None).
  Proof.
    intros Ha [f t] Hf. cbn [fst] in Hf. unfold rmdir, whole, sys, os_rmdir. rewrite (place_render n p Ha). destruct (fates t); cbn [fst snd]; [|split; [exact Hf|]; split; [apply frame_refl|discriminate]..].
    destruct (dget f p) as [[c| |]|] eqn:E; cbn [fst snd]; try (split; [exact Hf|]; split; [apply frame_refl|discriminate]).
    destruct p as [|x p0] eqn:Ep; cbn [fst snd]; try (split; [exact Hf|]; split; [apply frame_refl|discriminate]). rewrite <- Ep in *. assert (Hne : p <> []) by (rewrite Ep; discriminate). clear Ep.
    destruct (names f p) eqn:En; cbn [fst snd]; try (split; [exact Hf|]; split; [apply frame_refl|discriminate]).
    pose proof (names_nil f p Hf En) as N. split; [now apply (ok_ddel f p EDir)|]. split; [apply frame_ddel, Hf|]. intros _ _ r. rewrite dget_ddel by apply Hf. destruct (eqb_spec (p ++ r : loc) p) as [|Hr]; [reflexivity|]. apply N. intros ->. now rewrite app_nil_r in Hr.
  Qed.

  Lemma keeps_iter_rm n (p : loc) (g : str -> M unit) : absolute n p -> (forall c, name c -> keeps (p ++ [c]) (g (render n (p ++ [c]))) (fun _ _ _ => True)) ->
    forall cs, Forall name cs -> keeps p (iterM g (map (fun c => render n (p ++ [c])) cs)) (fun _ _ _ => True).
  Proof.
    intros Ha Hg. induction 1 as [|c cs Hc _ IH]; cbn [map iterM]; [eapply keeps_weaken; [apply keeps_ret|]; auto|].
    eapply keeps_bind; [apply (keeps_snoc p c), Hg, Hc|]. intros []. eapply keeps_weaken; [exact IH|]. auto.
  Qed.

  Theorem keeps_remove : forall fuel n (p : loc), absolute n p -> keeps p (remove cwd fates fuel (render n p)) (fun f g _ => forall r, dget g (p ++ r) = None).
  Proof.
    induction fuel as [|fuel IH]; intros n p Ha; cbn [remove]; [apply keeps_raise|].
    eapply keeps_bind; [now apply (keeps_probe fates n p)|]. intros st.
    apply (keeps_bind p _ _ (fun f g _ => forall r, dget g (p ++ r) = None)).
    - assert (U : keeps p (unlink fates (render n p)) (fun f g _ => forall r, dget g (p ++ r) = None)) by now apply keeps_unlink.
      destruct st as [[c| |]|]; try exact U. intros s Hs. destruct (keeps_children cwd fates n p p Ha s Hs) as (K1 & K2 & K3).
      match goal with |- context [bindM ?mm ?k s] => change (bindM mm k s) with (let (s', r) := mm s in match r with Ok a => k a s' | Err e => (s', Err e) end) end.
      destruct (children cwd fates (render n p) s) as [s' r]. cbn [fst snd] in *. destruct r as [cs|e]; cbn [fst snd]; [|split; [exact K1|]; split; [exact K2|discriminate]]. destruct (K3 cs eq_refl) as (E3 & Ep & ->).
      assert (G : keeps p (bindM (iterM (remove cwd fates fuel) (map (fun c => render n (p ++ [c])) (names (fst s) p))) (fun _ => rmdir fates (render n p))) (fun f g _ => forall r, dget g (p ++ r) = None)).
      { eapply keeps_bind; [apply keeps_iter_rm; [exact Ha| |now apply names_names]|].
        - intros c Hc. eapply keeps_weaken; [apply IH, abs_snoc; auto|]. auto.
        - intros []. eapply keeps_weaken; [now apply keeps_rmdir|]. auto. }
      destruct (G s' K1) as (A1 & A2 & A3). split; [exact A1|]. split; [now apply (frame_trans p _ (fst s'))|]. exact A3.
    - intros []. eapply keeps_bind; [now apply (keeps_probe fates n p)|]. intros o. eapply keeps_weaken; [apply keeps_ret|].
      intros f g a _ _ _ (-> & _) f1 _ _ (-> & _) f0 _ _ H f00 _ _ _. exact H.
  Qed.

  (** nothing is made or changed *)
  Lemma shrinks_looks {A} (m : M A) : looks m -> shrinks m.
  Proof. intros H s Hs. rewrite (H s). split; [exact Hs|]. now right. Qed.

  Lemma shrinks_bind {A B} (m : M A) (k : A -> M B) : shrinks m -> (forall a, shrinks (k a)) -> shrinks (bindM m k).
  Proof.
    intros Hm Hk s Hs. destruct (Hm s Hs) as [A1 D]. unfold bindM. destruct (m s) as [s' r]. cbn [fst] in *. destruct r as [a|e]; [|split; [exact A1|exact D]].
    destruct (Hk a s' A1) as [B1 E]. split; [exact B1|]. intros l. destruct (E l) as [F|F]; [now left|]. rewrite F. apply D.
  Qed.

  Lemma shrinks_ddel (call : fs -> fs * res unit) l : (forall f, fst (call f) = f \/ fst (call f) = ddel f l) -> shrinks (whole fates call).
  Proof.
    intros H [f t] Hw. cbn [fst] in Hw. unfold whole, sys. destruct (fates t); cbn [fst]; [|split; [exact Hw|now right]..]. specialize (H f). destruct (call f) as [g r]. cbn [fst] in *.
    destruct H as [->| ->]; [split; [exact Hw|now right]|]. split; [now apply wf_ddel|]. intros x. rewrite dget_ddel by exact Hw. destruct (eqb x l); auto.
  Qed.

  Theorem shrinks_remove : forall fuel p, shrinks (remove cwd fates fuel p).
  Proof.
    induction fuel as [|fuel IH]; intros p; cbn [remove]; [apply shrinks_looks, looks_raise|].
    apply shrinks_bind; [apply shrinks_looks, looks_probe|]. intros st. apply shrinks_bind; [|intros _; apply shrinks_looks, looks_bind; [apply looks_probe|intros a; apply looks_ret]].
    assert (U : shrinks (unlink fates p)). { apply (shrinks_ddel _ (place p)). intros f. unfold os_unlink. destruct (dget f (place p)) as [[| |]|]; cbn [fst]; auto. }
    destruct st as [[| |]|]; try exact U. apply shrinks_bind; [apply shrinks_looks, looks_children|]. intros cs. apply shrinks_bind.
    - induction cs as [|c cs IHc]; cbn [iterM]; [apply shrinks_looks, looks_ret|]. apply shrinks_bind; [apply IH|intros _; exact IHc].
    - intros _. apply (shrinks_ddel _ (place p)). intros f. unfold os_rmdir. destruct (dget f (place p)) as [[| |]|]; cbn [fst]; auto. destruct (place p); cbn [fst]; auto. destruct (names f _); cbn [fst]; auto.
  Qed.

  (** ** remove works *)

  Section Calm.
    Hypothesis calm : forall t, fates t = Run.

    Lemma iter_rm_works fuel n (p : loc) : absolute n p ->
      (forall c f t, name c -> okfs f -> dget f (p ++ [c]) <> None -> deep f (p ++ [c]) fuel -> snd (remove cwd fates fuel (render n (p ++ [c])) (f, t)) = Ok tt) ->
      forall cs, Forall name cs -> NoDup cs -> forall f t, okfs f -> (forall c, In c cs -> dget f (p ++ [c]) <> None /\ deep f (p ++ [c]) fuel) ->
      let (s', r) := iterM (remove cwd fates fuel) (map (fun c => render n (p ++ [c])) cs) (f, t) in
      r = Ok tt /\ okfs (fst s') /\ dget (fst s') p = dget f p /\ (forall c, In c cs -> dget (fst s') (p ++ [c]) = None) /\ (forall c, ~ In c cs -> dget (fst s') (p ++ [c]) = dget f (p ++ [c])).
    Proof.
      intros Ha HC. induction cs as [|c cs IH]; intros Hn Hu f t Hf Hc; [cbn; split; [reflexivity|]; split; [exact Hf|]; split; [reflexivity|]; split; [intros c []|reflexivity]|]. cbn [map iterM].
      inversion Hn as [|? ? Hcn Hn']; subst. inversion Hu as [|? ? Hi Hu']; subst. pose proof (abs_snoc n p c Ha Hcn) as Hpc. destruct (Hc c (or_introl eq_refl)) as (C1 & C2).
      pose proof (HC c f t Hcn Hf C1 C2) as R. destruct (keeps_remove fuel n (p ++ [c]) Hpc (f, t) Hf) as (A1 & A2 & A3). unfold bindM.
      destruct (remove cwd fates fuel (render n (p ++ [c])) (f, t)) as [[f' t'] r]. cbn [fst snd] in *. subst r. specialize (A3 tt eq_refl []). rewrite app_nil_r in A3.
      assert (Eo : forall d r, c <> d -> dget f' (p ++ d :: r) = dget f (p ++ d :: r)) by (intros d r Hd; apply A2; intros Hb; apply snoc_below in Hb; contradiction).
      specialize (IH Hn' Hu' f' t' A1). destruct (iterM _ _ (f', t')) as [s'' r]. destruct IH as (I1 & I2 & I3 & I4 & I5).
      { intros d Hd. assert (Hcd : c <> d) by (intros ->; contradiction). destruct (Hc d (or_intror Hd)) as (D1 & D2). split; [rewrite Eo by exact Hcd; exact D1|].
        intros rr. rewrite <- app_assoc. cbn [app]. rewrite Eo by exact Hcd. specialize (D2 rr). rewrite <- app_assoc in D2. exact D2. }
      split; [exact I1|]. split; [exact I2|]. split; [|split].
      - rewrite I3. apply A2, snoc_not_below.
      - intros d [<-|Hd]; [rewrite (I5 c Hi); exact A3|now apply I4].
      - intros d Hd. cbn [In] in Hd. rewrite I5 by tauto. apply Eo. tauto.
    Qed.

    Theorem remove_works : forall fuel n (p : loc) f t, absolute n p -> p <> [] -> okfs f -> dget f p <> None -> deep f p fuel -> snd (remove cwd fates fuel (render n p) (f, t)) = Ok tt.
    Proof.
      induction fuel as [|fuel IH]; intros n p f t Ha Hne Hf Hex Hde.
      - exfalso. specialize (Hde []). rewrite app_nil_r in Hde. specialize (Hde Hex). cbn in Hde. lia.
      - cbn [remove]. rewrite (bind_run _ _ _ _ _ (run_probe fates calm n p f t Ha)).
        assert (Last : forall mm g u, mm (f, S t) = ((g, u), Ok tt) -> snd (bindM mm (fun _ => bindM (probe fates (render n p)) (fun _ => retM tt)) (f, S t)) = Ok tt).
        { intros mm g u H. rewrite (bind_run _ _ _ _ _ H), (bind_run _ _ _ _ _ (run_probe fates calm n p g u Ha)). reflexivity. }
        assert (U : dget f p <> Some EDir -> unlink fates (render n p) (f, S t) = ((ddel f p, S (S t)), Ok tt)).
        { intros H. unfold unlink, whole, sys, os_unlink. rewrite calm, (place_render n p Ha). destruct (dget f p) as [[| |]|] eqn:E; try reflexivity; congruence. }
        destruct (dget f p) as [[c| |]|] eqn:Ep; try (apply (Last _ (ddel f p) (S (S t))), U; congruence); try congruence.
        pose proof (iter_rm_works fuel n p Ha) as W. specialize (W (fun c g u Hc Hg H1 H2 => IH n (p ++ [c]) g u (abs_snoc n p c Ha Hc) ltac:(intros E; now destruct p) Hg H1 H2) (names f p) (names_names f p Hf) (names_nodup f p (ok_keys f Hf)) f (S (S t)) Hf).
        assert (R : exists g u, (bindM (children cwd fates (render n p)) (fun cs => bindM (iterM (remove cwd fates fuel) cs) (fun _ => rmdir fates (render n p)))) (f, S t) = ((g, u), Ok tt)).
        { rewrite (bind_run _ _ _ _ _ (run_children cwd fates calm n p f (S t) Ha Hf Ep)). unfold bindM. destruct (iterM _ _ (f, S (S t))) as [[g u] r]. destruct W as (W1 & W2 & W3 & W4 & W5).
          { intros c Hc. apply names_spec in Hc; [|apply Hf]. split; [exact Hc|]. intros rr H. rewrite <- app_assoc in H. apply Hde in H. cbn in H. lia. }
          cbn [fst] in *. subst r. unfold rmdir, whole, sys, os_rmdir. rewrite calm, (place_render n p Ha), W3, Ep. destruct p as [|x p0] eqn:Epp; [congruence|]. rewrite <- Epp in *. clear Epp.
          assert (En : names g p = []). { destruct (names g p) as [|c cs] eqn:E; [reflexivity|]. exfalso. assert (Hc : In c (names g p)) by (rewrite E; now left). apply names_spec in Hc; [|apply W2].
            destruct (in_dec (list_eq_dec N.eq_dec) c (names f p)) as [Hi|Hi]; [now rewrite W4 in Hc|]. rewrite (W5 c Hi) in Hc. apply Hi. apply names_spec; [apply Hf|exact Hc]. }
          rewrite En. now exists (ddel g p), (S u). }
        destruct R as (g & u & R). now apply (Last _ g u).
    Qed.
  End Calm.
End Remove.

(** ** walk *)

Lemma app_split {A} (w1 w2 a b : list A) x : w1 ++ w2 = a ++ x :: b -> (exists b', w1 = a ++ x :: b') \/ (exists a', a = w1 ++ a' /\ w2 = a' ++ x :: b).
Proof.
  revert a. induction w1 as [|y w1 IH]; intros a E; [right; now exists a|]. destruct a as [|z a]; cbn [app] in E; injection E as -> E; [left; now exists w1|].
  destruct (IH a E) as [(b' & ->)|(a' & -> & ->)]; [left; now exists b'|right; now exists a'].
Qed.

(** the places at and below [p], each once, a directory before its entries *)
Record visits (f : fs) (p : loc) (ws : list loc) : Prop := {
  visits_once : NoDup ws;
  visits_all : forall l, In l ws <-> l = p \/ below p l /\ dget f l <> None;
  visits_order : forall a k c b, ws = a ++ (k ++ [c]) :: b -> k ++ [c] = p \/ In k a }.

Section Walk.
  Variable cwd : str.
  Variable fates : nat -> fate.
  Hypothesis calm : forall t, fates t = Run.

  Theorem walk_spec : forall fuel n (p : loc) f t, absolute n p -> okfs f -> (0 < fuel)%nat -> deep f p fuel ->
    exists t' ws, walk cwd fates fuel (render n p) (f, t) = ((f, t'), Ok (map (render n) ws)) /\ visits f p ws.
  Proof.
    induction fuel as [|fuel IH]; intros n p f t Ha Hf Hfu Hde; [lia|]. cbn [walk]. rewrite (bind_run _ _ _ _ _ (run_probe fates calm n p f t Ha)).
    assert (Single : dget f p <> Some EDir -> exists t' ws, retM [render n p] (f, S t) = ((f, t'), Ok (map (render n) ws)) /\ visits f p ws).
    { intros H. exists (S t), [p]. split; [reflexivity|]. split.
      - repeat constructor. intros [].
      - intros l. cbn [In]. split; [intros [->|[]]; now left|]. intros [->|((r & ->) & Hl)]; [now left|]. left. destruct r as [|x r]; [now rewrite app_nil_r|]. exfalso. apply Hl. apply (no_below f p (x :: r) Hf H). discriminate.
      - intros a k c b E. left. destruct a as [|y a]; [injection E as -> _; reflexivity|]. exfalso. destruct a; discriminate E. }
    destruct (dget f p) as [[c| |]|] eqn:Ep; try (apply Single; congruence). clear Single.
    rewrite (bind_run _ _ _ _ _ (run_children cwd fates calm n p f (S t) Ha Hf Ep)).
    set (go := fix go (l : list str) : M (list str) := match l with [] => retM [] | c :: l' => bindM (walk cwd fates fuel c) (fun a => bindM (go l') (fun b => retM (a ++ b))) end).
    assert (G : forall cs t, Forall name cs -> NoDup cs -> (forall c, In c cs -> dget f (p ++ [c]) <> None) ->
      exists t' ws, go (map (fun c => render n (p ++ [c])) cs) (f, t) = ((f, t'), Ok (map (render n) ws)) /\
        NoDup ws /\ (forall l, In l ws <-> exists c, In c cs /\ below (p ++ [c]) l /\ dget f l <> None) /\
        (forall a k c b, ws = a ++ (k ++ [c]) :: b -> k = p \/ In k a)).
    { induction cs as [|c cs IHc]; intros u Hn Hu Hc.
      - exists u, []. split; [reflexivity|]. split; [constructor|]. split; [intros l; split; [intros []|now intros (c & [] & _)]|]. intros a k c b E. destruct a; discriminate E.
      - inversion Hn as [|? ? Hcn Hn']; subst. inversion Hu as [|? ? Hi Hu']; subst.
        assert (Hfc : dget f (p ++ [c]) <> None) by (apply Hc; now left).
        assert (Dc : deep f (p ++ [c]) fuel). { intros r H. rewrite <- app_assoc in H. apply Hde in H. cbn in H. lia. }
        assert (F0 : (0 < fuel)%nat). { specialize (Dc []). rewrite app_nil_r in Dc. specialize (Dc Hfc). cbn in Dc. lia. }
        destruct (IH n (p ++ [c]) f u (abs_snoc n p c Ha Hcn) Hf F0 Dc) as (u1 & w1 & E1 & [V1 V2 V3]).
        destruct (IHc u1 Hn' Hu' (fun d Hd => Hc d (or_intror Hd))) as (u2 & w2 & E2 & X1 & X2 & X3).
        exists u2, (w1 ++ w2). split; [|split; [|split]].
        + cbn [map go]. fold go. rewrite (bind_run _ _ _ _ _ E1), (bind_run _ _ _ _ _ E2). unfold retM. now rewrite map_app.
        + assert (Dis : forall l, In l w1 -> ~ In l w2).
          { intros l H1 H2. apply V2 in H1. apply X2 in H2. destruct H2 as (d & Hd & (r & ->) & _). assert (B : below (p ++ [c]) ((p ++ [d]) ++ r)) by (destruct H1 as [->|[H _]]; [apply below_refl|exact H]).
            rewrite <- app_assoc in B. apply snoc_below in B. subst. contradiction. }
          clear - V1 X1 Dis. induction V1 as [|x w1 Hx _ IHw]; [exact X1|]. cbn [app]. constructor; [|apply IHw; intros l Hl; apply Dis; now right].
          rewrite in_app_iff. intros [H|H]; [contradiction|]. apply (Dis x (or_introl eq_refl) H).
        + intros l. rewrite in_app_iff, V2, X2. split.
          * intros [[->|[H1 H2]]|(d & H1 & H2)]; [exists c; split; [now left|]; split; [apply below_refl|exact Hfc]|exists c; split; [now left|]; now split|exists d; split; [now right|exact H2]].
          * intros (d & [<-|Hd] & H2); [left; right; exact H2|right; now exists d].
        + intros a k d b E. apply app_split in E. destruct E as [(b' & E)|(a' & -> & E)].
          * destruct (V3 a k d b' E) as [E'|H]; [left; apply app_inj_tail in E'; apply E'|now right].
          * destruct (X3 a' k d b E) as [->|H]; [now left|right; apply in_or_app; now right]. }
    destruct (G (names f p) (S (S t)) (names_names f p Hf) (names_nodup f p (ok_keys f Hf))) as (t' & ws & E & N1 & N2 & N3). { intros c Hc. apply names_spec in Hc; [exact Hc|apply Hf]. }
    rewrite (bind_run _ _ _ _ _ E). exists t', (p :: ws). split; [reflexivity|]. split.
    - constructor; [|exact N1]. intros H. apply N2 in H. destruct H as (c & _ & H & _). now apply snoc_not_below in H.
    - intros l. cbn [In]. rewrite N2. split.
      + intros [<-|(c & _ & H1 & H2)]; [now left|]. right. split; [now apply below_snoc in H1|exact H2].
      + intros [->|((r & ->) & H)]; [now left|]. destruct r as [|c r]; [left; now rewrite app_nil_r|]. right. exists c. split.
        * apply names_spec; [apply Hf|]. destruct r as [|d r]; [exact H|]. rewrite (ok_below f (p ++ [c]) (d :: r) Hf); [discriminate|discriminate|]. rewrite <- app_assoc. exact H.
        * split; [exists r; now rewrite <- app_assoc|exact H].
    - intros a k c b Ew. destruct a as [|y a]; [injection Ew as Ew _; left; now rewrite Ew|]. injection Ew as <- Ew. right. destruct (N3 a k c b Ew) as [->|H]; [now left|now right].
  Qed.
End Walk.
