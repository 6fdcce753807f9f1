(** * FilePath of epsilon/hotfixes/filepath_copyTo.py: remembered stat results,
    exclusive creation, searches *)

From Coq Require Import ZArith NArith String List Bool Arith Lia.
From Verif Require Import Py PyStr PySplit FilePath FileTree.
Import ListNotations.
Open Scope list_scope.

(** ** Stat results

    What os.stat gives for a path at one moment.  The mode is reduced to its
    file type.  os.stat follows symbolic links. *)

Inductive kind := KReg | KDir | KLnk | KOther.
Record st := St { s_kind : kind; s_size : Z; s_mtime : Z; s_ctime : Z; s_atime : Z }.
Record moment := Moment { stat_of : str -> option st; link_at : str -> bool }.

(** what every moment satisfies (stat(2)): the type is never "link" *)
Definition posix (m : moment) : Prop := forall p s, stat_of m p = Some s -> s_kind s <> KLnk.

(** filepath_copyTo.py:74-80: [path]; [statinfo], which is None, 0 ([Some
    None]) or a stat result.  [alwaysCreate] is below. *)
Record fp := FP { path : str; statinfo : option (option st) }.

(** filepath_copyTo.py:78-80 *)
Definition new_fp (p : str) : fp := FP p None.

Inductive answer := ABool (b : bool) | AInt (z : Z) | ANone | ARaise (e : exn).

(** filepath_copyTo.py:159-165 [restat] *)
Definition restat (reraise : bool) (m : moment) (f : fp) : fp * answer :=
  match stat_of m (path f) with
  | Some s => (FP (path f) (Some (Some s)), ANone)
  | None => (FP (path f) (Some None), if reraise then ARaise OSError else ANone)
  end.

(** filepath_copyTo.py:167-193 [getsize], [getmtime], [getctime], [getatime] *)
Definition get_field (field : st -> Z) (m : moment) (f : fp) : fp * answer :=
  match statinfo f with
  | Some (Some s) => (f, AInt (field s))
  | _ =>
    let (f', a) := restat true m f in
    match a, statinfo f' with
    | ARaise e, _ => (f', ARaise e)
    | _, Some (Some s) => (f', AInt (field s))
    | _, _ => (f', ARaise TypeError)
    end
  end.

(** filepath_copyTo.py:195-202 [exists]; the call of itself is unfolded: after
    [restat] the second test decides *)
Definition fexists (m : moment) (f : fp) : fp * answer :=
  match statinfo f with
  | Some (Some _) => (f, ABool true)
  | None =>
    let f' := fst (restat false m f) in
    (f', ABool (match statinfo f' with Some (Some _) => true | _ => false end))
  | Some None => (f, ABool false)
  end.

Definition kind_eqb (a b : kind) : bool :=
  match a, b with KReg, KReg | KDir, KDir | KLnk, KLnk | KOther, KOther => true | _, _ => false end.

(** filepath_copyTo.py:204-229 [isdir], [isfile], [islink] *)
Definition is_kind (k : kind) (m : moment) (f : fp) : fp * answer :=
  match statinfo f with
  | Some (Some s) => (f, ABool (kind_eqb (s_kind s) k))
  | _ =>
    match restat false m f with
    | (f', ARaise e) => (f', ARaise e)
    | (f', _) =>
      match statinfo f' with
      | Some (Some s) => (f', ABool (kind_eqb (s_kind s) k))
      | _ => (f', ABool false)
      end
    end
  end.

(** filepath_copyTo.py:82-86 [__getstate__]: the object made from the pickle *)
Definition unpickled (f : fp) : fp := FP (path f) None.

Inductive op :=
| Restat (reraise : bool) | Getsize | Getmtime | Getctime | Getatime
| Exists_ | Isdir | Isfile | Islink | Repickle.

Definition do_op (o : op) (m : moment) (f : fp) : fp * answer :=
  match o with
  | Restat r => restat r m f
  | Getsize => get_field s_size m f
  | Getmtime => get_field s_mtime m f
  | Getctime => get_field s_ctime m f
  | Getatime => get_field s_atime m f
  | Exists_ => fexists m f
  | Isdir => is_kind KDir m f
  | Isfile => is_kind KReg m f
  | Islink => is_kind KLnk m f
  | Repickle => (unpickled f, ANone)
  end.

(** calls made on one object, each at the moment given; the answers *)
Fixpoint answers (h : list (moment * op)) (f : fp) : list answer :=
  match h with
  | [] => []
  | (m, o) :: t => snd (do_op o m f) :: answers t (fst (do_op o m f))
  end.

(** *** Specification *)

(** what a call should answer at moment [m] *)
Definition truth (p : str) (o : op) (m : moment) : answer :=
  let field g := match stat_of m p with Some s => AInt (g s) | None => ARaise OSError end in
  let is k := ABool (match stat_of m p with Some s => kind_eqb (s_kind s) k | None => false end) in
  match o with
  | Restat r => match stat_of m p with None => if r then ARaise OSError else ANone | _ => ANone end
  | Getsize => field s_size | Getmtime => field s_mtime | Getctime => field s_ctime | Getatime => field s_atime
  | Exists_ => ABool (match stat_of m p with Some _ => true | None => false end)
  | Isdir => is KDir | Isfile => is KReg
  | Islink => ABool (link_at m p)
  | Repickle => ANone
  end.

(** the same, when a link is taken for what it leads to *)
Definition followed (p : str) (o : op) (m : moment) : answer :=
  match o with Islink => ABool false | _ => truth p o m end.

Definition refreshes (o : op) : bool := match o with Restat _ | Repickle => true | _ => false end.

(** [Since h i j]: [j] is not after [i], and none of the calls after [j] up to
    [i] refreshed the object *)
Definition Since (h : list (moment * op)) (i j : nat) : Prop :=
  j <= i /\ forall k m o, j < k <= i -> nth_error h k = Some (m, o) -> refreshes o = false.

(** *** Proofs *)

(** the state agrees with one moment seen since the last refresh *)
Definition fits (p : str) (h : list (moment * op)) (f : fp) : Prop :=
  path f = p /\
  match statinfo f with
  | None => True
  | Some x => exists j m o, nth_error h j = Some (m, o) /\ stat_of m p = x /\
      forall k m' o', j < k -> nth_error h k = Some (m', o') -> refreshes o' = false
  end.

Lemma fits_keep p h f m o : fits p h f -> refreshes o = false -> fits p (h ++ [(m, o)]) f.
Proof.
  intros [Hp Hf] Hr. split; [exact Hp|]. destruct (statinfo f) as [x|]; [|exact I].
  destruct Hf as (j & m1 & o1 & Hj & Hx & Hk). exists j, m1, o1.
  assert (Hl : j < length h) by (apply nth_error_Some; congruence).
  split; [now rewrite nth_error_app1|]. split; [exact Hx|].
  intros k m' o' Hlt Hn. destruct (Nat.lt_ge_cases k (length h)) as [Hc|Hc].
  - rewrite nth_error_app1 in Hn by exact Hc. eapply Hk; eauto.
  - rewrite nth_error_app2 in Hn by exact Hc. destruct (k - length h) as [|n]; [|now destruct n].
    injection Hn as <- <-. exact Hr.
Qed.

Lemma fits_new p h m o : fits p (h ++ [(m, o)]) (FP p (Some (stat_of m p))).
Proof.
  split; [reflexivity|]. exists (length h), m, o. rewrite nth_error_app2, Nat.sub_diag by lia.
  split; [reflexivity|]. split; [reflexivity|].
  intros k m' o' Hlt Hn. rewrite nth_error_app2 in Hn by lia. destruct (k - length h) as [|[|n]] eqn:E; try discriminate. lia.
Qed.

Lemma fits_step p h f m o : posix m -> fits p h f ->
  fits p (h ++ [(m, o)]) (fst (do_op o m f)) /\
  (o <> Islink ->
   snd (do_op o m f) = truth p o m \/
   refreshes o = false /\ exists j m1 o1, nth_error h j = Some (m1, o1) /\ snd (do_op o m f) = truth p o m1 /\
     forall k m' o', j < k -> nth_error h k = Some (m', o') -> refreshes o' = false) /\
  (o = Islink -> (forall x, statinfo f = Some (Some x) -> s_kind x <> KLnk) -> snd (do_op o m f) = ABool false).
Proof.
  intros Hm Hf. pose proof Hf as Hf0. destruct f as [q info]. destruct Hf as [Hp Hf]. cbn [path] in Hp. subst q. cbn [statinfo] in Hf.
  assert (New : forall o x, stat_of m p = x -> fits p (h ++ [(m, o)]) (FP p (Some x))) by (intros o0 x <-; apply fits_new).
  assert (Refresh : forall r, fits p (h ++ [(m, Restat r)]) (fst (restat r m (FP p info)))).
  { intros r. unfold restat. cbn [path]. destruct (stat_of m p) eqn:E; cbn [fst]; now apply New. }
  destruct o as [r| | | | | | | | |]; cbn [do_op].
  - split; [apply Refresh|]. split; [|discriminate]. intros _. left. unfold restat, truth. cbn [path]. now destruct (stat_of m p).
  - unfold get_field, restat. cbn [statinfo path].
    destruct info as [[s|]|]; [destruct Hf as (j & m1 & o1 & Hj & Hx & Hk)| |];
      [split; [now apply fits_keep|split; [|discriminate]]; intros _; right; split; [reflexivity|]; exists j, m1, o1;
        split; [exact Hj|]; split; [|exact Hk]; cbn [truth]; now rewrite Hx
      |destruct (stat_of m p) as [s|] eqn:E; cbn [fst snd statinfo]; (split; [now apply New|]; split; [|discriminate]; intros _; left; cbn [truth]; now rewrite E)..].
  - unfold get_field, restat. cbn [statinfo path].
    destruct info as [[s|]|]; [destruct Hf as (j & m1 & o1 & Hj & Hx & Hk)| |];
      [split; [now apply fits_keep|split; [|discriminate]]; intros _; right; split; [reflexivity|]; exists j, m1, o1;
        split; [exact Hj|]; split; [|exact Hk]; cbn [truth]; now rewrite Hx
      |destruct (stat_of m p) as [s|] eqn:E; cbn [fst snd statinfo]; (split; [now apply New|]; split; [|discriminate]; intros _; left; cbn [truth]; now rewrite E)..].
  - unfold get_field, restat. cbn [statinfo path].
    destruct info as [[s|]|]; [destruct Hf as (j & m1 & o1 & Hj & Hx & Hk)| |];
      [split; [now apply fits_keep|split; [|discriminate]]; intros _; right; split; [reflexivity|]; exists j, m1, o1;
        split; [exact Hj|]; split; [|exact Hk]; cbn [truth]; now rewrite Hx
      |destruct (stat_of m p) as [s|] eqn:E; cbn [fst snd statinfo]; (split; [now apply New|]; split; [|discriminate]; intros _; left; cbn [truth]; now rewrite E)..].
  - unfold get_field, restat. cbn [statinfo path].
    destruct info as [[s|]|]; [destruct Hf as (j & m1 & o1 & Hj & Hx & Hk)| |];
      [split; [now apply fits_keep|split; [|discriminate]]; intros _; right; split; [reflexivity|]; exists j, m1, o1;
        split; [exact Hj|]; split; [|exact Hk]; cbn [truth]; now rewrite Hx
      |destruct (stat_of m p) as [s|] eqn:E; cbn [fst snd statinfo]; (split; [now apply New|]; split; [|discriminate]; intros _; left; cbn [truth]; now rewrite E)..].
  - unfold fexists, restat. cbn [statinfo path].
    destruct info as [[s|]|]; [destruct Hf as (j & m1 & o1 & Hj & Hx & Hk)..|];
      [split; [now apply fits_keep|split; [|discriminate]]; intros _; right; split; [reflexivity|]; exists j, m1, o1;
        split; [exact Hj|]; split; [|exact Hk]; cbn [truth]; now rewrite Hx..
      |destruct (stat_of m p) as [s|] eqn:E; cbn [fst snd statinfo]; (split; [now apply New|]; split; [|discriminate]; intros _; left; cbn [truth]; now rewrite E)].
  - unfold is_kind, restat. cbn [statinfo path].
    destruct info as [[s|]|]; [destruct Hf as (j & m1 & o1 & Hj & Hx & Hk)| |];
      [split; [now apply fits_keep|split; [|discriminate]]; intros _; right; split; [reflexivity|]; exists j, m1, o1;
        split; [exact Hj|]; split; [|exact Hk]; cbn [truth]; now rewrite Hx
      |destruct (stat_of m p) as [s|] eqn:E; cbn [fst snd statinfo]; (split; [now apply New|]; split; [|discriminate]; intros _; left; cbn [truth]; now rewrite E)..].
  - unfold is_kind, restat. cbn [statinfo path].
    destruct info as [[s|]|]; [destruct Hf as (j & m1 & o1 & Hj & Hx & Hk)| |];
      [split; [now apply fits_keep|split; [|discriminate]]; intros _; right; split; [reflexivity|]; exists j, m1, o1;
        split; [exact Hj|]; split; [|exact Hk]; cbn [truth]; now rewrite Hx
      |destruct (stat_of m p) as [s|] eqn:E; cbn [fst snd statinfo]; (split; [now apply New|]; split; [|discriminate]; intros _; left; cbn [truth]; now rewrite E)..].
  - unfold is_kind, restat. cbn [statinfo path].
    destruct info as [[s|]|].
    + split; [now apply fits_keep|]. split; [congruence|]. intros _ Hs. specialize (Hs s eq_refl). cbn [snd]. now destruct (s_kind s).
    + destruct (stat_of m p) as [s|] eqn:E; cbn [fst snd statinfo]; (split; [now apply New|]); (split; [congruence|]); [|reflexivity].
      intros _ _. specialize (Hm _ _ E). now destruct (s_kind s).
    + destruct (stat_of m p) as [s|] eqn:E; cbn [fst snd statinfo]; (split; [now apply New|]); (split; [congruence|]); [|reflexivity].
      intros _ _. specialize (Hm _ _ E). now destruct (s_kind s).
  - split; [split; [reflexivity|exact I]|]. split; [|discriminate]. intros _. now left.
Qed.

Lemma answers_past p h : forall h0 f, fits p h0 f -> Forall (fun x => posix (fst x)) (h0 ++ h) ->
  forall i a, nth_error (answers h f) i = Some a ->
  exists j mi oi mj oj, nth_error (h0 ++ h) (length h0 + i) = Some (mi, oi) /\ nth_error (h0 ++ h) j = Some (mj, oj) /\
    Since (h0 ++ h) (length h0 + i) j /\ a = followed p oi mj.
Proof.
  induction h as [|[m o] h IH]; intros h0 f Hf HP i a Ha; [now destruct i|].
  assert (E : h0 ++ (m, o) :: h = (h0 ++ [(m, o)]) ++ h) by (now rewrite <- app_assoc).
  assert (Hm : posix m). { rewrite Forall_forall in HP. apply (HP (m, o)). apply in_or_app. right. now left. }
  destruct (fits_step p h0 f m o Hm Hf) as (Hf' & Hq & Hl).
  destruct i as [|i]; cbn [answers nth_error] in Ha.
  - injection Ha as <-. rewrite Nat.add_0_r.
    assert (Hn : nth_error (h0 ++ (m, o) :: h) (length h0) = Some (m, o)) by (rewrite nth_error_app2, Nat.sub_diag by lia; reflexivity).
    assert (Now : forall a, a = followed p o m -> exists j mi oi mj oj, nth_error (h0 ++ (m, o) :: h) (length h0) = Some (mi, oi) /\
      nth_error (h0 ++ (m, o) :: h) j = Some (mj, oj) /\ Since (h0 ++ (m, o) :: h) (length h0) j /\ a = followed p oi mj).
    { intros a Ea. exists (length h0), m, o, m, o. repeat split; auto. intros k m' o' Hk. lia. }
    assert (Hd : o = Islink \/ o <> Islink) by (destruct o; (left; reflexivity) || (right; discriminate)).
    destruct Hd as [Hi|Hi].
    + apply Now. subst o. cbn [followed]. apply Hl; [reflexivity|]. intros x Hx. destruct Hf as [_ Hf]. rewrite Hx in Hf.
      destruct Hf as (j & m1 & o1 & Hj & Hs & _). rewrite Forall_forall in HP. refine (HP (m1, o1) _ p x Hs).
      apply in_or_app. left. eapply nth_error_In; eauto.
    + assert (Ef : forall m, followed p o m = truth p o m) by (intros; destruct o; congruence || reflexivity).
      destruct (Hq Hi) as [Ht|(Hr & j & m1 & o1 & Hj & Ht & Hk)]; [apply Now; now rewrite Ef|].
      assert (Hlen : j < length h0) by (apply nth_error_Some; congruence).
      exists j, m, o, m1, o1. split; [exact Hn|]. split; [now rewrite nth_error_app1|]. split; [|now rewrite Ef].
      split; [lia|]. intros k m' o' Hkk Hnk. destruct (Nat.eq_dec k (length h0)) as [->|Hne].
      * rewrite Hn in Hnk. injection Hnk as <- <-. exact Hr.
      * rewrite nth_error_app1 in Hnk by lia. eapply Hk; [|exact Hnk]. lia.
  - rewrite E in *. assert (El : length h0 + S i = length (h0 ++ [(m, o)]) + i) by (rewrite app_length; cbn; lia).
    rewrite El. eapply IH; eauto.
Qed.

(** "nothing there" is never remembered, except by [exists] *)
Lemma raises_now p h : forall f i e, path f = p -> nth_error (answers h f) i = Some (ARaise e) ->
  exists m o, nth_error h i = Some (m, o) /\ stat_of m p = None /\ e = OSError.
Proof.
  induction h as [|[m o] h IH]; intros f i e Hp Ha; [now destruct i|].
  assert (Hp' : path (fst (do_op o m f)) = p).
  { subst p. destruct o; cbn [do_op]; unfold get_field, fexists, is_kind, restat, unpickled;
      destruct (statinfo f) as [[s|]|]; destruct (stat_of m (path f)); cbn [fst snd statinfo path]; try reflexivity;
      destruct reraise; reflexivity. }
  destruct i as [|i]; [|cbn [answers nth_error] in *; eapply IH; eauto].
  cbn [answers nth_error] in *. exists m, o. split; [reflexivity|]. injection Ha as Ha. subst p. revert Ha.
  destruct o; cbn [do_op]; unfold get_field, fexists, is_kind, restat, unpickled;
    destruct (statinfo f) as [[s|]|]; destruct (stat_of m (path f)); cbn [fst snd statinfo path]; try discriminate;
    try (destruct reraise; try discriminate); intros H; now injection H as <-.
Qed.

(** ** Opening *)

(** filepath_copyTo.py:302-313 [create]: O_EXCL and O_CREAT *)
Definition create (p : str) (f : fs) : fs * res unit :=
  match dget f (place p) with
  | None => if has_parent f (place p) then (dset f (place p) (EFile []), Ok tt) else (f, Err OSError)
  | Some _ => (f, Err OSError)
  end.

(** open(path, mode + 'b') of Python 2: 'r' needs a file, 'w' empties it or
    creates it, 'a' keeps it or creates it *)
Definition py_open (p mode : str) (f : fs) : fs * res unit :=
  match mode with
  | c :: _ =>
    if (c =? 114)%N then os_open_r p f
    else if (c =? 119)%N then os_open_w p f
    else if (c =? 97)%N then
      match dget f (place p) with Some (EFile _) => (f, Ok tt) | _ => os_open_w p f end
    else (f, Err ValueError)
  | [] => (f, Err ValueError)
  end.

(** filepath_copyTo.py:151-155 [open] *)
Definition fopen (alwaysCreate : bool) (p mode : str) (f : fs) : fs * res unit :=
  if alwaysCreate then
    if containsb (lit "a") mode then (f, Err AssertionError) else create p f
  else py_open p mode f.

(** others may do anything to the file system between the calls, but do not
    remove what is at [l] *)
Inductive race (p mode : str) : list (fs * fs * res unit) -> Prop :=
| race_nil : race p mode []
| race_cons f g r t : fopen true p mode f = (g, r) -> race p mode t ->
    (dget g (place p) <> None -> match t with (f', _, _) :: _ => dget f' (place p) <> None | [] => True end) ->
    race p mode ((f, g, r) :: t).

Lemma fopen_new p mode f g : fopen true p mode f = (g, Ok tt) ->
  dget f (place p) = None /\ has_parent f (place p) = true /\ g = dset f (place p) (EFile []).
Proof.
  unfold fopen, create. destruct (containsb (lit "a") mode); [discriminate|].
  destruct (dget f (place p)); [discriminate|]. destruct (has_parent f (place p)); [|discriminate].
  now injection 1 as <-.
Qed.

Lemma fopen_fails p mode f g e : fopen true p mode f = (g, Err e) -> g = f.
Proof.
  unfold fopen, create. destruct (containsb (lit "a") mode); [congruence|].
  destruct (dget f (place p)); [congruence|]. destruct (has_parent f (place p)); [discriminate|congruence].
Qed.

Lemma fopen_works p mode f : containsb (lit "a") mode = false -> dget f (place p) = None -> has_parent f (place p) = true ->
  snd (fopen true p mode f) = Ok tt.
Proof. intros Hm Hn Hp. unfold fopen, create. now rewrite Hm, Hn, Hp. Qed.

Definition winners (h : list (fs * fs * res unit)) : nat :=
  length (filter (fun x => match snd x with Ok _ => true | Err _ => false end) h).

Lemma race_one p mode h : race p mode h -> winners h <= 1 /\
  match h with (f, _, _) :: _ => dget f (place p) <> None -> winners h = 0 | [] => True end.
Proof.
  induction 1 as [|f g r t Hr Ht IH Hn]; [split; [apply Nat.le_0_l|exact I]|].
  destruct IH as [H1 H2].
  assert (Hz : dget g (place p) <> None -> winners t = 0).
  { intros Hg. specialize (Hn Hg). destruct t as [|[[f1 g1] r1] t]; [reflexivity|]. auto. }
  unfold winners in *. cbn [filter snd]. destruct r as [[]|e].
  - apply fopen_new in Hr. destruct Hr as (Hf & _ & ->). rewrite dget_dset_eq in Hz. cbn [length]. rewrite Hz by discriminate.
    split; [lia|]. congruence.
  - apply fopen_fails in Hr. subst g. split; [exact H1|exact Hz].
Qed.

(** ** Searches *)

(** the operating system follows a path one component after the other, each in
    a directory (no links) *)
Fixpoint os_walk (f : fs) (l : loc) (comps : list str) : option loc :=
  match comps with
  | [] => match dget f l with Some _ => Some l | None => None end
  | c :: t => match dget f l with Some EDir => os_walk f (follow l c) t | _ => None end
  end.

Section Search.
  Variable cwd : str.

  (** os.path.exists *)
  Definition path_exists (f : fs) (p : str) : bool :=
    match p with
    | [] => false
    | _ => match os_walk f [] (pieces (if prefixb slash p then p else joinpath cwd p)) with Some _ => true | None => false end
    end.

  (** filepath_copyTo.py:108-121 [childSearchPreauth] *)
  Fixpoint childSearchPreauth (self : str) (paths : list str) (f : fs) : option str :=
    match paths with
    | [] => None
    | c :: t => let jp := joinpath self c in
                if path_exists f jp then Some (filePath cwd jp) else childSearchPreauth self t f
    end.

  (** filepath_copyTo.py:123-146 [siblingExtensionSearch] of an object that has
      not looked at the file system before; [listed] is [listdir(dirname(p))] *)
  Definition star_search (self : str) (f : fs) : res (option str) :=
    match snd (os_listdir (dirname self) f) with
    | Err e => Err e
    | Ok fns =>
      match filter (prefixb (basename self ++ lit ".")) fns with
      | fn :: _ => Ok (Some (filePath cwd (joinpath (dirname self) fn)))
      | [] => Ok None
      end
    end.
  Fixpoint siblingExtensionSearch (self : str) (exts : list str) (f : fs) : res (option str) :=
    match exts with
    | [] => Ok None
    | ext :: t =>
      if eqb ext [] && path_exists f self then Ok (Some self)
      else
        match (if eqb ext (lit "*") then star_search self f else Ok None) with
        | Err e => Err e
        | Ok (Some r) => Ok (Some r)
        | Ok None => if path_exists f (self ++ ext) then Ok (Some (filePath cwd (self ++ ext)))
                     else siblingExtensionSearch self t f
        end
    end.

  (** *** Specification *)

  (** [found f self ext q]: [q] is a path that exists and that the extension
      [ext] stands for *)
  Definition found (f : fs) (self ext q : str) : Prop :=
    (exists s, path_exists f s = true /\ q = filePath cwd s /\
       (s = self ++ ext \/ ext = lit "*" /\ exists fn, name fn /\ s = joinpath (dirname self) fn /\ prefixb (basename self ++ lit ".") fn = true)).

  (** *** Proofs *)

  Lemma os_walk_spec f comps : forall l r, os_walk f l comps = Some r -> r = resolve l comps /\ dget f r <> None.
  Proof.
    induction comps as [|c comps IH]; intros l r H; cbn [os_walk] in H.
    - destruct (dget f l) eqn:E; [|discriminate]. injection H as <-. split; [reflexivity|congruence].
    - destruct (dget f l) as [[]|]; try discriminate. apply IH in H. exact H.
  Qed.

  Lemma os_walk_names f cs : okfs f -> forall l, Forall name cs -> dget f (l ++ cs) <> None -> os_walk f l cs = Some (l ++ cs).
  Proof.
    intros Hok. induction cs as [|c cs IH]; intros l Hc Hd; cbn [os_walk].
    - rewrite app_nil_r in *. destruct (dget f l); [reflexivity|now destruct Hd].
    - inversion Hc as [|? ? Hn Hcs]; subst. rewrite (ok_below f l (c :: cs) Hok ltac:(discriminate) Hd).
      rewrite follow_name by exact Hn. replace (l ++ c :: cs) with ((l ++ [c]) ++ cs) in * by (now rewrite <- app_assoc).
      now apply IH.
  Qed.

  Hypothesis cwd_abs : prefixb slash cwd = true.

  Lemma slash_head s : prefixb slash s = true <-> exists t, s = 47%N :: t.
  Proof. rewrite prefixb_spec. unfold slash. cbn. reflexivity. Qed.

  Lemma join_abs p : prefixb slash (joinpath cwd p) = true.
  Proof.
    unfold joinpath. destruct (prefixb slash p) eqn:E; [exact E|]. apply slash_head in cwd_abs. destruct cwd_abs as [t ->].
    destruct (suffixb slash _); apply slash_head; cbn [app]; eauto.
  Qed.

  Lemma abspath_place s : place (abspath cwd s) = resolve [] (pieces (if prefixb slash s then s else joinpath cwd s)).
  Proof.
    unfold abspath. set (q := if prefixb slash s then s else joinpath cwd s).
    assert (Hq : prefixb slash q = true) by (unfold q; destruct (prefixb slash s) eqn:E; [exact E|apply join_abs]).
    destruct (normpath_abs q Hq) as [-> Ha]. now apply place_render.
  Qed.

  Lemma exists_place f s : path_exists f s = true -> dget f (place (filePath cwd s)) <> None.
  Proof.
    unfold path_exists, filePath. rewrite abspath_place. destruct s as [|c s]; [discriminate|].
    destruct (os_walk _ _ _) as [r|] eqn:E; [|discriminate]. intros _. apply os_walk_spec in E. destruct E as [-> H]. exact H.
  Qed.

  Lemma walk_nil (f : fs) comps : dget f ([] : loc) = Some EDir -> os_walk f [] ([] :: comps) = os_walk f [] comps.
  Proof. intros H. cbn [os_walk]. now rewrite H. Qed.

  Lemma exists_render f n cs : okfs f -> absolute n cs -> path_exists f (render n cs) = true <-> dget f cs <> None.
  Proof.
    intros Hok Ha. split.
    - intros H. apply exists_place in H. unfold filePath in H. rewrite abspath_render, place_render in H by exact Ha. exact H.
    - intros H. unfold path_exists. pose proof (abs_slash n cs Ha) as Hs. rewrite Hs.
      assert (Hw : os_walk f [] (pieces (join slash cs)) = Some cs).
      { destruct cs as [|c cs].
        - change (pieces (join slash [])) with ([[]] : list str). rewrite walk_nil by apply (ok_root f Hok). cbn [os_walk]. now rewrite (ok_root f Hok).
        - rewrite pieces_names; [|discriminate|apply Ha]. now rewrite (os_walk_names f (c :: cs) Hok [] (proj2 Ha) H). }
      destruct Ha as [[->| ->] Hc]; unfold render; cbn [repeat app pieces];
        change (is_slash 47%N) with true; cbv iota; rewrite !walk_nil by apply (ok_root f Hok); now rewrite Hw.
  Qed.

  Lemma join_render n l fn : absolute n l -> name fn -> joinpath (render n l) fn = render n (l ++ [fn]).
  Proof.
    intros Ha Hn. unfold joinpath.
    assert (Hs : prefixb slash fn = false).
    { destruct (prefixb slash fn) eqn:E; [|reflexivity]. apply slash_head in E. destruct E as [t ->].
      destruct Hn as (_ & _ & _ & Hn). destruct Hn. now left. }
    rewrite Hs. destruct l as [|x l].
    - destruct Ha as [[->| ->] _]; reflexivity.
    - assert (He : suffixb slash (render n (x :: l)) = false) by (apply render_end; [exact Ha|discriminate]).
      destruct (render n (x :: l)) as [|y r] eqn:E.
      + pose proof (abs_slash n (x :: l) Ha) as H. rewrite E in H. discriminate.
      + rewrite He, <- E. unfold render. rewrite join_snoc by discriminate. now rewrite <- !app_assoc.
  Qed.

  Lemma star_spec f n l c : okfs f -> absolute n (l ++ [c]) -> dget f l = Some EDir ->
    (exists q, star_search (render n (l ++ [c])) f = Ok (Some q) /\ found f (render n (l ++ [c])) (lit "*") q) \/
    star_search (render n (l ++ [c])) f = Ok None /\
      (forall fn, name fn -> prefixb (c ++ lit ".") fn = true -> path_exists f (joinpath (render n l) fn) = false).
  Proof.
    intros Hok Ha Hd. destruct (base_render n l c Ha) as [Hb Hp].
    assert (Hl : absolute n l) by (split; [apply Ha|]; destruct Ha as [_ H]; apply Forall_app in H; apply H).
    unfold star_search. rewrite Hb, Hp. unfold os_listdir. cbn [snd]. rewrite place_render, Hd by exact Hl.
    destruct (filter _ (names f l)) as [|fn rest] eqn:E.
    - right. split; [reflexivity|]. intros fn Hn Hpre. rewrite join_render by assumption.
      destruct (path_exists f _) eqn:Ex; [|reflexivity].
      apply exists_render in Ex; [|exact Hok|split; [apply Hl|]; apply Forall_app; split; [apply Hl|constructor; [exact Hn|constructor]]].
      apply names_spec in Ex; [|apply (ok_keys f Hok)].
      assert (Hin : In fn (filter (prefixb (c ++ lit ".")) (names f l))) by (apply filter_In; split; assumption).
      rewrite E in Hin. destruct Hin.
    - left. assert (Hin : In fn (filter (prefixb (c ++ lit ".")) (names f l))) by (rewrite E; now left).
      apply filter_In in Hin. destruct Hin as [Hin Hpre].
      pose proof (names_names f l Hok) as Hnn. rewrite Forall_forall in Hnn. pose proof (Hnn _ Hin) as Hn.
      eexists. split; [reflexivity|]. exists (joinpath (render n l) fn). split.
      + rewrite join_render by assumption. apply exists_render; [exact Hok| |].
        * split; [apply Hl|]; apply Forall_app; split; [apply Hl|constructor; [exact Hn|constructor]].
        * apply names_spec; [apply (ok_keys f Hok)|exact Hin].
      + split; [reflexivity|]. right. split; [reflexivity|]. exists fn. rewrite Hb, Hp. auto.
  Qed.

  Lemma search_spec f n l c exts : okfs f -> absolute n (l ++ [c]) -> (In (lit "*") exts -> dget f l = Some EDir) ->
    let self := render n (l ++ [c]) in
    (exists q e1 ext e2, siblingExtensionSearch self exts f = Ok (Some q) /\ exts = e1 ++ ext :: e2 /\ found f self ext q /\
       forall e q', In e e1 -> ~ found f self e q') \/
    (siblingExtensionSearch self exts f = Ok None /\ forall e q', In e exts -> ~ found f self e q').
  Proof.
    intros Hok Ha Hstar self. induction exts as [|ext exts IH]; [right; split; [reflexivity|intros e q' []]|].
    specialize (IH (fun H => Hstar (or_intror H))). destruct (base_render n l c Ha) as [Hb Hp]. fold self in Hb, Hp.
    assert (Hit : forall q, found f self ext q -> siblingExtensionSearch self (ext :: exts) f = Ok (Some q) ->
      exists q e1 ext0 e2, siblingExtensionSearch self (ext :: exts) f = Ok (Some q) /\ ext :: exts = e1 ++ ext0 :: e2 /\ found f self ext0 q /\
       forall e q', In e e1 -> ~ found f self e q').
    { intros q Hq E. exists q, [], ext, exts. repeat split; auto. }
    assert (Hmiss : (forall q, ~ found f self ext q) -> siblingExtensionSearch self (ext :: exts) f = siblingExtensionSearch self exts f ->
      (exists q e1 ext0 e2, siblingExtensionSearch self (ext :: exts) f = Ok (Some q) /\ ext :: exts = e1 ++ ext0 :: e2 /\ found f self ext0 q /\
       forall e q', In e e1 -> ~ found f self e q') \/
      (siblingExtensionSearch self (ext :: exts) f = Ok None /\ forall e q', In e (ext :: exts) -> ~ found f self e q')).
    { intros Hno E. rewrite E. destruct IH as [(q & e1 & x & e2 & H1 & H2 & H3 & H4)|[H1 H2]].
      - left. exists q, (ext :: e1), x, e2. split; [exact H1|]. split; [now rewrite H2|]. split; [exact H3|].
        intros e q' [<-|H]; auto.
      - right. split; [exact H1|]. intros e q' [<-|H]; auto. }
    cbn [siblingExtensionSearch] in *. destruct (eqb ext []) eqn:Ee.
    - assert (Hx : ext = []) by (destruct (eqb_spec ext []); congruence). clear Ee. subst ext. change (eqb [] (lit "*")) with false in *. rewrite app_nil_r in *. cbn [andb] in *.
      destruct (path_exists f self) eqn:Ex; cbv iota in *.
      + left. apply (Hit self); [|reflexivity]. exists self. split; [exact Ex|]. split; [unfold filePath; symmetry; now apply abspath_render|].
        left. now rewrite app_nil_r.
      + apply Hmiss; [|reflexivity]. intros q (s & H1 & _ & [H|[H _]]); [|discriminate]. rewrite app_nil_r in H. congruence.
    - cbn [andb] in *. destruct (eqb ext (lit "*")) eqn:Es.
      + assert (Hx : ext = lit "*") by (destruct (eqb_spec ext (lit "*")); congruence). clear Ee Es. subst ext.
        destruct (star_spec f n l c Hok Ha (Hstar (or_introl eq_refl))) as [(q & Hq & Hf)|[Hq Hf]]; fold self in Hq; rewrite Hq in *.
        * left. eapply Hit; eauto.
        * destruct (path_exists f (self ++ lit "*")) eqn:Ex.
          -- left. eapply Hit; [|reflexivity]. exists (self ++ lit "*"). auto.
          -- apply Hmiss; [|reflexivity]. intros q (s & H1 & _ & [H|[_ (fn & Hn & H & Hpre)]]); [congruence|].
             rewrite Hb in Hpre. rewrite Hp in H. subst s. rewrite (Hf fn Hn Hpre) in H1. discriminate.
      + destruct (path_exists f (self ++ ext)) eqn:Ex.
        * left. eapply Hit; [|reflexivity]. exists (self ++ ext). auto.
        * apply Hmiss; [|reflexivity]. intros q (s & H1 & _ & [H|[H _]]); [congruence|].
          subst ext. rewrite eqb_refl in Es. discriminate.
  Qed.

  Lemma found_exists f self ext q : found f self ext q -> dget f (place q) <> None.
  Proof. intros (s & H & -> & _). now apply exists_place. Qed.

  Lemma child_search self paths f :
    match childSearchPreauth self paths f with
    | Some r => exists a c b, paths = a ++ c :: b /\ path_exists f (joinpath self c) = true /\ r = filePath cwd (joinpath self c) /\
        dget f (place r) <> None /\ forall x, In x a -> path_exists f (joinpath self x) = false
    | None => forall x, In x paths -> path_exists f (joinpath self x) = false
    end.
  Proof.
    induction paths as [|c t IH]; cbn [childSearchPreauth]; [intros x []|].
    destruct (path_exists f (joinpath self c)) eqn:E.
    - exists [], c, t. repeat split; auto. now apply exists_place. intros x [].
    - destruct (childSearchPreauth self t f) as [r|].
      + destruct IH as (a & c' & b & -> & H1 & H2 & H3 & H4). exists (c :: a), c', b. repeat split; auto. intros x [<-|H]; auto.
      + intros x [<-|H]; auto.
  Qed.
End Search.
