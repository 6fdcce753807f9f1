(** * Paths: FilePath of epsilon/hotfixes/filepath_copyTo.py

    The text part: posixpath of the standard library, child, preauthChild,
    parent, basename, siblingExtension. *)

From Coq Require Import NArith String List Bool Arith Lia ZifyBool.
From Verif Require Import Py PyStr PySplit.
Import ListNotations.
Open Scope list_scope.

Definition slash : str := lit "/".
Definition is_slash (c : N) : bool := (c =? 47)%N.

(** ** posixpath (standard library) *)

(** normpath: the loop over the components; [new] is new_comps, last first *)
Fixpoint norm_comps (initial : bool) (new : list str) (comps : list str) : list str :=
  match comps with
  | [] => rev new
  | c :: comps' =>
      if eqb c [] || eqb c (lit ".") then norm_comps initial new comps'
      else if negb (eqb c (lit "..")) || (negb initial && match new with [] => true | _ => false end)
              || match new with d :: _ => eqb d (lit "..") | [] => false end
      then norm_comps initial (c :: new) comps'
      else norm_comps initial (match new with _ :: n => n | [] => [] end) comps'
  end.

Definition initial_slashes (path : str) : nat :=
  if prefixb slash path then
    if prefixb (lit "//") path && negb (prefixb (lit "///") path) then 2 else 1
  else 0.

Definition normpath (path : str) : str :=
  match path with
  | [] => lit "."
  | _ =>
      let n := initial_slashes path in
      let comps := norm_comps (0 <? n)%nat [] (split slash path) in
      match repeat 47%N n ++ join slash comps with
      | [] => lit "."
      | p => p
      end
  end.

(** join with one more part *)
Definition joinpath (a b : str) : str :=
  if prefixb slash b then b
  else match a with
       | [] => b
       | _ => if suffixb slash a then a ++ b else a ++ slash ++ b
       end.

(** abspath; [cwd] is the working directory *)
Definition abspath (cwd path : str) : str := normpath (if prefixb slash path then path else joinpath cwd path).

(** split: the text up to the last slash, and the rest *)
Fixpoint psplit (p : str) : str * str :=
  match p with
  | [] => ([], [])
  | c :: p' =>
      match psplit p' with
      | ([], t) => if is_slash c then ([c], t) else ([], c :: t)
      | (h, t) => (c :: h, t)
      end
  end.

Fixpoint lstrip_slash (s : str) : str :=
  match s with
  | [] => []
  | c :: s' => if is_slash c then lstrip_slash s' else s
  end.

Definition basename (p : str) : str := snd (psplit p).
Definition dirname (p : str) : str :=
  let head := fst (psplit p) in
  if forallb is_slash head then head else rev (lstrip_slash (rev head)).

(** ** FilePath *)

Section Cwd.
  Variable cwd : str.

  (** filepath_copyTo.py:78-80, __init__ (also clonePath, 395); a FilePath is
      its path *)
  Definition filePath (path : str) : str := abspath cwd path.

  (** filepath_copyTo.py:88-95 *)
  Definition child (self path : str) : res str :=
    let norm := normpath path in
    if containsb slash norm then Err InsecurePath
    else
      let newpath := abspath cwd (joinpath self norm) in
      if negb (prefixb self newpath) then Err InsecurePath else Ok (filePath newpath).

  (** filepath_copyTo.py:97-106 *)
  Definition preauthChild (self path : str) : res str :=
    let newpath := abspath cwd (joinpath self (normpath path)) in
    if negb (prefixb self newpath) then Err InsecurePath else Ok (filePath newpath).

  (** filepath_copyTo.py:148-149 *)
  Definition siblingExtension (self ext : str) : str := filePath (self ++ ext).

  (** filepath_copyTo.py:275-279 *)
  Definition parent (self : str) : str := filePath (dirname self).

  (** filepath_copyTo.py:315-321; [rnd] is what _secureEnoughString (47-51)
      gives.  requireCreate makes open refuse an existing file. *)
  Definition temporarySibling (rnd self : str) : res str := child (parent self) (rnd ++ basename self).
End Cwd.

(** ** Specification: absolute paths *)

(** the name of an entry of a directory *)
Definition name (c : str) : Prop := c <> [] /\ c <> lit "." /\ c <> lit ".." /\ ~ In 47%N c.
(** the text of an absolute path: one slash, or two, and names *)
Definition render (n : nat) (cs : list str) : str := repeat 47%N n ++ join slash cs.
Definition absolute (n : nat) (cs : list str) : Prop := (n = 1 \/ n = 2)%nat /\ Forall name cs.
(** the directory reached from [cs] along components *)
Definition follow (cs : list str) (c : str) : list str :=
  if eqb c [] || eqb c (lit ".") then cs
  else if eqb c (lit "..") then removelast cs else cs ++ [c].
Definition resolve (cs : list str) (comps : list str) : list str := fold_left follow comps cs.

(** the components of a text *)
Fixpoint pieces (s : str) : list str :=
  match s with
  | [] => [[]]
  | c :: s' => if is_slash c then [] :: pieces s'
               else match pieces s' with h :: t => (c :: h) :: t | [] => [[c]] end
  end.

(** ** Components *)

Lemma pieces_ne s : pieces s <> [].
Proof. destruct s as [|c s]; cbn; [discriminate|]. destruct (is_slash c); [discriminate|]. destruct (pieces s); discriminate. Qed.

Lemma pieces_join s : join slash (pieces s) = s.
Proof.
  induction s as [|c s IH]; [reflexivity|]. cbn [pieces]. unfold is_slash. pose proof (pieces_ne s) as Hn. destruct (N.eqb_spec c 47) as [->|Hc].
  - destruct (pieces s) as [|h t]; [congruence|]. change (join slash ([] :: h :: t)) with (47%N :: join slash (h :: t)). now rewrite IH.
  - destruct (pieces s) as [|h t]; [congruence|]. replace (join slash ((c :: h) :: t)) with (c :: join slash (h :: t)) by (destruct t; reflexivity). now rewrite IH.
Qed.

Lemma pieces_free s : Forall (fun p : str => ~ In 47%N p) (pieces s).
Proof.
  induction s as [|c s IH]; cbn; [repeat constructor; auto|]. unfold is_slash. destruct (N.eqb_spec c 47) as [->|Hc]; [constructor; [auto|exact IH]|].
  destruct (pieces s) as [|h t]; [repeat constructor; intros [H|[]]; congruence|]. inversion IH; subst. constructor; [|assumption]. intros [H|H]; [congruence|auto].
Qed.

Lemma slash_in s : containsb slash s = true <-> In 47%N s.
Proof.
  rewrite containsb_spec. split.
  - intros (a & b & ->). apply in_or_app. right. left. reflexivity.
  - intros H. apply in_split in H. destruct H as (a & b & ->). exists a, b. reflexivity.
Qed.
Lemma slash_out s : containsb slash s = false <-> ~ In 47%N s.
Proof. rewrite <- slash_in. destruct (containsb slash s); split; congruence || auto. Qed.

Lemma split_pieces s : split slash s = pieces s.
Proof.
  rewrite <- (pieces_join s) at 1. apply split_join.
  - apply no_overlapb_spec. reflexivity.
  - apply pieces_ne.
  - eapply Forall_impl; [|apply pieces_free]. intros p. apply slash_out.
Qed.

Lemma pieces_app a b : pieces (a ++ slash ++ b) = pieces a ++ pieces b.
Proof.
  induction a as [|c a IH]; [reflexivity|]. cbn [app pieces]. destruct (is_slash c); [now rewrite IH|]. rewrite IH.
  pose proof (pieces_ne a) as Hn. destruct (pieces a) as [|h t]; [congruence|]. reflexivity.
Qed.
Lemma pieces_word c : ~ In 47%N c -> pieces c = [c].
Proof. intros H. rewrite <- split_pieces. apply (split_join slash (proj1 (conj (no_overlapb_spec slash eq_refl) I)) [c] ltac:(discriminate)). constructor; [now apply slash_out|constructor]. Qed.
Lemma pieces_names cs : cs <> [] -> Forall name cs -> pieces (join slash cs) = cs.
Proof.
  intros Hn H. rewrite <- split_pieces. apply split_join; [apply no_overlapb_spec; reflexivity|exact Hn|].
  eapply Forall_impl; [|exact H]. intros c (_ & _ & _ & Hc). now apply slash_out.
Qed.

(** ** normpath *)

Lemma follow_name cs c : name c -> follow cs c = cs ++ [c].
Proof. intros (H1 & H2 & H3 & _). unfold follow. destruct (eqb_spec c []); [congruence|]. destruct (eqb_spec c (lit ".")); [congruence|]. destruct (eqb_spec c (lit "..")); [congruence|]. reflexivity. Qed.
Lemma follow_empty cs : follow cs [] = cs. Proof. reflexivity. Qed.

Lemma resolve_names t : Forall name t -> forall cs, resolve cs t = cs ++ t.
Proof.
  induction 1 as [|c t Hc _ IH]; intros cs; [now rewrite app_nil_r|]. unfold resolve in *. cbn [fold_left]. rewrite (follow_name cs c Hc), IH, <- app_assoc. reflexivity.
Qed.

Lemma removelast_names cs : Forall name cs -> Forall name (removelast cs).
Proof. induction 1 as [|c cs Hc _ IH]; cbn; [constructor|]. destruct cs; [constructor|]. now constructor. Qed.
Lemma follow_names cs (c : str) : Forall name cs -> ~ In 47%N c -> Forall name (follow cs c).
Proof.
  intros H Hc. unfold follow. destruct (eqb_spec c []) as [|H1]; [exact H|]. destruct (eqb_spec c (lit ".")) as [|H2]; [exact H|]. cbn [orb].
  destruct (eqb_spec c (lit "..")) as [|H3]; [now apply removelast_names|]. apply Forall_app. split; [exact H|]. constructor; [|constructor]. repeat split; assumption.
Qed.
Lemma resolve_all (comps : list str) : Forall (fun p : str => ~ In 47%N p) comps -> forall cs, Forall name cs -> Forall name (resolve cs comps).
Proof. induction 1 as [|c comps Hc _ IH]; intros cs H; [exact H|]. cbn. apply IH. now apply follow_names. Qed.

Lemma name_dots c : name c -> eqb c (lit "..") = false.
Proof. intros (_ & _ & H & _). now apply eqb_neq. Qed.

Lemma norm_abs (comps : list str) : Forall (fun p : str => ~ In 47%N p) comps -> forall new, Forall name new -> norm_comps true new comps = resolve (rev new) comps.
Proof.
  induction 1 as [|c comps Hc _ IH]; intros new Hn; cbn [norm_comps]; [reflexivity|]. unfold resolve in *. cbn [fold_left]. unfold follow at 2.
  destruct (eqb_spec c []) as [E1|H1]; [now apply IH|]. destruct (eqb_spec c (lit ".")) as [E2|H2]; [now apply IH|]. cbn [orb negb andb].
  destruct (eqb_spec c (lit "..")) as [E3|H3]; cbn [negb orb].
  - destruct new as [|d new]; [cbn; apply (IH []); constructor|]. inversion Hn; subst. rewrite name_dots by assumption. cbn [rev].
    rewrite removelast_last. now apply IH.
  - rewrite IH; [reflexivity|]. constructor; [|exact Hn]. repeat split; assumption.
Qed.

Lemma initial_abs p : prefixb slash p = true -> (initial_slashes p = 1 \/ initial_slashes p = 2)%nat.
Proof. intros H. unfold initial_slashes. rewrite H. destruct (_ && _); auto. Qed.

Theorem normpath_abs p : prefixb slash p = true -> normpath p = render (initial_slashes p) (resolve [] (pieces p)) /\ absolute (initial_slashes p) (resolve [] (pieces p)).
Proof.
  intros H. pose proof (initial_abs p H) as Hi. split.
  - unfold normpath. destruct p as [|c p]; [discriminate|]. set (q := c :: p) in *. rewrite split_pieces.
    replace (0 <? initial_slashes q)%nat with true by (destruct Hi as [->| ->]; reflexivity).
    rewrite (norm_abs _ (pieces_free q) [] (Forall_nil _)). cbn [rev]. unfold render. destruct Hi as [->| ->]; reflexivity.
  - split; [exact Hi|]. apply resolve_all; [apply pieces_free|constructor].
Qed.

Lemma initial_1 j : prefixb slash j = false -> initial_slashes (47%N :: j) = 1%nat.
Proof. intros H. unfold initial_slashes. change (prefixb (lit "//") (47%N :: j)) with (prefixb slash j). rewrite H. reflexivity. Qed.
Lemma initial_2 j : prefixb slash j = false -> initial_slashes (47%N :: 47%N :: j) = 2%nat.
Proof. intros H. unfold initial_slashes. change (prefixb (lit "///") (47%N :: 47%N :: j)) with (prefixb slash j). rewrite H. reflexivity. Qed.

Lemma render_pieces n cs : absolute n cs -> resolve [] (pieces (render n cs)) = cs /\ initial_slashes (render n cs) = n /\ prefixb slash (render n cs) = true.
Proof.
  intros [Hn H]. assert (Hj : resolve [] (pieces (join slash cs)) = cs).
  { destruct cs as [|c cs]; [reflexivity|]. rewrite pieces_names by (auto; discriminate). now rewrite resolve_names. }
  assert (Hs : prefixb slash (join slash cs) = false).
  { destruct H as [|c cs (H1 & _ & _ & H4) _]; [reflexivity|]. destruct c as [|x c]; [congruence|].
    assert (Hx : x <> 47%N) by (intros ->; apply H4; left; reflexivity).
    assert (Hp : forall s, prefixb slash (x :: s) = false) by (intros s; destruct (prefixb slash (x :: s)) eqn:E; [|reflexivity]; apply prefixb_spec in E; destruct E as (t & E); injection E as E _; congruence).
    destruct cs; apply Hp. }
  set (j := join slash cs) in *. assert (P : forall s, pieces (47%N :: s) = [] :: pieces s) by reflexivity. unfold render. fold j. destruct Hn as [->| ->]; cbn [repeat app].
  - rewrite P. unfold resolve in *. cbn [fold_left]. rewrite follow_empty. repeat split; [exact Hj|now apply initial_1].
  - rewrite !P. unfold resolve in *. cbn [fold_left]. rewrite !follow_empty. repeat split; [exact Hj|now apply initial_2].
Qed.

Theorem normpath_render n cs : absolute n cs -> normpath (render n cs) = render n cs.
Proof. intros H. destruct (render_pieces n cs H) as (E1 & E2 & E3). rewrite (proj1 (normpath_abs _ E3)), E1, E2. reflexivity. Qed.

Lemma abspath_render cwd n cs : absolute n cs -> abspath cwd (render n cs) = render n cs.
Proof. intros H. unfold abspath. destruct (render_pieces n cs H) as (_ & _ & E). rewrite E. now apply normpath_render. Qed.

(** ** Relative paths *)

Definition step_ok (c : str) : Prop := name c \/ c = lit "..".

Lemma resolve_app cs a b : resolve cs (a ++ b) = resolve (resolve cs a) b.
Proof. apply fold_left_app. Qed.

Lemma norm_rel (comps : list str) : Forall (fun p : str => ~ In 47%N p) comps -> forall new, Forall step_ok new ->
  Forall step_ok (norm_comps false new comps) /\ forall cs, resolve cs (norm_comps false new comps) = resolve (resolve cs (rev new)) comps.
Proof.
  induction 1 as [|c comps Hc _ IH]; intros new Hn; cbn [norm_comps]; [split; [now apply Forall_rev|reflexivity]|].
  assert (Step : forall cs, resolve cs (c :: comps) = resolve (follow cs c) comps) by reflexivity.
  destruct (eqb_spec c []) as [E1|H1]; cbn [orb].
  { destruct (IH new Hn) as [A B]. split; [exact A|]. intros cs. rewrite B, Step, E1. reflexivity. }
  destruct (eqb_spec c (lit ".")) as [E2|H2].
  { destruct (IH new Hn) as [A B]. split; [exact A|]. intros cs. rewrite B, Step, E2. reflexivity. }
  assert (Push : step_ok c -> Forall step_ok (norm_comps false (c :: new) comps) /\ forall cs, resolve cs (norm_comps false (c :: new) comps) = resolve (resolve cs (rev new)) (c :: comps)).
  { intros Hs. destruct (IH (c :: new) (Forall_cons _ Hs Hn)) as [A B]. split; [exact A|]. intros cs. rewrite B. cbn [rev]. rewrite resolve_app. reflexivity. }
  destruct (eqb_spec c (lit "..")) as [E3|H3]; cbn [negb orb andb].
  - destruct new as [|d new]; [apply Push; now right|]. destruct (eqb_spec d (lit "..")) as [E4|H4]; cbn [orb]; [apply Push; now right|].
    inversion Hn as [|? ? Hd Hn']; subst. destruct Hd as [Hd|Hd]; [|congruence].
    destruct (IH new Hn') as [A B]. split; [exact A|]. intros cs. rewrite B, Step. cbn [rev]. rewrite resolve_app. change (resolve (resolve cs (rev new)) [d]) with (follow (resolve cs (rev new)) d).
    rewrite (follow_name _ d Hd). change (follow (resolve cs (rev new) ++ [d]) (lit "..")) with (removelast (resolve cs (rev new) ++ [d])). rewrite removelast_last. reflexivity.
  - apply Push. left. repeat split; assumption.
Qed.

Lemma step_free c : step_ok c -> ~ In 47%N c.
Proof. intros [(_ & _ & _ & H)| ->]; [exact H|]. intros [H|[H|[]]]; discriminate H. Qed.
Lemma step_ne c : step_ok c -> c <> [].
Proof. intros [(H & _)| ->]; [exact H|discriminate]. Qed.

Lemma join_ne l : l <> [] -> Forall (fun c : str => c <> []) l -> join slash l <> [].
Proof. intros Hn H. destruct H as [|c l Hc _]; [congruence|]. destruct c as [|x c]; [congruence|]. destruct l; discriminate. Qed.

(** the normal form of a relative path *)
Lemma normpath_rel p : prefixb slash p = false ->
  let comps := norm_comps false [] (pieces p) in
  normpath p = match comps with [] => lit "." | _ => join slash comps end /\ Forall step_ok comps /\ forall cs, resolve cs comps = resolve cs (pieces p).
Proof.
  intros H comps. destruct (norm_rel (pieces p) (pieces_free p) [] (Forall_nil _)) as [A B]. fold comps in A, B. split; [|split; [exact A|exact B]].
  destruct p as [|c p]; [reflexivity|]. unfold normpath. set (q := c :: p) in *. assert (E : initial_slashes q = 0%nat) by (unfold initial_slashes; now rewrite H).
  rewrite E, split_pieces. cbn [repeat app]. change (0 <? 0)%nat with false. fold comps. destruct comps as [|d l] eqn:Ec; [reflexivity|].
  destruct (join slash (d :: l)) eqn:Ej; [|reflexivity]. exfalso. revert Ej. apply join_ne; [discriminate|]. eapply Forall_impl; [|exact A]. apply step_ne.
Qed.

Lemma pieces_normpath p cs : prefixb slash p = false -> resolve cs (pieces (normpath p)) = resolve cs (pieces p) /\ prefixb slash (normpath p) = false.
Proof.
  intros H. destruct (normpath_rel p H) as (E & A & B). rewrite E. set (comps := norm_comps false [] (pieces p)) in *. rewrite <- B. clear E B. destruct A as [|c l Hc Hl]; [split; reflexivity|]. split.
  - f_equal. rewrite <- split_pieces. apply split_join; [apply no_overlapb_spec; reflexivity|discriminate|].
    apply (Forall_impl (P := step_ok)); [intros x Hx; apply slash_out, step_free, Hx|now constructor].
  - destruct (prefixb slash (join slash (c :: l))) eqn:E; [|reflexivity]. exfalso. apply prefixb_spec in E. destruct E as (t & E).
    pose proof (step_free c Hc) as F. pose proof (step_ne c Hc) as F2. destruct c as [|x c]; [congruence|]. apply F. left. destruct l; cbn in E; injection E as E _; exact E.
Qed.

Lemma join_snoc l c : l <> [] -> join slash (l ++ [c]) = join slash l ++ slash ++ c.
Proof.
  induction l as [|a l IH]; intros H; [congruence|]. destruct l as [|b l]; [reflexivity|].
  change (join slash ((a :: b :: l) ++ [c])) with (a ++ slash ++ join slash ((b :: l) ++ [c])). rewrite IH by discriminate.
  change (join slash (a :: b :: l)) with (a ++ slash ++ join slash (b :: l)). now rewrite <- !app_assoc.
Qed.

Lemma suffix_slash s : suffixb slash s = true <-> exists t, s = t ++ slash.
Proof. apply suffixb_spec. Qed.

Lemma render_end n cs : absolute n cs -> cs <> [] -> suffixb slash (render n cs) = false.
Proof.
  intros [_ H] Hn. destruct (suffixb slash (render n cs)) eqn:E; [|reflexivity]. exfalso. apply suffixb_spec in E. destruct E as (t & E).
  destruct (exists_last Hn) as (l & c & ->). apply Forall_app in H. destruct H as [_ H]. inversion H as [|? ? (H1 & _ & _ & H4) _]; subst.
  assert (Ej : exists u, render n (l ++ [c]) = u ++ c).
  { unfold render. destruct l as [|d l]; [exists (repeat 47%N n); reflexivity|]. rewrite join_snoc by discriminate. exists (repeat 47%N n ++ join slash (d :: l) ++ slash). now rewrite <- !app_assoc. }
  destruct Ej as (u & Ej). rewrite Ej in E. destruct (exists_last H1) as (c' & x & ->). rewrite app_assoc in E. change slash with [47%N] in E. apply app_inj_tail in E. destruct E as [_ ->].
  apply H4. apply in_or_app. right. left. reflexivity.
Qed.

Lemma initial_app n cs t : absolute n cs -> cs <> [] -> initial_slashes (render n cs ++ t) = n.
Proof.
  intros [Hn H] Hc. destruct H as [|c cs (H1 & _ & _ & H4) _]; [congruence|]. destruct c as [|x c]; [congruence|].
  assert (Hj : exists r, join slash (((x :: c) : str) :: cs) = x :: r) by (destruct cs; cbn; eauto). destruct Hj as (r & Hj). unfold render. rewrite Hj, <- app_assoc. cbn [app].
  assert (Hp : prefixb slash (x :: r ++ t) = false).
  { destruct (prefixb slash (x :: r ++ t)) eqn:E; [|reflexivity]. exfalso. apply prefixb_spec in E. destruct E as (u & E). injection E as -> _. apply H4. now left. }
  destruct Hn as [->| ->]; cbn [repeat app]; [now apply initial_1|now apply initial_2].
Qed.

(** joining a relative path to an absolute one *)
Theorem join_norm n cs q : absolute n cs -> prefixb slash q = false ->
  normpath (joinpath (render n cs) q) = render n (resolve cs (pieces q)) /\ absolute n (resolve cs (pieces q)) /\ prefixb slash (joinpath (render n cs) q) = true.
Proof.
  intros Ha Hq. assert (Ha' : absolute n (resolve cs (pieces q))) by (split; [apply Ha|apply resolve_all; [apply pieces_free|apply Ha]]).
  assert (G : initial_slashes (joinpath (render n cs) q) = n /\ prefixb slash (joinpath (render n cs) q) = true /\ resolve [] (pieces (joinpath (render n cs) q)) = resolve cs (pieces q)).
  { unfold joinpath. rewrite Hq. destruct cs as [|c cs].
    - destruct Ha as [[->| ->] _].
      + change (suffixb slash (render 1 [])) with true. cbn [render repeat join app]. split; [now apply initial_1|]. split; reflexivity.
      + change (suffixb slash (render 2 [])) with true. cbn [render repeat join app]. split; [now apply initial_2|]. split; reflexivity.
    - rewrite (render_end n (c :: cs) Ha ltac:(discriminate)). destruct (render_pieces n (c :: cs) Ha) as (E1 & E2 & E3).
      destruct (render n (c :: cs)) as [|x b] eqn:Er; [discriminate E3|]. rewrite <- Er in *. split; [apply initial_app; [exact Ha|discriminate]|]. split.
      + apply prefixb_spec in E3. destruct E3 as (t & E3). apply prefixb_spec. exists (t ++ slash ++ q). rewrite E3. now rewrite <- app_assoc.
      + rewrite pieces_app, resolve_app, E1. reflexivity. }
  destruct G as (G1 & G2 & G3). split; [|split; [exact Ha'|exact G2]]. rewrite (proj1 (normpath_abs _ G2)), G1, G3. reflexivity.
Qed.

(** ** child *)

Lemma join_slash l : ~ In 47%N (join slash l) -> (length l <= 1)%nat.
Proof.
  intros H. destruct l as [|a [|b l]]; cbn; try lia. exfalso. apply H. change (join slash (a :: b :: l)) with (a ++ slash ++ join slash (b :: l)).
  apply in_or_app. right. left. reflexivity.
Qed.

Lemma norm_no_slash p : containsb slash (normpath p) = false ->
  prefixb slash p = false /\ (normpath p = lit "." \/ normpath p = lit ".." \/ name (normpath p)).
Proof.
  intros H. apply slash_out in H. destruct (prefixb slash p) eqn:E.
  - exfalso. apply H. rewrite (proj1 (normpath_abs p E)). unfold render. destruct (initial_abs p E) as [->| ->]; left; reflexivity.
  - split; [reflexivity|]. destruct (normpath_rel p E) as (En & A & _). rewrite En in H |- *. destruct (norm_comps false [] (pieces p)) as [|c l]; [left; reflexivity|].
    right. apply join_slash in H. destruct l; [|cbn in H; lia]. cbn [join]. inversion A as [|? ? Hc _]; subst. destruct Hc; auto.
Qed.

Lemma prefix_refl s : prefixb s s = true.
Proof. rewrite <- (app_nil_r s) at 2. apply prefixb_app. Qed.
Lemma prefix_len p s : prefixb p s = true -> (length p <= length s)%nat.
Proof. intros H. apply prefixb_spec in H. destruct H as (t & ->). rewrite app_length. lia. Qed.

Lemma render_snoc n l c : exists t, render n (l ++ [c]) = render n l ++ t /\ (length c <= length t)%nat.
Proof.
  unfold render. destruct l as [|a l]; [exists c; cbn [app join]; now rewrite app_nil_r|]. rewrite join_snoc by discriminate. exists (slash ++ c).
  rewrite <- app_assoc. split; [reflexivity|]. rewrite app_length. lia.
Qed.

(** the exact behaviour *)
Theorem child_exact cwd n cs p : absolute n cs ->
  child cwd (render n cs) p =
    if containsb slash (normpath p) then Err InsecurePath
    else if eqb (normpath p) (lit ".") then Ok (render n cs)
    else if eqb (normpath p) (lit "..") then (match cs with [] => Ok (render n cs) | _ => Err InsecurePath end)
    else Ok (render n (cs ++ [normpath p])).
Proof.
  intros Ha. unfold child. destruct (containsb slash (normpath p)) eqn:Es; [reflexivity|]. destruct (norm_no_slash p Es) as [_ Hn]. pose proof Es as Es'. apply slash_out in Es'.
  assert (Hq : prefixb slash (normpath p) = false) by (destruct (prefixb slash (normpath p)) eqn:E; [|reflexivity]; exfalso; apply prefixb_spec in E; destruct E as (t & E); rewrite E in Es'; apply Es'; now left).
  destruct (join_norm n cs (normpath p) Ha Hq) as (J1 & J2 & J3). rewrite (pieces_word _ Es') in J1, J2. unfold abspath. rewrite J3, J1. unfold filePath. rewrite (abspath_render cwd n _ J2).
  change (resolve cs [normpath p]) with (follow cs (normpath p)). clear J1 J2 J3 Hq Es Es'. destruct Hn as [->|[->|Hn]].
  - change (follow cs (lit ".")) with cs. rewrite prefix_refl. reflexivity.
  - change (follow cs (lit "..")) with (removelast cs). change (eqb (lit "..") (lit ".")) with false. change (eqb (lit "..") (lit "..")) with true. cbv iota.
    destruct cs as [|c0 cs0]; [cbn [removelast]; now rewrite prefix_refl|]. destruct (prefixb (render n (c0 :: cs0)) (render n (removelast (c0 :: cs0)))) eqn:E; [|reflexivity].
    exfalso. apply prefix_len in E. pose proof (@app_removelast_last _ (c0 :: cs0) [] ltac:(discriminate)) as R. set (l := removelast (c0 :: cs0)) in *. set (c := last (c0 :: cs0) []) in *.
    rewrite R in E. destruct (render_snoc n l c) as (t & Et & Lt). rewrite Et, app_length in E.
    assert (Hc : name c). { destruct Ha as [_ Ha]. rewrite R in Ha. apply Forall_app in Ha. destruct Ha as [_ Ha]. now inversion Ha. }
    destruct Hc as (Hc & _). destruct c; [congruence|]. cbn [length] in Lt. lia.
  - rewrite (follow_name cs _ Hn). destruct Hn as (_ & N2 & N3 & _). destruct (eqb_spec (normpath p) (lit ".")); [congruence|]. destruct (eqb_spec (normpath p) (lit "..")); [congruence|].
    destruct (render_snoc n cs (normpath p)) as (t & Et & _). rewrite Et at 1. rewrite prefixb_app. reflexivity.
Qed.

(** ** preauthChild *)

(** where a text leads from an absolute path *)
Definition target (n : nat) (cs : list str) (p : str) : nat * list str :=
  if prefixb slash p then (initial_slashes p, resolve [] (pieces p)) else (n, resolve cs (pieces p)).

Lemma target_abs n cs p : absolute n cs -> absolute (fst (target n cs p)) (snd (target n cs p)).
Proof.
  intros Ha. unfold target. destruct (prefixb slash p) eqn:E; cbn [fst snd]; [apply (proj2 (normpath_abs p E))|].
  split; [apply Ha|apply resolve_all; [apply pieces_free|apply Ha]].
Qed.

Lemma abs_slash n cs : absolute n cs -> prefixb slash (render n cs) = true.
Proof. intros Ha. apply (render_pieces n cs Ha). Qed.

Theorem preauth_exact cwd n cs p : absolute n cs -> let r := render (fst (target n cs p)) (snd (target n cs p)) in
  preauthChild cwd (render n cs) p = if prefixb (render n cs) r then Ok r else Err InsecurePath.
Proof.
  intros Ha r. assert (E : abspath cwd (joinpath (render n cs) (normpath p)) = r).
  { pose proof (target_abs n cs p Ha) as Ht. subst r. unfold target in *. destruct (prefixb slash p) eqn:Ep; cbn [fst snd] in *.
    - rewrite (proj1 (normpath_abs p Ep)). unfold joinpath. rewrite (abs_slash _ _ Ht). now apply abspath_render.
    - destruct (pieces_normpath p cs Ep) as [P1 P2]. destruct (join_norm n cs (normpath p) Ha P2) as (J1 & _ & J3). unfold abspath. rewrite J3, J1, P1. reflexivity. }
  unfold preauthChild. rewrite E. unfold filePath, r. rewrite (abspath_render cwd _ _ (target_abs n cs p Ha)). destruct (prefixb (render n cs) _); reflexivity.
Qed.

Lemma pieces_concat u t l c s r : pieces u = l ++ [c] -> pieces t = s :: r -> pieces (u ++ t) = l ++ (c ++ s) :: r.
Proof.
  revert l c. induction u as [|x u IH]; intros l c Hu Ht.
  - destruct l as [|a l]; [|exfalso; injection Hu as _ Hu; destruct l; discriminate Hu]. injection Hu as <-. exact Ht.
  - cbn [pieces app] in *. destruct (is_slash x).
    + destruct l as [|a l]; [exfalso; injection Hu as _ Hu; revert Hu; apply pieces_ne|]. injection Hu as <- Hu. rewrite (IH l c Hu Ht). reflexivity.
    + destruct (exists_last (pieces_ne u)) as (l' & c' & E). rewrite (IH l' c' E Ht). rewrite E in Hu. destruct l' as [|a l']; cbn [app] in *.
      * destruct l as [|b l]; [|exfalso; injection Hu as _ Hu; destruct l; discriminate Hu]. injection Hu as <-. reflexivity.
      * destruct l as [|b l]; [exfalso; injection Hu as _ Hu; destruct l'; discriminate Hu|]. injection Hu as <- Hu. apply app_inj_tail in Hu. destruct Hu as [-> ->]. reflexivity.
Qed.

Lemma names_free cs : Forall name cs -> Forall (fun c : str => ~ In 47%N c) cs.
Proof. apply Forall_impl. intros c (_ & _ & _ & H). exact H. Qed.

Lemma names_head cs : Forall name cs -> prefixb slash (join slash cs) = false.
Proof.
  intros H. destruct (prefixb slash (join slash cs)) eqn:E; [|reflexivity]. exfalso. apply prefixb_spec in E. destruct E as (t & E).
  destruct H as [|c cs (H1 & _ & _ & H4) _]; [discriminate|]. destruct c as [|x c]; [congruence|]. apply H4. left. destruct cs; injection E as E _; exact E.
Qed.

Lemma prefix_render_iff n cs m ds : absolute n cs -> absolute m ds ->
  prefixb (render n cs) (render m ds) = true <->
  (m = n /\ exists r, ds = cs ++ r) \/
  (m = n /\ exists l c s r, cs = l ++ [c] /\ s <> [] /\ ds = l ++ (c ++ s) :: r) \/
  (n = 1%nat /\ cs = [] /\ m = 2%nat).
Proof.
  intros Ha Hb. split.
  - intros H. apply prefixb_spec in H. destruct H as (t & H). destruct cs as [|c0 cs0].
    + destruct (Nat.eq_dec m n) as [->|Hmn]; [left; split; [reflexivity|now exists ds]|].
      right. right. destruct Ha as [Hn _]. destruct Hb as [Hm Hd]. unfold render in H. cbn [join] in H. rewrite app_nil_r in H.
      destruct Hn as [->| ->]; destruct Hm as [->| ->]; try congruence; [now repeat split|]. exfalso. pose proof (names_head ds Hd) as F.
      cbn [repeat app] in H. injection H as H. rewrite H in F. discriminate F.
    + assert (E : m = n). { rewrite <- (proj1 (proj2 (render_pieces m ds Hb))), H. apply initial_app; [exact Ha|discriminate]. }
      subst m. unfold render in H. rewrite <- app_assoc in H. apply app_inv_head in H. destruct Ha as [_ Ha]. destruct Hb as [_ Hb].
      assert (Hcs : c0 :: cs0 <> []) by discriminate. set (cs := c0 :: cs0) in *. assert (Hds : ds <> []). { intros ->. cbn [join] in H. destruct (join slash cs) eqn:E; [|discriminate H]. revert E. apply join_ne; [exact Hcs|]. eapply Forall_impl; [|exact Ha]. intros c (Hc & _). exact Hc. }
      destruct (exists_last Hcs) as (l & c & El). destruct (pieces t) as [|s r] eqn:Et; [now apply pieces_ne in Et|].
      assert (Ed : ds = l ++ (c ++ s) :: r). { rewrite <- (pieces_names ds Hds Hb), H. apply pieces_concat; [|exact Et]. rewrite (pieces_names cs Hcs Ha). exact El. }
      destruct s as [|x s].
      * left. split; [reflexivity|]. exists r. rewrite Ed, El, app_nil_r, <- app_assoc. reflexivity.
      * right. left. split; [reflexivity|]. exists l, c, (x :: s), r. repeat split; [exact El|discriminate|exact Ed].
  - intros [(-> & r & ->)|[(-> & l & c & s & r & -> & _ & ->)|(-> & -> & ->)]].
    + apply prefixb_spec. revert cs Ha Hb. induction r as [|c r IH] using rev_ind; intros cs Ha Hb; [exists []; now rewrite !app_nil_r|].
      destruct (IH cs Ha) as (t & Et). { destruct Hb as [Hn Hb]. split; [exact Hn|]. rewrite app_assoc in Hb. apply Forall_app in Hb. apply Hb. }
      rewrite app_assoc. destruct (render_snoc n (cs ++ r) c) as (t' & E' & _). exists (t ++ t'). rewrite E', Et. now rewrite <- app_assoc.
    + apply prefixb_spec. clear. unfold render. assert (J : exists t, join slash (l ++ (c ++ s) :: r) = join slash (l ++ [c]) ++ t).
      { induction l as [|a l (t & IH)].
        - cbn [app join]. destruct r as [|b r]; [now exists s|]. exists (s ++ slash ++ join slash (b :: r)). now rewrite <- app_assoc.
        - exists t. destruct l as [|b l]; cbn [app] in *.
          + change (join slash (a :: (c ++ s) :: r)) with (a ++ slash ++ join slash ((c ++ s) :: r)). rewrite IH. cbn [join]. now rewrite <- !app_assoc.
          + change (join slash (a :: b :: l ++ (c ++ s) :: r)) with (a ++ slash ++ join slash (b :: l ++ (c ++ s) :: r)). rewrite IH.
            change (join slash (a :: b :: l ++ [c])) with (a ++ slash ++ join slash (b :: l ++ [c])). now rewrite <- !app_assoc. }
      destruct J as (t & J). exists t. rewrite J. now rewrite <- app_assoc.
    + reflexivity.
Qed.

(** a path without '..' *)
Lemma resolve_down (comps : list str) : Forall (fun p : str => ~ In 47%N p) comps -> ~ In (lit "..") comps -> forall cs, exists r, resolve cs comps = cs ++ r.
Proof.
  induction 1 as [|c comps Hc _ IH]; intros Hd cs; [exists []; now rewrite app_nil_r|]. cbn [In] in Hd. unfold resolve in *. cbn [fold_left]. unfold follow at 2.
  destruct (eqb c [] || eqb c (lit ".")); [apply IH; tauto|]. destruct (eqb_spec c (lit "..")) as [->|_]; [tauto|].
  destruct (IH (fun H => Hd (or_intror H)) (cs ++ [c])) as (r & E). exists (c :: r). rewrite E, <- app_assoc. reflexivity.
Qed.

(** ** parent and basename *)

Lemma psplit_word c : ~ In 47%N c -> psplit c = ([], c).
Proof.
  induction c as [|x c IH]; intros H; [reflexivity|]. cbn [psplit]. rewrite IH by (intros Hc; apply H; now right). unfold is_slash.
  destruct (N.eqb_spec x 47) as [->|_]; [exfalso; apply H; now left|reflexivity].
Qed.

Lemma psplit_app a c : ~ In 47%N c -> psplit (a ++ 47%N :: c) = (a ++ [47%N], c).
Proof.
  intros H. induction a as [|x a IH]; cbn [app psplit].
  - rewrite (psplit_word c H). reflexivity.
  - rewrite IH. destruct (a ++ [47%N]) eqn:E; [now destruct a|reflexivity].
Qed.

Lemma lstrip_word x s : is_slash x = false -> lstrip_slash (x :: s) = x :: s.
Proof. intros H. cbn. now rewrite H. Qed.

Lemma forallb_slash n : forallb is_slash (repeat 47%N n) = true.
Proof. induction n; [reflexivity|]. exact IHn. Qed.

Lemma base_render n l c : absolute n (l ++ [c]) -> basename (render n (l ++ [c])) = c /\ dirname (render n (l ++ [c])) = render n l.
Proof.
  intros Ha. assert (Hl : absolute n l) by (split; [apply Ha|destruct Ha as [_ Ha]; apply Forall_app in Ha; apply Ha]).
  assert (Hc : name c) by (destruct Ha as [_ Ha]; apply Forall_app in Ha; destruct Ha as [_ Ha]; now inversion Ha).
  assert (Hf : ~ In 47%N c) by apply Hc. unfold basename, dirname. destruct l as [|d l].
  - cbn [app]. destruct Hl as [[->| ->] _]; unfold render; cbn [join repeat app].
    + change (47%N :: c) with ([] ++ 47%N :: c). rewrite (psplit_app [] c Hf). split; reflexivity.
    + change (47%N :: 47%N :: c) with ([47%N] ++ 47%N :: c). rewrite (psplit_app [47%N] c Hf). split; reflexivity.
  - unfold render. rewrite join_snoc by discriminate. rewrite app_assoc. change (slash ++ c) with (47%N :: c). fold (render n (d :: l)). rewrite (psplit_app _ c Hf). cbn [fst snd].
    split; [reflexivity|].
    pose proof (render_end n (d :: l) Hl ltac:(discriminate)) as He. assert (Hne : render n (d :: l) <> []) by (intros E; pose proof (abs_slash _ _ Hl) as F; rewrite E in F; discriminate F).
    destruct (exists_last Hne) as (u & x & Eu). rewrite Eu in He |- *. assert (Hx : is_slash x = false).
    { unfold is_slash. destruct (N.eqb_spec x 47) as [->|]; [|reflexivity]. exfalso. apply Bool.not_true_iff_false in He. apply He. apply suffixb_spec. exists u. reflexivity. }
    replace (forallb is_slash ((u ++ [x]) ++ [47%N])) with false by (symmetry; rewrite !forallb_app; cbn [forallb]; rewrite Hx; now rewrite andb_false_r).
    rewrite rev_app_distr, rev_app_distr. cbn [rev app lstrip_slash]. change (is_slash 47) with true. cbv iota. rewrite Hx. cbn [rev]. now rewrite rev_involutive.
Qed.

Lemma parent_render cwd n l c : absolute n (l ++ [c]) -> parent cwd (render n (l ++ [c])) = render n l.
Proof.
  intros Ha. unfold parent, filePath. rewrite (proj2 (base_render n l c Ha)). apply abspath_render. split; [apply Ha|]. destruct Ha as [_ Ha]. apply Forall_app in Ha. apply Ha.
Qed.

Lemma normpath_name c : name c -> normpath c = c.
Proof.
  intros Hc. assert (Hp : prefixb slash c = false). { destruct (prefixb slash c) eqn:E; [|reflexivity]. exfalso. apply prefixb_spec in E. destruct E as (t & ->). apply Hc. now left. }
  destruct (normpath_rel c Hp) as (E & _). rewrite E, (pieces_word c (proj2 (proj2 (proj2 Hc)))). cbn [norm_comps]. destruct Hc as (H1 & H2 & H3 & _).
  destruct (eqb_spec c []); [congruence|]. destruct (eqb_spec c (lit ".")); [congruence|]. destruct (eqb_spec c (lit "..")); [congruence|]. reflexivity.
Qed.

Lemma child_name cwd n cs c : absolute n cs -> name c -> child cwd (render n cs) c = Ok (render n (cs ++ [c])).
Proof.
  intros Ha Hc. rewrite (child_exact cwd n cs c Ha), (normpath_name c Hc). destruct Hc as (H1 & H2 & H3 & H4). apply slash_out in H4. rewrite H4.
  destruct (eqb_spec c (lit ".")); [congruence|]. destruct (eqb_spec c (lit "..")); [congruence|]. reflexivity.
Qed.

(** a random name in front of the last one *)
Lemma name_app r c : name r -> name c -> name (r ++ c).
Proof.
  intros (R1 & R2 & R3 & R4) (C1 & C2 & C3 & C4). assert (Hs : forall x, In x (r ++ c) -> x <> 47%N) by (intros x Hx; apply in_app_or in Hx; intros ->; tauto).
  repeat split.
  - destruct r; [congruence|discriminate].
  - destruct r as [|x [|y r]], c as [|z c]; try congruence; discriminate.
  - intros E. destruct r as [|x [|y [|z r]]]; try congruence.
    + destruct c as [|w [|v c]]; try congruence; try discriminate. injection E as -> ->. now apply R2.
    + destruct c; [congruence|]. discriminate.
    + discriminate.
  - intros H. now apply Hs in H.
Qed.

Lemma temporary_sibling cwd rnd n l c : absolute n (l ++ [c]) -> name rnd -> temporarySibling cwd rnd (render n (l ++ [c])) = Ok (render n (l ++ [rnd ++ c])).
Proof.
  intros Ha Hr. unfold temporarySibling. rewrite (parent_render cwd n l c Ha), (proj1 (base_render n l c Ha)). destruct Ha as [Hn Ha]. apply Forall_app in Ha. destruct Ha as [Hl Hc]. inversion Hc; subst.
  apply child_name; [now split|now apply name_app].
Qed.

(** ** Theorems *)

Lemma child_safe cwd n cs p : absolute n cs ->
  child cwd (render n cs) p = Err InsecurePath \/ child cwd (render n cs) p = Ok (render n cs) \/
  exists c, name c /\ child cwd (render n cs) p = Ok (render n (cs ++ [c])).
Proof.
  intros Ha. rewrite (child_exact cwd n cs p Ha). destruct (containsb slash (normpath p)) eqn:Es; [now left|]. destruct (norm_no_slash p Es) as [_ [E|[E|E]]].
  - rewrite E. right. left. reflexivity.
  - rewrite E. change (eqb (lit "..") (lit ".")) with false. change (eqb (lit "..") (lit "..")) with true. destruct cs; [right; left|left]; reflexivity.
  - right. right. exists (normpath p). split; [exact E|]. destruct E as (_ & E2 & E3 & _). destruct (eqb_spec (normpath p) (lit ".")); [congruence|]. destruct (eqb_spec (normpath p) (lit "..")); [congruence|]. reflexivity.
Qed.

(** what is accepted is where the text leads *)
Lemma child_target cwd n cs p r : absolute n cs -> child cwd (render n cs) p = Ok r -> prefixb slash p = false /\ r = render n (resolve cs (pieces p)).
Proof.
  intros Ha. rewrite (child_exact cwd n cs p Ha). destruct (containsb slash (normpath p)) eqn:Es; [discriminate|]. destruct (norm_no_slash p Es) as [Hp Hn]. intros H. split; [exact Hp|].
  rewrite <- (proj1 (pieces_normpath p cs Hp)). apply slash_out in Es. rewrite (pieces_word _ Es). change (resolve cs [normpath p]) with (follow cs (normpath p)). destruct Hn as [E|[E|E]].
  - rewrite E in *. injection H as <-. reflexivity.
  - rewrite E in *. change (eqb (lit "..") (lit ".")) with false in H. change (eqb (lit "..") (lit "..")) with true in H. destruct cs; [|discriminate H]. injection H as <-. reflexivity.
  - rewrite (follow_name _ _ E). destruct E as (_ & E2 & E3 & _). destruct (eqb_spec (normpath p) (lit ".")); [congruence|]. destruct (eqb_spec (normpath p) (lit "..")); [congruence|]. now injection H as <-.
Qed.

Lemma preauth_result cwd n cs p r : absolute n cs -> preauthChild cwd (render n cs) p = Ok r ->
  let m := fst (target n cs p) in let ds := snd (target n cs p) in
  r = render m ds /\
  ((m = n /\ exists rest, ds = cs ++ rest) \/
   (m = n /\ exists l c s rest, cs = l ++ [c] /\ s <> [] /\ ds = l ++ (c ++ s) :: rest) \/
   (n = 1%nat /\ cs = [] /\ m = 2%nat)).
Proof.
  intros Ha H m ds. rewrite (preauth_exact cwd n cs p Ha) in H. fold m ds in H. destruct (prefixb (render n cs) (render m ds)) eqn:E; [|discriminate]. injection H as <-. split; [reflexivity|].
  apply (prefix_render_iff n cs m ds Ha (target_abs n cs p Ha)). exact E.
Qed.

Lemma preauth_down cwd n cs p : absolute n cs -> prefixb slash p = false -> ~ In (lit "..") (pieces p) ->
  exists rest, preauthChild cwd (render n cs) p = Ok (render n (cs ++ rest)).
Proof.
  intros Ha Hp Hd. destruct (resolve_down (pieces p) (pieces_free p) Hd cs) as (rest & E). exists rest. rewrite (preauth_exact cwd n cs p Ha).
  pose proof (target_abs n cs p Ha) as Ht. unfold target in *. rewrite Hp in *. cbn [fst snd] in *. rewrite E in *.
  replace (prefixb (render n cs) (render n (cs ++ rest))) with true; [reflexivity|]. symmetry. apply (prefix_render_iff n cs n (cs ++ rest) Ha Ht). left. split; [reflexivity|]. now exists rest.
Qed.

(** outside means refused, except beside the directory *)
Lemma preauth_refuses cwd n cs p : absolute n cs ->
  let m := fst (target n cs p) in let ds := snd (target n cs p) in
  preauthChild cwd (render n cs) p = Err InsecurePath <->
  ~ ((m = n /\ exists rest, ds = cs ++ rest) \/
     (m = n /\ exists l c s rest, cs = l ++ [c] /\ s <> [] /\ ds = l ++ (c ++ s) :: rest) \/
     (n = 1%nat /\ cs = [] /\ m = 2%nat)).
Proof.
  intros Ha m ds. rewrite <- (prefix_render_iff n cs m ds Ha (target_abs n cs p Ha)). rewrite (preauth_exact cwd n cs p Ha). fold m ds.
  destruct (prefixb (render n cs) (render m ds)); split; intros H; try discriminate; try reflexivity. exfalso. now apply H.
Qed.
