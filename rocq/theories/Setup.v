(** * epsilon/setuphelper.py: autosetup *)

From Coq Require Import NArith String List Bool Arith Lia.
From Verif Require Import Py PyStr PySplit FilePath.
Import ListNotations.
Open Scope nat_scope.

(** Directories: the names of the files and the subdirectories, in the order the
    system lists them.  Symbolic links are not modelled. *)
Inductive dir := Dir (files : list str) (subs : list (str * dir)).
Definition files (d : dir) : list str := match d with Dir f _ => f end.
Definition subs (d : dir) : list (str * dir) := match d with Dir _ s => s end.

Section DirInd.
  Variable P : dir -> Prop.
  Hypothesis H : forall f s, Forall (fun x => P (snd x)) s -> P (Dir f s).
  Fixpoint dir_ind' (d : dir) : P d :=
    match d with Dir f s => H f s ((fix go s := match s return Forall (fun x => P (snd x)) s with [] => Forall_nil _ | x :: t => Forall_cons x (dir_ind' (snd x)) (go t) end) s) end.
End DirInd.

Definition hidden (n : str) : bool := prefixb (lit ".") n.

(** os.walk, top down, with the pruning of setuphelper.py:42 and 58: at each directory
    its path, the names of its subdirectories left and those of its files *)
Fixpoint walk (path : str) (d : dir) : list (str * list str * list str) :=
  match d with Dir fs ss =>
    (path, filter (fun n => negb (hidden n)) (map fst ss), fs)
    :: flat_map (fun x => if hidden (fst x) then [] else walk (joinpath path (fst x)) (snd x)) ss
  end.

Definition INIT : str := lit "__init__.py".
Definition str_in (x : str) (l : list str) : bool := existsb (eqb x) l.

(** dirpath[2:].replace('/', '.') *)
Definition pkgName (dirpath : str) : str := map (fun c => if is_slash c then 46%N else c) (skipn 2 dirpath).

(** setuphelper.py:41-50: packages and pluginPackages *)
Definition scan (root : dir) : list str * list str :=
  fold_left (fun acc w => match w with (dirpath, dirnames, filenames) =>
    let p := pkgName dirpath in
    if str_in INIT filenames then (fst acc ++ [p], snd acc)
    else if str_in (lit "plugins") dirnames then (fst acc ++ [p], snd acc ++ [p])
    else acc end) (walk (lit ".") root) ([], []).

(** os.path.splitext(name)[1] *)
Fixpoint last_dot (s : str) : option nat :=
  match s with
  | [] => None
  | c :: t => match last_dot t with Some i => Some (S i) | None => if (c =? 46)%N then Some 0 else None end
  end.
Definition splitext1 (s : str) : str :=
  match last_dot s with
  | None => []
  | Some i => if forallb (fun c => (c =? 46)%N) (firstn i s) then [] else skipn i s
  end.

(** setuphelper.py:60-64 *)
Definition is_data (filename : str) (filenames : list str) : bool :=
  negb (eqb filename (lit "dropin.cache")) &&
  (negb (str_in (splitext1 filename) [lit ".py"; lit ".pyc"; lit ".pyo"]) || negb (str_in INIT filenames)).

(** setuphelper.py:57-65: D *)
Definition data_of (package : str) (d : dir) : list str :=
  flat_map (fun w => match w with (dirpath, _, filenames) =>
    map (fun f => joinpath (skipn (length package + 1) dirpath) f) (filter (fun f => is_data f filenames) filenames) end) (walk package d).

(** the directory of this name in the current one; os.listdir('') raises *)
Fixpoint subdir (n : str) (l : list (str * dir)) : option dir :=
  match l with [] => None | (m, d) :: t => if eqb n m then Some d else subdir n t end.

(** setuphelper.py:52-65 *)
Fixpoint datafiles (root : dir) (packages : list str) : res (dict str (list str)) :=
  match packages with
  | [] => Ok []
  | p :: t =>
    if containsb (lit ".") p then datafiles root t
    else match subdir p (subs root) with
         | None => Err OSError
         | Some d => rbind (datafiles root t) (fun r => Ok ((p, data_of p d) :: r))
         end
  end.

(** setuphelper.py:36-74: what setup is called with, besides the keywords given;
    [given] says whether packages or package_data were among them *)
Definition autosetup (given : bool) (root : dir) : res (list str * dict str (list str)) :=
  let packages := fst (scan root) in
  rbind (datafiles root packages) (fun data => if given then Err AssertionError else Ok (packages, data)).

(** ** Specification *)

(** the directory reached by these names, none of them hidden *)
Inductive visible : dir -> list str -> dir -> Prop :=
| visible_here d : visible d [] d
| visible_down fs ss n d ns d' : In (n, d) ss -> hidden n = false -> visible d ns d' -> visible (Dir fs ss) (n :: ns) d'.

Definition is_package (d : dir) : Prop := In (lit "__init__.py") (files d) \/ In (lit "plugins") (map fst (subs d)).

(** names of Python files: something before the extension *)
Definition python_file (f : str) : Prop := exists base ext, f = base ++ ext /\ In ext [lit ".py"; lit ".pyc"; lit ".pyo"] /\ Exists (fun c => c <> 46%N) base.

(** names as a file system has them *)
Definition good_name (n : str) : Prop := n <> [] /\ ~ In 47%N n.
Inductive wf : dir -> Prop :=
  wf_Dir fs ss : Forall good_name fs -> NoDup fs -> Forall good_name (map fst ss) -> NoDup (map fst ss) -> Forall (fun x => wf (snd x)) ss -> wf (Dir fs ss).

(** ** Proofs *)

Fixpoint paths (d : dir) : list (list str * dir) :=
  match d with Dir fs ss =>
    ([], d) :: flat_map (fun x => if hidden (fst x) then [] else map (fun p => (fst x :: fst p, snd p)) (paths (snd x))) ss
  end.
Definition slashes (ns : list str) : str := flat_map (fun n => 47%N :: n) ns.

Definition plain (p : str) : Prop := p <> [] /\ suffixb slash p = false.

Lemma plain_end p n : good_name n -> plain (p ++ n).
Proof.
  intros (Hn & Hs). split; [intros E; apply app_eq_nil in E as [_ E]; contradiction|].
  destruct (suffixb slash (p ++ n)) eqn:E; [|reflexivity]. apply suffixb_spec in E as (t & E). exfalso.
  destruct (exists_last Hn) as (m & c & ->). rewrite app_assoc in E. apply app_inj_tail in E as [_ ->]. apply Hs, in_or_app. right. now left.
Qed.

Lemma plain_down p n : plain p -> good_name n -> joinpath p n = p ++ 47%N :: n /\ plain (p ++ 47%N :: n).
Proof.
  intros (Hp & Hs) Hn. split.
  - unfold joinpath. destruct (prefixb slash n) eqn:E; [apply prefixb_spec in E as (t & E); destruct Hn as [_ Hn]; destruct Hn; rewrite E; now left|].
    destruct p as [|c p]; [congruence|]. rewrite Hs. reflexivity.
  - change (p ++ 47%N :: n) with (p ++ [47%N] ++ n). rewrite app_assoc. now apply plain_end.
Qed.

Lemma walk_paths d : wf d -> forall p, plain p ->
  walk p d = map (fun x => (p ++ slashes (fst x), filter (fun n => negb (hidden n)) (map fst (subs (snd x))), files (snd x))) (paths d).
Proof.
  induction d as [fs ss IH] using dir_ind'. intros H p Hp. inversion H as [? ? _ _ Hg _ Hw]; subst. cbn [walk paths map fst snd slashes flat_map files subs]. rewrite app_nil_r. f_equal.
  clear H. induction IH as [|[n d] ss Hd _ IHs]; [reflexivity|]. cbn [map fst snd flat_map] in *. inversion Hg; inversion Hw; subst. cbn [snd] in *. rewrite map_app, IHs by assumption. f_equal.
  destruct (hidden n); [reflexivity|]. destruct (plain_down p n Hp) as [E Hp']; [assumption|]. rewrite E, Hd by assumption. rewrite map_map. apply map_ext. intros [ns x]. cbn [fst snd slashes flat_map]. now rewrite <- app_assoc.
Qed.

Lemma paths_visible d : forall ns d', In (ns, d') (paths d) <-> visible d ns d'.
Proof.
  induction d as [fs ss IH] using dir_ind'. intros ns d'. cbn [paths]. split.
  - intros [[= <- <-]|H]; [constructor|]. apply in_flat_map in H as ([n d] & Hi & H). cbn [fst snd] in H. destruct (hidden n) eqn:Eh; [destruct H|].
    apply in_map_iff in H as ([ms x] & [= <- <-] & H). econstructor; [exact Hi|exact Eh|]. rewrite Forall_forall in IH. apply (IH _ Hi). exact H.
  - intros H. inversion H as [|? ? n d ms ? Hi Eh Hv]; subst; [now left|]. right. apply in_flat_map. exists (n, d). split; [exact Hi|]. cbn [fst snd]. rewrite Eh. apply in_map_iff.
    exists (ms, d'). split; [reflexivity|]. rewrite Forall_forall in IH. apply (IH _ Hi). exact Hv.
Qed.

Lemma visible_wf d ns d' : wf d -> visible d ns d' -> wf d' /\ Forall good_name ns.
Proof.
  intros H V. induction V as [d|fs ss n d ns d' Hi Eh V IH]; [auto|]. inversion H as [? ? _ _ Hg _ Hw]; subst. rewrite Forall_forall in Hg, Hw. destruct (IH (Hw _ Hi)) as [A B]. split; [exact A|]. constructor; [|exact B].
  apply Hg. change n with (fst (n, d)). now apply in_map.
Qed.

Lemma paths_nodup d : wf d -> NoDup (map fst (paths d)).
Proof.
  induction d as [fs ss IH] using dir_ind'. intros H. inversion H as [? ? _ _ _ Hn Hw]; subst. cbn [paths map fst]. clear H.
  set (rest := flat_map (fun x => if hidden (fst x) then [] else map (fun p => (fst x :: fst p, snd p)) (paths (snd x))) ss).
  assert (R : forall ns, In ns (map fst rest) -> exists n ms, ns = n :: ms /\ In n (map fst ss)).
  { intros ns Hi. apply in_map_iff in Hi as ([ns' x] & <- & Hi). unfold rest in Hi. apply in_flat_map in Hi as ([n d] & Hi & Hx). cbn [fst snd] in *. destruct (hidden n); [destruct Hx|]. apply in_map_iff in Hx as ([ms y] & [= <- <-] & _).
    exists n, ms. split; [reflexivity|]. change n with (fst (n, d)). now apply in_map. }
  constructor.
  - intros Hi. destruct (R [] Hi) as (n & ms & E & _). discriminate.
  - unfold rest. clear R rest. induction ss as [|[n d] ss IHs]; [constructor|]. cbn [flat_map fst snd]. inversion IH as [|? ? IHd IHss]; inversion Hw as [|? ? Wd Wss]; subst. cbn [map fst] in Hn. inversion Hn as [|? ? Hnn Hns]; subst. specialize (IHs IHss Hns Wss).
    rewrite map_app. destruct (hidden n); [exact IHs|]. cbn [snd] in *. specialize (IHd Wd). rewrite map_map. cbn [fst].
    assert (A : NoDup (map (fun x => n :: fst x) (paths d))).
    { rewrite <- (map_map fst (cons n)). apply FinFun.Injective_map_NoDup; [intros a b E; now injection E|exact IHd]. }
    revert A. generalize (paths d). intros l A. induction l as [|x l IHl]; [exact IHs|]. cbn [map app]. inversion A; subst. constructor; [|auto]. intros Hi. apply in_app_or in Hi as [Hi|Hi]; [contradiction|].
    apply in_map_iff in Hi as ([ns' y] & E & Hi). cbn [fst] in E. subst ns'. apply in_flat_map in Hi as ([m e] & Hi & Hx). cbn [fst snd] in *. destruct (hidden m); [destruct Hx|]. apply in_map_iff in Hx as ([ms z] & [= -> _ _] & _).
    apply Hnn. change n with (fst (n, e)). now apply in_map.
Qed.

(** *** names *)
Definition dot : str := lit ".".
Lemma join_slashes n ns : join slash (n :: ns) = n ++ slashes ns.
Proof. revert n. induction ns as [|m ns IH]; intros n; [cbn; now rewrite app_nil_r|]. cbn [join slashes flat_map]. change (flat_map (fun n0 => 47%N :: n0) ns) with (slashes ns). specialize (IH m). cbn [join] in IH. rewrite IH. reflexivity. Qed.

Lemma repl_name n : ~ In 47%N n -> map (fun c => if is_slash c then 46%N else c) n = n.
Proof. induction n as [|c n IH]; intros H; [reflexivity|]. cbn [map]. unfold is_slash at 1. destruct (N.eqb_spec c 47) as [->|]; [destruct H; now left|]. f_equal. apply IH. intros Hc. apply H. now right. Qed.

Lemma repl_slashes ns : Forall good_name ns -> forall n, good_name n -> map (fun c => if is_slash c then 46%N else c) (n ++ slashes ns) = join dot (n :: ns).
Proof.
  induction 1 as [|m ns Hm _ IH]; intros n (Hn & Hs); [cbn [slashes flat_map join]; rewrite app_nil_r; now apply repl_name|].
  rewrite map_app, repl_name by exact Hs. cbn [slashes flat_map]. change (flat_map (fun n0 => 47%N :: n0) ns) with (slashes ns). rewrite <- app_comm_cons. cbn [map]. rewrite (IH m Hm). reflexivity.
Qed.

Lemma pkg_name ns : Forall good_name ns -> pkgName (lit "." ++ slashes ns) = join dot ns.
Proof. intros H. destruct H as [|n ns Hn H]; [reflexivity|]. unfold pkgName. cbn [slashes flat_map]. change (flat_map (fun n0 => 47%N :: n0) ns) with (slashes ns). change (skipn 2 (lit "." ++ (47%N :: n) ++ slashes ns)) with (n ++ slashes ns). now apply repl_slashes. Qed.

Lemma str_in_spec x l : str_in x l = true <-> In x l.
Proof.
  unfold str_in. rewrite existsb_exists. split; [intros (y & Hy & E); destruct (eqb_spec x y) as [->|]; [exact Hy|discriminate]|intros H; exists x; split; [exact H|apply eqb_refl]].
Qed.

Definition is_packageb (d : dir) : bool := str_in INIT (files d) || str_in (lit "plugins") (map fst (subs d)).
Lemma is_packageb_spec d : is_packageb d = true <-> is_package d.
Proof. unfold is_packageb, is_package. now rewrite orb_true_iff, !str_in_spec. Qed.

Lemma plugins_visible l : str_in (lit "plugins") (filter (fun n => negb (hidden n)) l) = str_in (lit "plugins") l.
Proof.
  apply eq_true_iff_eq. rewrite !str_in_spec, filter_In. split; [tauto|]. intros H. split; [exact H|reflexivity].
Qed.

Lemma scan_eq root : wf root -> fst (scan root) = map (fun x => join dot (fst x)) (filter (fun x => is_packageb (snd x)) (paths root)).
Proof.
  intros H. unfold scan. rewrite (walk_paths root H (lit ".")) by (split; [discriminate|reflexivity]).
  assert (G : Forall (fun x => Forall good_name (fst x)) (paths root)) by (apply Forall_forall; intros [ns d] Hi; apply paths_visible in Hi; destruct (visible_wf _ _ _ H Hi) as [_ A]; exact A).
  assert (K : forall l acc, Forall (fun x : list str * dir => Forall good_name (fst x)) l ->
    fst (fold_left (fun acc w => match w with (dirpath, dirnames, filenames) =>
      let p := pkgName dirpath in
      if str_in INIT filenames then (fst acc ++ [p], snd acc)
      else if str_in (lit "plugins") dirnames then (fst acc ++ [p], snd acc ++ [p])
      else acc end) (map (fun x => (lit "." ++ slashes (fst x), filter (fun n => negb (hidden n)) (map fst (subs (snd x))), files (snd x))) l) acc)
    = fst acc ++ map (fun x => join dot (fst x)) (filter (fun x => is_packageb (snd x)) l)).
  { induction l as [|[ns d] l IH]; intros acc Hl; [cbn; now rewrite app_nil_r|]. inversion Hl as [|? ? Hn Hl']; subst. cbn [map fold_left fst snd filter]. rewrite IH by exact Hl'. unfold is_packageb at 2. cbn zeta. rewrite plugins_visible, pkg_name by exact Hn.
    destruct (str_in INIT (files d)); cbn [orb fst snd map]; [now rewrite <- app_assoc|]. destruct (str_in (lit "plugins") (map fst (subs d))); cbn [fst snd map]; [now rewrite <- app_assoc|reflexivity]. }
  rewrite K by exact G. reflexivity.
Qed.

(** *** extensions *)
Lemma last_dot_spec s : match last_dot s with
  | Some i => exists r, s = firstn i s ++ 46%N :: r /\ ~ In 46%N r /\ i < length s /\ skipn i s = 46%N :: r
  | None => ~ In 46%N s end.
Proof.
  induction s as [|c t IH]; cbn [last_dot]; [auto|]. destruct (last_dot t) as [i|].
  - destruct IH as (r & E & Hr & Hl & Hk). exists r. cbn [firstn skipn length app]. repeat split; [now f_equal|exact Hr|lia|exact Hk].
  - destruct (N.eqb_spec c 46) as [->|Hc]; [exists t; cbn; repeat split; auto; lia|]. intros [->|H]; congruence.
Qed.

Lemma last_dot_app a r : ~ In 46%N r -> last_dot (a ++ 46%N :: r) = Some (length a).
Proof.
  intros H. induction a as [|c a IH]; cbn [app last_dot length].
  - pose proof (last_dot_spec r) as L. destruct (last_dot r) as [i|]; [|reflexivity]. destruct L as (r' & E & _). destruct H. rewrite E. apply in_or_app. right. now left.
  - now rewrite IH.
Qed.

Lemma python_file_spec f : str_in (splitext1 f) [lit ".py"; lit ".pyc"; lit ".pyo"] = true <-> python_file f.
Proof.
  rewrite str_in_spec. unfold splitext1. split.
  - pose proof (last_dot_spec f) as L. destruct (last_dot f) as [i|]; [|intros H; cbn in H; intuition discriminate]. destruct L as (r & E & Hr & _ & Hk).
    destruct (forallb (fun c => (c =? 46)%N) (firstn i f)) eqn:Ef; [intros H; cbn in H; intuition discriminate|]. intros H. exists (firstn i f), (skipn i f). split; [now rewrite firstn_skipn|]. split; [exact H|].
    clear - Ef. induction (firstn i f) as [|c l IH]; [discriminate|]. cbn in Ef. destruct (N.eqb_spec c 46); [apply Exists_cons_tl; apply IH; exact Ef|now apply Exists_cons_hd].
  - intros (base & ext & -> & He & Hb). assert (Ee : exists r, ext = 46%N :: r /\ ~ In 46%N r) by (destruct He as [<-|[<-|[<-|[]]]]; eexists; (split; [reflexivity|]); cbn; intuition discriminate).
    destruct Ee as (r & -> & Hr). rewrite last_dot_app by exact Hr. rewrite firstn_app, Nat.sub_diag, firstn_all, firstn_O, app_nil_r, skipn_app, Nat.sub_diag, skipn_all.
    destruct (forallb (fun c => (c =? 46)%N) base) eqn:Ef; [|exact He]. exfalso. apply Exists_exists in Hb as (c & Hc & Hn). rewrite forallb_forall in Ef. apply Ef in Hc. apply N.eqb_eq in Hc. contradiction.
Qed.

Lemma is_data_spec f fs : is_data f fs = true <-> f <> lit "dropin.cache" /\ (~ python_file f \/ ~ In INIT fs).
Proof.
  unfold is_data. rewrite andb_true_iff, orb_true_iff, !negb_true_iff, <- python_file_spec, <- (str_in_spec INIT), !not_true_iff_false. split; intros [A B]; (split; [|exact B]).
  - now apply eqb_neq.
  - now apply eqb_neq.
Qed.

(** *** data files *)
Lemma plain_slashes ns n : good_name n -> Forall good_name ns -> plain (n ++ slashes ns).
Proof.
  intros Hn Hs. assert (P : forall p, plain p -> plain (p ++ slashes ns)).
  { induction Hs as [|m ns Hm _ IH]; intros p Hp; [now rewrite app_nil_r|]. cbn [slashes flat_map]. rewrite app_assoc. apply IH. now apply plain_down. }
  apply P. apply (plain_end []). exact Hn.
Qed.

Lemma join_file ns f : Forall good_name ns -> good_name f -> joinpath (join slash ns) f = join slash (ns ++ [f]).
Proof.
  intros Hs Hf. destruct Hs as [|n ns Hn Hs].
  - cbn [join app]. unfold joinpath. destruct (prefixb slash f); reflexivity.
  - cbn [app]. rewrite !join_slashes. destruct (plain_down (n ++ slashes ns) f (plain_slashes ns n Hn Hs) Hf) as [E _]. rewrite E. unfold slashes. rewrite flat_map_app. cbn [flat_map]. rewrite app_nil_r, <- app_assoc. reflexivity.
Qed.

Lemma data_eq p d : wf d -> good_name p -> data_of p d = flat_map (fun x => map (fun f => join slash (fst x ++ [f])) (filter (fun f => is_data f (files (snd x))) (files (snd x)))) (paths d).
Proof.
  intros H Hp. unfold data_of. rewrite (walk_paths d H p) by (apply (plain_end []); exact Hp).
  assert (G : Forall (fun x => Forall good_name (fst x) /\ wf (snd x)) (paths d)) by (apply Forall_forall; intros [ns e] Hi; apply paths_visible in Hi; destruct (visible_wf _ _ _ H Hi) as [A B]; auto).
  induction G as [|[ns e] l (Hn & He) _ IH]; [reflexivity|]. cbn [map flat_map fst snd] in *. rewrite IH. f_equal.
  assert (E : skipn (length p + 1) (p ++ slashes ns) = join slash ns).
  { destruct ns as [|n ns]; [cbn [slashes flat_map join]; rewrite app_nil_r, skipn_all2 by lia; reflexivity|]. rewrite join_slashes. cbn [slashes flat_map]. change (p ++ (47%N :: n) ++ flat_map (fun n0 => 47%N :: n0) ns) with (p ++ [47%N] ++ n ++ slashes ns). rewrite app_assoc.
    rewrite skipn_app, skipn_all2 by (rewrite app_length; cbn; lia). rewrite app_length. cbn [length]. now rewrite Nat.sub_diag. }
  rewrite E. apply map_ext_in. intros f Hf. apply filter_In in Hf as [Hf _]. apply join_file; [exact Hn|]. inversion He as [? ? Hg _ _ _ _]; subst. cbn [files] in Hf. rewrite Forall_forall in Hg. auto.
Qed.

Definition wanted_data (d : dir) (f : str) : Prop := exists ns d' x, visible d ns d' /\ In x (files d') /\ x <> lit "dropin.cache" /\ (~ python_file x \/ ~ In (lit "__init__.py") (files d')) /\ f = join slash (ns ++ [x]).

Lemma data_in p d f : wf d -> good_name p -> (In f (data_of p d) <-> wanted_data d f).
Proof.
  intros H Hp. rewrite (data_eq p d H Hp), in_flat_map. unfold wanted_data. split.
  - intros ([ns e] & Hi & Hf). cbn [fst snd] in Hf. apply in_map_iff in Hf as (x & <- & Hx). apply filter_In in Hx as [Hx Hd]. apply is_data_spec in Hd as [D1 D2]. apply paths_visible in Hi. exists ns, e, x. auto.
  - intros (ns & e & x & Hv & Hx & D1 & D2 & ->). exists (ns, e). split; [now apply paths_visible|]. cbn [fst snd]. apply in_map_iff. exists x. split; [reflexivity|]. apply filter_In. split; [exact Hx|]. apply is_data_spec. auto.
Qed.

Lemma good_free ns : Forall good_name ns -> Forall (fun x => containsb slash x = false) ns.
Proof. apply Forall_impl. intros n (_ & H). apply containsb_false. intros a b ->. apply H, in_or_app. right. now left. Qed.

Lemma slash_ok : no_overlap slash.
Proof. apply no_overlapb_spec. reflexivity. Qed.
Lemma dot_ok : no_overlap dot.
Proof. apply no_overlapb_spec. reflexivity. Qed.

Lemma join_slash_inj a b : a <> [] -> b <> [] -> Forall good_name a -> Forall good_name b -> join slash a = join slash b -> a = b.
Proof. intros Ha Hb Ga Gb E. apply (f_equal (split slash)) in E. rewrite !split_join in E by (auto using slash_ok, good_free). exact E. Qed.

Lemma NoDup_flat {A B} (g : A -> list B) l : NoDup l -> (forall a, In a l -> NoDup (g a)) -> (forall a b x, In a l -> In b l -> In x (g a) -> In x (g b) -> a = b) -> NoDup (flat_map g l).
Proof.
  induction l as [|a l IH]; intros Hn Hg Hd; [constructor|]. inversion Hn; subst. cbn [flat_map].
  assert (K : NoDup (flat_map g l)) by (apply IH; [assumption|intros; apply Hg; now right|intros b c x Hb Hc; apply Hd; now right]).
  assert (D : forall x, In x (g a) -> ~ In x (flat_map g l)).
  { intros x Hx Hi. apply in_flat_map in Hi as (b & Hb & Hxb). assert (a = b) by (apply (Hd a b x); auto; [now left|now right]). subst b. contradiction. }
  specialize (Hg a (or_introl eq_refl)). induction (g a) as [|x m IHm]; [exact K|]. cbn [app]. inversion Hg; subst. constructor; [|apply IHm; [assumption|intros y Hy; apply D; now right]]. intros Hi. apply in_app_or in Hi as [Hi|Hi]; [contradiction|]. apply (D x); [now left|exact Hi].
Qed.

Lemma NoDup_fst {A B} (l : list (A * B)) : NoDup (map fst l) -> NoDup l.
Proof. apply NoDup_map_inv. Qed.

Lemma data_nodup p d : wf d -> good_name p -> NoDup (data_of p d).
Proof.
  intros H Hp. rewrite (data_eq p d H Hp). pose proof (paths_nodup d H) as N.
  assert (G : forall ns e, In (ns, e) (paths d) -> Forall good_name ns /\ wf e) by (intros ns e Hi; apply paths_visible in Hi; destruct (visible_wf _ _ _ H Hi); auto).
  assert (F : forall e x, wf e -> In x (files e) -> good_name x) by (intros e x We Hx; inversion We as [? ? Hg _ _ _ _]; subst; cbn [files] in Hx; rewrite Forall_forall in Hg; auto).
  apply NoDup_flat; [now apply NoDup_fst| |].
  - intros [ns e] Hi. cbn [fst snd]. destruct (G _ _ Hi) as [Gn We]. assert (Nf : NoDup (files e)) by (inversion We; assumption).
    assert (Fe : forall x, In x (filter (fun f => is_data f (files e)) (files e)) -> good_name x) by (intros x Hx; apply filter_In in Hx as [Hx _]; eauto).
    apply (NoDup_filter (fun f => is_data f (files e))) in Nf. induction (filter (fun f => is_data f (files e)) (files e)) as [|x l IH]; [constructor|]. inversion Nf; subst. cbn [map]. constructor; [|apply IH; [assumption|intros; apply Fe; now right]].
    intros Hi'. apply in_map_iff in Hi' as (y & E & Hy). apply join_slash_inj in E; [|destruct ns; discriminate|destruct ns; discriminate| |].
    + apply app_inj_tail in E as [_ ->]. contradiction.
    + apply Forall_app. split; [exact Gn|]. constructor; [apply Fe; now right|constructor].
    + apply Forall_app. split; [exact Gn|]. constructor; [apply Fe; now left|constructor].
  - intros [ns e] [ms u] f Hi Hj Hf Hg. cbn [fst snd] in *. destruct (G _ _ Hi) as [G1 W1], (G _ _ Hj) as [G2 W2]. apply in_map_iff in Hf as (x & Ex & Hx), Hg as (y & Ey & Hy). apply filter_In in Hx as [Hx _], Hy as [Hy _].
    rewrite <- Ey in Ex. apply join_slash_inj in Ex; [|destruct ns; discriminate|destruct ms; discriminate|apply Forall_app; eauto|apply Forall_app; eauto].
    apply app_inj_tail in Ex as [-> _]. f_equal. clear - N Hi Hj. induction (paths d) as [|[k v] l IH]; [destruct Hi|]. cbn in N. inversion N; subst. destruct Hi as [E|Hi], Hj as [E'|Hj].
    + congruence.
    + injection E as -> ->. destruct H1. change ms with (fst (ms, u)). now apply in_map.
    + injection E' as -> ->. destruct H1. change ms with (fst (ms, e)). now apply in_map.
    + auto.
Qed.

Lemma subdir_in ss n d : NoDup (map fst ss) -> In (n, d) ss -> subdir n ss = Some d.
Proof.
  induction ss as [|[m e] ss IH]; intros Hn Hi; [destruct Hi|]. cbn in Hn. inversion Hn; subst. cbn [subdir]. destruct (eqb_spec n m) as [->|Hne].
  - destruct Hi as [[= ->]|Hi]; [reflexivity|]. destruct H1. change m with (fst (m, d)). now apply in_map.
  - destruct Hi as [[= -> _]|Hi]; [contradiction|auto].
Qed.

Lemma dot_many n m ns : containsb (lit ".") (join dot (n :: m :: ns)) = true.
Proof. apply containsb_spec. exists n, (join dot (m :: ns)). reflexivity. Qed.

(** the packages which are data directories: one name, without a dot *)
Definition undotted (p : str) : bool := negb (containsb (lit ".") p).

Lemma datafiles_ok root l : wf root -> (forall p, In p l -> exists ns d, visible root ns d /\ ns <> [] /\ p = join dot ns) ->
  exists data, datafiles root l = Ok data /\ keys data = filter undotted l /\ forall p D, In (p, D) data -> exists d, In (p, d) (subs root) /\ D = data_of p d.
Proof.
  intros H. induction l as [|p l IH]; intros Hl; [exists []; split; [reflexivity|]; split; [reflexivity|intros p D []]|].
  destruct IH as (data & E & Ek & Ed); [intros q Hq; apply Hl; now right|]. cbn [datafiles filter]. unfold undotted at 1. destruct (containsb (lit ".") p) eqn:Ep; cbn [negb]; [eauto|].
  destruct (Hl p (or_introl eq_refl)) as (ns & d & Hv & Hne & Epn). destruct ns as [|n ns]; [congruence|]. destruct ns as [|m ns]; [|rewrite Epn, dot_many in Ep; discriminate]. cbn [join] in Epn. subst n.
  inversion Hv as [|fs ss n e ns' d' Hi Eh Hv']; subst. inversion Hv'; subst. inversion H as [? ? _ _ _ Hn _]; subst. cbn [subs]. rewrite (subdir_in ss p d Hn Hi), E. cbn [rbind]. exists ((p, data_of p d) :: data). split; [reflexivity|].
  split; [cbn; now f_equal|]. intros q D [[= <- <-]|Hq]; [exists d; auto|]. exact (Ed q D Hq).
Qed.

Lemma autosetup_ok root : wf root -> ~ is_package root -> exists packages data, autosetup false root = Ok (packages, data) /\
  (forall p, In p packages <-> exists ns d, visible root ns d /\ is_package d /\ p = join dot ns) /\ keys data = filter undotted packages /\
  (forall p D, In (p, D) data -> exists d, In (p, d) (subs root) /\ NoDup D /\ forall f, In f D <-> wanted_data d f).
Proof.
  intros H Hr. unfold autosetup. rewrite (scan_eq root H). set (packages := map (fun x => join dot (fst x)) (filter (fun x => is_packageb (snd x)) (paths root))).
  assert (P : forall p, In p packages <-> exists ns d, visible root ns d /\ is_package d /\ p = join dot ns).
  { intros p. unfold packages. rewrite in_map_iff. split.
    - intros ([ns d] & <- & Hi). apply filter_In in Hi as [Hi Hp]. apply paths_visible in Hi. apply is_packageb_spec in Hp. eauto.
    - intros (ns & d & Hv & Hp & ->). exists (ns, d). split; [reflexivity|]. apply filter_In. split; [now apply paths_visible|now apply is_packageb_spec]. }
  destruct (datafiles_ok root packages H) as (data & E & Ek & Ed).
  - intros p Hp. apply P in Hp as (ns & d & Hv & Hp & ->). exists ns, d. split; [exact Hv|]. split; [|reflexivity]. intros ->. inversion Hv; subst. contradiction.
  - rewrite E. cbn [rbind]. exists packages, data. split; [reflexivity|]. split; [exact P|]. split; [exact Ek|]. intros p D Hi. destruct (Ed p D Hi) as (d & Hd & ->). exists d. split; [exact Hd|].
    inversion H as [? ? _ _ Hg _ Hw]; subst. cbn [subs] in Hd. rewrite Forall_forall in Hg, Hw. assert (Gp : good_name p) by (apply Hg; change p with (fst (p, d)); now apply in_map). specialize (Hw _ Hd). cbn [snd] in Hw.
    split; [now apply data_nodup|]. intros f. now apply data_in.
Qed.

Lemma packages_nodup root : wf root -> (forall ns d, visible root ns d -> Forall (fun n => ~ In 46%N n) ns) -> NoDup (fst (scan root)).
Proof.
  intros H Hd. rewrite (scan_eq root H). pose proof (paths_nodup root H) as N.
  assert (G : forall x, In x (filter (fun x => is_packageb (snd x)) (paths root)) -> Forall good_name (fst x) /\ Forall (fun n => ~ In 46%N n) (fst x)).
  { intros [ns d] Hi. apply filter_In in Hi as [Hi _]. apply paths_visible in Hi. destruct (visible_wf _ _ _ H Hi) as [_ A]. split; [exact A|exact (Hd _ _ Hi)]. }
  assert (N' : NoDup (map fst (filter (fun x => is_packageb (snd x)) (paths root)))).
  { clear - N. induction (paths root) as [|x l IH]; [constructor|]. cbn in N. inversion N; subst. cbn [filter]. destruct (is_packageb (snd x)); [|auto]. cbn. constructor; [|auto]. intros Hi. apply in_map_iff in Hi as (y & Ey & Hy). apply filter_In in Hy as [Hy _]. apply H1. rewrite <- Ey. now apply in_map. }
  rewrite <- (map_map fst (join dot)). revert N' G. generalize (filter (fun x => is_packageb (snd x)) (paths root)). intros l N' G.
  induction l as [|[ns d] l IH]; [constructor|]. cbn in N'. inversion N'; subst. cbn [map fst]. constructor; [|apply IH; [assumption|intros; apply G; now right]].
  intros Hi. apply in_map_iff in Hi as (ms & E & Hm). apply in_map_iff in Hm as ([ms' e] & <- & Hm). cbn [fst] in E. destruct (G _ (or_introl eq_refl)) as [G1 G2], (G _ (or_intror Hm)) as [G3 G4]. cbn [fst] in *.
  assert (F : forall l : list str, Forall (fun n => ~ In 46%N n) l -> Forall (fun x => containsb dot x = false) l) by (intros k; apply Forall_impl; intros n Hn; apply containsb_false; intros a b ->; apply Hn, in_or_app; right; now left).
  assert (ms' = ns).
  { destruct ns as [|n ns], ms' as [|m ms].
    - reflexivity.
    - exfalso. inversion G3 as [|? ? (Hm0 & _) _]; subst. cbn [join] in E. destruct ms; [congruence|]. apply app_eq_nil in E as [E _]. contradiction.
    - exfalso. inversion G1 as [|? ? (Hm0 & _) _]; subst. cbn [join] in E. destruct ns; [congruence|]. symmetry in E. apply app_eq_nil in E as [E _]. contradiction.
    - apply (f_equal (split dot)) in E. rewrite !split_join in E by (auto using dot_ok; discriminate). exact E. }
  subst ms'. apply H2. change ns with (fst (ns, e)). now apply in_map.
Qed.

Lemma root_package root given : wf root -> is_package root -> autosetup given root = Err OSError.
Proof.
  intros H Hr. unfold autosetup. rewrite (scan_eq root H). destruct root as [fs ss]. cbn [paths filter snd]. apply is_packageb_spec in Hr. rewrite Hr. cbn [map fst join datafiles].
  change (containsb (lit ".") []) with false. cbn iota. cbn [subs].
  assert (E : subdir [] ss = None).
  { inversion H as [? ? _ _ Hg _ _]; subst. clear - Hg. induction ss as [|[n d] ss IH]; [reflexivity|]. cbn in Hg. inversion Hg as [|? ? (Hn & _) Hg']; subst. cbn [subdir]. destruct n; [congruence|]. exact (IH Hg'). }
  rewrite E. reflexivity.
Qed.

Lemma autosetup_given root : wf root -> (is_package root -> autosetup true root = Err OSError) /\ (~ is_package root -> autosetup true root = Err AssertionError).
Proof.
  intros H. split; [now apply root_package|]. intros Hn. destruct (autosetup_ok root H Hn) as (ps & data & E & _). unfold autosetup in *. destruct (datafiles root (fst (scan root))); [reflexivity|discriminate E].
Qed.
