(** * What the install functions of epsilon/hotfixes do to Twisted

    Classes have dictionaries that can be shared; modules have names.  Functions and
    other objects are numbers.  A class may be of the old style or of the new one: the
    first only exist under Python 2. *)

From Coq Require Import NArith String List Bool Arith Lia.
From Verif Require Import Py PyStr.
Import ListNotations.
Open Scope list_scope.

Inductive val := Obj (n : N) | Text (s : str).

Record world := World {
  newstyle : N -> bool;             (* of each class *)
  dict_of : N -> N;                 (* of each class, its dictionary *)
  dicts : N -> dict str val;        (* the dictionaries *)
  globals : dict str val;           (* what is bound in Twisted's modules *)
  held : dict str val }.            (* what other modules have imported from there *)

Definition upd {A} (f : N -> A) (k : N) (v : A) : N -> A := fun x => if (x =? k)%N then v else f x.

(** k.__dict__ = d: the class gets that very dictionary *)
Definition set_dict (k d : N) (w : world) : world * res unit :=
  if newstyle w k then (w, Err AttributeError) else (World (newstyle w) (upd (dict_of w) k d) (dicts w) (globals w) (held w), Ok tt).
(** k.__dict__[name] = v *)
Definition set_item (k : N) (name : str) (v : val) (w : world) : world * res unit :=
  if newstyle w k then (w, Err TypeError)
  else (World (newstyle w) (dict_of w) (upd (dicts w) (dict_of w k) (dset (dicts w (dict_of w k)) name v)) (globals w) (held w), Ok tt).
(** k.name = v *)
Definition set_attr (k : N) (name : str) (v : val) (w : world) : world * res unit :=
  (World (newstyle w) (dict_of w) (upd (dicts w) (dict_of w k) (dset (dicts w (dict_of w k)) name v)) (globals w) (held w), Ok tt).
(** module.name = v *)
Definition bind_global (name : str) (v : val) (w : world) : world * res unit :=
  (World (newstyle w) (dict_of w) (dicts w) (dset (globals w) name v) (held w), Ok tt).

Definition after {A B} (m : world -> world * res A) (k : world -> world * res B) : world -> world * res B :=
  fun w => let (w', r) := m w in match r with Ok _ => k w' | Err e => (w', Err e) end.

(** filepath_copyTo.py:398-404, delayedcall_seconds.py:155-160 and
    timeoutmixin_calllater.py:54-60: Twisted's class [k] gets the dictionary of the fix
    class [fix], and an item; the last line binds a name of the hotfix module itself *)
Definition install_class (k fix_ : N) (item : str) (module_ : str) : world -> world * res unit :=
  fun w => after (set_dict k (dict_of w fix_)) (set_item k item (Text module_)) w.
Definition install_filepath_copyTo (k fix_ : N) := install_class k fix_ (lit "__module__") (lit "twisted.python.filepath").
Definition install_delayedcall_seconds (k fix_ : N) := install_class k fix_ (lit "__module__") (lit "twisted.internet.base").
Definition install_timeoutmixin_calllater (k fix_ : N) := install_class k fix_ (lit "module") (lit "twisted.protocols.policies").
(** proto_helpers_stringtransport.py:10-11 *)
Definition install_stringtransport (k : N) (write : val) := set_item k (lit "write") write.
(** internet_task_clock.py:34-38 *)
Definition install_clock (k : N) (callLater : val) := set_attr k (lit "callLater") callLater.
(** trial_assertwarns.py:59-61 *)
Definition install_assertwarns (k : N) (f : val) := after (set_attr k (lit "failUnlessWarns") f) (set_attr k (lit "assertWarns") f).
(** deferredgenerator_tfailure.py:54-59; the attributes of the functions are not
    modelled *)
Definition install_deferredgenerator (k : N) (getResult deferGenerator : val) :=
  after (set_attr k (lit "getResult") getResult) (bind_global (lit "twisted.internet.defer._deferGenerator") deferGenerator).
(** plugin_package_paths.py:40-42 *)
Definition install_plugin_package_paths (f : val) := bind_global (lit "twisted.plugin.pluginPackagePaths") f.
(** loopbackasync_reentrancy.py:24-26 *)
Definition install_loopback (f : val) := bind_global (lit "twisted.protocols.loopback._loopbackAsyncContinue") f.

(** ** What is seen: the attribute of an instance of a class, whose method resolution
    order is [mro], the class first *)
Fixpoint look (w : world) (mro : list N) (name : str) : option val :=
  match mro with
  | [] => None
  | c :: t => match dget (dicts w (dict_of w c)) name with Some v => Some v | None => look w t name end
  end.

(** ** Specification *)

(** the classes before [k] in the order do not define [name] themselves *)
Definition not_overridden (w : world) (before : list N) (name : str) : Prop :=
  forall c, In c before -> dget (dicts w (dict_of w c)) name = None.

(** ** Proofs *)
Lemma look_after w before k rest name v : not_overridden w before name -> dget (dicts w (dict_of w k)) name = Some v -> look w (before ++ k :: rest) name = Some v.
Proof. induction before as [|c t IH]; intros H E; cbn [app look]; [now rewrite E|]. rewrite (H c (or_introl eq_refl)). apply IH; [|exact E]. intros d Hd. apply H. now right. Qed.

Lemma upd_eq {A} (f : N -> A) k v : upd f k v k = v. Proof. unfold upd. now rewrite N.eqb_refl. Qed.
Lemma upd_neq {A} (f : N -> A) k v x : x <> k -> upd f k v x = f x. Proof. intros H. unfold upd. destruct (N.eqb_spec x k); congruence. Qed.

(** a class whose dictionary is replaced *)
Lemma class_installed k fix_ item module_ w : newstyle w k = false ->
  let (w', r) := install_class k fix_ item module_ w in
  r = Ok tt /\ (forall name, dget (dicts w' (dict_of w' k)) name = if eqb name item then Some (Text module_) else dget (dicts w (dict_of w fix_)) name) /\
  (forall c, c <> k -> dict_of w c <> dict_of w fix_ -> dicts w' (dict_of w' c) = dicts w (dict_of w c)) /\ globals w' = globals w /\ held w' = held w.
Proof.
  intros E. unfold install_class, after, set_dict. rewrite E. unfold set_item. cbn [newstyle dict_of dicts globals held]. rewrite E, upd_eq. cbn [newstyle dict_of dicts globals held]. split; [reflexivity|]. split; [|split; [|auto]].
  - intros name. rewrite upd_eq, upd_eq. rewrite dget_dset. reflexivity.
  - intros c Hc Hd. rewrite (upd_neq (dict_of w)) by exact Hc. now rewrite upd_neq by exact Hd.
Qed.
Lemma class_new k fix_ item module_ w : newstyle w k = true -> install_class k fix_ item module_ w = (w, Err AttributeError).
Proof. intros E. unfold install_class, after, set_dict. now rewrite E. Qed.

Lemma attr_set k name v w : let (w', r) := set_attr k name v w in
  r = Ok tt /\ (forall x, dget (dicts w' (dict_of w' k)) x = if eqb x name then Some v else dget (dicts w (dict_of w k)) x) /\
  (forall c, dict_of w c <> dict_of w k -> dicts w' (dict_of w' c) = dicts w (dict_of w c)) /\ dict_of w' = dict_of w /\ newstyle w' = newstyle w /\ globals w' = globals w /\ held w' = held w.
Proof.
  unfold set_attr. cbn [newstyle dict_of dicts globals held]. split; [reflexivity|]. split; [intros x; rewrite upd_eq; apply dget_dset|]. split; [intros c H; now rewrite upd_neq|auto].
Qed.

Lemma look_eq w w' before k rest name v : not_overridden w' before name -> dget (dicts w' (dict_of w' k)) name = Some v -> w = w' -> look w (before ++ k :: rest) name = Some v.
Proof. intros H E ->. now apply look_after. Qed.

Lemma clock_seen w k f name : let (w', r) := set_attr k name f w in r = Ok tt /\ forall before rest, not_overridden w' before name -> look w' (before ++ k :: rest) name = Some f.
Proof. pose proof (attr_set k name f w) as H. destruct (set_attr k name f w) as [w' r]. destruct H as (-> & H & _). split; [reflexivity|]. intros before rest Ho. apply look_after; [exact Ho|]. rewrite H. now rewrite eqb_refl. Qed.
Lemma warns_seen w k f : let (w', r) := install_assertwarns k f w in r = Ok tt /\ forall name, In name [lit "failUnlessWarns"; lit "assertWarns"] -> forall before rest, not_overridden w' before name -> look w' (before ++ k :: rest) name = Some f.
Proof.
  unfold install_assertwarns, after. pose proof (attr_set k (lit "failUnlessWarns") f w) as H. destruct (set_attr k (lit "failUnlessWarns") f w) as [w1 r1]. destruct H as (-> & H & _).
  pose proof (attr_set k (lit "assertWarns") f w1) as H'. destruct (set_attr k (lit "assertWarns") f w1) as [w2 r2]. destruct H' as (-> & H' & _). split; [reflexivity|].
  intros name Hn before rest Ho. apply look_after; [exact Ho|]. rewrite H'. destruct Hn as [<-|[<-|[]]]; [|reflexivity]. rewrite H. reflexivity.
Qed.
Lemma defer_seen w k f g : let (w', r) := install_deferredgenerator k f g w in r = Ok tt /\ forall before rest, not_overridden w' before (lit "getResult") -> look w' (before ++ k :: rest) (lit "getResult") = Some f.
Proof.
  unfold install_deferredgenerator, after. pose proof (attr_set k (lit "getResult") f w) as H. destruct (set_attr k (lit "getResult") f w) as [w1 r1]. destruct H as (-> & H & _). cbn [bind_global]. split; [reflexivity|].
  intros before rest Ho. apply look_after; [exact Ho|]. cbn [dicts dict_of]. rewrite H. reflexivity.
Qed.
Lemma attributes_seen w k f g :
  (let (w', r) := install_clock k f w in r = Ok tt /\ forall before rest, not_overridden w' before (lit "callLater") -> look w' (before ++ k :: rest) (lit "callLater") = Some f) /\
  (let (w', r) := install_assertwarns k f w in r = Ok tt /\ forall name, In name [lit "failUnlessWarns"; lit "assertWarns"] -> forall before rest, not_overridden w' before name -> look w' (before ++ k :: rest) name = Some f) /\
  (let (w', r) := install_deferredgenerator k f g w in r = Ok tt /\ forall before rest, not_overridden w' before (lit "getResult") -> look w' (before ++ k :: rest) (lit "getResult") = Some f).
Proof. split; [apply clock_seen|]. split; [apply warns_seen|apply defer_seen]. Qed.

Lemma class_seen w k fix_ item module_ : newstyle w k = false -> let (w', r) := install_class k fix_ item module_ w in
  r = Ok tt /\ forall name v, (if eqb name item then Some (Text module_) else dget (dicts w (dict_of w fix_)) name) = Some v -> forall before rest, not_overridden w' before name -> look w' (before ++ k :: rest) name = Some v.
Proof.
  intros E. pose proof (class_installed k fix_ item module_ w E) as H. destruct (install_class k fix_ item module_ w) as [w' r]. destruct H as (-> & H & _). split; [reflexivity|].
  intros name v Hv before rest Ho. apply look_after; [exact Ho|]. now rewrite H.
Qed.

Lemma else_attr w k name v c : dict_of w c <> dict_of w k -> let w' := fst (set_attr k name v w) in dicts w' (dict_of w' c) = dicts w (dict_of w c) /\ held w' = held w /\ globals w' = globals w /\ dict_of w' = dict_of w.
Proof. intros H. cbn. now rewrite upd_neq. Qed.
Lemma else_class w k fix_ item module_ c : c <> k -> dict_of w c <> dict_of w fix_ -> let w' := fst (install_class k fix_ item module_ w) in dicts w' (dict_of w' c) = dicts w (dict_of w c) /\ held w' = held w /\ globals w' = globals w.
Proof.
  intros H1 H2. destruct (newstyle w k) eqn:E; [rewrite class_new by exact E; auto|]. pose proof (class_installed k fix_ item module_ w E) as H. destruct (install_class k fix_ item module_ w) as [w' r]. destruct H as (_ & _ & H & G & L). cbn [fst]. auto.
Qed.
Lemma nothing_else w k f v g c : c <> k -> dict_of w c <> dict_of w k -> dict_of w c <> dict_of w f ->
  forall install, In install [install_filepath_copyTo k f; install_delayedcall_seconds k f; install_timeoutmixin_calllater k f; install_stringtransport k v; install_clock k v; install_assertwarns k v;
    install_deferredgenerator k v g; install_plugin_package_paths v; install_loopback v] ->
  let w' := fst (install w) in dicts w' (dict_of w' c) = dicts w (dict_of w c) /\ held w' = held w /\
  forall name, ~ In name [lit "twisted.internet.defer._deferGenerator"; lit "twisted.plugin.pluginPackagePaths"; lit "twisted.protocols.loopback._loopbackAsyncContinue"] -> dget (globals w') name = dget (globals w) name.
Proof.
  intros H1 H2 H3 install Hi.
  assert (C : forall item m, let w' := fst (install_class k f item m w) in dicts w' (dict_of w' c) = dicts w (dict_of w c) /\ held w' = held w /\ forall name, ~ In name [lit "twisted.internet.defer._deferGenerator"; lit "twisted.plugin.pluginPackagePaths"; lit "twisted.protocols.loopback._loopbackAsyncContinue"] -> dget (globals w') name = dget (globals w) name).
  { intros item m. destruct (else_class w k f item m c H1 H3) as (A & B & D). cbv zeta in *. split; [exact A|]. split; [exact B|]. now rewrite D. }
  repeat (destruct Hi as [<-|Hi]; [try apply C|]); try contradiction.
  - unfold install_stringtransport, set_item. destruct (newstyle w k); cbn; [auto|]. now rewrite upd_neq.
  - cbn. now rewrite upd_neq.
  - cbn. rewrite !upd_neq by auto. auto.
  - cbn [install_deferredgenerator after set_attr bind_global fst dicts dict_of held globals]. rewrite upd_neq by auto. split; [reflexivity|]. split; [reflexivity|]. intros name Hn. apply dget_dset_neq. intros ->. apply Hn. now left.
  - cbn. split; [reflexivity|]. split; [reflexivity|]. intros name Hn. apply dget_dset_neq. intros ->. apply Hn. right. now left.
  - cbn. split; [reflexivity|]. split; [reflexivity|]. intros name Hn. apply dget_dset_neq. intros ->. apply Hn. right. right. now left.
Qed.

Lemma item_seen w k v name : newstyle w k = false -> let (w', r) := set_item k name v w in r = Ok tt /\ forall before rest, not_overridden w' before name -> look w' (before ++ k :: rest) name = Some v.
Proof.
  intros E. unfold set_item. rewrite E. split; [reflexivity|]. intros before rest Ho. apply look_after; [exact Ho|]. cbn [dicts dict_of]. rewrite upd_eq. apply dget_dset_eq.
Qed.
