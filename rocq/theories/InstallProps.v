(** * Property C141: an installed hotfix is seen *)

From Coq Require Import NArith String List Bool Arith Lia.
From Verif Require Import Py PyStr Install.
Import ListNotations.
Open Scope list_scope.

(** The fixes that change a class, with the class of Twisted, the dictionary index of
    the class or the functions of the fix, and the items every user is to see: *)
Inductive fix_of (w : world) : (world -> world * res unit) -> N -> str -> val -> Prop :=
| fx_filepath k f name v : name <> lit "__module__" -> dget (dicts w (dict_of w f)) name = Some v -> fix_of w (install_filepath_copyTo k f) k name v
| fx_filepath_module k f : fix_of w (install_filepath_copyTo k f) k (lit "__module__") (Text (lit "twisted.python.filepath"))
| fx_delayed k f name v : name <> lit "__module__" -> dget (dicts w (dict_of w f)) name = Some v -> fix_of w (install_delayedcall_seconds k f) k name v
| fx_delayed_module k f : fix_of w (install_delayedcall_seconds k f) k (lit "__module__") (Text (lit "twisted.internet.base"))
| fx_timeout k f name v : name <> lit "__module__" -> name <> lit "module" -> dget (dicts w (dict_of w f)) name = Some v -> fix_of w (install_timeoutmixin_calllater k f) k name v
| fx_timeout_module k f : fix_of w (install_timeoutmixin_calllater k f) k (lit "__module__") (Text (lit "twisted.protocols.policies"))
| fx_string k v : fix_of w (install_stringtransport k v) k (lit "write") v
| fx_clock k v : fix_of w (install_clock k v) k (lit "callLater") v
| fx_warns k v : fix_of w (install_assertwarns k v) k (lit "failUnlessWarns") v
| fx_warns2 k v : fix_of w (install_assertwarns k v) k (lit "assertWarns") v
| fx_defer k v g : fix_of w (install_deferredgenerator k v g) k (lit "getResult") v.
(** and those that bind a name of a module *)
Inductive binding_of : (world -> world * res unit) -> str -> val -> Prop :=
| bd_defer k v g : binding_of (install_deferredgenerator k v g) (lit "twisted.internet.defer._deferGenerator") g
| bd_plugin v : binding_of (install_plugin_package_paths v) (lit "twisted.plugin.pluginPackagePaths") v
| bd_loopback v : binding_of (install_loopback v) (lit "twisted.protocols.loopback._loopbackAsyncContinue") v.

(** The claim: every install ends normally; then what the fix brings is seen by
    instances, whenever made, of Twisted's class and of every class derived from it
    that does not define the same itself; and under Twisted's names, also by those
    who had imported them. *)
Definition C141_full : Prop := forall w install,
  (forall k name v, fix_of w install k name v -> let (w', r) := install w in
     r = Ok tt /\ forall before rest, not_overridden w' before name -> look w' (before ++ k :: rest) name = Some v) /\
  (forall name v, binding_of install name v -> let (w', r) := install w in
     r = Ok tt /\ dget (globals w') name = Some v /\ (din (held w) name = true -> dget (held w') name = Some v)).

(** False where the class is of the new style, as all are under Python 3: four of the
    installs then raise and change nothing at all. *)
Theorem C141_python3_refuted : ~ C141_full /\ forall w k f v, newstyle w k = true ->
  install_filepath_copyTo k f w = (w, Err AttributeError) /\ install_delayedcall_seconds k f w = (w, Err AttributeError) /\
  install_timeoutmixin_calllater k f w = (w, Err AttributeError) /\ install_stringtransport k v w = (w, Err TypeError).
Proof.
  split.
  - intros F. destruct (F (World (fun _ => true) (fun n => n) (fun _ => []) [] []) (install_stringtransport 0 (Obj 1))) as [H _]. destruct (H 0%N (lit "write") (Obj 1) (fx_string _ _ _)) as [H' _]. discriminate H'.
  - intros w k f v E. repeat split; try (now apply class_new). unfold install_stringtransport, set_item. now rewrite E.
Qed.
Print Assumptions C141_python3_refuted.

(** False of TimeoutMixin, under Python 2 too: its class says it is from the module of
    the hotfix. *)
Theorem C141_module_refuted : forall w k f v, newstyle w k = false -> dget (dicts w (dict_of w f)) (lit "__module__") = Some v ->
  look (fst (install_timeoutmixin_calllater k f w)) [k] (lit "__module__") = Some v.
Proof.
  intros w k f v E D. pose proof (class_installed k f (lit "module") (lit "twisted.protocols.policies") w E) as H. unfold install_timeoutmixin_calllater. destruct (install_class k f (lit "module") (lit "twisted.protocols.policies") w) as [w' r].
  destruct H as (_ & H & _). cbn [fst look]. rewrite H. change (eqb (lit "__module__") (lit "module")) with false. cbv iota. now rewrite D.
Qed.
Print Assumptions C141_module_refuted.

(** False of the names in modules: who had imported one keeps the old function. *)
Theorem C141_imported_refuted : forall w install name v, binding_of install name v -> held (fst (install w)) = held w.
Proof. intros w install name v H. destruct H; reflexivity. Qed.
Print Assumptions C141_imported_refuted.

(** Otherwise it holds. *)
Theorem C141_seen_partial : forall w install k name v, fix_of w install k name v -> newstyle w k = false ->
  (forall k f, install = install_timeoutmixin_calllater k f -> name <> lit "__module__") ->
  let (w', r) := install w in r = Ok tt /\ forall before rest, not_overridden w' before name -> look w' (before ++ k :: rest) name = Some v.
Proof.
  intros w install k name v H E Ht.
  assert (C : forall k' f item m, newstyle w k' = false -> (if eqb name item then Some (Text m) else dget (dicts w (dict_of w f)) name) = Some v ->
    let (w', r) := install_class k' f item m w in r = Ok tt /\ forall before rest, not_overridden w' before name -> look w' (before ++ k' :: rest) name = Some v).
  { intros k' f item m E' D. pose proof (class_seen w k' f item m E') as S'. destruct (install_class k' f item m w) as [w' r]. destruct S' as [-> S']. split; [reflexivity|]. now apply S'. }
  destruct H as [k f name v Hn D|k f|k f name v Hn D|k f|k f name v Hn Hn' D|k f|k v|k v|k v|k v|k v g].
  - apply C; [exact E|]. destruct (eqb_spec name (lit "__module__")); [contradiction|exact D].
  - apply C; [exact E|reflexivity].
  - apply C; [exact E|]. destruct (eqb_spec name (lit "__module__")); [contradiction|exact D].
  - apply C; [exact E|reflexivity].
  - apply C; [exact E|]. destruct (eqb_spec name (lit "module")); [contradiction|exact D].
  - exfalso. exact (Ht k f eq_refl eq_refl).
  - exact (item_seen w k v (lit "write") E).
  - apply clock_seen.
  - pose proof (warns_seen w k v) as W. destruct (install_assertwarns k v w) as [w' r]. destruct W as [-> W]. split; [reflexivity|]. apply W. now left.
  - pose proof (warns_seen w k v) as W. destruct (install_assertwarns k v w) as [w' r]. destruct W as [-> W]. split; [reflexivity|]. apply W. right. now left.
  - apply defer_seen.
Qed.
Print Assumptions C141_seen_partial.

(** those that assign attributes work for classes of either style *)
Theorem C141_attribute_partial : forall w k f g,
  (let (w', r) := install_clock k f w in r = Ok tt /\ forall before rest, not_overridden w' before (lit "callLater") -> look w' (before ++ k :: rest) (lit "callLater") = Some f) /\
  (let (w', r) := install_assertwarns k f w in r = Ok tt /\ forall name, In name [lit "failUnlessWarns"; lit "assertWarns"] -> forall before rest, not_overridden w' before name -> look w' (before ++ k :: rest) name = Some f) /\
  (let (w', r) := install_deferredgenerator k f g w in r = Ok tt /\ forall before rest, not_overridden w' before (lit "getResult") -> look w' (before ++ k :: rest) (lit "getResult") = Some f).
Proof. intros w k f g. exact (attributes_seen w k f g). Qed.
Print Assumptions C141_attribute_partial.

Theorem C141_bound_partial : forall w install name v, binding_of install name v -> let (w', r) := install w in r = Ok tt /\ dget (globals w') name = Some v.
Proof. intros w install name v H. destruct H; cbn; (split; [reflexivity|apply dget_dset_eq]). Qed.
Print Assumptions C141_bound_partial.

(** Nothing else changes: classes that do not share their dictionary with the class
    fixed (or with the class of the fix) are as before, and so is every other name. *)
Theorem C141_else : forall w k f v g c,
  c <> k -> dict_of w c <> dict_of w k -> dict_of w c <> dict_of w f ->
  forall install, In install [install_filepath_copyTo k f; install_delayedcall_seconds k f; install_timeoutmixin_calllater k f; install_stringtransport k v; install_clock k v; install_assertwarns k v;
    install_deferredgenerator k v g; install_plugin_package_paths v; install_loopback v] ->
  let w' := fst (install w) in dicts w' (dict_of w' c) = dicts w (dict_of w c) /\ held w' = held w /\
  forall name, ~ In name [lit "twisted.internet.defer._deferGenerator"; lit "twisted.plugin.pluginPackagePaths"; lit "twisted.protocols.loopback._loopbackAsyncContinue"] -> dget (globals w') name = dget (globals w) name.
Proof. intros w k f v g c. exact (nothing_else w k f v g c). Qed.
Print Assumptions C141_else.

Definition py2_world : world := World (fun _ => false) (fun n => n)
  (fun n => if (n =? 1)%N then [(lit "open", Obj 10); (lit "gone", Obj 11)] else if (n =? 2)%N then [(lit "open", Obj 20); (lit "copyTo", Obj 21); (lit "__module__", Text (lit "epsilon.hotfixes"))] else [])
  [(lit "twisted.plugin.pluginPackagePaths", Obj 5)] [(lit "twisted.plugin.pluginPackagePaths", Obj 5)].
Example C141_nonvacuous :
  let w := fst (install_filepath_copyTo 1 2 py2_world) in
  (forall name v, dget (dicts py2_world 2) name = Some v -> name <> lit "__module__" -> fix_of py2_world (install_filepath_copyTo 1 2) 1 name v) /\
  look w [3; 1]%N (lit "copyTo") = Some (Obj 21) /\ look w [3; 1]%N (lit "open") = Some (Obj 20) /\ look w [3; 1]%N (lit "gone") = None /\ look w [1]%N (lit "__module__") = Some (Text (lit "twisted.python.filepath")) /\
  look (fst (install_clock 1 (Obj 7) py2_world)) [3; 1]%N (lit "callLater") = Some (Obj 7) /\ dget (globals (fst (install_plugin_package_paths (Obj 9) py2_world))) (lit "twisted.plugin.pluginPackagePaths") = Some (Obj 9).
Proof. cbv zeta. split; [intros name v H Hn; now constructor|]. repeat split; vm_compute; reflexivity. Qed.
