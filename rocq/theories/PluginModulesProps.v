(** * Properties C137, C138: pluginModules and regeneratePluginCache *)

From Coq Require Import NArith String List Bool Arith Lia.
From Verif Require Import Py PyStr PluginModules.
Import ListNotations.
Open Scope list_scope.

(** ** C137 *)

(** The claim: the modules given are those which can be imported, in order; every name
    is looked up once; and one who stops early makes no more lookups. *)
Definition C137_full : Prop := forall namedAny names,
  (let '(d, l, r) := pluginModules namedAny names in r = Ok tt /\ l = flat_map (good namedAny) names /\ lookups d = names) /\
  (let '(d, r) := close namedAny names in lookups d = [] /\ r = Ok tt).

(** False: a ValueError without arguments ends it with IndexError, and the modules
    after it are not given. *)
Theorem C137_argless_refuted : ~ C137_full /\
  forall namedAny a n rest, (forall x, In x a -> ~ argless namedAny x) -> argless namedAny n ->
    snd (pluginModules namedAny (a ++ n :: rest)) = Err IndexError /\ snd (fst (pluginModules namedAny (a ++ n :: rest))) = flat_map (good namedAny) a.
Proof.
  split.
  - intros F. destruct (F (fun _ => BadValue []) [[]]) as [[H _] _]. discriminate H.
  - intros namedAny a n rest. exact (argless_ends namedAny a n rest).
Qed.
Print Assumptions C137_argless_refuted.

(** And closing it imports the modules that follow, up to one that can be imported; if
    there is one, close raises RuntimeError. *)
Theorem C137_close_refuted : forall namedAny rest, (forall n, In n rest -> ~ argless namedAny n) ->
  (snd (close namedAny rest) = Err RuntimeError <-> flat_map (good namedAny) rest <> []) /\
  (rest <> [] -> lookups (fst (close namedAny rest)) <> []) /\
  (flat_map (good namedAny) rest = [] -> snd (close namedAny rest) = Ok tt /\ lookups (fst (close namedAny rest)) = rest).
Proof. intros namedAny rest. exact (close_spec namedAny rest). Qed.
Print Assumptions C137_close_refuted.

(** Otherwise it holds; a traceback is printed for every name that cannot be imported,
    unless with ImportError or for being empty. *)
Theorem C137_modules_partial : forall namedAny names, (forall n, In n names -> ~ argless namedAny n) ->
  let '(d, l, r) := pluginModules namedAny names in
  r = Ok tt /\ l = flat_map (good namedAny) names /\ lookups d = names /\ prints d = length (filter (noisy namedAny) names).
Proof.
  intros namedAny names H. unfold pluginModules, loop. pose proof (for_each_spec namedAny (fun _ => Ok tt) (S (length names)) names (Nat.lt_succ_diag_r _) H) as D.
  destruct (for_each namedAny (S (length names)) (fun _ => Ok tt) names) as [[d l] r]. destruct D as [D1 D2]. destruct r as [[]|e]; [destruct (D1 eq_refl) as (? & ? & ? & _); auto|].
  destruct (D2 e eq_refl) as (a & m & rest & _ & _ & _ & X). discriminate X.
Qed.
Print Assumptions C137_modules_partial.

Definition some_names (n : str) : found :=
  if eqb n (lit "a") then Module 1 else if eqb n (lit "b") then Module 2 else if eqb n (lit "x") then NoImport
  else if eqb n [] then BadValue [lit "Empty module name"] else if eqb n (lit "v") then BadValue [] else Trouble.
Example C137_nonvacuous :
  pluginModules some_names [lit "a"; lit "x"; []; lit "t"; lit "b"] =
    ([Lookup (lit "a"); Lookup (lit "x"); Lookup []; Lookup (lit "t"); Printed; Lookup (lit "b")], [1; 2]%N, Ok tt) /\
  pluginModules some_names [lit "a"; lit "v"; lit "b"] = ([Lookup (lit "a"); Lookup (lit "v")], [1]%N, Err IndexError) /\
  close some_names [lit "x"; lit "b"; lit "a"] = ([Printed; Lookup (lit "x"); Lookup (lit "b")], Err RuntimeError).
Proof. repeat split; vm_compute; reflexivity. Qed.

(** ** C138 *)

(** Without the install command nothing happens.  With it, the directory installed
    into comes first on the path, and the plugins of every package whose module of
    plugins can be imported are asked for once, in order, up to the first for which
    that raises, which is raised. *)
Theorem C138_regenerated : forall namedAny getPlugins commands install_lib path packages,
  let names := map (fun p : str => (p ++ lit ".plugins" : str)) packages in
  (forall n, In n names -> ~ argless namedAny n) ->
  let '(path', (d, l, r)) := regeneratePluginCache namedAny getPlugins commands install_lib path packages in
  if memb (lit "install") commands
  then path' = install_lib :: path /\
       (r = Ok tt -> l = flat_map (good namedAny) names /\ lookups d = names /\ Forall (fun m => getPlugins m = Ok tt) l) /\
       (forall e, r = Err e -> exists a m rest, flat_map (good namedAny) names = a ++ m :: rest /\ l = a ++ [m] /\ Forall (fun m => getPlugins m = Ok tt) a /\ getPlugins m = Err e)
  else path' = path /\ d = [] /\ l = [] /\ r = Ok tt.
Proof.
  intros namedAny getPlugins commands install_lib path packages names H. unfold regeneratePluginCache. destruct (memb (lit "install") commands); [|auto].
  unfold regenerate. change (map plugins_of packages) with (map (fun p : str => (p ++ lit ".plugins" : str)) packages). fold names. clearbody names. unfold loop. pose proof (for_each_spec namedAny getPlugins (S (length names)) names (Nat.lt_succ_diag_r _) H) as D.
  destruct (for_each namedAny (S (length names)) getPlugins names) as [[d l] r]. destruct D as [D1 D2]. split; [reflexivity|]. split; [|exact D2]. intros E. destruct (D1 E) as (? & ? & ? & ?). auto.
Qed.
Print Assumptions C138_regenerated.

Example C138_nonvacuous :
  let named n := if eqb n (lit "a.plugins") then Module 1 else if eqb n (lit "b.plugins") then Module 2 else NoImport in
  regeneratePluginCache named (fun _ => Ok tt) [lit "build"; lit "install"] (lit "/lib") [lit "."] [lit "a"; lit "c"; lit "b"] =
    ([lit "/lib"; lit "."], ([Lookup (lit "a.plugins"); Lookup (lit "c.plugins"); Lookup (lit "b.plugins")], [1; 2]%N, Ok tt)) /\
  snd (regeneratePluginCache named (fun m => if (m =? 1)%N then Err TypeError else Ok tt) [lit "install"] (lit "/lib") [] [lit "a"; lit "b"]) = ([Lookup (lit "a.plugins")], [1]%N, Err TypeError) /\
  regeneratePluginCache named (fun _ => Ok tt) [lit "build"] (lit "/lib") [lit "."] [lit "a"] = ([lit "."], ([], [], Ok tt)).
Proof. repeat split; vm_compute; reflexivity. Qed.
