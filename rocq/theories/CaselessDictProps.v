(** * C157: dictionaries with Caseless keys *)

From Coq Require Import NArith ZArith String List Bool Lia.
From Verif Require Import Py PyStr Caseless CaselessDict.
Import ListNotations.
Open Scope nat_scope.

(** C157: a dictionary in which Caseless keys were set and deleted gives, for any key,
    what was last set under a key equal to it *)
Definition C157_full : Prop := forall lower hash, (forall s, lower (lower s) = lower s) ->
  forall (l : list (dop (V := nat))), (forall o, In o l -> is_caseless (key_of o) = true) -> forall k, t_get lower hash (run_ops lower hash l) k = latest lower (rev l) k.

Definition ex_lower : str -> str := map ascii_lower.
Lemma ex_idem s : ex_lower (ex_lower s) = ex_lower s.
Proof.
  unfold ex_lower. rewrite map_map. apply map_ext. intros c. unfold ascii_lower, is_upper. destruct ((65 <=? c) && (c <=? 90))%N eqn:E; [|now rewrite E].
  apply andb_prop in E as [E1 E2]. apply N.leb_le in E1, E2. destruct ((65 <=? c + 32) && (c + 32 <=? 90))%N eqn:E3; [|reflexivity]. apply andb_prop in E3 as [_ E3]. apply N.leb_le in E3. lia.
Qed.
Definition ex_hash (s : str) : Z := fold_left (fun a c => (a * 1114112 + Z.of_N c)%Z) s 0%Z.

(** false of plain strings with capitals: the very string the key was made of is not
    found, and can be set beside it *)
Theorem C157_plain_refuted :
  let key := Caseless (lit "Content-Type") in let plain := Plain (lit "Content-Type") in
  t_get ex_lower ex_hash (run_ops ex_lower ex_hash [DSet key 1]) plain = None /\
  run_ops ex_lower ex_hash [DSet key 1; DSet plain 2] = [(key, 1); (plain, 2)] /\ py_eq ex_lower key plain = true /\ ~ C157_full.
Proof.
  split; [vm_compute; reflexivity|]. split; [vm_compute; reflexivity|]. split; [reflexivity|]. intros F.
  specialize (F ex_lower ex_hash ex_idem [DSet (Caseless (lit "Content-Type")) 1] (fun o H => match H with or_introl E => match E with eq_refl => eq_refl end | or_intror X => match X with end end) (Plain (lit "Content-Type"))). vm_compute in F. discriminate F.
Qed.
Print Assumptions C157_plain_refuted.

(** True of Caseless keys and of plain strings in lower case, for every history, and
    every hash however often it collides. *)
Theorem C157_get_partial : forall lower hash V, (forall s, lower (lower s) = lower s) -> forall (l : list (dop (V := V))) k,
  (forall o, In o l -> usual lower (key_of o)) -> usual lower k -> t_get lower hash (run_ops lower hash l) k = latest lower (rev l) k.
Proof. intros lower hash V Hi l k Hl. apply gets; [exact Hi|]. now apply Forall_forall. Qed.
Print Assumptions C157_get_partial.

(** No two keys differ only in case; each is spelled as it was when it was first set
    since it was last deleted, and has the value last set. *)
Theorem C157_items_partial : forall lower hash V, (forall s, lower (lower s) = lower s) -> forall (l : list (dop (V := V))) e,
  (forall o, In o l -> usual lower (key_of o)) ->
  NoDup (map (fun e => lower (cased (fst e))) (run_ops lower hash l)) /\
  (In e (run_ops lower hash l) <-> spelling lower (rev l) (fst e) = Some (fst e) /\ latest lower (rev l) (fst e) = Some (snd e)).
Proof. intros lower hash V Hi l e Hl. apply keys_kept; [exact Hi|]. now apply Forall_forall. Qed.
Print Assumptions C157_items_partial.

Example C157_nonvacuous :
  let l := [DSet (Caseless (lit "Host")) 1; DSet (Plain (lit "age")) 2; DSet (Caseless (lit "HOST")) 3; DDel (Caseless (lit "AGE")); DSet (Caseless (lit "Age")) 4] in
  (forall o, In o l -> usual ex_lower (key_of o)) /\ run_ops ex_lower (fun _ => 0%Z) l = [(Caseless (lit "Host"), 3); (Caseless (lit "Age"), 4)] /\
  t_get ex_lower (fun _ => 0%Z) (run_ops ex_lower (fun _ => 0%Z) l) (Plain (lit "host")) = Some 3 /\ latest ex_lower (rev l) (Plain (lit "host")) = Some 3.
Proof.
  split; [|vm_compute; repeat split]. intros o H. repeat (destruct H as [<-|H]; [vm_compute; auto|]). destruct H.
Qed.
