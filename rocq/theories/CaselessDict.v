(** * epsilon/caseless.py: Caseless objects as keys of a dictionary *)

From Coq Require Import NArith ZArith String List Bool Arith Lia.
From Verif Require Import Py PyStr Caseless.
Import ListNotations.
Open Scope nat_scope.

Section Dict.
  Variable lower : str -> str.
  Variable hash : str -> Z.
  Context {V : Type}.

  (** CPython's dict: a key is found if an entry has the same hash and its key
      compares equal ([stored == wanted]; caseless.py:93-94, 111-112).  An object
      is taken for equal to itself without asking, which makes no difference here.
      Entries are in the order of insertion; setting an item that is there keeps
      the key. *)
  Definition table := list (val * V).
  Definition hits (stored wanted : val) : bool :=
    Z.eqb (py_hash lower hash stored) (py_hash lower hash wanted) && py_eq lower stored wanted.

  Fixpoint t_get (d : table) (k : val) : option V :=
    match d with [] => None | (k', v) :: d' => if hits k' k then Some v else t_get d' k end.
  Fixpoint t_set (d : table) (k : val) (v : V) : table :=
    match d with [] => [(k, v)] | (k', v') :: d' => if hits k' k then (k', v) :: d' else (k', v') :: t_set d' k v end.
  Fixpoint t_del (d : table) (k : val) : table :=
    match d with [] => [] | (k', v') :: d' => if hits k' k then d' else (k', v') :: t_del d' k end.

  (** d[k] = v; del d[k], where KeyError changes nothing *)
  Inductive dop := DSet (k : val) (v : V) | DDel (k : val).
  Definition key_of (o : dop) : val := match o with DSet k _ | DDel k => k end.
  Definition run1 (d : table) (o : dop) : table := match o with DSet k v => t_set d k v | DDel k => t_del d k end.
  Definition run_ops (l : list dop) : table := fold_left run1 l [].

  (** ** Specification: histories are read from the latest operation back *)

  (** [a] and [b] differ in case only *)
  Definition alike (a b : val) : bool := eqb (lower (cased a)) (lower (cased b)).

  (** the value last set under a key like [k], unless it was deleted since *)
  Fixpoint latest (h : list dop) (k : val) : option V :=
    match h with
    | [] => None
    | DSet k' v :: h' => if alike k' k then Some v else latest h' k
    | DDel k' :: h' => if alike k' k then None else latest h' k
    end.
  (** the spelling under which it was set first since it was last deleted *)
  Fixpoint spelling (h : list dop) (k : val) : option val :=
    match h with
    | [] => None
    | DSet k' v :: h' => if alike k' k then match spelling h' k with Some k'' => Some k'' | None => Some k' end else spelling h' k
    | DDel k' :: h' => if alike k' k then None else spelling h' k
    end.

  (** Caseless objects, and strings without upper-case letters *)
  Definition usual (k : val) : Prop := match k with Caseless _ => True | Plain s => lower s = s end.

  (** ** Proofs *)

  Lemma hits_alike a b : (forall s, lower (lower s) = lower s) -> usual a -> usual b -> hits a b = alike a b.
  Proof.
    intros Hi Ha Hb. unfold hits, alike.
    assert (H : forall k, usual k -> py_hash lower hash k = hash (lower (cased k))) by (intros [s|s] Hk; cbn in *; [now rewrite Hk|reflexivity]).
    rewrite (H a Ha), (H b Hb).
    assert (E : py_eq lower a b = eqb (lower (cased a)) (lower (cased b))).
    { destruct a as [s|s], b as [t|t]; cbn [py_eq cased usual] in *; unfold low; cbn [cased]; try reflexivity; [now rewrite Ha, Hb|apply eqb_sym]. }
    rewrite E. destruct (eqb_spec (lower (cased a)) (lower (cased b))) as [->|_]; [now rewrite Z.eqb_refl|apply andb_false_r].
  Qed.

  Lemma alike_refl k : alike k k = true.
  Proof. apply eqb_refl. Qed.
  Lemma alike_sym a b : alike a b = alike b a.
  Proof. apply eqb_sym. Qed.
  Lemma alike_trans a b c : alike a b = true -> alike b c = alike a c.
  Proof. unfold alike. intros E. apply (proj1 (eqb_eq _ _)) in E. now rewrite E. Qed.

  Definition tidy (d : table) : Prop := Forall (fun e => usual (fst e)) d /\ NoDup (map (fun e => lower (cased (fst e))) d).

  Section Good.
    Hypothesis idem : forall s, lower (lower s) = lower s.

    (** the entry like [k] *)
    Fixpoint entry_of (d : table) (k : val) : option (val * V) :=
      match d with [] => None | e :: d' => if alike (fst e) k then Some e else entry_of d' k end.

    Lemma get_entry d k : tidy d -> usual k -> t_get d k = option_map snd (entry_of d k).
    Proof.
      intros [Hu _] Hk. induction d as [|[k' v] d IH]; [reflexivity|]. inversion Hu as [|? ? U Hu']; subst. cbn [fst] in *. cbn [t_get entry_of fst].
      rewrite (hits_alike k' k idem U Hk). destruct (alike k' k); [reflexivity|auto].
    Qed.

    Lemma entry_in d k e : entry_of d k = Some e -> In e d /\ alike (fst e) k = true.
    Proof.
      induction d as [|e' d IH]; [discriminate|]. cbn [entry_of]. destruct (alike (fst e') k) eqn:E; [intros [= <-]; split; [now left|exact E]|]. intros H. destruct (IH H). split; [now right|assumption].
    Qed.
    Lemma entry_none d k : entry_of d k = None <-> ~ In (lower (cased k)) (map (fun e => lower (cased (fst e))) d).
    Proof.
      induction d as [|e d IH]; cbn [entry_of map In]; [tauto|]. unfold alike at 1. destruct (eqb_spec (lower (cased (fst e))) (lower (cased k))) as [E|E]; [split; [discriminate|tauto]|]. rewrite IH. tauto.
    Qed.

    Lemma set_entry d k v : tidy d -> usual k -> tidy (t_set d k v) /\
      forall j, entry_of (t_set d k v) j = if alike k j then Some (match entry_of d k with Some (k', _) => (k', v) | None => (k, v) end) else entry_of d j.
    Proof.
      intros Ht Hk. assert (M : map (fun e => lower (cased (fst e))) (t_set d k v) = map (fun e => lower (cased (fst e))) d \/ ~ In (lower (cased k)) (map (fun e => lower (cased (fst e))) d) /\ map (fun e => lower (cased (fst e))) (t_set d k v) = map (fun e => lower (cased (fst e))) d ++ [lower (cased k)]).
      { destruct Ht as [Hu _]. induction d as [|[k' v'] d IH]; [right; split; [intros []|reflexivity]|]. inversion Hu as [|? ? U Hu']; subst. cbn [fst] in U. cbn [t_set map fst].
        rewrite (hits_alike k' k idem U Hk). unfold alike. destruct (eqb_spec (lower (cased k')) (lower (cased k))) as [E|E]; cbn [map fst In app]; [now left|]. destruct (IH Hu') as [->|(N & ->)]; [now left|right]. split; [tauto|reflexivity]. }
      split.
      - split.
        + destruct Ht as [Hu _]. clear M. induction d as [|[k' v'] d IH]; [now repeat constructor|]. inversion Hu as [|? ? U Hu']; subst. cbn [t_set]. destruct (hits k' k); constructor; auto.
        + destruct Ht as [_ Hn]. destruct M as [->|(N & ->)]; [exact Hn|]. rewrite <- (rev_involutive (map _ d ++ _)), rev_app_distr. apply NoDup_rev. cbn [rev app]. constructor; [rewrite <- in_rev; exact N|now apply NoDup_rev].
      - intros j. clear M. destruct Ht as [Hu _]. induction d as [|[k' v'] d IH]; [cbn; destruct (alike k j); reflexivity|]. inversion Hu as [|? ? U Hu']; subst. cbn [fst] in U. cbn [t_set entry_of fst].
        rewrite (hits_alike k' k idem U Hk). destruct (alike k' k) eqn:E; cbn [entry_of fst].
        + rewrite <- (alike_trans k' k j E). destruct (alike k j); reflexivity.
        + rewrite (IH Hu'). destruct (alike k' j) eqn:Ej; [|reflexivity]. destruct (alike k j) eqn:Ek; [|reflexivity].
          rewrite alike_sym in Ek. rewrite <- (alike_trans k' j k Ej) in E. congruence.
    Qed.

    Lemma del_entry d k : tidy d -> usual k -> tidy (t_del d k) /\ forall j, entry_of (t_del d k) j = if alike k j then None else entry_of d j.
    Proof.
      intros [Hu Hn] Hk. induction d as [|[k' v'] d IH]; [cbn [t_del entry_of]; split; [split; [apply Forall_nil|apply NoDup_nil]|intros j; now destruct (alike k j)]|]. inversion Hu as [|? ? U Hu']; subst. cbn [fst map] in *. inversion Hn as [|? ? N Hn']; subst.
      cbn [t_del]. rewrite (hits_alike k' k idem U Hk). destruct (IH Hu' Hn') as ((T1 & T2) & G). destruct (alike k' k) eqn:E.
      - split; [now split|]. intros j. cbn [entry_of fst]. rewrite <- (alike_trans k' k j E). destruct (alike k j) eqn:Ej; [|reflexivity].
        apply entry_none. unfold alike in E, Ej. apply (proj1 (eqb_eq _ _)) in E. apply (proj1 (eqb_eq _ _)) in Ej. now rewrite <- Ej, <- E.
      - split.
        + split; [now constructor|]. cbn [map fst]. constructor; [|exact T2]. apply entry_none. rewrite G. rewrite alike_sym in E. rewrite E. now apply entry_none.
        + intros j. cbn [entry_of fst]. rewrite G. destruct (alike k' j) eqn:Ej; [|reflexivity]. destruct (alike k j) eqn:Ek; [|reflexivity]. rewrite alike_sym in Ek. rewrite <- (alike_trans k' j k Ej) in E. congruence.
    Qed.

    Theorem runs l : Forall (fun o => usual (key_of o)) l -> tidy (run_ops l) /\
      forall k, option_map snd (entry_of (run_ops l) k) = latest (rev l) k /\ option_map fst (entry_of (run_ops l) k) = spelling (rev l) k.
    Proof.
      induction l as [|o l IH] using rev_ind; intros Hu; [split; [split; constructor|split; reflexivity]|]. apply Forall_app in Hu as [Hl Ho]. inversion Ho as [|? ? Hk _]; subst. destruct (IH Hl) as (T & G).
      unfold run_ops. rewrite fold_left_app, rev_app_distr. cbn [fold_left rev app]. fold (run_ops l). destruct o as [k v|k]; cbn [run1 key_of] in *.
      - destruct (set_entry (run_ops l) k v T Hk) as (T' & E). split; [exact T'|]. intros j. rewrite E. cbn [latest spelling].
        destruct (alike k j) eqn:Ej; [|apply G]. assert (X : forall i, entry_of i k = entry_of i j).
        { intros i. induction i as [|e i IHi]; [reflexivity|]. cbn [entry_of]. rewrite IHi. rewrite (alike_sym (fst e) k), (alike_sym (fst e) j). rewrite alike_sym in Ej. now rewrite (alike_trans j k (fst e) Ej). }
        rewrite X. destruct (G j) as [G1 G2]. rewrite <- G2. destruct (entry_of (run_ops l) j) as [[k' v']|]; split; reflexivity.
      - destruct (del_entry (run_ops l) k T Hk) as (T' & E). split; [exact T'|]. intros j. rewrite E. cbn [latest spelling]. destruct (alike k j); [split; reflexivity|apply G].
    Qed.

    Theorem gets l k : Forall (fun o => usual (key_of o)) l -> usual k -> t_get (run_ops l) k = latest (rev l) k.
    Proof. intros Hl Hk. destruct (runs l Hl) as (T & G). rewrite (get_entry _ k T Hk). apply G. Qed.

    Theorem keys_kept l e : Forall (fun o => usual (key_of o)) l ->
      NoDup (map (fun e => lower (cased (fst e))) (run_ops l)) /\
      (In e (run_ops l) <-> spelling (rev l) (fst e) = Some (fst e) /\ latest (rev l) (fst e) = Some (snd e)).
    Proof.
      intros Hl. destruct (runs l Hl) as ((T1 & T2) & G). split; [exact T2|]. destruct (G (fst e)) as [G1 G2]. rewrite <- G1, <- G2. split.
      - intros Hi. assert (E : entry_of (run_ops l) (fst e) = Some e); [|rewrite E; now split].
        clear G1 G2 G T1. induction (run_ops l) as [|e' d IH]; [destruct Hi|]. cbn [map] in T2. inversion T2 as [|? ? N T2']; subst. cbn [entry_of]. destruct Hi as [->|Hi]; [now rewrite alike_refl|].
        destruct (alike (fst e') (fst e)) eqn:E; [|auto]. unfold alike in E. apply (proj1 (eqb_eq _ _)) in E. destruct N. rewrite E. apply in_map_iff. now exists e.
      - intros [A B]. destruct (entry_of (run_ops l) (fst e)) as [e'|] eqn:E; [|discriminate A]. cbn in A, B. injection A as A. injection B as B. apply entry_in in E as [E _]. destruct e, e'. cbn in *. now subst.
    Qed.
  End Good.
End Dict.
