(** * epsilon/juice.py:210-232, 546-572, 677-680: the extra arguments of a command

    A responder may ask for who is at the other end of the connection.  These
    arguments do not come from the box. *)

From Coq Require Import ZArith NArith String List Bool Arith Lia.
From Verif Require Import Py JuiceArgs.
Import ListNotations.
Open Scope nat_scope.
Open Scope py_scope.

(** A Q2Q address: its [domain] and [resource] (the class is of Vertex; any object with
    these two attributes will do). *)
Record addr := Addr { domain : str; resource : str }.

(** What the transport says of the two ends.  [getQ2QPeer] and [getQ2QHost] may raise: a
    transport that is not of Vertex has no such methods. *)
Record transport := Transport { getQ2QPeer : res addr; getQ2QHost : res addr }.

(** juice.py:546-572: the classes of extra arguments; [XBase] is ExtraArg itself *)
Inductive extra := XBase | XPeer | XPeerDomain | XPeerUser | XHost | XHostDomain | XHostUser.

(** a keyword argument: from the box, or of the transport *)
Inductive kwv := KArg (v : val) | KAddr (a : addr) | KText (s : str).

(** juice.py:547-572 [fromTransport] *)
Definition fromTransport (x : extra) (t : transport) : res kwv :=
  match x with
  | XBase => Err NotImplementedErr
  | XPeer => a <- getQ2QPeer t ;; Ok (KAddr a)
  | XPeerDomain => a <- getQ2QPeer t ;; Ok (KText (domain a))
  | XPeerUser => a <- getQ2QPeer t ;; Ok (KText (resource a))
  | XHost => a <- getQ2QHost t ;; Ok (KAddr a)
  | XHostDomain => a <- getQ2QHost t ;; Ok (KText (domain a))
  | XHostUser => a <- getQ2QHost t ;; Ok (KText (resource a))
  end.

(** juice.py:677-680 [addExtra], and the same loop at 216-217 *)
Fixpoint addExtra (extras : list (str * extra)) (t : transport) (d : dict str kwv) : res (dict str kwv) :=
  match extras with
  | [] => Ok d
  | (name, x) :: rest => v <- fromTransport x t ;; addExtra rest t (dset d name v)
  end.

Definition from_box (d : dict str val) : dict str kwv := map (fun kv => (fst kv, KArg (snd kv))) d.

(** juice.py:214-217, 229: what [doit] calls the responder with, if it calls it.  The
    arguments are any classes with any [fromStringProto]. *)
Definition called_with (args : list argf) (extras : list (str * extra)) (t : transport) (box : dict str str) : res (dict str kwv) :=
  kw <- stringsToObjects args (vtexts box) ;; addExtra extras t (from_box kw).

(** juice.py:671-672: what the callbacks of [do] make of the box of the answer *)
Definition answered_with (resp : list argf) (extras : list (str * extra)) (t : transport) (box : dict str str) : res (dict str kwv) :=
  objs <- stringsToObjects resp (vtexts box) ;; addExtra extras t (from_box objs).

(** ** Specification *)

(** what the extra argument [x] says of a connection *)
Inductive says (t : transport) : extra -> kwv -> Prop :=
| says_peer a : getQ2QPeer t = Ok a -> says t XPeer (KAddr a)
| says_peer_domain a : getQ2QPeer t = Ok a -> says t XPeerDomain (KText (domain a))
| says_peer_user a : getQ2QPeer t = Ok a -> says t XPeerUser (KText (resource a))
| says_host a : getQ2QHost t = Ok a -> says t XHost (KAddr a)
| says_host_domain a : getQ2QHost t = Ok a -> says t XHostDomain (KText (domain a))
| says_host_user a : getQ2QHost t = Ok a -> says t XHostUser (KText (resource a)).

(** [x] is the class declared (last) for the name [n] *)
Definition declares (extras : list (str * extra)) (n : str) (x : extra) : Prop :=
  exists pre post, extras = pre ++ (n, x) :: post /\ ~ In n (map fst post).

(** ** Proofs *)

Lemma says_spec t x v : fromTransport x t = Ok v <-> says t x v.
Proof.
  split.
  - destruct x; cbn; try discriminate; [destruct (getQ2QPeer t) eqn:E|destruct (getQ2QPeer t) eqn:E|destruct (getQ2QPeer t) eqn:E|destruct (getQ2QHost t) eqn:E|destruct (getQ2QHost t) eqn:E|destruct (getQ2QHost t) eqn:E]; cbn; try discriminate; intros [= <-]; now constructor.
  - intros H. destruct H as [a E|a E|a E|a E|a E|a E]; cbn; now rewrite E.
Qed.

Lemma declares_cons n0 x0 l n x : declares ((n0, x0) :: l) n x <-> declares l n x \/ n0 = n /\ x0 = x /\ ~ In n (map fst l).
Proof.
  split.
  - intros ([|q pre] & post & E & Hn); cbn in E.
    + injection E as -> -> ->. right. auto.
    + injection E as _ ->. left. exists pre, post. auto.
  - intros [(pre & post & -> & Hn)|(-> & -> & Hn)]; [exists ((n0, x0) :: pre), post; auto|exists [], l; auto].
Qed.

Lemma addExtra_ok l t : forall d d', addExtra l t d = Ok d' ->
  (forall n x, declares l n x -> exists v, says t x v /\ dget d' n = Some v) /\
  (forall n, ~ In n (map fst l) -> dget d' n = dget d n) /\
  (forall n x, In (n, x) l -> exists v, says t x v).
Proof.
  induction l as [|[n0 x0] l IH]; intros d d' H; cbn [addExtra] in H.
  - injection H as <-. split; [intros n x (pre & post & E & _); destruct pre; discriminate|]. split; [reflexivity|intros n x []].
  - destruct (fromTransport x0 t) as [v0|e] eqn:Ef; cbn [rbind] in H; [|discriminate]. destruct (IH _ _ H) as (H1 & H2 & H3). split; [|split].
    + intros n x Hd. apply declares_cons in Hd as [Hd|(-> & -> & Hn)]; [auto|]. exists v0. split; [now apply says_spec|]. rewrite H2 by exact Hn. apply dget_dset_eq.
    + intros n Hn. cbn in Hn. rewrite H2 by (intros X; apply Hn; now right). apply dget_dset_neq. intros ->. apply Hn. now left.
    + intros n x [E|Hi]; [injection E as -> ->; exists v0; now apply says_spec|eauto].
Qed.

Lemma addExtra_total l t : (forall n x, In (n, x) l -> exists v, says t x v) -> forall d, exists d', addExtra l t d = Ok d'.
Proof.
  induction l as [|[n x] l IH]; intros H d; cbn [addExtra]; [eauto|]. destruct (H n x) as (v & Hv); [now left|]. apply says_spec in Hv. rewrite Hv. cbn [rbind]. apply IH. intros n' x' Hi. apply (H n' x'). now right.
Qed.

Lemma dget_from_box d n : dget (from_box d) n = option_map KArg (dget d n).
Proof. induction d as [|[k v] d IH]; [reflexivity|]. cbn [from_box map dget fst snd]. destruct (eqb n k); auto. Qed.

(** what is read from the box *)
Lemma retrieve_other opt d name v d' n : retrieve opt d name = Ok (v, d') -> n <> name -> dget d' n = dget d n.
Proof.
  unfold retrieve. intros H Hn. destruct opt; destruct (dget d name) as [w|]; try discriminate; [destruct w|..]; injection H as <- <-; try reflexivity; now apply dget_ddel_neq.
Qed.

Lemma fromBoxes_keeps args : forall s o o' n, fromBoxes args s o = Ok o' -> ~ In n (map arg_name args) -> dget o' n = dget o n.
Proof.
  induction args as [|[[n0 opt] dec] args IH]; intros s o o' n H Hn; cbn [fromBoxes] in H; [now injection H as <-|]. cbn in Hn.
  destruct (retrieve opt s n0) as [[v s']|]; cbn [rbind] in H; [|discriminate]. assert (N0 : n <> n0) by (intros ->; apply Hn; now left). assert (N1 : ~ In n (map arg_name args)) by (intros X; apply Hn; now right).
  destruct (opt && is_none v).
  - rewrite (IH _ _ _ _ H N1). now apply dget_dset_neq.
  - destruct (dec v) as [w|]; cbn [rbind] in H; [|discriminate]. rewrite (IH _ _ _ _ H N1). now apply dget_dset_neq.
Qed.

Lemma fromBoxes_names args : forall s o o' n, fromBoxes args s o = Ok o' -> (In n (keys o') <-> In n (keys o) \/ In n (map arg_name args)).
Proof.
  induction args as [|[[n0 opt] dec] args IH]; intros s o o' n H; cbn [fromBoxes] in H; [injection H as <-; cbn; tauto|].
  destruct (retrieve opt s n0) as [[v s']|]; cbn [rbind] in H; [|discriminate]. cbn [map arg_name fst In]. destruct (opt && is_none v); [|destruct (dec v) as [w|]; cbn [rbind] in H; [|discriminate]].
  all: rewrite (IH _ _ _ n H), keys_dset; cbn [arg_name fst]; intuition congruence.
Qed.

Lemma fromBoxes_value args : forall s o o' n opt dec, NoDup (map arg_name args) -> In (n, opt, dec) args -> fromBoxes args s o = Ok o' ->
  (opt = true /\ (dget s n = None \/ dget s n = Some VNone) /\ dget o' n = Some VNone) \/ exists w v, dget s n = Some w /\ dec w = Ok v /\ dget o' n = Some v.
Proof.
  induction args as [|[[n0 opt0] dec0] args IH]; intros s o o' n opt dec Hnd Hi H; [destruct Hi|]. cbn [fromBoxes] in H. cbn [map] in Hnd. inversion Hnd as [|? ? Hn0 Hnd']; subst. cbn [arg_name fst] in Hn0.
  destruct (retrieve opt0 s n0) as [[v s']|] eqn:Er; cbn [rbind] in H; [|discriminate]. destruct Hi as [E|Hi].
  - injection E as -> -> ->. unfold retrieve in Er. destruct opt; destruct (dget s n) as [w|] eqn:Ew; try discriminate; cbn [andb] in H.
    + destruct (is_none v) eqn:Ev.
      * left. split; [reflexivity|]. destruct v; try discriminate. split; [destruct w; try discriminate Er; auto|]. rewrite (fromBoxes_keeps _ _ _ _ _ H Hn0). apply dget_dset_eq.
      * right. destruct (dec v) as [u|] eqn:Ed; cbn [rbind] in H; [|discriminate]. exists w, u. assert (v = w) by (destruct w; injection Er as <- <-; try reflexivity; discriminate Ev). subst. split; [reflexivity|]. split; [exact Ed|]. rewrite (fromBoxes_keeps _ _ _ _ _ H Hn0). apply dget_dset_eq.
    + injection Er as <- <-. cbn in H. left. split; [reflexivity|]. split; [auto|]. rewrite (fromBoxes_keeps _ _ _ _ _ H Hn0). apply dget_dset_eq.
    + injection Er as <- <-. right. destruct (dec w) as [u|] eqn:Ed; cbn [rbind] in H; [|discriminate]. exists w, u. split; [reflexivity|]. split; [exact Ed|]. rewrite (fromBoxes_keeps _ _ _ _ _ H Hn0). apply dget_dset_eq.
  - assert (Hn : n <> n0) by (intros ->; apply Hn0; now apply (in_map arg_name) in Hi). rewrite <- (retrieve_other _ _ _ _ _ _ Er Hn).
    destruct (opt0 && is_none v); [|destruct (dec0 v) as [u|]; cbn [rbind] in H; [|discriminate]]; apply (IH _ _ _ _ _ _ Hnd' Hi H).
Qed.

(** only what is under the names of the arguments matters *)
Lemma fromBoxes_same args : forall s s' o, wf_dict s -> wf_dict s' -> (forall n, In n (map arg_name args) -> dget s n = dget s' n) -> fromBoxes args s o = fromBoxes args s' o.
Proof.
  induction args as [|[[n0 opt] dec] args IH]; intros s s' o Hw Hw' H; cbn [fromBoxes]; [reflexivity|].
  assert (H0 : dget s n0 = dget s' n0) by (apply H; now left).
  assert (Hd : forall n, In n (map arg_name args) -> dget (ddel s n0) n = dget (ddel s' n0) n).
  { intros n Hn. rewrite !dget_ddel by assumption. destruct (eqb n n0); [reflexivity|]. apply H. now right. }
  assert (Hs : forall n, In n (map arg_name args) -> dget s n = dget s' n) by (intros n Hn; apply H; now right).
  assert (Kd : forall o', fromBoxes args (ddel s n0) o' = fromBoxes args (ddel s' n0) o') by (intros o'; apply IH; [now apply wf_ddel|now apply wf_ddel|exact Hd]).
  assert (Ks : forall o', fromBoxes args s o' = fromBoxes args s' o') by (intros o'; apply IH; auto).
  unfold retrieve. rewrite <- H0. destruct opt; destruct (dget s n0) as [w|]; cbn [rbind andb]; try reflexivity.
  - destruct w; cbn [rbind andb is_none]; try apply Ks; match goal with |- rbind ?d _ = _ => destruct d; cbn [rbind]; [apply Kd|reflexivity] end.
  - cbn [is_none]. apply Ks.
  - destruct (dec w); cbn [rbind]; [apply Kd|reflexivity].
Qed.

Lemma wf_vtexts b : wf_dict b -> wf_dict (vtexts b).
Proof. unfold wf_dict, vtexts, keys. now rewrite map_map. Qed.

Theorem extra_args args extras t box kw : called_with args extras t box = Ok kw ->
  (forall n, In n (keys kw) <-> In n (map arg_name args) \/ In n (map fst extras)) /\
  (forall n x, declares extras n x -> exists v, says t x v /\ dget kw n = Some v) /\
  (NoDup (map arg_name args) -> forall n opt dec, In (n, opt, dec) args -> ~ In n (map fst extras) ->
     (opt = true /\ dget box n = None /\ dget kw n = Some (KArg VNone)) \/
     exists s v, dget box n = Some s /\ dec (VText s) = Ok v /\ dget kw n = Some (KArg v)).
Proof.
  unfold called_with, stringsToObjects. destruct (fromBoxes args (vtexts box) []) as [objs|] eqn:Eo; cbn [rbind]; [|discriminate]. intros H.
  destruct (addExtra_ok _ _ _ _ H) as (H1 & H2 & _). split; [|split; [exact H1|]].
  - intros n. pose proof (fromBoxes_names _ _ _ _ n Eo) as Hn. cbn [keys map In] in Hn.
    destruct (in_dec (fun a b => match eqb_spec a b with ReflectT _ e => left e | ReflectF _ e => right e end) n (map fst extras)) as [Hi|Hi].
    + split; [auto|intros _]. assert (Hd : exists x, declares extras n x).
      { clear -Hi. induction extras as [|[n0 x0] l IH]; [destruct Hi|]. destruct (in_dec (fun a b => match eqb_spec a b with ReflectT _ e => left e | ReflectF _ e => right e end) n (map fst l)) as [Hl|Hl].
        - destruct (IH Hl) as (x & Hx). exists x. apply declares_cons. now left.
        - destruct Hi as [E|Hi]; [|contradiction]. cbn in E. subst. exists x0. apply declares_cons. right. auto. }
      destruct Hd as (x & Hx). destruct (H1 n x Hx) as (v & _ & Hv). exact (dget_Some_keys _ _ Hv).
    + rewrite <- din_keys. unfold din. rewrite (H2 n Hi), dget_from_box. destruct (dget objs n) as [v|] eqn:Ev; cbn [option_map].
      * split; [intros _|reflexivity]. left. destruct (proj1 Hn (dget_Some_keys _ _ Ev)) as [[]|X]; exact X.
      * split; [discriminate|]. intros [X|X]; [|contradiction]. apply dget_None in Ev. destruct Ev. apply Hn. now right.
  - intros Hnd n opt dec Hi Hx. rewrite (H2 n Hx), dget_from_box. destruct (fromBoxes_value _ _ _ _ _ _ _ Hnd Hi Eo) as [(-> & Hs & ->)|(w & v & Hs & Hd & ->)]; rewrite dget_vtexts in Hs.
    + left. split; [reflexivity|]. split; [|reflexivity]. destruct (dget box n); [destruct Hs; discriminate|reflexivity].
    + right. destruct (dget box n) as [s|]; [|discriminate]. injection Hs as <-. exists s, v. auto.
Qed.

Theorem extra_box args extras t box box' : wf_dict box -> wf_dict box' ->
  (forall n, In n (map arg_name args) -> dget box n = dget box' n) ->
  called_with args extras t box = called_with args extras t box'.
Proof.
  intros Hw Hw' H. unfold called_with, stringsToObjects. rewrite (fromBoxes_same args (vtexts box) (vtexts box')); [reflexivity|now apply wf_vtexts|now apply wf_vtexts|].
  intros n Hn. rewrite !dget_vtexts. now rewrite H.
Qed.

Theorem extra_called args extras t box : (exists kw, called_with args extras t box = Ok kw) <->
  (exists objs, stringsToObjects args (vtexts box) = Ok objs) /\ (forall n x, In (n, x) extras -> exists v, says t x v).
Proof.
  unfold called_with. split.
  - intros (kw & H). destruct (stringsToObjects args (vtexts box)) as [objs|]; cbn [rbind] in H; [|discriminate]. split; [eauto|]. exact (proj2 (proj2 (addExtra_ok _ _ _ _ H))).
  - intros ((objs & Ho) & H). rewrite Ho. cbn [rbind]. now apply addExtra_total.
Qed.
