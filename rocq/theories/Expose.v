(** * epsilon/expose.py: Exposer *)

From Coq Require Import NArith String List Bool Arith Lia.
From Verif Require Import Py.
Import ListNotations.
Open Scope nat_scope.

Set Implicit Arguments.

(** Keys are hashable objects: strings, or any others. *)
Inductive key := KStr (s : str) | KOther (n : nat).

Definition key_eqb (a b : key) : bool :=
  match a, b with
  | KStr s, KStr t => eqb s t
  | KOther m, KOther n => Nat.eqb m n
  | _, _ => false
  end.

Lemma key_eqb_spec a b : reflect (a = b) (key_eqb a b).
Proof.
  destruct a as [s|m], b as [t|n]; cbn [key_eqb]; try (constructor; discriminate).
  - destruct (eqb_spec s t); constructor; congruence.
  - destruct (Nat.eqb_spec m n); constructor; congruence.
Qed.

#[export] Instance EqB_key : EqB key := { eqb := key_eqb; eqb_spec := key_eqb_spec }.

(** Objects are identities.  What the code asks of one: whether it is a
    FunctionType instance and its [__name__], and whether it has [__get__]. *)
Inductive okind :=
| IsFunction (name : str)   (* FunctionType: a descriptor with a name *)
| IsDescriptor              (* another object with __get__ (staticmethod, ...) *)
| IsPlain.                  (* anything else *)

Definition world := nat -> okind.

(** expose.py:68-74: [self._exposed], key -> list of functions *)
Definition exposer := dict key (list nat).

(** expose.py:103-113, [decorator]: the new [_exposed]; the decorated object is
    returned by the code unchanged *)
Definition expose (w : world) (e : exposer) (k : option key) (f : nat) : res nat * exposer :=
  let rkey := match k with
              | Some k => Ok k
              | None => match w f with
                        | IsFunction n => Ok (KStr n)
                        | _ => Err NameRequired
                        end
              end in
  match rkey with
  | Err x => (Err x, e)
  | Ok rk =>
      let e1 := if din e rk then e else dset e rk [] in
      let l := match dget e1 rk with Some l => l | None => [] end in
      (Ok f, dset e1 rk (l ++ [f]))
  end.

(** A class dictionary: attribute names to objects, in definition order.  A
    class is its MRO, as the list of the classes' dictionaries. *)
Definition cdict := dict str nat.

Inductive scan := Found (f : nat) | Hidden | Continue (seen : list str).

(** expose.py:133-140, the loop over one class dictionary *)
Fixpoint scan_items (rfs : list nat) (seen : list str) (items : cdict) : scan :=
  match items with
  | [] => Continue seen
  | (name, value) :: t =>
      if existsb (Nat.eqb value) rfs
      then if memb name seen then Hidden else Found value
      else scan_items rfs (name :: seen) t
  end.

(** expose.py:132, the loop over the MRO *)
Fixpoint scan_mro (rfs : list nat) (seen : list str) (mro : list cdict) : scan :=
  match mro with
  | [] => Continue seen
  | c :: t => match scan_items rfs seen c with
              | Continue seen' => scan_mro rfs seen' t
              | r => r
              end
  end.

Inductive method := Bound (f obj : nat).

(** expose.py:117-141 [Exposer.get]; [mro] is that of [obj.__class__].  An
    object without [__get__] raises AttributeError. *)
Definition get (w : world) (e : exposer) (mro : list cdict) (obj : nat) (k : key) : res method :=
  match dget e k with
  | None => Err MethodNotExposed
  | Some rfs =>
      match scan_mro rfs [] mro with
      | Found f => match w f with IsPlain => Err AttributeError | _ => Ok (Bound f obj) end
      | _ => Err MethodNotExposed
      end
  end.

(** ** Specification *)

(** normal attribute lookup on the class *)
Fixpoint lookup (mro : list cdict) (name : str) : option nat :=
  match mro with
  | [] => None
  | c :: t => match dget c name with Some v => Some v | None => lookup t name end
  end.

(** a world of exposers and what is done to it *)
Record call := { c_exposer : nat; c_key : option key; c_fun : nat }.

(** the key under which a call exposes its function, if it does *)
Definition call_key (w : world) (c : call) : option key :=
  match c_key c with
  | Some k => Some k
  | None => match w (c_fun c) with IsFunction n => Some (KStr n) | _ => None end
  end.

Definition store := nat -> exposer.
Definition upd (s : store) (i : nat) (e : exposer) : store :=
  fun j => if Nat.eqb j i then e else s j.

Definition do_call (w : world) (s : store) (c : call) : res nat * store :=
  let '(r, e) := expose w (s (c_exposer c)) (c_key c) (c_fun c) in
  (r, upd s (c_exposer c) e).

Fixpoint do_calls (w : world) (s : store) (cs : list call) : store :=
  match cs with
  | [] => s
  | c :: t => do_calls w (snd (do_call w s c)) t
  end.

Definition fresh : store := fun _ => [].

(** the functions exposed by a history with exposer [i] under key [k] *)
Definition exposed_by (w : world) (cs : list call) (i : nat) (k : key) : list nat :=
  map c_fun (filter (fun c => Nat.eqb (c_exposer c) i && eqb (call_key w c) (Some k)) cs).

(** ** Proofs *)

Definition funs (e : exposer) (k : key) : list nat :=
  match dget e k with Some l => l | None => [] end.

Lemma expose_funs w e k f k' :
  funs (snd (expose w e k f)) k'
  = funs e k' ++ (if eqb (call_key w {| c_exposer := 0; c_key := k; c_fun := f |}) (Some k')
                  then [f] else []).
Proof.
  assert (G : forall rk, funs (dset (if din e rk then e else dset e rk []) rk
      (match dget (if din e rk then e else dset e rk []) rk with Some l => l | None => [] end ++ [f])) k'
      = funs e k' ++ (if eqb (Some rk) (Some k') then [f] else [])).
  { intros rk. unfold funs. rewrite dget_dset.
    destruct (eqb_spec (Some rk) (Some k')) as [E|N].
    - inversion E; subst k'. rewrite eqb_refl. unfold din.
      destruct (dget e rk) as [l|] eqn:Ed; [now rewrite Ed|]. now rewrite dget_dset_eq.
    - destruct (eqb_spec k' rk) as [->|N']; [congruence|]. rewrite app_nil_r.
      unfold din. destruct (dget e rk); [reflexivity|]. now rewrite dget_dset_neq by auto. }
  unfold expose, call_key. cbn [c_key c_fun].
  destruct k as [k|].
  - exact (G k).
  - destruct (w f) as [n| |]; [exact (G (KStr n))| |]; cbn [snd];
      (destruct (eqb_spec (@None key) (Some k')); [discriminate|]); now rewrite app_nil_r.
Qed.

Lemma do_calls_funs w : forall cs s i k,
  funs (do_calls w s cs i) k = funs (s i) k ++ exposed_by w cs i k.
Proof.
  induction cs as [|c t IH]; intros s i k; cbn [do_calls].
  - unfold exposed_by. cbn. now rewrite app_nil_r.
  - rewrite IH. unfold do_call.
    pose proof (expose_funs w (s (c_exposer c)) (c_key c) (c_fun c) k) as E.
    destruct (expose w (s (c_exposer c)) (c_key c) (c_fun c)) as [r e]. cbn [snd] in *.
    unfold upd, exposed_by. cbn [filter]. rewrite (Nat.eqb_sym (c_exposer c) i).
    destruct (Nat.eqb_spec i (c_exposer c)) as [->|N]; cbn [andb].
    + rewrite E. unfold call_key at 1 in E. unfold call_key at 1. cbn [c_key c_fun].
      fold (call_key w c).
      change (match c_key c with Some k0 => Some k0
              | None => match w (c_fun c) with IsFunction n => Some (KStr n) | _ => None end end)
        with (call_key w c).
      destruct (eqb (call_key w c) (Some k)); cbn [map]; now rewrite <- app_assoc.
    + reflexivity.
Qed.

(** the outcome of [get] depends only on the functions exposed *)
Definition get_spec (w : world) (rfs : list nat) (mro : list cdict) (obj : nat) : res method :=
  match scan_mro rfs [] mro with
  | Found f => match w f with IsPlain => Err AttributeError | _ => Ok (Bound f obj) end
  | _ => Err MethodNotExposed
  end.

Lemma scan_items_nil seen items : exists s, scan_items [] seen items = Continue s.
Proof.
  revert seen. induction items as [|[n v] t IH]; intros seen; cbn; eauto.
Qed.

Lemma scan_mro_nil seen mro : exists s, scan_mro [] seen mro = Continue s.
Proof.
  revert seen. induction mro as [|c t IH]; intros seen; cbn [scan_mro]; eauto.
  destruct (scan_items_nil seen c) as [s ->]. auto.
Qed.

Lemma get_funs w e mro obj k : get w e mro obj k = get_spec w (funs e k) mro obj.
Proof.
  unfold get, get_spec, funs. destruct (dget e k); [reflexivity|].
  destruct (scan_mro_nil [] mro) as [s ->]. reflexivity.
Qed.

Lemma get_after w cs mro obj i k :
  get w (do_calls w fresh cs i) mro obj k = get_spec w (exposed_by w cs i k) mro obj.
Proof. rewrite get_funs, do_calls_funs. reflexivity. Qed.

(** where the scan stops *)
Lemma scan_items_spec rfs : forall items seen, NoDup (keys items) ->
  match scan_items rfs seen items with
  | Found f => In f rfs /\ exists name, dget items name = Some f /\ ~ In name seen
  | Hidden => exists f name, In f rfs /\ dget items name = Some f /\ In name seen
  | Continue seen' => (forall n, In n seen' <-> In n (keys items) \/ In n seen)
                      /\ forall name f, dget items name = Some f -> ~ In f rfs
  end.
Proof.
  induction items as [|[n v] t IH]; intros seen Hnd; cbn [scan_items].
  - split; [cbn; tauto|discriminate].
  - inversion Hnd as [|? ? Hn Hnd']; subst.
    assert (M : existsb (Nat.eqb v) rfs = true <-> In v rfs).
    { rewrite existsb_exists. split.
      - intros (x & Hx & E). apply Nat.eqb_eq in E. now subst.
      - intros H. exists v. split; auto. apply Nat.eqb_refl. }
    destruct (existsb (Nat.eqb v) rfs) eqn:Er.
    + assert (Hv : In v rfs) by now apply M.
      assert (Hd : dget ((n, v) :: t) n = Some v) by (cbn [dget]; now rewrite eqb_refl).
      destruct (memb n seen) eqn:Em.
      * exists v, n. repeat split; auto. now apply memb_In.
      * split; auto. exists n. split; auto. now apply memb_not_In.
    + assert (Hv : ~ In v rfs) by (intros H; apply M in H; congruence).
      specialize (IH (n :: seen) Hnd').
      assert (Hdt : forall m f, dget t m = Some f -> m <> n).
      { intros m f Hm ->. apply Hn. eapply dget_Some_keys; eauto. }
      assert (Hdl : forall m f, dget t m = Some f -> dget ((n, v) :: t) m = Some f).
      { intros m f Hm. cbn [dget]. destruct (eqb_spec m n); auto. exfalso. eapply Hdt; eauto. }
      destruct (scan_items rfs (n :: seen) t) as [f| |seen'].
      * destruct IH as (I1 & name & I2 & I3). split; auto. exists name. split; auto.
        intros Hs. apply I3. now right.
      * destruct IH as (f & name & I1 & I2 & I3). exists f, name. repeat split; auto.
        destruct I3 as [->|]; auto. exfalso. eapply Hdt; eauto.
      * destruct IH as (I1 & I2). split.
        -- intros m. rewrite I1. cbn. tauto.
        -- intros m f. cbn [dget]. destruct (eqb_spec m n) as [->|]; [congruence|eauto].
Qed.

Definition mro_wf (mro : list cdict) := Forall (fun c => NoDup (keys c)) mro.

(** [name] is set to [f] in the class after [pre] *)
Definition occurs (mro pre : list cdict) (name : str) (f : nat) : Prop :=
  exists c post, mro = pre ++ c :: post /\ dget c name = Some f.

Definition hidden (pre : list cdict) (name : str) : Prop :=
  exists c, In c pre /\ In name (keys c).

Lemma scan_mro_spec rfs : forall mro seen, mro_wf mro ->
  match scan_mro rfs seen mro with
  | Found f => In f rfs /\ exists pre name, occurs mro pre name f
                 /\ ~ hidden pre name /\ ~ In name seen
  | Hidden => exists f pre name, In f rfs /\ occurs mro pre name f
                 /\ (hidden pre name \/ In name seen)
  | Continue _ => forall pre name f, occurs mro pre name f -> ~ In f rfs
  end.
Proof.
  induction mro as [|c t IH]; intros seen Hw; cbn [scan_mro].
  - intros pre name f (c & post & E & _). destruct pre; discriminate.
  - inversion Hw as [|? ? Hc Ht]; subst.
    pose proof (scan_items_spec rfs c seen Hc) as Hs.
    destruct (scan_items rfs seen c) as [f| |seen'].
    + destruct Hs as (H1 & name & H2 & H3). split; auto. exists [], name. repeat split; auto.
      * exists c, t. auto.
      * intros (x & [] & _).
    + destruct Hs as (f & name & H1 & H2 & H3). exists f, [], name. repeat split; auto.
      exists c, t. auto.
    + destruct Hs as (H1 & H2). specialize (IH seen' Ht).
      destruct (scan_mro rfs seen' t) as [f| |s2].
      * destruct IH as (I1 & pre & name & (c' & post & I2 & I2') & I3 & I4). split; auto.
        exists (c :: pre), name. rewrite H1 in I4. repeat split.
        -- exists c', post. subst t. auto.
        -- intros (x & [<-|Hx] & Hin); [tauto|]. apply I3. exists x; auto.
        -- tauto.
      * destruct IH as (f & pre & name & I1 & (c' & post & I2 & I2') & I3).
        exists f, (c :: pre), name. repeat split; auto.
        -- exists c', post. subst t. auto.
        -- destruct I3 as [(x & Hx & Hin)|I3].
           ++ left. exists x. split; [now right|auto].
           ++ apply H1 in I3. destruct I3; auto. left. exists c. split; [now left|auto].
      * intros pre name f (c' & post & E & Hd) Hf. destruct pre as [|p pre].
        -- inversion E; subst. eapply H2; eauto.
        -- inversion E; subst. apply (IH pre name f); [exists c', post; auto|auto].
Qed.

Lemma lookup_visible mro : forall pre name f, mro_wf mro ->
  occurs mro pre name f -> ~ hidden pre name -> lookup mro name = Some f.
Proof.
  induction mro as [|c t IH]; intros pre name f Hw (c' & post & E & Hd) Hh.
  - destruct pre; discriminate.
  - inversion Hw; subst. cbn [lookup]. destruct pre as [|p pre]; inversion E; subst.
    + now rewrite Hd.
    + assert (Hn : dget p name = None).
      { apply dget_None. intros Hin. apply Hh. exists p. split; [now left|auto]. }
      rewrite Hn. apply (IH pre name f); auto.
      * exists c', post. auto.
      * intros (x & Hx & Hin). apply Hh. exists x. split; [now right|auto].
Qed.

Lemma lookup_occurs mro : forall name f, lookup mro name = Some f ->
  exists pre, occurs mro pre name f /\ ~ hidden pre name.
Proof.
  induction mro as [|c t IH]; intros name f; cbn [lookup]; [discriminate|].
  destruct (dget c name) as [v|] eqn:Ed.
  - intros E; inversion E; subst. exists []. split; [exists c, t; auto|]. intros (x & [] & _).
  - intros E. destruct (IH name f E) as (pre & (c' & post & -> & Hd) & Hh).
    exists (c :: pre). split; [exists c', post; auto|].
    intros (x & [<-|Hx] & Hin); [|apply Hh; exists x; auto].
    apply dget_None in Ed. auto.
Qed.

Lemma get_sound w cs mro obj i k f o : mro_wf mro ->
  get w (do_calls w fresh cs i) mro obj k = Ok (Bound f o) ->
  o = obj /\ In f (exposed_by w cs i k) /\ exists name, lookup mro name = Some f.
Proof.
  intros Hw. rewrite get_after. unfold get_spec.
  pose proof (scan_mro_spec (exposed_by w cs i k) [] Hw) as Hs.
  destruct (scan_mro (exposed_by w cs i k) [] mro) as [g| |s]; try discriminate.
  destruct Hs as (H1 & pre & name & H2 & H3 & _).
  intros E. assert (E' : f = g /\ o = obj) by (destruct (w g); inversion E; auto).
  destruct E' as [-> ->]. repeat split; auto. exists name. eapply lookup_visible; eauto.
Qed.

Lemma get_errors w cs mro obj i k e : mro_wf mro ->
  get w (do_calls w fresh cs i) mro obj k = Err e ->
  e = MethodNotExposed
  \/ (e = AttributeError /\ exists f name, In f (exposed_by w cs i k)
        /\ lookup mro name = Some f /\ w f = IsPlain).
Proof.
  intros Hw. rewrite get_after. unfold get_spec.
  pose proof (scan_mro_spec (exposed_by w cs i k) [] Hw) as Hs.
  destruct (scan_mro (exposed_by w cs i k) [] mro) as [g| |s];
    [|intros E; inversion E; auto|intros E; inversion E; auto].
  destruct Hs as (H1 & pre & name & H2 & H3 & _).
  destruct (w g) eqn:Ew; intros E; inversion E; subst. right. split; auto.
  exists g, name. repeat split; auto. eapply lookup_visible; eauto.
Qed.

(** nothing exposed under the key is an attribute of the class *)
Lemma get_absent w cs mro obj i k : mro_wf mro ->
  (forall c name f, In c mro -> dget c name = Some f -> ~ In f (exposed_by w cs i k)) ->
  get w (do_calls w fresh cs i) mro obj k = Err MethodNotExposed.
Proof.
  intros Hw Ha. rewrite get_after. unfold get_spec.
  pose proof (scan_mro_spec (exposed_by w cs i k) [] Hw) as Hs.
  destruct (scan_mro (exposed_by w cs i k) [] mro) as [g| |s]; auto.
  destruct Hs as (H1 & pre & name & (c & post & -> & H2) & _).
  exfalso. eapply (Ha c); eauto. apply in_or_app. right. now left.
Qed.

(** completeness when no exposed function of this key is hidden *)
Lemma get_complete w cs mro obj i k name f : mro_wf mro ->
  In f (exposed_by w cs i k) -> lookup mro name = Some f ->
  (forall pre n g, In g (exposed_by w cs i k) -> occurs mro pre n g -> ~ hidden pre n) ->
  (forall g, In g (exposed_by w cs i k) -> w g <> IsPlain) ->
  exists g n, get w (do_calls w fresh cs i) mro obj k = Ok (Bound g obj)
    /\ In g (exposed_by w cs i k) /\ lookup mro n = Some g.
Proof.
  intros Hw Hf Hl Hv Hp. rewrite get_after. unfold get_spec.
  destruct (lookup_occurs mro name Hl) as (pre0 & Ho & Hh).
  pose proof (scan_mro_spec (exposed_by w cs i k) [] Hw) as Hs.
  destruct (scan_mro (exposed_by w cs i k) [] mro) as [g| |s].
  - destruct Hs as (H1 & pre & n & H2 & H3 & _). exists g, n.
    repeat split; auto.
    + specialize (Hp g H1). destruct (w g); congruence.
    + eapply lookup_visible; eauto.
  - destruct Hs as (g & pre & n & H1 & H2 & [H3|[]]). exfalso. eapply Hv; eauto.
  - exfalso. eapply Hs; eauto.
Qed.

(** exposing one function changes only what its own exposer says about its own
    key *)
Lemma do_call_other w s c mro obj j k :
  j <> c_exposer c \/ call_key w c <> Some k ->
  get w (snd (do_call w s c) j) mro obj k = get w (s j) mro obj k.
Proof.
  intros Hne. rewrite !get_funs. f_equal. unfold do_call.
  pose proof (expose_funs w (s (c_exposer c)) (c_key c) (c_fun c) k) as E.
  destruct (expose w (s (c_exposer c)) (c_key c) (c_fun c)) as [r e]. cbn [snd] in *.
  unfold upd. destruct (Nat.eqb_spec j (c_exposer c)) as [->|]; auto.
  destruct Hne as [Hne|Hne]; [congruence|].
  rewrite E. change (call_key w {| c_exposer := 0; c_key := c_key c; c_fun := c_fun c |})
    with (call_key w c).
  destruct (eqb_spec (call_key w c) (Some k)); [congruence|]. now rewrite app_nil_r.
Qed.

Lemma do_call_result w s c :
  fst (do_call w s c) = match call_key w c with
                        | Some _ => Ok (c_fun c) | None => Err NameRequired end
  /\ (call_key w c = None -> forall j, snd (do_call w s c) j = s j).
Proof.
  unfold do_call, expose, call_key. destruct (c_key c) as [k|]; cbn [fst snd].
  - split; [reflexivity|discriminate].
  - destruct (w (c_fun c)) as [n| |]; cbn [fst snd]; (split; [reflexivity|]);
      try discriminate; intros _ j; unfold upd;
      destruct (Nat.eqb_spec j (c_exposer c)); subst; reflexivity.
Qed.

Lemma get_own_calls w cs mro obj i k :
  get w (do_calls w fresh cs i) mro obj k
  = get w (do_calls w fresh
             (filter (fun c => Nat.eqb (c_exposer c) i && eqb (call_key w c) (Some k)) cs) i)
        mro obj k.
Proof.
  rewrite !get_after. f_equal. unfold exposed_by. f_equal.
  induction cs as [|c t IH]; cbn [filter]; auto.
  destruct (Nat.eqb (c_exposer c) i && eqb (call_key w c) (Some k)) eqn:E; auto.
  cbn [filter]. now rewrite E, <- IH.
Qed.

(** the first exposed function met decides *)
Lemma scan_items_skip rfs : forall a seen b, (forall n g, In (n, g) a -> ~ In g rfs) ->
  scan_items rfs seen (a ++ b) = scan_items rfs (rev (map fst a) ++ seen) b.
Proof.
  induction a as [|[n g] a IH]; intros seen b H; [reflexivity|]. cbn [app scan_items map fst rev].
  replace (existsb (Nat.eqb g) rfs) with false.
  - rewrite IH by (intros n' g' I; apply (H n' g'); now right). now rewrite <- app_assoc.
  - symmetry. apply not_true_is_false. intros E. apply existsb_exists in E. destruct E as (x & Hx & E). apply Nat.eqb_eq in E. subst x. exact (H n g (or_introl eq_refl) Hx).
Qed.

Lemma scan_mro_skip rfs : forall (pre : list cdict) seen (c : cdict) t, (forall d n g, In d pre -> In (n, g) d -> ~ In g rfs) ->
  exists seen', (forall n, In n seen' <-> In n seen \/ exists d, In d pre /\ In n (keys d)) /\
    scan_mro rfs seen (pre ++ c :: t) = scan_mro rfs seen' (c :: t).
Proof.
  induction pre as [|d pre IH]; intros seen c t H.
  - exists seen. split; [|reflexivity]. intros n. split; [now left|]. intros [A|(d & [] & _)]. exact A.
  - cbn [app]. remember (pre ++ c :: t) as l. cbn [scan_mro].
    pose proof (scan_items_skip rfs d seen [] (fun n g I => H d n g (or_introl eq_refl) I)) as E. rewrite app_nil_r in E. rewrite E. cbn [scan_items]. subst l.
    destruct (IH (rev (map fst d) ++ seen) c t) as (seen' & A & B); [intros d' n g Hd; apply (H d' n g); now right|].
    exists seen'. split; [|exact B]. intros n. rewrite A, in_app_iff, <- in_rev. unfold keys. split.
    + intros [[I|I]|(d' & I & J)]; [right; exists d; split; [now left|exact I]|now left|right; exists d'; split; [now right|exact J]].
    + intros [I|(d' & [<-|I] & J)]; [left; now right|left; left; exact J|right; exists d'; auto].
Qed.

Lemma get_first w cs obj i k (pre : list cdict) (c : cdict) post a name f b :
  (forall d n g, In d pre -> In (n, g) d -> ~ In g (exposed_by w cs i k)) -> (forall n g, In (n, g) a -> ~ In g (exposed_by w cs i k)) ->
  NoDup (keys c) -> c = a ++ (name, f) :: b -> In f (exposed_by w cs i k) ->
  (hidden pre name -> get w (do_calls w fresh cs i) (pre ++ c :: post) obj k = Err MethodNotExposed) /\
  (~ hidden pre name -> get w (do_calls w fresh cs i) (pre ++ c :: post) obj k = match w f with IsPlain => Err AttributeError | _ => Ok (Bound f obj) end).
Proof.
  intros Hp Ha Hn Ec Hf. rewrite get_after. unfold get_spec.
  destruct (scan_mro_skip (exposed_by w cs i k) pre [] c post Hp) as (seen & Hs & E). rewrite E. cbn [scan_mro]. rewrite Ec in *.
  rewrite scan_items_skip by exact Ha. cbn [scan_items].
  replace (existsb (Nat.eqb f) (exposed_by w cs i k)) with true by (symmetry; apply existsb_exists; exists f; split; [exact Hf|apply Nat.eqb_refl]).
  assert (Hna : ~ In name (map fst a)).
  { unfold keys in Hn. rewrite map_app in Hn. cbn [map fst] in Hn. apply NoDup_remove_2 in Hn. intros I. apply Hn. apply in_or_app. now left. }
  assert (Hm : memb name (rev (map fst a) ++ seen) = true <-> exists d, In d pre /\ In name (keys d)).
  { rewrite memb_In, in_app_iff, <- in_rev, Hs. split; [intros [I|[[]|I]]; [now apply Hna in I|exact I]|intros I; right; right; exact I]. }
  assert (Hh : hidden pre name <-> exists d, In d pre /\ In name (keys d)) by reflexivity.
  destruct (memb name (rev (map fst a) ++ seen)); split; intros H; try reflexivity.
  - exfalso. apply H, Hh, Hm. reflexivity.
  - exfalso. apply Hh, Hm in H. discriminate.
Qed.
