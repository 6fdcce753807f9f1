(** * epsilon/spewer.py: signal handlers, tracing *)

From Coq Require Import ZArith NArith String List Bool Arith Lia.
From Verif Require Import Py PyStr.
Import ListNotations.
Open Scope nat_scope.

(** ** SignalService *)

(** What is done with a signal: the default, nothing, a Python function, or
    something which was not set from Python. *)
Inductive disposition := Default | Ignore | Function (n : N) | Foreign.
(** values of Python: a handler, None, something else which cannot be called *)
Inductive pyval := Handler (h : disposition) | PyNone | Junk.

Definition handlers := Z -> disposition.
Definition set_handler (H : handlers) (s : Z) (h : disposition) : handlers := fun s' => if (s' =? s)%Z then h else H s'.

Section Signals.
  (** the signals there are, and those which the operating system refuses to set *)
  Variable exists_sig refused : Z -> bool.

  (** what is returned: None for what was not set from Python *)
  Definition as_value (h : disposition) : pyval := match h with Foreign => PyNone | h => Handler h end.

  (** CPython's signal.signal, from the main thread *)
  Definition signal (s : Z) (v : pyval) (H : handlers) : res (handlers * pyval) :=
    if negb (exists_sig s) then Err ValueError
    else match v with
    | Handler Foreign | PyNone | Junk => Err TypeError
    | Handler h => if refused s then Err OSError else Ok (set_handler H s h, as_value (H s))
    end.

  Record service := Service { hs : handlers; oldsigmap : option (dict Z pyval); running : bool }.

  (** spewer.py:118-119: the loop of startService; what it has done when it raises
      stays done *)
  Fixpoint start_loop (m : list (Z * pyval)) (H : handlers) (old : dict Z pyval) : handlers * dict Z pyval * res unit :=
    match m with
    | [] => (H, old, Ok tt)
    | (s, v) :: m' =>
      match signal s v H with
      | Err e => (H, old, Err e)
      | Ok (H', o) => start_loop m' H' (dset old s o)
      end
    end.

  (** spewer.py:115-119 *)
  Definition startService (sigmap : dict Z pyval) (S : service) : service * res unit :=
    match start_loop sigmap (hs S) [] with (H, old, r) => (Service H (Some old) true, r) end.

  (** spewer.py:122-123 *)
  Fixpoint stop_loop (m : list (Z * pyval)) (H : handlers) : handlers * res unit :=
    match m with
    | [] => (H, Ok tt)
    | (s, v) :: m' => match signal s v H with Err e => (H, Err e) | Ok (H', _) => stop_loop m' H' end
    end.

  (** spewer.py:121-125 *)
  Definition stopService (S : service) : service * res unit :=
    match oldsigmap S with
    | None => (S, Err AttributeError)
    | Some m =>
      match stop_loop m (hs S) with
      | (H, Ok _) => (Service H None false, Ok tt)
      | (H, Err e) => (Service H (Some m) (running S), Err e)
      end
    end.

  (** *** Proofs *)

  (** what has been set so far: [old] has the original handler of each signal
      changed *)
  Definition kept (H0 : handlers) (p : Z * pyval) : Prop := exists_sig (fst p) = true /\ refused (fst p) = false /\ H0 (fst p) <> Foreign /\ snd p = Handler (H0 (fst p)).
  Definition ours (H0 H : handlers) (old : dict Z pyval) : Prop := (forall s, ~ In s (keys old) -> H s = H0 s) /\ Forall (kept H0) old.

  Lemma signal_ok s v H H' o : signal s v H = Ok (H', o) -> exists_sig s = true /\ refused s = false /\ (exists h, v = Handler h /\ H' = set_handler H s h) /\ o = as_value (H s).
  Proof.
    unfold signal. destruct (exists_sig s); [|discriminate]. destruct v as [h| |]; try discriminate. destruct h; try discriminate; (destruct (refused s); [discriminate|]); intros [= <- <-]; eauto 8.
  Qed.

  Lemma Forall_dset (P : Z * pyval -> Prop) (d : dict Z pyval) k v : Forall P d -> P (k, v) -> Forall P (dset d k v).
  Proof.
    intros HF HP. induction HF as [|[k' v'] d HP' HF IH]; cbn [dset]; [now repeat constructor|]. destruct (eqb_spec k k') as [<-|E]; now constructor.
  Qed.

  Lemma start_ours H0 m : forall H old, NoDup (map fst m) -> (forall s, In s (map fst m) -> H0 s <> Foreign) -> (forall s, In s (map fst m) -> ~ In s (keys old)) -> ours H0 H old ->
    match start_loop m H old with (H', old', _) => ours H0 H' old' end.
  Proof.
    induction m as [|[s v] m IH]; intros H old Hd Hk Hn Ho; [exact Ho|]. cbn [start_loop]. destruct (signal s v H) as [[H' o]|e] eqn:E; [|exact Ho].
    destruct (signal_ok _ _ _ _ _ E) as (E1 & E2 & (h & -> & ->) & ->). cbn in Hd. inversion Hd; subst. destruct Ho as (D & F).
    assert (Es : H s = H0 s) by (apply D, Hn; now left). assert (Ks : H0 s <> Foreign) by (apply Hk; now left).
    apply IH; [assumption|intros; apply Hk; now right| |].
    - intros s' Hs' Hin. apply keys_dset in Hin as [->|Hin]; [contradiction|]. revert Hin. apply Hn. now right.
    - split.
      + intros s' Hs'. unfold set_handler. destruct (Z.eqb_spec s' s) as [->|Hne]; [destruct Hs'; apply keys_dset; now left|]. apply D. intros Hi. apply Hs', keys_dset. now right.
      + apply Forall_dset; [exact F|]. unfold kept. cbn [fst snd]. repeat split; auto. rewrite Es. unfold as_value. destruct (H0 s); congruence.
  Qed.

  Lemma stop_ours H0 m : forall H, Forall (kept H0) m -> exists H', stop_loop m H = (H', Ok tt) /\ forall s, (In s (map fst m) -> H' s = H0 s) /\ (~ In s (map fst m) -> H' s = H s).
  Proof.
    induction m as [|[s v] m IH]; intros H F; [exists H; split; [reflexivity|]; cbn; tauto|]. inversion F as [|? ? (E1 & E2 & E3 & E4) F']; subst. cbn [fst snd] in *. subst v.
    cbn [stop_loop]. assert (E : signal s (Handler (H0 s)) H = Ok (set_handler H s (H0 s), as_value (H s))) by (unfold signal; rewrite E1, E2; destruct (H0 s); cbn; congruence).
    rewrite E. destruct (IH (set_handler H s (H0 s)) F') as (H' & A & B). exists H'. split; [exact A|]. intros s'. destruct (B s') as [B1 B2]. cbn [map fst In].
    assert (D : In s' (map fst m) \/ ~ In s' (map fst m)) by (destruct (in_dec Z.eq_dec s' (map fst m)); auto).
    split.
    - intros [<-|Hi]; [|auto]. destruct D as [D|D]; [auto|]. rewrite B2 by exact D. unfold set_handler. now rewrite Z.eqb_refl.
    - intros Hi. rewrite B2 by tauto. unfold set_handler. destruct (Z.eqb_spec s' s) as [->|]; [tauto|reflexivity].
  Qed.

  Lemma stop_restores sigmap H r S : NoDup (keys sigmap) -> (forall s, In s (keys sigmap) -> H s <> Foreign) ->
    forall run old, startService sigmap (Service H old run) = (S, r) ->
    exists H', stopService S = (Service H' None false, Ok tt) /\ forall s, H' s = H s.
  Proof.
    intros Hd Hk run old. unfold startService. cbn [hs]. pose proof (start_ours H sigmap H [] Hd Hk (fun s _ Hin => Hin) (conj (fun s _ => eq_refl) (Forall_nil _))) as Ho.
    destruct (start_loop sigmap H []) as [[H1 old1] r1]. intros [= <- <-]. destruct Ho as [D F]. unfold stopService. cbn [oldsigmap hs running].
    destruct (stop_ours H old1 H1 F) as (H' & E & HH). rewrite E. exists H'. split; [reflexivity|]. intros s. destruct (HH s) as [A B].
    destruct (in_dec Z.eq_dec s (keys old1)) as [i|i]; [auto|]. rewrite B by exact i. apply D. exact i.
  Qed.

  Lemma start_sets sigmap H S old run : NoDup (keys sigmap) -> startService sigmap (Service H old run) = (S, Ok tt) ->
    forall s v, In (s, v) sigmap -> v = Handler (hs S s).
  Proof.
    intros Hd. unfold startService. cbn [hs]. generalize (@nil (Z * pyval)). revert H Hd. induction sigmap as [|[s v] m IH]; intros H Hd o E; [intros s v []|].
    cbn [start_loop] in E. destruct (signal s v H) as [[H' ov]|e] eqn:Es; [|discriminate E]. destruct (signal_ok _ _ _ _ _ Es) as (_ & _ & (h & -> & ->) & _).
    cbn in Hd. inversion Hd; subst. specialize (IH _ H3 _ E). intros s' v' [[= <- <-]|Hi]; [|auto].
    assert (K : forall m H o, ~ In s (map fst m) -> fst (fst (start_loop m H o)) s = H s).
    { clear. induction m as [|[k w] m IH]; intros H o Hn; [reflexivity|]. cbn [start_loop]. destruct (signal k w H) as [[H' ov]|e] eqn:Es; [|reflexivity].
      destruct (signal_ok _ _ _ _ _ Es) as (_ & _ & (h & -> & ->) & _). cbn in Hn. rewrite IH by tauto. unfold set_handler. destruct (Z.eqb_spec s k) as [->|]; [tauto|reflexivity]. }
    specialize (K m (set_handler H s h) (dset o s ov) H2). destruct (start_loop m (set_handler H s h) (dset o s ov)) as [[H1 o1] r1]. injection E as <- _. cbn [hs fst] in *. rewrite K. unfold set_handler. now rewrite Z.eqb_refl.
  Qed.

  Lemma start_old sigmap : forall H o H' o', NoDup (map fst sigmap) -> (forall s, In s (map fst sigmap) -> ~ In s (keys o)) -> start_loop sigmap H o = (H', o', Ok tt) ->
    o' = o ++ map (fun p => (fst p, as_value (H (fst p)))) sigmap /\ forall p, In p sigmap -> exists_sig (fst p) = true /\ refused (fst p) = false.
  Proof.
    induction sigmap as [|[s v] m IH]; intros H o H' o' Hd Hn E; [injection E as <- <-; split; [symmetry; apply app_nil_r|intros p []]|].
    cbn [start_loop] in E. destruct (signal s v H) as [[H1 ov]|e] eqn:Es; [|discriminate E]. destruct (signal_ok _ _ _ _ _ Es) as (E1 & E2 & (h & -> & ->) & ->).
    cbn [map fst] in Hd. inversion Hd as [|? ? Hs Hd']; subst. assert (Hs' : ~ In s (keys o)) by (apply Hn; now left).
    assert (Hn' : forall x, In x (map fst m) -> ~ In x (keys (dset o s (as_value (H s))))).
    { intros x Hx Hi. apply keys_dset in Hi as [->|Hi]; [exact (Hs Hx)|]. revert Hi. apply Hn. now right. }
    destruct (IH _ _ _ _ Hd' Hn' E) as (-> & K).
    split; [|intros p [<-|Hp]; [now split|auto]]. rewrite keys_dset_new by exact Hs'. rewrite <- app_assoc. cbn [map fst app]. do 2 f_equal. apply map_ext_in. intros p Hp. unfold set_handler.
    destruct (Z.eqb_spec (fst p) s) as [Ep|]; [|reflexivity]. destruct Hs. rewrite <- Ep. apply in_map. exact Hp.
  Qed.

  Lemma stop_until H0 pre s post : forall H, (forall p, In p (pre ++ s :: post) -> exists_sig p = true /\ refused p = false) -> (forall p, In p pre -> H0 p <> Foreign) -> H0 s = Foreign ->
    exists H', stop_loop (map (fun p => (p, as_value (H0 p))) (pre ++ s :: post)) H = (H', Err TypeError) /\ forall x, (In x pre -> H' x = H0 x) /\ (~ In x pre -> H' x = H x).
  Proof.
    induction pre as [|p pre IH]; intros H HE HF Hs.
    - exists H. cbn [app map stop_loop]. destruct (HE s (or_introl eq_refl)) as [E1 _]. unfold signal. rewrite E1, Hs. cbn. split; [reflexivity|]. intros x. split; [intros []|reflexivity].
    - cbn [app map stop_loop]. destruct (HE p (or_introl eq_refl)) as [E1 E2]. assert (Hp : H0 p <> Foreign) by (apply HF; now left).
      assert (E : signal p (as_value (H0 p)) H = Ok (set_handler H p (H0 p), as_value (H p))) by (unfold signal, as_value; rewrite E1, E2; destruct (H0 p); cbn; congruence).
      rewrite E. destruct (IH (set_handler H p (H0 p))) as (H' & A & B); [intros; apply HE; now right|intros; apply HF; now right|exact Hs|]. exists H'. split; [exact A|]. intros x. destruct (B x) as [B1 B2].
      destruct (in_dec Z.eq_dec x pre) as [i|i].
      + split; [auto|]. intros Hn. destruct Hn. now right.
      + rewrite B2 by exact i. unfold set_handler. cbn [In]. destruct (Z.eqb_spec x p) as [->|Hne]; split; intuition congruence.
  Qed.

  Lemma stop_foreign pre s v post H S old run : NoDup (keys (pre ++ (s, v) :: post)) -> startService (pre ++ (s, v) :: post) (Service H old run) = (S, Ok tt) ->
    (forall x, In x (keys pre) -> H x <> Foreign) -> H s = Foreign ->
    exists H', stopService S = (Service H' (oldsigmap S) true, Err TypeError) /\ forall x, (In x (keys pre) -> H' x = H x) /\ (~ In x (keys pre) -> H' x = hs S x).
  Proof.
    intros Hd E HF Hs. unfold startService in E. cbn [hs] in E. destruct (start_loop (pre ++ (s, v) :: post) H []) as [[H1 o1] r] eqn:El. injection E as <- ->.
    destruct (start_old _ H [] H1 o1 Hd (fun _ _ X => X) El) as (-> & K). cbn [app] in *. unfold stopService. cbn [oldsigmap hs running].
    destruct (stop_until H (keys pre) s (keys post) H1) as (H' & A & B); [|exact HF|exact Hs|].
    - intros p Hp. assert (Hi : In p (keys (pre ++ (s, v) :: post))) by (unfold keys; rewrite map_app; exact Hp). apply in_map_iff in Hi as (q & <- & Hq). now apply K.
    - replace (map (fun p => (fst p, as_value (H (fst p)))) (pre ++ (s, v) :: post)) with (map (fun p => (p, as_value (H p))) (keys pre ++ s :: keys post)).
      + rewrite A. exists H'. split; [reflexivity|exact B].
      + unfold keys. rewrite !map_app. cbn [map fst]. rewrite !map_map. reflexivity.
  Qed.
End Signals.

(** ** Tracer *)

(** who is told of what runs: sys.settrace for this thread, threading.settrace for
    threads yet to be started *)
Record tracer := Tracer { installed : bool; here : bool; in_threads : bool }.
(** spewer.py:17-20 *)
Definition install (t : tracer) : tracer * res unit := (Tracer true true true, Ok tt).
(** spewer.py:22-25: threading.setttrace does not exist *)
Definition uninstall (t : tracer) : tracer * res unit := (Tracer false false (in_threads t), Err AttributeError).
(** spewer.py:27-31 *)
Definition toggle (t : tracer) : tracer * res unit := if installed t then uninstall t else install t.

Lemma toggled t : installed (fst (toggle t)) = negb (installed t) /\ here (fst (toggle t)) = negb (installed t) /\ snd (toggle t) = if installed t then Err AttributeError else Ok tt.
Proof. unfold toggle. destruct (installed t); cbn; auto. Qed.

(** ** extractArgs *)

(** co_varnames begins with the parameters in this order *)
Record code := Code { positional : list str; keyword_only : list str; var_args : option str; var_kw : option str; others : list str }.
Definition opt_list {A} (o : option A) : list A := match o with Some a => [a] | None => [] end.
Definition co_varnames (c : code) : list str := positional c ++ keyword_only c ++ opt_list (var_args c) ++ opt_list (var_kw c) ++ others c.
Definition b2n (b : bool) : nat := if b then 1 else 0.
Definition is_some {A} (o : option A) : bool := match o with Some _ => true | None => false end.

(** spewer.py:55-65; values are numbers, 0 standing for '*** undefined ***' *)
Definition extractArgs (c : code) (locals : dict str N) : dict str N :=
  let n := length (positional c) + b2n (is_some (var_args c)) + b2n (is_some (var_kw c)) in
  fold_left (fun d name => dset d name (match dget locals name with Some v => v | None => 0%N end)) (firstn n (co_varnames c)) [].

Definition parameters (c : code) : list str := positional c ++ keyword_only c ++ opt_list (var_args c) ++ opt_list (var_kw c).

Lemma fold_keys (locals : dict str N) l : forall (d : dict str N), NoDup (keys d ++ l) ->
  keys (fold_left (fun d name => dset d name (match dget locals name with Some v => v | None => 0%N end)) l d) = keys d ++ l.
Proof.
  induction l as [|x l IH]; intros d H; [now rewrite app_nil_r|]. cbn [fold_left].
  assert (Hx : ~ In x (keys d)) by (intros Hi; apply NoDup_remove_2 in H; apply H, in_or_app; now left).
  assert (E : forall v, keys (dset d x v) = keys d ++ [x]) by (intros v; rewrite keys_dset_new by exact Hx; unfold keys; now rewrite map_app).
  rewrite IH; rewrite E, <- app_assoc; [reflexivity|exact H].
Qed.

Lemma fold_values (locals : dict str N) l : forall (d : dict str N) k, ~ In k l -> dget (fold_left (fun d name => dset d name (match dget locals name with Some v => v | None => 0%N end)) l d) k = dget d k.
Proof.
  induction l as [|x l IH]; intros d k H; [reflexivity|]. cbn [fold_left]. rewrite IH by (cbn in H; tauto). apply dget_dset_neq. cbn in H. intuition congruence.
Qed.
Lemma fold_value (locals : dict str N) l : forall (d : dict str N) k, In k l -> dget (fold_left (fun d name => dset d name (match dget locals name with Some v => v | None => 0%N end)) l d) k = Some (match dget locals k with Some v => v | None => 0%N end).
Proof.
  induction l as [|x l IH]; intros d k H; [destruct H|]. cbn [fold_left]. destruct (in_dec (list_eq_dec N.eq_dec) k l) as [i|i]; [now apply IH|]. destruct H as [->|H]; [|contradiction].
  rewrite fold_values by exact i. apply dget_dset_eq.
Qed.

Lemma extract_params c locals : NoDup (parameters c) -> keyword_only c = [] ->
  keys (extractArgs c locals) = parameters c /\ forall p, In p (parameters c) -> dget (extractArgs c locals) p = Some (match dget locals p with Some v => v | None => 0%N end).
Proof.
  intros Hd Hk. unfold extractArgs, parameters, co_varnames in *. rewrite Hk in *. cbn [app] in *.
  assert (E : firstn (length (positional c) + b2n (is_some (var_args c)) + b2n (is_some (var_kw c))) (positional c ++ opt_list (var_args c) ++ opt_list (var_kw c) ++ others c) = positional c ++ opt_list (var_args c) ++ opt_list (var_kw c)).
  { rewrite <- Nat.add_assoc, firstn_app_2. f_equal. destruct (var_args c), (var_kw c); reflexivity. }
  rewrite E. split; [now rewrite fold_keys|]. intros p Hp. now rewrite fold_value.
Qed.

Lemma extract_keys c locals : NoDup (parameters c) ->
  keys (extractArgs c locals) = positional c ++ firstn (length (opt_list (var_args c) ++ opt_list (var_kw c))) (keyword_only c ++ opt_list (var_args c) ++ opt_list (var_kw c)).
Proof.
  intros Hd. unfold extractArgs, co_varnames.
  assert (L : b2n (is_some (var_args c)) + b2n (is_some (var_kw c)) = length (opt_list (var_args c) ++ opt_list (var_kw c))) by (destruct (var_args c), (var_kw c); reflexivity).
  rewrite <- Nat.add_assoc, L, firstn_app_2.
  assert (E : firstn (length (opt_list (var_args c) ++ opt_list (var_kw c))) (keyword_only c ++ opt_list (var_args c) ++ opt_list (var_kw c) ++ others c) = firstn (length (opt_list (var_args c) ++ opt_list (var_kw c))) (keyword_only c ++ opt_list (var_args c) ++ opt_list (var_kw c))).
  { replace (keyword_only c ++ opt_list (var_args c) ++ opt_list (var_kw c) ++ others c) with ((keyword_only c ++ opt_list (var_args c) ++ opt_list (var_kw c)) ++ others c) by (now rewrite <- !app_assoc).
    rewrite firstn_app. rewrite (proj2 (Nat.sub_0_le _ _)) by (rewrite (app_length (keyword_only c)); lia). cbn [firstn]. now rewrite app_nil_r. }
  rewrite E. rewrite fold_keys; [reflexivity|]. cbn [keys map app]. unfold parameters in Hd.
  rewrite <- (firstn_skipn (length (opt_list (var_args c) ++ opt_list (var_kw c))) (keyword_only c ++ opt_list (var_args c) ++ opt_list (var_kw c))), app_assoc in Hd.
  clear -Hd. revert Hd. generalize (skipn (length (opt_list (var_args c) ++ opt_list (var_kw c))) (keyword_only c ++ opt_list (var_args c) ++ opt_list (var_kw c))). intros l Hd.
  induction l as [|x l IH] using rev_ind; [now rewrite app_nil_r in Hd|]. apply IH. rewrite app_assoc in Hd. apply NoDup_remove_1 in Hd. now rewrite app_nil_r in Hd.
Qed.

Lemma extract_exact c locals : NoDup (parameters c) -> (keys (extractArgs c locals) = parameters c <-> keyword_only c = []).
Proof.
  intros Hd. split; [|intros E; now apply extract_params]. rewrite extract_keys by exact Hd. intros E. apply (f_equal (@length str)) in E. unfold parameters in E.
  rewrite !app_length, firstn_length, !app_length in E. destruct (keyword_only c); [reflexivity|]. cbn [length] in E. lia.
Qed.
