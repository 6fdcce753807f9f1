(** * epsilon/setuphelper.py: pluginModules and regeneratePluginCache *)

From Coq Require Import NArith String List Bool Arith Lia.
From Verif Require Import Py PyStr.
Import ListNotations.
Open Scope list_scope.

(** what namedAny may do with a name: give a module, or raise ImportError, ValueError
    with its arguments, or anything else *)
Inductive found := Module (m : N) | NoImport | BadValue (args : list str) | Trouble.
(** what happens: a name is looked up; a traceback is printed *)
Inductive deed := Lookup (name : str) | Printed.
(** what a resumed generator does: it yields, is finished, or raises *)
Inductive outcome := Yield (m : N) (rest : list str) | Finished | Raises (e : exn).

(** the loop did not end (it always does) *)
Definition NO_FUEL : exn := OtherExn 77.

(** setuphelper.py:26 *)
Definition plugins_of (p : str) : str := p ++ lit ".plugins".

Section Names.
  Variable namedAny : str -> found.

  (** setuphelper.py:10-19: the generator goes on with these names; the yield is inside
      the try.  [ve.args[0]] of a ValueError without arguments raises IndexError. *)
  Fixpoint resume (names : list str) : list deed * outcome :=
    match names with
    | [] => ([], Finished)
    | n :: rest =>
        match namedAny n with
        | Module m => ([Lookup n], Yield m rest)
        | NoImport => let (d, o) := resume rest in (Lookup n :: d, o)
        | BadValue [] => ([Lookup n], Raises IndexError)
        | BadValue (a :: _) =>
            let (d, o) := resume rest in
            (Lookup n :: (if eqb a (lit "Empty module name") then [] else [Printed]) ++ d, o)
        | Trouble => let (d, o) := resume rest in (Lookup n :: Printed :: d, o)
        end
    end.

  (** the generator is closed while it waits at a yield: GeneratorExit is raised there;
      [except:] takes it.  If it then yields again, close raises RuntimeError. *)
  Definition close (rest : list str) : list deed * res unit :=
    let (d, o) := resume rest in
    (Printed :: d, match o with Yield _ _ => Err RuntimeError | Finished => Ok tt | Raises e => Err e end).

  (** a loop over it that does [body] with each module *)
  Fixpoint for_each (fuel : nat) (body : N -> res unit) (names : list str) : list deed * list N * res unit :=
    match fuel with
    | O => ([], [], Err NO_FUEL)
    | S fuel' =>
        match resume names with
        | (d, Finished) => (d, [], Ok tt)
        | (d, Raises e) => (d, [], Err e)
        | (d, Yield m rest) =>
            match body m with
            | Err e => (d, [m], Err e)
            | Ok _ => let '(d', l, r) := for_each fuel' body rest in (d ++ d', m :: l, r)
            end
        end
    end.
  Definition loop (body : N -> res unit) (names : list str) := for_each (S (length names)) body names.
  Definition pluginModules (names : list str) : list deed * list N * res unit := loop (fun _ => Ok tt) names.

  (** getPlugins(IPlugin, module), which writes the cache of the module's package *)
  Variable getPlugins : N -> res unit.

  (** setuphelper.py:21-29; the modules whose plugins were asked for *)
  Definition regenerate (pluginPackages : list str) : list deed * list N * res unit :=
    loop getPlugins (map plugins_of pluginPackages).

  (** setuphelper.py:31-34: with the names of the commands run, the absolute path of
      install_lib and sys.path *)
  Definition regeneratePluginCache (commands : list str) (install_lib : str) (path : list str) (pluginPackages : list str)
    : list str * (list deed * list N * res unit) :=
    if memb (lit "install") commands then (install_lib :: path, regenerate pluginPackages) else (path, ([], [], Ok tt)).

  (** ** Specification *)
  Definition good (n : str) : list N := match namedAny n with Module m => [m] | _ => [] end.
  Definition argless (n : str) : Prop := namedAny n = BadValue [].
  Definition lookups (l : list deed) : list str := flat_map (fun d => match d with Lookup n => [n] | Printed => [] end) l.
  Definition noisy (n : str) : bool := match namedAny n with Trouble => true | BadValue (a :: _) => negb (eqb a (lit "Empty module name")) | _ => false end.
  Definition prints (l : list deed) : nat := length (filter (fun d => match d with Printed => true | _ => false end) l).

  (** ** Proofs *)
  Lemma lookups_app a b : lookups (a ++ b) = lookups a ++ lookups b. Proof. apply flat_map_app. Qed.
  Lemma prints_app a b : prints (a ++ b) = (prints a + prints b)%nat. Proof. unfold prints. now rewrite filter_app, app_length. Qed.

  Lemma resume_spec names : (forall n, In n names -> ~ argless n) ->
    match resume names with
    | (d, Yield m rest) => exists a n, names = a ++ n :: rest /\ namedAny n = Module m /\ flat_map good a = [] /\ lookups d = a ++ [n] /\ prints d = length (filter noisy (a ++ [n]))
    | (d, Finished) => flat_map good names = [] /\ lookups d = names /\ prints d = length (filter noisy names)
    | (d, Raises e) => False
    end.
  Proof.
    induction names as [|n rest IH]; intros H; [cbn; auto|]. cbn [resume].
    assert (G : forall x, namedAny n = x -> (match x with Module _ => False | _ => True end) -> good n = []) by (intros x E Hx; unfold good; rewrite E; now destruct x).
    assert (Hr : forall n, In n rest -> ~ argless n) by (intros x Hx; apply H; now right). specialize (IH Hr).
    assert (F : forall b, noisy n = b -> forall d, prints d = (if b then 1 else 0)%nat -> lookups d = [n] -> good n = [] ->
      match (let (d', o) := resume rest in (d ++ d', o)) with
      | (d, Yield m rest0) => exists a n0, n :: rest = a ++ n0 :: rest0 /\ namedAny n0 = Module m /\ flat_map good a = [] /\ lookups d = a ++ [n0] /\ prints d = length (filter noisy (a ++ [n0]))
      | (d, Finished) => flat_map good (n :: rest) = [] /\ lookups d = n :: rest /\ prints d = length (filter noisy (n :: rest))
      | (d, Raises e) => False
      end).
    { intros b Hb d Pd Ld Gd. destruct (resume rest) as [d' [m r| |e]].
      - destruct IH as (a & n0 & -> & I1 & I2 & I3 & I4). exists (n :: a), n0. split; [reflexivity|]. split; [exact I1|]. split; [cbn; now rewrite Gd, I2|]. rewrite lookups_app, prints_app, Ld, Pd, I3, I4. split; [reflexivity|]. cbn [app filter]. rewrite Hb. destruct b; reflexivity.
      - destruct IH as (I1 & I2 & I3). split; [cbn; now rewrite Gd, I1|]. rewrite lookups_app, prints_app, Ld, Pd, I2, I3. split; [reflexivity|]. cbn [filter]. rewrite Hb. destruct b; reflexivity.
      - contradiction. }
    destruct (namedAny n) as [m| |[|a args]|] eqn:E.
    - exists [], n. cbn. unfold noisy. rewrite E. cbn. auto.
    - specialize (F false). change (let (d, o) := resume rest in (Lookup n :: d, o)) with (let (d', o) := resume rest in ([Lookup n] ++ d', o)). apply F; auto; [unfold noisy; now rewrite E|now apply (G NoImport)].
    - exfalso. apply (H n); [now left|exact E].
    - assert (X : (let (d, o) := resume rest in (Lookup n :: (if eqb a (lit "Empty module name") then [] else [Printed]) ++ d, o)) = (let (d', o) := resume rest in ((Lookup n :: (if eqb a (lit "Empty module name") then [] else [Printed])) ++ d', o))) by reflexivity.
      rewrite X. apply (F (negb (eqb a (lit "Empty module name")))); [unfold noisy; now rewrite E| | |now apply (G (BadValue (a :: args)))]; destruct (eqb a (lit "Empty module name")); reflexivity.
    - change (let (d, o) := resume rest in (Lookup n :: Printed :: d, o)) with (let (d', o) := resume rest in ([Lookup n; Printed] ++ d', o)). apply (F true); auto; [unfold noisy; now rewrite E|now apply (G Trouble)].
  Qed.

  Lemma for_each_spec body : forall fuel names, (length names < fuel)%nat -> (forall n, In n names -> ~ argless n) ->
    let '(d, l, r) := for_each fuel body names in
    (r = Ok tt -> l = flat_map good names /\ lookups d = names /\ prints d = length (filter noisy names) /\ Forall (fun m => body m = Ok tt) l) /\
    (forall e, r = Err e -> exists a m rest, flat_map good names = a ++ m :: rest /\ l = a ++ [m] /\ Forall (fun m => body m = Ok tt) a /\ body m = Err e).
  Proof.
    induction fuel as [|fuel IH]; intros names L H; [lia|]. cbn [for_each]. pose proof (resume_spec names H) as R. destruct (resume names) as [d [m rest| |e]].
    - destruct R as (a & n & -> & R1 & R2 & R3 & R4). assert (Gn : good n = [m]) by (unfold good; now rewrite R1).
      assert (GF : flat_map good (a ++ n :: rest) = m :: flat_map good rest) by (rewrite flat_map_app, R2; cbn; now rewrite Gn). destruct (body m) as [[]|e] eqn:B.
      + assert (L' : (length rest < fuel)%nat) by (rewrite app_length in L; cbn in L; lia). specialize (IH rest L' (fun x Hx => H x (in_or_app a (n :: rest) x (or_intror (in_cons n x rest Hx))))).
        destruct (for_each fuel body rest) as [[d' l] r]. destruct IH as [I1 I2]. split.
        * intros E. destruct (I1 E) as (-> & J2 & J3 & J4). split; [now rewrite GF|]. rewrite lookups_app, prints_app, R3, R4, J2, J3. split; [now rewrite <- app_assoc|]. split; [|now constructor].
          change (n :: rest) with ([n] ++ rest). now rewrite (app_assoc a [n] rest), (filter_app _ (a ++ [n])), app_length.
        * intros e E. destruct (I2 e E) as (a0 & m0 & r0 & J1 & -> & J3 & J4). exists (m :: a0), m0, r0. rewrite GF, J1. split; [reflexivity|]. split; [reflexivity|]. split; [now constructor|exact J4].
      + split; [discriminate|]. intros e0 E. injection E as <-. exists [], m, (flat_map good rest). rewrite GF. auto.
    - destruct R as (R1 & R2 & R3). split; [intros _; rewrite R1; auto|discriminate].
    - contradiction.
  Qed.

  Lemma resume_argless n rest : argless n -> forall a, (forall x, In x a -> ~ argless x) ->
    match resume (a ++ n :: rest) with
    | (_, Yield m r) => exists b x c, a = b ++ x :: c /\ r = c ++ n :: rest /\ namedAny x = Module m /\ flat_map good b = []
    | (_, Finished) => False
    | (_, Raises e) => e = IndexError /\ flat_map good a = []
    end.
  Proof.
    intros N. induction a as [|x a IH]; intros H; cbn [app resume].
    - rewrite N. auto.
    - assert (IH' := IH (fun y Hy => H y (or_intror Hy))).
      assert (F : forall pre, good x = [] -> match (let (d, o) := resume (a ++ n :: rest) in (pre ++ d, o)) with
        | (_, Yield m r) => exists b x0 c, x :: a = b ++ x0 :: c /\ r = c ++ n :: rest /\ namedAny x0 = Module m /\ flat_map good b = []
        | (_, Finished) => False
        | (_, Raises e) => e = IndexError /\ flat_map good (x :: a) = []
        end).
      { intros pre G. destruct (resume (a ++ n :: rest)) as [d [m r| |e]]; [|contradiction|].
        - destruct IH' as (b & y & c & -> & -> & I1 & I2). exists (x :: b), y, c. cbn. rewrite G, I2. auto.
        - destruct IH' as [-> I]. cbn. now rewrite G, I. }
      destruct (namedAny x) as [m| |[|v args]|] eqn:E.
      + exists [], x, a. auto.
      + apply (F [Lookup x]). unfold good. now rewrite E.
      + exfalso. apply (H x); [now left|exact E].
      + apply (F (Lookup x :: (if eqb v (lit "Empty module name") then [] else [Printed]))). unfold good. now rewrite E.
      + apply (F [Lookup x; Printed]). unfold good. now rewrite E.
  Qed.
  Lemma argless_ends a n rest : (forall x, In x a -> ~ argless x) -> argless n ->
    snd (pluginModules (a ++ n :: rest)) = Err IndexError /\ snd (fst (pluginModules (a ++ n :: rest))) = flat_map good a.
  Proof.
    intros H N. unfold pluginModules, loop. assert (L : (length a < S (length (a ++ n :: rest)))%nat) by (rewrite app_length; lia).
    set (k := S (length (a ++ n :: rest))) in *. clearbody k. revert a H L. induction k as [|fuel IH]; intros b H L; [lia|]. cbn [for_each].
    pose proof (resume_argless n rest N b H) as R. destruct (resume (b ++ n :: rest)) as [d [m r| |e]]; [|contradiction|destruct R as [-> ->]; auto].
    destruct R as (c & x & y & -> & -> & R1 & R2). assert (Hy : forall z, In z y -> ~ argless z) by (intros z Hz; apply H, in_or_app; right; now right).
    assert (L' : (length y < fuel)%nat) by (rewrite app_length in L; cbn in L; lia). specialize (IH y Hy L'). destruct (for_each fuel (fun _ => Ok tt) (y ++ n :: rest)) as [[d' l] r']. cbn [fst snd] in *. destruct IH as [-> ->].
    split; [reflexivity|]. rewrite flat_map_app, R2. cbn. unfold good at 2. now rewrite R1.
  Qed.

  Lemma close_spec rest : (forall n, In n rest -> ~ argless n) ->
    (snd (close rest) = Err RuntimeError <-> flat_map good rest <> []) /\ (rest <> [] -> lookups (fst (close rest)) <> []) /\
    (flat_map good rest = [] -> snd (close rest) = Ok tt /\ lookups (fst (close rest)) = rest).
  Proof.
    intros H. unfold close. pose proof (resume_spec rest H) as R. destruct (resume rest) as [d [m r| |e]]; [| |contradiction].
    - destruct R as (a & n & -> & R1 & R2 & R3 & _). cbn [fst snd lookups flat_map app]. fold (lookups d).
      assert (G : flat_map good (a ++ n :: r) <> []) by (rewrite flat_map_app, R2; cbn; unfold good; rewrite R1; discriminate).
      split; [split; [auto|reflexivity]|]. split; [intros _; rewrite R3; now destruct a|contradiction].
    - destruct R as (R1 & R2 & _). cbn [fst snd lookups flat_map app]. fold (lookups d). rewrite R1, R2. split; [split; [discriminate|congruence]|]. split; auto.
  Qed.
End Names.
