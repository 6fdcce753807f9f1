(** * C185: a process that makes a directory alone *)

From Coq Require Import NArith String List Bool Arith Lia.
From Verif Require Import Py PyStr PySplit FilePath FileTree FileTreeMore FileMake FileMakeProps DirRace DirRaceProps DirAlone.
Import ListNotations.
Open Scope list_scope.
Open Scope nat_scope.

(** A process that is alone and is neither killed nor has failing calls does what C132 says
    of makedirs: it ends once, normally exactly if makedirs does, and leaves the same files
    and directories. *)
Theorem C185_alone_partial : forall f l n, okfs f -> Forall name l -> 2 * length l + 1 <= n ->
  let (s, o) := run (boot f) (Makedirs 0 l :: gos n) in
  let (t, r) := makedirs (fun _ => Run) (fun _ => false) (render 1 l) (f, 0) in
  (exists x, o = [(0, l, x)] /\ (x = Made <-> r = Ok tt)) /\ forall q, dget (disk s) q = dget (fst t) q.
Proof.
  intros f l n Hf Hn Hg. assert (Ha : absolute 1 l) by (split; [now left|exact Hn]).
  pose proof (C132_made (fun _ => Run) (fun _ => false) 1 l f 0 Ha Hf) as M. pose proof (C132_works (fun _ => Run) (fun _ => false) 1 l f 0 (fun _ => eq_refl) Ha Hf) as W. pose proof (C132_refuses (fun _ => Run) (fun _ => false) 1 l f 0 (fun _ => eq_refl) (fun _ => eq_refl) Ha Hf) as R.
  destruct (makedirs (fun _ => Run) (fun _ => false) (render 1 l) (f, 0)) as [t r]. cbn [fst snd] in *.
  destruct (dget f l) as [e|] eqn:El.
  - assert (Nn : dget f l <> None) by (rewrite El; discriminate). destruct (alone_exists f l n Hf Nn Hg) as [D O]. destruct (run (boot f) (Makedirs 0 l :: gos n)) as [s o]. cbn [fst snd] in *. assert (Ns : Some e <> None) by discriminate. destruct (R (or_introl Ns)) as (t' & E). injection E as -> ->. split; [|now rewrite D].
    exists Exists. split; [exact O|]. split; discriminate.
  - assert (Dec : clear f l \/ ~ clear f l).
    { assert (X : forall k, (forall m, m <= k -> dget f (firstn m l) = None \/ dget f (firstn m l) = Some EDir) \/ exists m, m <= k /\ ~ (dget f (firstn m l) = None \/ dget f (firstn m l) = Some EDir)).
      { assert (Dx : forall m, (dget f (firstn m l) = None \/ dget f (firstn m l) = Some EDir) \/ ~ (dget f (firstn m l) = None \/ dget f (firstn m l) = Some EDir)) by (intros m; destruct (dget f (firstn m l)) as [[c| |]|]; try (left; tauto); right; intros [X|X]; discriminate).
        induction k as [|k IH]; [destruct (Dx 0) as [X|X]; [left; intros m Hm; now replace m with 0 by lia|right; exists 0; auto]|]. destruct IH as [IH|(m & Hm & X)]; [|right; exists m; split; [lia|exact X]]. destruct (Dx (S k)) as [X|X]; [left|right; exists (S k); auto]. intros m Hm. destruct (Nat.eq_dec m (S k)) as [->|]; [exact X|apply IH; lia]. }
      destruct (X (length l)) as [A|(m & _ & A)]; [left|right; intros C; apply A, C, firstn_below]. intros q (z & E). specialize (A (length q)). rewrite E in A. rewrite app_length, firstn_app, firstn_all, Nat.sub_diag in A. cbn [firstn] in A. rewrite app_nil_r in A. apply A. lia. }
    destruct Dec as [Hc|Hc].
    + specialize (W eq_refl Hc). subst r. destruct M as (M1 & M2 & M3). specialize (proj2 (M3 eq_refl)) as M4. set (es := Makedirs 0 l :: gos n).
      assert (As : forall q, asked es q -> q = l). { intros q (i & [H|H]); unfold es in H; destruct H as [H|H]; try discriminate; try (apply gos_only in H; discriminate). now injection H as _ ->. }
      assert (Nm : named es) by (intros q Hq; now rewrite (As q Hq)).
      destruct (C185_works_partial f [] (gos n) 0 l Hf Nm Hc) as (x & X1 & X2 & X3).
      * intros j [H|H]; [discriminate|apply gos_only in H; discriminate].
      * reflexivity.
      * intros H. apply gos_only in H. discriminate.
      * intros [H|H]; [discriminate|apply gos_only in H; discriminate].
      * now rewrite goes_gos.
      * cbn [app] in X1, X3. fold es in X1, X3. pose proof (C185_one_partial f es 0 l x As El X1 X2) as One.
        destruct (C185_changes_partial f es Hf Nm) as [K1 K2].
        assert (L : length (snd (run (boot f) es)) <= 1).
        { unfold es. cbn [run step boot at_]. match goal with |- context [run ?s (gos n)] => pose proof (one_end n s) as L; destruct (run s (gos n)) end. exact L. }
        destruct (run (boot f) es) as [s o]. cbn [fst snd] in *. destruct o as [|a [|b o]]; [destruct X1| |cbn in L; lia]. destruct X1 as [->|[]]. split.
        -- exists x. split; [reflexivity|]. split; [reflexivity|]. intros _. unfold makers in One. cbn in One. destruct x; [reflexivity|discriminate|discriminate].
        -- intros q. destruct (below_dec q l) as [B|B].
           ++ rewrite (M4 q B). destruct B as (z & ->). destruct z as [|c z]; [now rewrite app_nil_r in X3|]. apply (ok_below (disk s) q (c :: z) K1); [discriminate|]. rewrite X3. discriminate.
           ++ destruct (K2 q) as [->|(_ & _ & p & Hp & Hq)]; [|rewrite (As p Hp) in Hq; contradiction]. destruct (M2 q) as [->|(Hq & _)]; [reflexivity|contradiction].
    + destruct (blocked f l Hf El Hc) as (j & J1 & J2 & J3 & J4). destruct (alone_refused f l j n Hf J1 J2 J3 J4 Hg) as [D O]. destruct (run (boot f) (Makedirs 0 l :: gos n)) as [s o]. cbn [fst snd] in *. destruct (R (or_intror Hc)) as (t' & E). injection E as -> ->. split; [|now rewrite D].
      exists Refused. split; [exact O|]. split; discriminate.
Qed.
Print Assumptions C185_alone_partial.

Example C185_alone_nonvacuous : okfs root /\ Forall name [x_; y_] /\ snd (run (boot root) (Makedirs 0 [x_; y_] :: gos 5)) = [(0, [x_; y_], Made)] /\
  snd (makedirs (fun _ => Run) (fun _ => false) (render 1 [x_; y_]) (root, 0)) = Ok tt.
Proof.
  split; [exact root_ok|]. split; [|split; vm_compute; reflexivity].
  repeat (apply Forall_cons; [repeat split; try discriminate; cbn; intros [X|[]]; discriminate|]). apply Forall_nil.
Qed.
