(** * C114-C116: what FilePath remembers, exclusive creation, searches *)

From Coq Require Import ZArith NArith String List Bool Arith Lia.
From Verif Require Import Py PyStr PySplit FilePath FileTree FileTreeProps FileStat.
Import ListNotations.
Open Scope list_scope.

(** ** C114 *)

(** the full claim: each answer is right at the moment it is given *)
Definition C114_full : Prop := forall p h, Forall (fun x => posix (fst x)) h ->
  forall i a, nth_error (answers h (new_fp p)) i = Some a ->
  exists m o, nth_error h i = Some (m, o) /\ a = truth p o m.

Definition file5 : st := St KReg 5 1 1 1.
Definition there : moment := Moment (fun _ => Some file5) (fun _ => false).
Definition gone : moment := Moment (fun _ => None) (fun _ => false).
Definition linked : moment := Moment (fun _ => Some file5) (fun _ => true).

(** a removed file still exists and has a size, and a new one does not exist;
    a link is not a link *)
Theorem C114_current_refuted :
  answers [(there, Exists_); (gone, Exists_); (gone, Getsize)] (new_fp (lit "/n")) = [ABool true; ABool true; AInt 5] /\
  answers [(gone, Exists_); (there, Exists_); (there, Isfile); (there, Exists_)] (new_fp (lit "/n")) =
    [ABool false; ABool false; ABool true; ABool true] /\
  answers [(linked, Islink)] (new_fp (lit "/n")) = [ABool false] /\ ~ C114_full.
Proof.
  split; [reflexivity|]. split; [reflexivity|]. split; [reflexivity|]. intros F.
  destruct (F (lit "/n") [(linked, Islink)] ltac:(repeat constructor; intros p s H; injection H as <-; discriminate) 0 (ABool false) eq_refl)
    as (m & o & H & E). injection H as <- <-. discriminate E.
Qed.
Print Assumptions C114_current_refuted.

(** Each answer was right at one moment, not after it was given and not before
    the object was last refreshed (made, restat, unpickled); islink is always
    False. *)
Theorem C114_past_partial : forall p h, Forall (fun x => posix (fst x)) h ->
  forall i a, nth_error (answers h (new_fp p)) i = Some a ->
  exists j mi oi mj oj, nth_error h i = Some (mi, oi) /\ nth_error h j = Some (mj, oj) /\ j <= i /\
    (forall k m o, j < k <= i -> nth_error h k = Some (m, o) -> refreshes o = false) /\
    a = match oi with Islink => ABool false | _ => truth p oi mj end.
Proof.
  intros p h HP i a Ha. destruct (answers_past p h [] (new_fp p) ltac:(split; [reflexivity|exact I]) HP i a Ha)
    as (j & mi & oi & mj & oj & H1 & H2 & [H3 H4] & H5). exists j, mi, oi, mj, oj. repeat split; auto.
Qed.
Print Assumptions C114_past_partial.

(** OSError tells what is the case now *)
Theorem C114_raises : forall p h i e, nth_error (answers h (new_fp p)) i = Some (ARaise e) ->
  exists m o, nth_error h i = Some (m, o) /\ stat_of m p = None /\ e = OSError.
Proof. intros p h i e H. exact (raises_now p h (new_fp p) i e eq_refl H). Qed.
Print Assumptions C114_raises.

Example C114_nonvacuous :
  answers [(gone, Getsize); (there, Getsize); (gone, Isfile); (gone, Restat false); (gone, Isfile)] (new_fp (lit "/n")) =
    [ARaise OSError; AInt 5; ABool true; ANone; ABool false] /\ posix there /\ posix gone.
Proof. split; [reflexivity|]. split; intros p s H; [injection H as <-|]; discriminate. Qed.

(** ** C115 *)

(** Opening a path that must be created creates an empty file where nothing
    was, or raises and changes nothing. *)
Theorem C115_exclusive : forall p mode f g r, fopen true p mode f = (g, r) ->
  match r with
  | Ok _ => dget f (place p) = None /\ dget g (place p) = Some (EFile []) /\ forall l, l <> place p -> dget g l = dget f l
  | Err _ => g = f
  end.
Proof.
  intros p mode f g [[]|e] H; [|exact (fopen_fails p mode f g e H)].
  destruct (fopen_new p mode f g H) as (H1 & _ & ->). split; [exact H1|]. split; [apply dget_dset_eq|].
  intros l Hl. now apply dget_dset_neq.
Qed.
Print Assumptions C115_exclusive.

(** Of any number of such calls at most one succeeds, whatever else happens,
    as long as the file is not removed. *)
Theorem C115_one : forall p mode h, race p mode h ->
  length (filter (fun x => match snd x with Ok _ => true | Err _ => false end) h) <= 1.
Proof. intros p mode h H. exact (proj1 (race_one p mode h H)). Qed.
Print Assumptions C115_one.

Theorem C115_works : forall p mode f, containsb (lit "a") mode = false -> dget f (place p) = None ->
  has_parent f (place p) = true -> snd (fopen true p mode f) = Ok tt.
Proof. intros p mode f H1 H2 H3. exact (fopen_works p mode f H1 H2 H3). Qed.
Print Assumptions C115_works.

Example C115_nonvacuous : exists f g h, race (lit "/a/x") (lit "w") [(disk, f, Ok tt); (g, h, Err OSError)] /\
  fopen true (lit "/n") (lit "w") disk = (disk, Err OSError) /\ fopen true (lit "/x") (lit "a") disk = (disk, Err AssertionError) /\
  snd (fopen false (lit "/n") (lit "w") disk) = Ok tt.
Proof.
  exists (dset disk [a_; lit "x"] (EFile [])), (dset disk [a_; lit "x"] (EFile [7%N])), (dset disk [a_; lit "x"] (EFile [7%N])).
  split; [|repeat split; reflexivity].
  econstructor; [reflexivity| |intros _; discriminate]. econstructor; [reflexivity|constructor|intros _; exact I].
Qed.

(** ** C116 *)

(** the full claim about siblingExtensionSearch *)
Definition C116_full : Prop := forall cwd n l c f exts, prefixb slash cwd = true -> okfs f -> absolute n (l ++ [c]) ->
  exists r, siblingExtensionSearch cwd (render n (l ++ [c])) exts f = Ok r.

Theorem C116_star_refuted :
  siblingExtensionSearch (lit "/") (lit "/x/b") [lit "*"] disk = Err OSError /\ ~ C116_full.
Proof.
  split; [reflexivity|]. intros F.
  assert (Hx : name (lit "x")) by (repeat split; try discriminate; intros H; repeat (destruct H as [H|H]; [discriminate H|]); exact H).
  destruct (F (lit "/") 1 [lit "x"] b_ disk [lit "*"] eq_refl disk_ok) as [r H]; [|discriminate H].
  split; [now left|]. constructor; [exact Hx|]. constructor; [apply short_name; auto|constructor].
Qed.
Print Assumptions C116_star_refuted.

(** The result is a path that exists and that the first extension stands for
    which any existing path stands for; None when there is none. *)
Theorem C116_sibling_partial : forall cwd n l c f exts, prefixb slash cwd = true -> okfs f -> absolute n (l ++ [c]) ->
  (In (lit "*") exts -> dget f l = Some EDir) ->
  let self := render n (l ++ [c]) in
  (exists q e1 ext e2, siblingExtensionSearch cwd self exts f = Ok (Some q) /\ exts = e1 ++ ext :: e2 /\
     found cwd f self ext q /\ dget f (place q) <> None /\ forall e q', In e e1 -> ~ found cwd f self e q') \/
  (siblingExtensionSearch cwd self exts f = Ok None /\ forall e q', In e exts -> ~ found cwd f self e q').
Proof.
  intros cwd n l c f exts Hc Hok Ha Hs self.
  destruct (search_spec cwd Hc f n l c exts Hok Ha Hs) as [(q & e1 & x & e2 & H1 & H2 & H3 & H4)|H]; [left|right; exact H].
  exists q, e1, x, e2. repeat split; auto. exact (found_exists cwd Hc f _ x q H3).
Qed.
Print Assumptions C116_sibling_partial.

Theorem C116_child : forall cwd self paths f, prefixb slash cwd = true ->
  match childSearchPreauth cwd self paths f with
  | Some r => exists a c b, paths = a ++ c :: b /\ path_exists cwd f (joinpath self c) = true /\ r = abspath cwd (joinpath self c) /\
      dget f (place r) <> None /\ forall x, In x a -> path_exists cwd f (joinpath self x) = false
  | None => forall x, In x paths -> path_exists cwd f (joinpath self x) = false
  end.
Proof. intros cwd self paths f Hc. exact (child_search cwd Hc self paths f). Qed.
Print Assumptions C116_child.

(** existence of a normal path is what the file system holds *)
Theorem C116_exists : forall cwd f n cs, prefixb slash cwd = true -> okfs f -> absolute n cs ->
  path_exists cwd f (render n cs) = true <-> dget f cs <> None.
Proof. intros cwd f n cs Hc Hok Ha. exact (exists_render cwd Hc f n cs Hok Ha). Qed.
Print Assumptions C116_exists.

Definition disk2 : fs := disk ++ [([a_; lit "b.x"], EFile [])].

Example C116_nonvacuous :
  siblingExtensionSearch (lit "/") (lit "/a/b") [lit ".y"; lit "*"; lit ""] disk2 = Ok (Some (lit "/a/b.x")) /\
  siblingExtensionSearch (lit "/") (lit "/a/b") [lit ".y"; lit ""] disk2 = Ok (Some (lit "/a/b")) /\
  siblingExtensionSearch (lit "/") (lit "/a/c") [lit ".y"; lit "*"] disk2 = Ok None /\
  childSearchPreauth (lit "/") (lit "/a") [lit "q"; lit "c/../b"; lit "b"] disk2 = Some (lit "/a/b") /\
  childSearchPreauth (lit "/") (lit "/a") [lit "b/../c"; lit "b/"] disk2 = None.
Proof. repeat split; reflexivity. Qed.
