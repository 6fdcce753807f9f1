(** * FilePath of epsilon/hotfixes/filepath_copyTo.py: comparison, and
      StringTransport.write of epsilon/hotfixes/proto_helpers_stringtransport.py *)

From Coq Require Import NArith String List Bool Arith Lia.
From Verif Require Import Py PyStr PySplit FilePath FileTree FileStat.
Import ListNotations.
Open Scope list_scope.

(** An object with a path; the number is its identity.  FilePath is a class of the old
    style under Python 2. *)
Record fpath := FPath { fp_id : N; fp_path : str }.
(** another object of any other type *)
Inductive object := OPath (p : fpath) | OOther (id : N).
Definition id_of (o : object) : N := match o with OPath p => fp_id p | OOther i => i end.

Inductive ordering := Less | Equal | Greater.
(** cmp() of Python 2 *)
Definition cmp (a b : str) : ordering := if str_ltb a b then Less else if str_ltb b a then Greater else Equal.

(** filepath_copyTo.py:291-294 *)
Definition __cmp__ (self : fpath) (other : object) : option ordering :=
  match other with OPath q => Some (cmp (fp_path self) (fp_path q)) | OOther _ => None end.

Section Operators.
  (** Python 3 does not use __cmp__: == is identity, and < raises *)
  Variable py3 : bool.
  (** Python 2: where __cmp__ says NotImplemented the identities decide for == *)
  Definition equals (self : fpath) (other : object) : bool :=
    if py3 then (fp_id self =? id_of other)%N
    else match __cmp__ self other with Some Equal => true | Some _ => false | None => (fp_id self =? id_of other)%N end.
  Definition less (self q : fpath) : res bool :=
    if py3 then Err TypeError else Ok (match __cmp__ self (OPath q) with Some Less => true | _ => false end).
  (** hash(): a class of the old style that defines __cmp__ but not __hash__ has none;
      under Python 3 it is by identity *)
  Definition hash (self : fpath) : res N := if py3 then Ok (fp_id self) else Err TypeError.
End Operators.

(** ** StringTransport.write *)

(** NameError *)
Definition NameError : exn := OtherExn 41.
(** what is written *)
Inductive data := Bytes (b : list N) | Unicode (s : str).
(** proto_helpers_stringtransport.py:5-8.  [unicode] is no name under Python 3. *)
Definition string_write (py3 : bool) (d : data) (io : list N) : list N * res unit :=
  if py3 then (io, Err NameError)
  else match d with Unicode _ => (io, Err TypeError) | Bytes b => (io ++ b, Ok tt) end.
(** any number of calls, each seen to return or to raise *)
Fixpoint string_writes (py3 : bool) (ds : list data) (io : list N) : list N * list (res unit) :=
  match ds with
  | [] => (io, [])
  | d :: ds' => let (io1, r) := string_write py3 d io in let (io2, rs) := string_writes py3 ds' io1 in (io2, r :: rs)
  end.

(** ** Specification *)
Definition bytes_of (d : data) : list N := match d with Bytes b => b | Unicode _ => [] end.

(** ** Proofs *)

Lemma filePath_target n wd s : absolute n wd -> filePath (render n wd) s = render (fst (target n wd s)) (snd (target n wd s)).
Proof.
  intros Ha. unfold filePath, abspath, target. destruct (prefixb slash s) eqn:E; cbn [fst snd]; [now apply normpath_abs|now apply join_norm].
Qed.
Lemma render_inj n cs m ds : absolute n cs -> absolute m ds -> render n cs = render m ds -> n = m /\ cs = ds.
Proof.
  intros Ha Hb E. assert (P : cs = ds) by (rewrite <- (place_render n cs Ha), <- (place_render m ds Hb); now rewrite E). subst ds. split; [|reflexivity].
  unfold render in E. apply app_inv_tail in E. apply (f_equal (@List.length N)) in E. now rewrite !repeat_length in E.
Qed.
Lemma cmp_equal a b : cmp a b = Equal <-> a = b.
Proof. unfold cmp. destruct (str_trichotomy a b) as [(H1 & H2 & H3)|[(H1 & H2 & H3)|(H1 & H2 & H3)]]; rewrite H1; try rewrite H3; split; congruence. Qed.
Lemma cmp_less a b : cmp a b = Less <-> str_ltb a b = true.
Proof. unfold cmp. destruct (str_trichotomy a b) as [(H1 & H2 & H3)|[(H1 & H2 & H3)|(H1 & H2 & H3)]]; rewrite H1; try rewrite H3; split; congruence. Qed.

Lemma writes_py2 ds : forall io, string_writes false ds io = (io ++ flat_map bytes_of ds, map (fun d => match d with Bytes _ => Ok tt | Unicode _ => Err TypeError end) ds).
Proof.
  induction ds as [|d ds IH]; intros io; [cbn; now rewrite app_nil_r|]. cbn [string_writes string_write]. destruct d; cbn [flat_map bytes_of map app]; rewrite IH; [now rewrite <- app_assoc|reflexivity].
Qed.
Lemma writes_py3 ds : forall io, string_writes true ds io = (io, map (fun _ => Err NameError) ds).
Proof. induction ds as [|d ds IH]; intros io; [reflexivity|]. cbn [string_writes string_write]. now rewrite IH. Qed.
