(** * epsilon/hotfixes/delayedcall_seconds.py: the text of a DelayedCall, and its order *)

From Coq Require Import ZArith NArith String List Bool Arith Lia ZifyBool.
From Verif Require Import Py PyStr Delayed.
Import ListNotations.
Open Scope list_scope.

(** The function that is to be called: its attributes [func_name] and the name of its
    [im_class], if it has them (functions and methods of Python 2 do; those of Python 3
    do not). *)
Record func := Func { f_object : N; func_name : option str; im_class : option str }.
(** what cancel deletes *)
Record work := Work { w_func : func; w_args : list N; w_kw : list (str * N) }.
(** delayedcall_seconds.py:19-27: the attributes of a call; [creator] is there only if
    debug was set when the call was made *)
Record dcall := DCall { d_call : call; d_work : option work; d_str : option str; d_creator : option (list str) }.

Section Text.
  Variable py3 : bool.
  (** texts of numbers and of objects (reflect.safe_repr never raises), id() *)
  Variable show : Z -> str.
  Variable safe_repr : N -> str.
  Variable id_text : str.

  Definition trace_head : str := [10%N; 10%N] ++ lit "traceback at creation: " ++ [10%N; 10%N].
  Definition flag (b : bool) : str := if b then lit "1" else lit "0".

  (** delayedcall_seconds.py:122-130 *)
  Definition func_text (w : option work) : option str :=
    match w with
    | None => None
    | Some w =>
        match func_name (w_func w) with
        | Some n => match im_class (w_func w) with Some k => Some (k ++ lit "." ++ n) | None => Some n end
        | None => Some (safe_repr (f_object (w_func w)))
        end
    end.
  Definition pair_text (kv : str * N) : str := fst kv ++ lit "=" ++ safe_repr (snd kv).
  (** delayedcall_seconds.py:138-146.  There is no [iteritems] under Python 3. *)
  Definition args_text (w : work) : res str :=
    let a := match w_args w with [] => [] | l => join (lit ", ") (map safe_repr l) ++ match w_kw w with [] => [] | _ => lit ", " end end in
    match w_kw w with
    | [] => Ok a
    | kw => if py3 then Err AttributeError else Ok (a ++ join (lit ", ") (map pair_text kw))
    end.
  (** delayedcall_seconds.py:119-152; [now] is what the seconds function returns *)
  Definition to_str (debug : bool) (now : Z) (d : dcall) : res str :=
    match d_str d with
    | Some s => Ok s
    | None =>
        let c := d_call d in
        let head := lit "<DelayedCall " ++ id_text ++ lit " [" ++ show (c_time c - now) ++ lit "s] called=" ++ flag (c_called c) ++ lit " cancelled=" ++ flag (c_cancelled c) in
        rbind (match func_text (d_work d), d_work d with
               | Some f, Some w => rbind (args_text w) (fun a => Ok (lit " " ++ f ++ lit "(" ++ a ++ lit ")"))
               | _, _ => Ok []
               end) (fun middle =>
        rbind (if debug then match d_creator d with
                             | Some l => Ok (trace_head ++ join (lit "    ") l)
                             | None => Err AttributeError
                             end
               else Ok []) (fun tail => Ok (head ++ middle ++ tail ++ lit ">")))
    end.

  (** delayedcall_seconds.py:38-55 [cancel], of a call in the reactor: [_str] is made
      while [func] is still there, and [cancelled] is set before *)
  Definition cancel_str (debug : bool) (now : Z) (d : dcall) : dcall * res unit :=
    let c := d_call d in
    if c_cancelled c then (d, Err AlreadyCancelled)
    else if c_called c then (d, Err AlreadyCalled)
    else
      let d1 := DCall (Call (c_time c) (c_delayed c) true (c_called c)) (d_work d) (d_str d) (d_creator d) in
      if debug then
        match to_str debug now d1 with
        | Ok s => (DCall (d_call d1) None (Some s) (d_creator d), Ok tt)
        | Err e => (d1, Err e)
        end
      else (DCall (d_call d1) None (d_str d) (d_creator d), Ok tt).
End Text.

(** delayedcall_seconds.py:116-117 *)
Definition le (a b : call) : bool := (c_time a <=? c_time b)%Z.
(** what heapq asks of two elements: [a < b], for which there is no method; heapq of
    Python 2 asks [not b <= a] where there is no [__lt__] *)
Definition heap_lt (py3 : bool) (a b : call) : res bool := if py3 then Err TypeError else Ok (negb (le b a)).

(** ** Specification *)

(** how a call is written: the function's name, and its arguments *)
Definition call_text (safe_repr : N -> str) (w : work) (name : str) : str :=
  name ++ lit "(" ++ join (lit ", ") (map safe_repr (w_args w) ++ map (fun kv => fst kv ++ lit "=" ++ safe_repr (snd kv)) (w_kw w)) ++ lit ")".
Definition name_of (safe_repr : N -> str) (f : func) : str :=
  match func_name f, im_class f with
  | Some n, Some k => k ++ lit "." ++ n
  | Some n, None => n
  | None, _ => safe_repr (f_object f)
  end.

(** ** Proofs *)
Lemma join_app sep (a b : list str) : a <> [] -> b <> [] -> join sep (a ++ b) = join sep a ++ sep ++ join sep b.
Proof.
  induction a as [|x a IH]; [congruence|]. intros _ Hb. destruct a as [|y a].
  - destruct b; [congruence|reflexivity].
  - change (join sep ((x :: y :: a) ++ b)) with (x ++ sep ++ join sep ((y :: a) ++ b)). rewrite IH by (auto; discriminate). change (join sep (x :: y :: a)) with (x ++ sep ++ join sep (y :: a)). now rewrite <- !app_assoc.
Qed.
Lemma args_text_ok py3 sr w : py3 = false \/ w_kw w = [] ->
  args_text py3 sr w = Ok (join (lit ", ") (map sr (w_args w) ++ map (fun kv => fst kv ++ lit "=" ++ sr (snd kv)) (w_kw w))).
Proof.
  intros H. unfold args_text. destruct w as [f a k]; cbn [w_args w_kw] in *. destruct k as [|kv k].
  - cbn [map]. rewrite app_nil_r. destruct a; [reflexivity|now rewrite app_nil_r].
  - destruct H as [->|H]; [|discriminate]. destruct a as [|x a]; [reflexivity|]. f_equal. rewrite join_app by discriminate. now rewrite <- app_assoc.
Qed.
Lemma args_text_bad sr w : w_kw w <> [] -> args_text true sr w = Err AttributeError.
Proof. intros H. unfold args_text. destruct (w_kw w); [congruence|reflexivity]. Qed.
Lemma func_text_name sr w : func_text sr (Some w) = Some (name_of sr (w_func w)).
Proof. unfold func_text, name_of. destruct (func_name (w_func w)); [destruct (im_class (w_func w))|]; reflexivity. Qed.
