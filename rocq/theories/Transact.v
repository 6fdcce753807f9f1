(** * Commands that run in a transaction (epsilon/juice.py: _Transactor, DispatchMixin)

    A responder acts on a store.  The store is any type; what responders do to it, and
    what decoding and encoding give, are parameters. *)

From Coq Require Import NArith String List Bool Arith Lia.
From Verif Require Import Py PyStr JuiceCodec JuiceDispatch.
Import ListNotations.
Open Scope list_scope.

(** What a Deferred is when it is handed back: fired with an answer, fired with an
    exception, or still to fire. *)
Inductive later (A : Type) := Fired (a : A) | Failed (e : excv) | Pending (d : N).
Arguments Fired {A} _. Arguments Failed {A} _. Arguments Pending {A} _.

(** What a call gives: a value, a Deferred, or an exception *)
Inductive called (A : Type) := Value (a : A) | Later (d : later A) | Raised (e : excv).
Arguments Value {A} _. Arguments Later {A} _. Arguments Raised {A} _.

(** maybeDeferred of Twisted: the function runs; an exception becomes a Deferred *)
Definition maybeDeferred {S A} (f : S -> S * called A) : S -> S * later A := fun s =>
  let (s', r) := f s in (s', match r with Value a => Fired a | Later d => d | Raised e => Failed e end).

(** addCallback and addErrback with functions that run at once if it has fired.  What
    they do once a pending one fires is after the call, and not modelled here: the
    Deferred returned is then pending itself. *)
Definition addCallback {A B} (f : A -> B + excv) (d : later A) : later B :=
  match d with Fired a => match f a with inl b => Fired b | inr e => Failed e end | Failed e => Failed e | Pending n => Pending n end.
Definition addErrback {A} (f : excv -> excv) (d : later A) : later A := match d with Failed e => Failed (f e) | _ => d end.

(** store.transact of Axiom, as its documentation has it: what was done is undone if
    the function raises, and else kept; it returns or raises what the function does *)
Definition transact {S A} (f : S -> S * called A) : S -> S * called A := fun s =>
  let (s', r) := f s in match r with Raised _ => (s, r) | _ => (s', r) end.

Section Dispatching.
  Context {S Box Kw Answer : Type}.
  Variable mro : N -> list N.
  Variable RJE : N.
  Variable remote_text : pv -> pv -> str.

  (** A responder for [command_...] with its command: what stringsToObjects and the
      extra arguments give, what it does, what makeResponse gives of its result; or
      a method [juice_...], which is given the box. *)
  Inductive responder :=
  | Auto (c : command) (decode : Box -> Kw + excv) (run : Kw -> S -> S * called Answer) (makeResponse : Answer -> Box + excv)
  | Plain (run : Box -> S -> S * called Box).

  (** juice.py:214-232 [doit] *)
  Definition doit_with (c : command) (decode : Box -> Kw + excv) (run : Kw -> S -> S * called Answer) (makeResponse : Answer -> Box + excv) (box : Box) : S -> S * called Box := fun s =>
    match decode box with
    | inr e => (s, Raised e)
    | inl kw =>
        let (s', d) := maybeDeferred (run kw) s in
        (s', Later (addErrback (checkKnownErrors mro RJE remote_text c) (addCallback makeResponse d)))
    end.
  Definition fobj_of (r : responder) (box : Box) : S -> S * called Box :=
    match r with Auto c decode run makeResponse => doit_with c decode run makeResponse box | Plain run => run box end.

  (** juice.py:186-192 [_Transactor], 234-241 [_wrap], 266-270 [dispatchCommand]: the
      function found is wrapped; a box is given to it *)
  Definition wrap (transactor : bool) (f : Box -> S -> S * called Box) : Box -> S -> S * called Box :=
    if transactor then fun box => transact (f box) else f.
  Definition dispatch (transactor : bool) (r : responder) (box : Box) : S -> S * later Box := maybeDeferred (wrap transactor (fobj_of r) box).

  (** ** Specification *)

  (** a responder as the protocol sees it: what it does to the store (nothing, when its
      arguments cannot be decoded), whatever becomes of its result *)
  Definition deed (r : responder) (box : Box) (s : S) : S :=
    match r with
    | Auto _ decode run _ => match decode box with inl kw => fst (run kw s) | inr _ => s end
    | Plain run => fst (run box s)
    end.

  (** ** Proofs *)
  Lemma same_answer r box s : snd (dispatch true r box s) = snd (dispatch false r box s).
  Proof.
    unfold dispatch, wrap, transact, maybeDeferred. destruct (fobj_of r box s) as [s' [a|d|e]]; reflexivity.
  Qed.
  Lemma plain_kept run box s : let (s', d) := dispatch true (Plain run) box s in
    match snd (run box s) with Raised e => s' = s /\ d = Failed e | _ => s' = fst (run box s) end.
  Proof. unfold dispatch, maybeDeferred, wrap, transact, fobj_of. now destruct (run box s) as [s' [a|d|e]]. Qed.
  Lemma auto_kept c decode run makeResponse box s : fst (dispatch true (Auto c decode run makeResponse) box s) = deed (Auto c decode run makeResponse) box s.
  Proof.
    unfold dispatch, maybeDeferred at 1, wrap, transact, fobj_of, doit_with, deed. destruct (decode box) as [kw|e]; [|reflexivity]. unfold maybeDeferred. now destruct (run kw s) as [s' r].
  Qed.
  Lemma without r box s : fst (dispatch false r box s) = deed r box s.
  Proof.
    unfold dispatch, maybeDeferred at 1, wrap, fobj_of, doit_with, deed. destruct r as [c decode run mk|run].
    - destruct (decode box) as [kw|e]; [|reflexivity]. unfold maybeDeferred. now destruct (run kw s) as [s' r].
    - now destruct (run box s) as [s' r].
  Qed.
End Dispatching.
Arguments responder S Box Kw Answer : clear implicits.
