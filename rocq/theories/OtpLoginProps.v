(** * C163: what becomes of a one-time pad.  Theorems only; model and proofs in
    OtpLogin.v. *)

From Coq Require Import NArith String List Bool Arith Lia.
From Verif Require Import Py AmpAuth OtpLogin.
Import ListNotations.
Open Scope nat_scope.

(** The full claim (iepsilon.py:22-24): a pad that is registered and has not
    authenticated anybody logs in if the realm has an avatar for it and that can be
    started. *)
Definition C163_full : Prop := forall (A : Type) (pads : dict str A) l i t a,
  NoDup (keys pads) -> nth_error l i = Some t -> dget pads (pad t) = Some a -> realm t = Ok tt -> start t = Ok tt ->
  (forall j u b, j < i -> nth_error l j = Some u -> pad u = pad t -> nth_error (fst (otps pads l)) j <> Some (Ok b)) ->
  nth_error (fst (otps pads l)) i = Some (Ok a).

(** False for every pad: a login that fails in the realm, or as the avatar is started,
    uses the pad up; the next one with it is refused. *)
Theorem C163_used_up_refuted :
  (forall (A : Type) (pads : dict str A) p a e, NoDup (keys pads) -> dget pads p = Some a ->
     fst (otps pads [Try p (Err e) (Ok tt); Try p (Ok tt) (Ok tt)]) = [Err e; Err UnauthorizedLogin] /\
     fst (otps pads [Try p (Ok tt) (Err e); Try p (Ok tt) (Ok tt)]) = [Err e; Err UnauthorizedLogin])
  /\ ~ C163_full.
Proof.
  assert (H : forall (A : Type) (pads : dict str A) p a e, NoDup (keys pads) -> dget pads p = Some a ->
     fst (otps pads [Try p (Err e) (Ok tt); Try p (Ok tt) (Ok tt)]) = [Err e; Err UnauthorizedLogin] /\
     fst (otps pads [Try p (Ok tt) (Err e); Try p (Ok tt) (Ok tt)]) = [Err e; Err UnauthorizedLogin]).
  { intros A pads p a e Hw Ha. cbn [otps]. unfold otp. cbn [pad realm start]. unfold requestAvatarId. rewrite Ha. cbn [rbind].
    assert (N : dget (ddel pads p) p = None) by (apply (dget_ddel_eq); exact Hw). rewrite N. now split. }
  split; [exact H|]. intros F. pose (pads := [(lit "pad", 1)]). assert (Hw : NoDup (keys pads)) by (cbn; constructor; [tauto|constructor]).
  destruct (H nat pads (lit "pad") 1 ValueError Hw eq_refl) as [E _].
  specialize (F nat pads [Try (lit "pad") (Err ValueError) (Ok tt); Try (lit "pad") (Ok tt) (Ok tt)] 1 (Try (lit "pad") (Ok tt) (Ok tt)) 1 Hw eq_refl eq_refl eq_refl eq_refl).
  rewrite E in F. discriminate F. intros [|j] u b Hj; [discriminate|lia].
Qed.
Print Assumptions C163_used_up_refuted.

(** Exactly, for every history of logins: only the first login with a pad can succeed,
    and it does if the realm and the avatar do. *)
Theorem C163_exact_partial : forall (A : Type) (pads : dict str A) l i t,
  NoDup (keys pads) -> nth_error l i = Some t ->
  nth_error (fst (otps pads l)) i =
    Some (if memb (pad t) (map pad (firstn i l)) then Err UnauthorizedLogin
          else match dget pads (pad t) with
               | None => Err UnauthorizedLogin
               | Some a => match realm t, start t with Ok _, Ok _ => Ok a | Err e, _ => Err e | Ok _, Err e => Err e end
               end).
Proof. exact @otp_exact. Qed.
Print Assumptions C163_exact_partial.

(** Registered stay exactly the pads nobody tried. *)
Theorem C163_left_partial : forall (A : Type) (pads : dict str A) l q, NoDup (keys pads) ->
  dget (snd (otps pads l)) q = if memb q (map pad l) then None else dget pads q.
Proof. exact @otp_left. Qed.
Print Assumptions C163_left_partial.

Example C163_nonvacuous : let pads := [(lit "a", 1); (lit "b", 2); (lit "c", 3)] in
  NoDup (keys pads) /\
  otps pads [Try (lit "a") (Ok tt) (Ok tt); Try (lit "b") (Err ValueError) (Ok tt); Try (lit "x") (Ok tt) (Ok tt); Try (lit "a") (Ok tt) (Ok tt); Try (lit "b") (Ok tt) (Ok tt)]
  = ([Ok 1; Err ValueError; Err UnauthorizedLogin; Err UnauthorizedLogin; Err UnauthorizedLogin], [(lit "c", 3)]).
Proof.
  cbv zeta. split; [|reflexivity]. cbn. repeat (constructor; [cbn; intuition discriminate|]). constructor.
Qed.
