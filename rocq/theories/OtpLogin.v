(** * epsilon/ampauth.py, iepsilon.py: what becomes of a one-time pad *)

From Coq Require Import NArith String List Bool Arith Lia.
From Verif Require Import Py AmpAuth.
Import ListNotations.
Open Scope nat_scope.

(** One OTPLogin, on any connection to servers with one checker (ampauth.py:213-218
    [otpLogin], 189-201 [_login]): Portal.login of Twisted's asks the checker for the
    avatar id at once (ampauth.py:244-247) and then the realm for an avatar; the realm's
    answer may come later, which makes no difference here, and the avatar is started.
    [realm], [start]: how these two end. *)
Record try_ := Try { pad : str; realm : res unit; start : res unit }.

Definition otp {A} (pads : dict str A) (t : try_) : res A * dict str A :=
  match requestAvatarId pads (pad t) with
  | (Err e, pads') => (Err e, pads')
  | (Ok a, pads') => (rbind (realm t) (fun _ => rbind (start t) (fun _ => Ok a)), pads')
  end.

Fixpoint otps {A} (pads : dict str A) (l : list try_) : list (res A) * dict str A :=
  match l with
  | [] => ([], pads)
  | t :: r => let '(x, pads1) := otp pads t in let '(xs, pads2) := otps pads1 r in (x :: xs, pads2)
  end.

(** ** Proofs *)

Lemma otps_attempts {A} l : forall (pads : dict str A),
  fst (otps pads l) = map (fun tx => match snd tx with Err e => Err e | Ok a => rbind (realm (fst tx)) (fun _ => rbind (start (fst tx)) (fun _ => Ok a)) end)
                          (combine l (fst (attempts pads (map pad l)))) /\
  snd (otps pads l) = snd (attempts pads (map pad l)) /\ length (fst (attempts pads (map pad l))) = length l.
Proof.
  induction l as [|t l IH]; intros pads; [now repeat split|]. cbn [otps map attempts]. unfold otp. destruct (requestAvatarId pads (pad t)) as [r pads1].
  specialize (IH pads1). destruct (attempts pads1 (map pad l)) as [rs pads2]. destruct IH as (I1 & I2 & I3).
  destruct r as [a|e]; destruct (otps pads1 l) as [xs pads3]; cbn [fst snd combine map length] in *; now rewrite I1, I2, I3.
Qed.

Theorem otp_exact {A} (pads : dict str A) l i t : NoDup (keys pads) -> nth_error l i = Some t ->
  nth_error (fst (otps pads l)) i =
    Some (if memb (pad t) (map pad (firstn i l)) then Err UnauthorizedLogin
          else match dget pads (pad t) with
               | None => Err UnauthorizedLogin
               | Some a => match realm t, start t with Ok _, Ok _ => Ok a | Err e, _ => Err e | Ok _, Err e => Err e end
               end).
Proof.
  intros Hw Ht. destruct (otps_attempts l pads) as (E & _ & L). rewrite E. clear E.
  assert (Hp : nth_error (map pad l) i = Some (pad t)) by (rewrite nth_error_map, Ht; reflexivity).
  pose proof (pad_answers _ _ Hw Hp) as R.
  assert (C : forall (rs : list (res A)) x, length rs = length l -> nth_error rs i = Some x -> nth_error (combine l rs) i = Some (t, x)).
  { clear - Ht. revert i Ht. induction l as [|y l IH]; intros [|i] Ht [|r rs] x Lr R; try discriminate; cbn in *.
    - injection Ht as ->. now injection R as ->.
    - eapply IH; eauto. }
  rewrite nth_error_map, (C _ _ L R). cbn [option_map fst snd]. rewrite <- firstn_map. destruct (dget pads (pad t)); [|now destruct (memb (pad t) (firstn i (map pad l)))]. destruct (memb (pad t) (firstn i (map pad l))); [reflexivity|].
  destruct (realm t) as [[]|]; cbn [rbind]; [|reflexivity]. now destruct (start t) as [[]|].
Qed.

(** the pads left: those nobody tried *)
Theorem otp_left {A} (pads : dict str A) l q : NoDup (keys pads) ->
  dget (snd (otps pads l)) q = if memb q (map pad l) then None else dget pads q.
Proof. intros Hw. destruct (otps_attempts l pads) as (_ & -> & _). now apply pads_left. Qed.
