(** * C182: who is at the other end cannot be forged by what it sends
    (epsilon/juice.py:210-232, 546-572, 677-680) *)

From Coq Require Import NArith String List Bool.
From Verif Require Import Py JuiceArgs JuiceExtra.
Import ListNotations.

(** Whatever the box holds, if the responder is called: its keywords are the declared
    arguments and extra arguments; an extra argument has the value the transport gives,
    even under the name of an argument; any other argument is read from the box. *)
Theorem C182_responder : forall args extras t box kw, called_with args extras t box = Ok kw ->
  (forall n, In n (keys kw) <-> In n (map arg_name args) \/ In n (map fst extras)) /\
  (forall n x, declares extras n x -> exists v, says t x v /\ dget kw n = Some v) /\
  (NoDup (map arg_name args) -> forall n opt dec, In (n, opt, dec) args -> ~ In n (map fst extras) ->
     (opt = true /\ dget box n = None /\ dget kw n = Some (KArg VNone)) \/
     exists s v, dget box n = Some s /\ dec (VText s) = Ok v /\ dget kw n = Some (KArg v)).
Proof. exact extra_args. Qed.
Print Assumptions C182_responder.

(** The caller's answer, likewise. *)
Theorem C182_answer : forall resp extras t box objs, answered_with resp extras t box = Ok objs ->
  (forall n, In n (keys objs) <-> In n (map arg_name resp) \/ In n (map fst extras)) /\
  (forall n x, declares extras n x -> exists v, says t x v /\ dget objs n = Some v) /\
  (NoDup (map arg_name resp) -> forall n opt dec, In (n, opt, dec) resp -> ~ In n (map fst extras) ->
     (opt = true /\ dget box n = None /\ dget objs n = Some (KArg VNone)) \/
     exists s v, dget box n = Some s /\ dec (VText s) = Ok v /\ dget objs n = Some (KArg v)).
Proof. exact extra_args. Qed.
Print Assumptions C182_answer.

(** What the box holds under other names has no effect at all. *)
Theorem C182_ignored : forall args extras t box box', wf_dict box -> wf_dict box' ->
  (forall n, In n (map arg_name args) -> dget box n = dget box' n) ->
  called_with args extras t box = called_with args extras t box' /\
  answered_with args extras t box = answered_with args extras t box'.
Proof. intros args extras t box box' H H' E. split; exact (extra_box args extras t box box' H H' E). Qed.
Print Assumptions C182_ignored.

(** The responder is called if and only if the arguments can be read and the transport
    knows all that is asked of it: on a transport that does not say who the peer is, no
    box reaches a responder that asks. *)
Theorem C182_called : forall args extras t box, (exists kw, called_with args extras t box = Ok kw) <->
  (exists objs, stringsToObjects args (vtexts box) = Ok objs) /\ (forall n x, In (n, x) extras -> exists v, says t x v).
Proof. exact extra_called. Qed.
Print Assumptions C182_called.

(** A box that claims to be from root, under the name of an extra argument and under that of
    an argument that is also an extra one. *)
Example C182_nonvacuous :
  let t := Transport (Ok (Addr (lit "example.com") (lit "alice"))) (Ok (Addr (lit "example.org") (lit "srv"))) in
  let args := [(lit "user", false, fun v => Ok v); (lit "x", false, fun v => Ok v); (lit "y", true, fun v => Ok v)] in
  let extras := [(lit "user", XPeerUser); (lit "host", XHost)] in
  called_with args extras t [(lit "host", lit "root"); (lit "x", lit "1"); (lit "user", lit "root")] =
    Ok [(lit "user", KText (lit "alice")); (lit "x", KArg (VText (lit "1"))); (lit "y", KArg VNone); (lit "host", KAddr (Addr (lit "example.org") (lit "srv")))] /\
  called_with args extras (Transport (Err AttributeError) (getQ2QHost t)) [(lit "user", lit "root"); (lit "x", lit "1")] = Err AttributeError.
Proof. vm_compute. split; reflexivity. Qed.
