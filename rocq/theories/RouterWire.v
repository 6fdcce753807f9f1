(** * epsilon/amprouter.py over Twisted's AMP connection, on Python 3

    The router's users are on both sides of an AMP connection, whose boxes have [bytes] for
    their keys and values; the router's own key and its names are [str].  AmpRouter.v has
    one type for both (as it is on Python 2); here they are told apart. *)
From Coq Require Import NArith String List Bool Arith Lia.
From Verif Require Import Py PyStr PyNum AmpRouter.
Import ListNotations.
Open Scope nat_scope.

(** A key or a value: [str] or [bytes].  On Python 3 no [str] equals any [bytes]. *)
Inductive word := Text (s : str) | Bytes (s : str).
Definition word_eqb (a b : word) : bool :=
  match a, b with Text x, Text y => eqb x y | Bytes x, Bytes y => eqb x y | _, _ => false end.
Lemma word_eqb_spec a b : reflect (a = b) (word_eqb a b).
Proof. destruct a as [x|x], b as [y|y]; cbn [word_eqb]; try (constructor; discriminate); (destruct (eqb_spec x y) as [->|N]; constructor; [reflexivity|congruence]). Qed.
#[global] Instance EqB_word : EqB word := {| eqb := word_eqb; eqb_spec := word_eqb_spec |}.

Definition wbox := dict word word.

(** amprouter.py:17: a [str] literal *)
Definition WROUTE : word := Text (lit "_route").

(** What the calls do beyond the router. *)
Inductive wevent :=
| WWrite (sn : nat) (items : list (str * str))   (* the connection writes a box with these bytes *)
| WBox (recv : nat) (b : wbox).                  (* recv.ampBoxReceived(box) *)

Definition TooLong : exn := OtherExn 7.
Definition is_text (w : word) : bool := match w with Text _ => true | Bytes _ => false end.
Definition word_bytes (w : word) : str := match w with Text s | Bytes s => s end.
Definition too_long (p : word * word) : bool :=
  Nat.ltb 255 (length (word_bytes (fst p))) || N.ltb 65535 (N.of_nat (length (word_bytes (snd p)))).

(** Twisted (not in this repository; its documented behaviour): [AmpBox.serialize] raises
    TypeError if a key or value is text and TooLong if a key is longer than 255 bytes or a
    value longer than 65535; else the box is the list of its items.  Simplifications: the
    items are in the box's order (AMP sorts them; the peer's box is the same dictionary),
    and a box with both faults raises the first of these errors. *)
Definition serialize (b : wbox) : res (list (str * str)) :=
  if existsb is_text (keys b) || existsb is_text (values b) then Err TypeError
  else if existsb too_long b then Err TooLong
  else Ok (map (fun p => (word_bytes (fst p), word_bytes (snd p))) b).
(** Twisted: the parsed box has bytes for its keys and values. *)
Definition parse (items : list (str * str)) : wbox := map (fun p => (Bytes (fst p), Bytes (snd p))) items.

(** amprouter.py:85-93 [Route.sendBox], with the connection as the sender: the result, the
    box as the caller finds it afterwards, and what is written. *)
Definition wsend (s : rstate) (r : route) (b : wbox) : res ret * wbox * list wevent :=
  match r_remote r with
  | None => (Err RouteNotConnected, b, [])
  | Some rem =>
      let b' := match rem with Some n => dset b WROUTE (Text n) | None => b end in
      match sender s with
      | None => (Err AttributeError, b', [])
      | Some sn => match serialize b' with
                   | Ok items => (Ok RNone, b', [WWrite sn items])
                   | Err e => (Err e, b', [])
                   end
      end
  end.

(** amprouter.py:183-189 [Router.ampBoxReceived].  A value of the wrong type as the route
    ([Bytes] under the text key, which only a local caller can make) is no route's name. *)
Definition wreceive (s : rstate) (b : wbox) : res ret * list wevent :=
  let rt := dget b WROUTE in
  let b' := ddel b WROUTE in
  match started s with
  | None => (Err TypeError, [])
  | Some d =>
      match (match rt with None => dget d None | Some (Text n) => dget d (Some n) | Some (Bytes _) => None end) with
      | None => (Err KeyError, [])
      | Some rid => match nth_error (routes_made s) rid with
                    | None => (Err (OtherExn 0), [])      (* excluded by the invariant *)
                    | Some r => (Ok RNone, [WBox (r_recv r) b'])
                    end
      end
  end.

(** ** Specification *)
(** a box of an AMP connection: nothing but bytes, none of it too long *)
Definition amp_box (b : wbox) : Prop :=
  wf_dict b /\ Forall (fun p => exists k v, p = (Bytes k, Bytes v) /\ length k <= 255 /\ (N.of_nat (length v) <= 65535)%N) b.

(** ** Proofs *)
Lemma amp_box_serialize b : amp_box b -> exists items, serialize b = Ok items /\ parse items = b.
Proof.
  intros [_ F]. unfold serialize.
  assert (K : existsb is_text (keys b) = false).
  { clear - F. induction F as [|p l (k & v & -> & _) _ IH]; [reflexivity|]. exact IH. }
  assert (V : existsb is_text (values b) = false).
  { clear - F. induction F as [|p l (k & v & -> & _) _ IH]; [reflexivity|]. exact IH. }
  assert (T : existsb too_long b = false).
  { clear - F. induction F as [|p l (k & v & -> & H1 & H2) _ IH]; [reflexivity|]. cbn [existsb]. rewrite IH. unfold too_long. cbn [fst snd word_bytes].
    rewrite (proj2 (Nat.ltb_ge 255 (length k)) H1), (proj2 (N.ltb_ge 65535 _) H2). reflexivity. }
  rewrite K, V, T. eexists. split; [reflexivity|]. clear - F. induction F as [|p l (k & v & -> & _) _ IH]; [reflexivity|]. cbn. f_equal. exact IH.
Qed.

Lemma text_in_keys (b : wbox) v : existsb is_text (keys (dset b WROUTE v)) = true.
Proof.
  apply existsb_exists. exists WROUTE. split; [|reflexivity]. pose proof (dget_dset_eq b WROUTE v) as H. revert H.
  generalize (dset b WROUTE v). intros w. induction w as [|[k x] l IH]; [discriminate|]. cbn [dget keys map fst].
  destruct (eqb_spec WROUTE k) as [<-|D]; [now left|]. intros H. right. apply IH, H.
Qed.
Lemma serialize_named b v : serialize (dset b WROUTE v) = Err TypeError.
Proof. unfold serialize. now rewrite text_in_keys. Qed.

Lemma parse_no_route items : dget (parse items) WROUTE = None.
Proof. induction items as [|[k v] l IH]; [reflexivity|]. cbn. exact IH. Qed.
Lemma parse_ddel items : ddel (parse items) WROUTE = parse items.
Proof. induction items as [|[k v] l IH]; [reflexivity|]. cbn. f_equal. exact IH. Qed.

Lemma wsend_spec h s rid recv nm b r : Reach h s -> route_info h rid = Some (recv, nm) -> nth_error (routes_made s) rid = Some r ->
  wsend s r b = match remote_of h rid with
                | None => (Err RouteNotConnected, b, [])
                | Some rem => let b' := match rem with Some n => dset b WROUTE (Text n) | None => b end in
                    match sender_of h with
                    | None => (Err AttributeError, b', [])
                    | Some sn => match rem with
                                 | Some _ => (Err TypeError, b', [])
                                 | None => match serialize b with Ok items => (Ok RNone, b, [WWrite sn items]) | Err e => (Err e, b, []) end
                                 end
                    end
                end.
Proof.
  intros R Hi Hr. pose proof (reach_inv _ _ R) as I. destruct (inv_info _ _ I rid) as [[A _]|(r' & A & _ & B)]; [congruence|]. assert (r' = r) by congruence. subst r'.
  unfold wsend. rewrite B, (inv_sender _ _ I). destruct (remote_of h rid) as [[n|]|]; [|reflexivity|reflexivity]. cbv zeta. destruct (sender_of h); [|reflexivity]. now rewrite serialize_named.
Qed.

Lemma wreceive_spec h s items : Reach h s ->
  wreceive s (parse items) =
    (if running h then
       match bound h None with
       | Some rid => match route_info h rid with Some (recv, _) => (Ok RNone, [WBox recv (parse items)]) | None => (Ok RNone, []) end
       | None => (Err KeyError, [])
       end
     else (Err TypeError, [])).
Proof.
  intros R. pose proof (reach_inv _ _ R) as I. unfold wreceive. rewrite parse_no_route, parse_ddel. destruct (started s) as [d|] eqn:S.
  - destruct (running h) eqn:Rn; [|apply (inv_started _ _ I) in Rn; congruence]. destruct (inv_table _ _ I d) as (_ & T1 & T2 & _); [unfold table; now rewrite S|]. rewrite T1. destruct (bound h None) as [rid|] eqn:B; [|reflexivity].
    destruct (T2 _ _ B) as (r & E & _). rewrite E. destruct (inv_info _ _ I rid) as [[A _]|(r' & A & C & _)]; [congruence|]. assert (r' = r) by congruence. subst r'. now rewrite C.
  - rewrite (proj1 (inv_started _ _ I) S). reflexivity.
Qed.
