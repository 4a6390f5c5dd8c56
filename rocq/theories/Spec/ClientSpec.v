(** Specification of the client side of user authentication (C51). *)

From Coq Require Import NArith List Bool String.
From Verif.Base Require Import Bytes.
From Verif.Spec Require Import WireSpec.
From Verif.Model Require Import AuthClient.
Import ListNotations.
Open Scope N_scope.

(** Everything but packets which are left to the layer below, or forwarded. *)
Definition milestone (e : cevent) : bool := match e with CTransport _ | CRelay _ => false | _ => true end.
Definition milestones (l : list cevent) : list cevent := filter milestone l.

(** The steps of a successful authentication. *)
Definition steps : list cevent := [CSendServiceRequest; CSendRequest; CAuthenticated].

(** [happened [p; q; ...] ops]: [ops] contains operations with these
    properties, in this order. *)
Fixpoint happened (l : list (cop -> Prop)) (ops : list cop) : Prop :=
  match l with
  | [] => True
  | p :: l => exists a op b, ops = a ++ op :: b /\ p op /\ happened l b
  end.

Definition encrypted (op : cop) : Prop := op = COEncrypted.
(** RFC 4253 section 10 *)
Definition service_accepted (op : cop) : Prop :=
  op = COPacket true 6 (enc [FString (bs "ssh-userauth")]).
(** RFC 4252 section 5.1 *)
Definition success (op : cop) : Prop := exists k payload, op = COPacket k 52 payload.

(** RFC 4254: the messages of the connection protocol; they make no sense
    before authentication. *)
Definition connection_message (msg : N) : Prop := 80 <= msg <= 82 \/ 90 <= msg <= 100.

Definition cop_ok (op : cop) : Prop := match op with COPacket _ _ payload => bytes_ok payload | _ => True end.
