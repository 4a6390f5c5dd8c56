(** Specification of network connections made for clients (C70): what a client
    can ask for. *)

From Coq Require Import NArith List Bool String.
From Verif.Base Require Import Bytes.
From Verif.Spec Require Import WireSpec.
From Verif.Model Require Import Auth Server Network.
Import ListNotations.
Open Scope N_scope.

(** RFC 4254 7.2: CHANNEL_OPEN "direct-tcpip" with host to connect, port to
    connect, originator address, originator port *)
Definition asks_connect (op : vop) (host : bytes) (port : N) : Prop :=
  exists env peer window max originator oport, op = OPacket 90 (enc [FString (bs "direct-tcpip"); FU32 peer; FU32 window; FU32 max;
    FString host; FU32 port; FString originator; FU32 oport]) env.

(** CHANNEL_OPEN "direct-streamlocal@openssh.com" with the path and reserved
    fields *)
Definition asks_local (op : vop) (path : bytes) : Prop :=
  exists env peer window max reserved, op = OPacket 90 (enc [FString (bs "direct-streamlocal@openssh.com"); FU32 peer; FU32 window; FU32 max;
    FString path; FRaw reserved]) env.

(** RFC 4254 7.1: GLOBAL_REQUEST "tcpip-forward" with address to bind, port to
    bind *)
Definition asks_bind (op : vop) (address : bytes) (port : N) : Prop :=
  exists env want, op = OPacket 80 (enc [FString (bs "tcpip-forward"); FByte want; FString address; FU32 port]) env.

(** RFC 4254 7.1: "localhost" is the loopback interface, the empty string all
    interfaces. *)
Definition bind_means (address : bytes) (t : bind_target) : Prop :=
  (address = bs "localhost" /\ t = BLoopback) \/ (address = [] /\ t = BAll) \/
  (address <> bs "localhost" /\ address <> [] /\ t = BHost address).

(** A call does what the packet asked for. *)
Definition serves (op : vop) (c : netcall) : Prop :=
  match c with
  | NHelperConnect _ host port | NOwnConnect host port => asks_connect op host port
  | NHelperBind _ t port | NOwnBind t port => exists address, asks_bind op address port /\ bind_means address t
  | NHelperLocal _ path => asks_local op path
  end.

(** ... after everything behind a null byte has been dropped. *)
Definition until_null (whole part : bytes) : Prop :=
  ~ In 0 part /\ (whole = part \/ exists rest, whole = part ++ 0 :: rest).
Definition serves_cut (op : vop) (c : netcall) : Prop :=
  match c with
  | NHelperConnect _ host port => exists whole, asks_connect op whole port /\ until_null whole host
  | NHelperBind _ t port => exists whole address, asks_bind op whole port /\ until_null whole address /\ bind_means address t
  | NHelperLocal _ path => exists whole, asks_local op whole /\ until_null whole path
  | NOwnConnect _ _ | NOwnBind _ _ => serves op c
  end.

Definition mentions_null (op : vop) : Prop :=
  exists x port, (asks_connect op x port \/ asks_local op x \/ asks_bind op x port) /\ In 0 x.

Definition tcp_call (c : netcall) : Prop :=
  match c with NHelperLocal _ _ => False | _ => True end.

(** by whom *)
Definition runs_as (c : netcall) (i : identity) : Prop :=
  match c with
  | NHelperConnect j _ _ | NHelperBind j _ _ | NHelperLocal j _ => j = i
  | NOwnConnect _ _ | NOwnBind _ _ => False
  end.

(** ** Listeners (C71) *)

(** GLOBAL_REQUEST "cancel-tcpip-forward" *)
Definition asks_cancel (op : vop) (x : bytes * N) : Prop :=
  exists env want, op = OPacket 80 (enc [FString (bs "cancel-tcpip-forward"); FByte want; FString (fst x); FU32 (snd x)]) env.

(** The client has asked for a listener, it was bound, and the client has not
    cancelled it since. *)
Definition bound_since (ops : list vop) (x : bytes * N) : Prop :=
  exists pre post, ops = pre ++ OBound x true :: post /\
    (exists op, In op pre /\ asks_bind op (fst x) (snd x)) /\
    forall op, In op post -> ~ asks_cancel op x.
