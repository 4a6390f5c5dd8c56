(** What the proxy is supposed to relay, independently of its implementation. *)

From Coq Require Import NArith List Bool.
From Verif.Base Require Import Bytes.
From Verif.Model Require Import Relay.
Import ListNotations.
Open Scope N_scope.

(** The messages of the connection protocol (RFC 4254 section 9): 80 to 82
    and 90 to 100. *)
Definition connection_layer (m : N) : bool :=
  ((80 <=? m) && (m <=? 82)) || ((90 <=? m) && (m <=? 100)).

Definition is_relayed (p : bytes) : bool := match p with m :: _ => connection_layer m | [] => false end.

Definition same_side (x y : side) : bool :=
  match x, y with Client, Client => true | Target, Target => true | _, _ => false end.

(** All packets which side [x] has received from its socket, in order.
    Nothing is received while the socket is not being read. *)
Fixpoint arrivals (x : side) (ops : list rop) (r : relay) : list bytes :=
  match ops with
  | [] => []
  | op :: t =>
      match op with
      | RReceive y l => if same_side x y && rl_alive r && ep_reading (get y r) then l else []
      | _ => []
      end ++ arrivals x t (rstep op r)
  end.

(** What has been given to the other connection for sending, in order. *)
Definition passed_on (x : side) (r : relay) : list bytes :=
  map snd (filter (fun e => same_side x (fst e)) (rl_relayed r)).

(** What side [x] has received and not yet looked at. *)
Definition waiting (x : side) (r : relay) : list bytes := ep_list (get x r) ++ ep_raw (get x r).

(** The events which end the connection. *)
Definition ends (op : rop) : bool := match op with RHangup _ => true | REnd => true | _ => false end.

(** ** Seen from outside *)

From Verif.Model Require Import Server.

(** What the log of the server connection says about proxy mode. *)
Definition to_target (e : vevent) : list bytes := match e with VForward p => [p] | _ => [] end.
Definition to_client (e : vevent) : list bytes := match e with VSend p => if is_relayed p then [p] else [] | _ => [] end.

(** The connection-layer messages which the client, or the target, sends. *)
Definition from_client (op : vop) : list bytes :=
  match op with OPacket msg payload _ => if connection_layer msg then [msg :: payload] else [] | _ => [] end.
Definition from_target (op : vop) : list bytes :=
  match op with OOutgoingPacket msg payload => if connection_layer msg then [msg :: payload] else [] | _ => [] end.
