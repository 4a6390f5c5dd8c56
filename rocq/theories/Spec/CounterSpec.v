(** What the counters of connections are meant to be: numbers of events. *)

From Coq Require Import NArith List Bool.
From Verif.Model Require Import ConnCounters.
Import ListNotations.
Open Scope N_scope.

Definition how_many (f : event -> bool) (l : list event) : N := N.of_nat (List.length (List.filter f l)).

Definition is_arrived e := match e with Arrived => true | _ => false end.
Definition is_refused e := match e with Refused => true | _ => false end.
Definition is_slow e := match e with Waiting _ | Slowed _ => true | _ => false end.
Definition is_asked_terminate e := match e with AskedTerminate _ => true | _ => false end.
Definition is_asked_unsupported e := match e with AskedUnsupported _ => true | _ => false end.
Definition is_bad_key e := match e with BadKey _ => true | _ => false end.
Definition is_disconnecting e := match e with Disconnecting _ _ => true | _ => false end.

(** the reasons of RFC 4253 11.1 which blame the client:
    SSH_DISCONNECT_PROTOCOL_ERROR, KEY_EXCHANGE_FAILED, MAC_ERROR,
    COMPRESSION_ERROR, PROTOCOL_VERSION_NOT_SUPPORTED, ILLEGAL_USER_NAME *)
Definition violation (code : N) : bool := existsb (N.eqb code) [2; 3; 5; 6; 8; 15].
Definition is_violation e := match e with Disconnecting _ code => violation code | _ => false end.

(** connections which were opened, disconnected by the server, closed *)
Definition opened (l : list event) : list N := flat_map (fun e => match e with Opened id => [id] | _ => [] end) l.
Definition disconnected (l : list event) : list N :=
  flat_map (fun e => match e with Disconnecting id _ => [id] | _ => [] end) l.
Definition closed (l : list event) : list N := flat_map (fun e => match e with Closed id => [id] | _ => [] end) l.

(** no connection is asked to terminate which is being disconnected already,
    and no client has sent a broken key *)
Definition plain (l : list event) : Prop :=
  (forall before id after, l = before ++ AskedTerminate id :: after -> ~ In id (disconnected before)) /\
  (forall id, ~ In (BadKey id) l).
