(** Specification of a connection through a proxy: two encrypted connections
    with the relay (Model/Relay.v) in the middle. *)

From Coq Require Import NArith List Bool.
From Verif.Base Require Import Bytes.
From Verif.Model Require Import Relay.
From Verif.Spec Require Import OutputSpec EndToEndSpec PipelineSpec RelaySpec.
Import ListNotations.
Open Scope N_scope.

(** the messages of the connection protocol (RFC 4254 section 9) *)
Definition conn (l : list bytes) : list bytes := filter is_relayed l.

(** the messages which the proxy has taken from the transport of side [x] since
    it became a proxy, in order *)
Definition taken (x : side) (r : relay) : list bytes :=
  map snd (filter (fun e => same_side x (fst e)) (rl_handled r)).

(** [first] and then [passed] were given to SendPacket() of the connection whose
    transport got [sub]; [held] are still held back by that connection (it is
    exchanging keys). *)
Definition conveys {S : Type} (sub : list (submitted S)) (first passed held : list bytes) : Prop :=
  exists all, bears sub all /\ conn all ++ held = first ++ passed.
