(** Specification of the SSH binary packet format (RFC 4253 section 6),
    written without reference to the model. *)

From Coq Require Import NArith List Bool.
From Verif.Base Require Import Bytes.
Import ListNotations.
Open Scope N_scope.

(** [frame] is the binary packet that carries [message] (message number and
    payload) with the given [padding]. *)
Definition framed (message padding frame : bytes) : Prop :=
  frame = be32 (1 + len message + len padding) ++ [len padding] ++ message ++ padding.

(** What a receiver does with a complete binary packet: check
    packet_length, cut off the padding. *)
Definition unframe (frame : bytes) : option bytes :=
  match frame with
  | a :: b :: c :: d :: p :: rest =>
      if (un_be32 a b c d =? 1 + len rest) && (p <=? len rest)
      then Some (take (len rest - p) rest)
      else None
  | _ => None
  end.
