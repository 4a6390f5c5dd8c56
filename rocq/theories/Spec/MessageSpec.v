(** What a message is (RFC 4253 section 6, "payload"): a number and fields (C74). *)

From Coq Require Import NArith List.
From Verif.Base Require Import Bytes.
From Verif.Spec Require Import WireSpec.
Import ListNotations.
Open Scope N_scope.

Definition message (number : N) (fields : list field) : bytes := number :: enc fields.

(** The contents of the buffer after this message was written into a new packet:
    five bytes for the header, then the message.  Nothing if it does not fit
    into the buffer of 65536 bytes. *)
Definition made (header : bytes) (number : N) (fields : list field) : option bytes :=
  if 5 + len (message number fields) <=? 65536 then Some (header ++ message number fields) else None.
