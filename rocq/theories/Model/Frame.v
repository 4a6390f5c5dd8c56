(** Model of packet framing: src/ssh/Protocol.hxx Padding() and
    src/ssh/PacketSerializer.hxx. *)

From Coq Require Import NArith List Bool.
From Verif.Base Require Import Bytes.
From Verif.Model Require Import Wire.
Import ListNotations.
Open Scope N_scope.

(** src/ssh/Protocol.hxx:19-20 *)
Definition MIN_PACKET_SIZE : N := 16.
Definition MIN_PADDING : N := 4.

(** src/ssh/Protocol.hxx:22-32 Padding() *)
Definition Padding (size block_size : N) : N :=
  if size <=? MIN_PACKET_SIZE - MIN_PADDING
  then MIN_PACKET_SIZE - size
  else MIN_PADDING + (block_size - 1)
       - N.land (size + MIN_PADDING - 1) (block_size - 1).

(** src/ssh/PacketSerializer.hxx:16-19 PacketSerializer(MessageNumber).
    The first five bytes (PacketHeader and padding_length) are
    uninitialized at this point; they are the parameter [junk]. *)
Definition new_packet (junk : bytes) (msg : N) : option serializer :=
  WriteU8 junk msg.

(** src/ssh/PacketSerializer.hxx:21-26 Pad(); [rnd n] are the [n] random
    bytes written by Serializer::WriteRandom() (src/ssh/Serializer.cxx:27-36).
    Returns padding_length and the new state. *)
Definition Pad (rnd : N -> bytes) (s : serializer) (block_size exclude : N)
  : option (N * serializer) :=
  let padding_length := Padding (len s - exclude) block_size in
  let* s := WriteN s (rnd padding_length) in
  Some (padding_length, s).

(** sizeof(PacketHeader) *)
Definition HEADER_SIZE : N := 4.

(** src/ssh/PacketSerializer.hxx:28-40 PacketSerializer::Finish().  The
    method is noexcept, so [None] (PacketTooLarge inside Pad()) is
    std::terminate(). *)
Definition FinishPacket (rnd : N -> bytes) (s : serializer)
                        (block_size : N) (without_header : bool) : option bytes :=
  let* (padding_length, s) :=
     Pad rnd s block_size (if without_header then HEADER_SIZE else 0) in
  Some (put_u32 (len s - HEADER_SIZE) ++ [padding_length mod 256] ++ drop 5 s).
