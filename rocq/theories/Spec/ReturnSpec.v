(** Specification of the path of data from a program to the client: what the
    client hears on one of its channels. *)

From Coq Require Import NArith List Bool.
From Verif.Base Require Import Bytes.
From Verif.Model Require Import Packets Requests Channels ChannelIO Emit.
From Verif.Spec Require Import OutputSpec EndToEndSpec ChannelSpec PipelineSpec.
Import ListNotations.
Open Scope N_scope.

Inductive heard := HData (d : bytes) | HExt (type : N) (d : bytes) | HEof.

(** What the message [m] says to the client's channel [p] (RFC 4254 5.2, 5.3):
    CHANNEL_DATA is byte 94, uint32 recipient channel, string data;
    CHANNEL_EXTENDED_DATA is byte 95, uint32 recipient channel, uint32 type,
    string data; CHANNEL_EOF is byte 96, uint32 recipient channel. *)
Definition heard_of (p : N) (m : bytes) : list heard :=
  match m with
  | 94 :: a :: b :: c :: d :: e :: f :: g :: h :: t =>
      if (un_be32 a b c d =? p) && (un_be32 e f g h =? len t) then [HData t] else []
  | 95 :: a :: b :: c :: d :: i :: j :: k :: l :: e :: f :: g :: h :: t =>
      if (un_be32 a b c d =? p) && (un_be32 e f g h =? len t) then [HExt (un_be32 i j k l) t] else []
  | [96; a; b; c; d] => if un_be32 a b c d =? p then [HEof] else []
  | _ => []
  end.
Definition hears (p : N) (ms : list bytes) : list heard := flat_map (heard_of p) ms.

(** standard output, and standard error (SSH_EXTENDED_DATA_STDERR is 1) *)
Definition on_stdout (l : list heard) : bytes := flat_map (fun h => match h with HData d => d | _ => [] end) l.
Definition on_stderr (l : list heard) : bytes := flat_map (fun h => match h with HExt 1 d => d | _ => [] end) l.

(** the messages of the connection protocol about channels *)
Definition channel_message (m : bytes) : bool := match m with b :: _ => (90 <=? b) && (b <=? 100) | [] => false end.

(** everything the channels of a connection have sent, oldest first *)
Fixpoint transmitted (l : list cev) : list cmsg :=
  match l with
  | [] => []
  | Sent _ _ m :: older => transmitted older ++ [m]
  | _ :: older => transmitted older
  end.

(** [b] is the message which was put into the packet for [m] *)
Definition emitted (m : cmsg) (b : bytes) : Prop :=
  exists header s, len header = 5 /\ Emit header m = Some s /\ b = drop 5 s.

(** The channels' messages, each in its packet, are what the transport was
    given, in this order, between messages of other kinds. *)
Definition gives {S : Type} (sub : list (submitted S)) (l : list cev) : Prop :=
  exists all, bears sub all /\ Forall2 emitted (transmitted l) (filter channel_message all).

(** what the channel object [u] has said, oldest first *)
Definition voice (m : cmsg) : list heard :=
  match m with CData _ d => [HData d] | CExt _ type d => [HExt type d] | CEof _ => [HEof] | _ => [] end.
Definition wrote (u : N) (l : list cev) : list heard := flat_map voice (rev (said u l)).

(** the client knows the object [u] of channel [n] by its number [p], and uses
    this number for no other channel *)
Definition known_as (n u p : N) (l : list cev) : Prop :=
  (exists w w', In (Created n u p w w') l) /\ (forall k v w w', In (Created k v p w w') l -> v = u).
(** the client's numbers have 32 bits *)
Definition numbers (l : list cev) : Prop := forall k v q w w', In (Created k v q w w') l -> q < 2 ^ 32.

(** what a session says, oldest first *)
Fixpoint speaks (l : list iev) : list heard :=
  match l with
  | [] => []
  | ISent Stderr d :: older => speaks older ++ [HExt 1 d]
  | ISent _ d :: older => speaks older ++ [HData d]
  | ISentEof :: older => speaks older ++ [HEof]
  | _ :: older => speaks older
  end.
