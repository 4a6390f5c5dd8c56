(** Specification of the path of data from the client to a channel: what is
    said in the client's messages, and what the channel's owner is told. *)

From Coq Require Import NArith List Bool.
From Verif.Base Require Import Bytes.
From Verif.Model Require Import Packets Requests Channels Buffered RecvWindow.
From Verif.Spec Require Import FrameSpec OutputSpec InputSpec EndToEndSpec.
Import ListNotations.
Open Scope N_scope.

(** ** What the client says *)

Inductive item := Data (p : bytes) | Eof.

(** What the message [m] says on channel [n] (RFC 4254 5.2, 5.3):
    CHANNEL_DATA is byte 94, uint32 recipient channel, string data;
    CHANNEL_EOF is byte 96, uint32 recipient channel. *)
Definition item_of (n : N) (m : bytes) : list item :=
  match m with
  | 94 :: a :: b :: c :: d :: e :: f :: g :: h :: p =>
      if (un_be32 a b c d =? n) && (un_be32 e f g h =? len p) then [Data p] else []
  | [96; a; b; c; d] => if un_be32 a b c d =? n then [Eof] else []
  | _ => []
  end.
Definition spoken (n : N) (ms : list bytes) : list item := flat_map (item_of n) ms.

(** the data, without the end of file *)
Definition text (l : list item) : bytes := flat_map (fun i => match i with Data p => p | Eof => [] end) l.

(** the client keeps to the protocol: nothing follows its CHANNEL_EOF *)
Fixpoint eof_last (l : list item) : Prop :=
  match l with
  | [] => True
  | Eof :: t => t = []
  | Data _ :: t => eof_last t
  end.

(** the messages in the packets which an endpoint submits to its transport *)
Inductive bears {S : Type} : list (submitted S) -> list bytes -> Prop :=
| bears_nil : bears [] []
| bears_packet : forall p m sub ms, carries p m -> bears sub ms -> bears (Packet p :: sub) (m :: ms)
| bears_cipher : forall c reset sub ms, bears sub ms -> bears (NewCipher c reset :: sub) ms.

(** the messages which the other endpoint's transport has delivered *)
Definition messages {R : Type} (l : list (revent R)) : list bytes :=
  flat_map (fun e => match e with Message _ m => [m] | Cipher _ _ => [] end) l.

(** ** What the owner of the channel is told *)

(** the messages handed to the channel layer *)
Definition handed (ops : list cop) : list bytes :=
  flat_map (fun o => match o with OpPacket msg p _ => [msg :: p] | _ => [] end) ops.

(** the calls of OnData() and OnEof() of the channel object [u], oldest first *)
Fixpoint calls (u : N) (l : list cev) : list item :=
  match l with
  | [] => []
  | Called _ v (CbData p) :: older => if v =? u then calls u older ++ [Data p] else calls u older
  | Called _ v CbEof :: older => if v =? u then calls u older ++ [Eof] else calls u older
  | _ :: older => calls u older
  end.

(** the object [u] has been created for channel number [n]; it still exists *)
Definition created (n u : N) (l : list cev) : Prop := exists peer w w', In (Created n u peer w w') l.
Definition lives (n u : N) (l : list cev) : Prop := created n u l /\ ~ In (Destroyed n u) l.

(** what a session (or a forwarded connection) is told *)
Definition stdin_told (ops : list iop) : list item :=
  flat_map (fun o => match o with InData p _ => [Data p] | InEof => [Eof] | _ => [] end) ops.
Definition socket_told (ops : list kop) : list item :=
  flat_map (fun o => match o with KData p _ => [Data p] | KEof => [Eof] | _ => [] end) ops.
