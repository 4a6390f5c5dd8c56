(** Model of the packets which the connection layer gives to the transport:
    how each message in the log of Model/Channels.v is put into a packet. *)

From Coq Require Import NArith List Bool.
From Verif.Base Require Import Bytes.
From Verif.Model Require Import Wire Frame Packets Makers Requests Channels.
Import ListNotations.
Open Scope N_scope.

(** The packet for a message, before it is finished by SendPacket():
    src/ssh/CSupport.cxx:124-132 OpenChannel(), 258-263 (confirmation), 302 and
    334 (failure), 189 (close); src/ssh/Channel.cxx:103 SendWindowAdjust(),
    113-116 SendData(), 127-131 SendExtendedData(), 146-148 SendEof(), 155-169
    SendExitStatus() and SendExitSignal(), 206-213 SubmitRequestResponses().
    [junk]: the five bytes of the header, filled in later; [None]: the buffer of
    the serializer is too small, an exception.
    Simplified: what follows the common part of CHANNEL_OPEN and CHANNEL_REQUEST
    is written in one piece. *)
Definition Emit (junk : bytes) (m : cmsg) : option serializer :=
  match m with
  | COpen type local window max_packet data => MakeChannelOpen junk type local window max_packet (fun s => WriteN s data)
  | CConf peer local window max_packet => MakeChannelOpenConfirmation junk peer local window max_packet
  | COpenFail peer code description => MakeChannelOpenFailure junk peer code description
  | CAdjust peer nbytes => MakeChannelWindowAdjust junk peer nbytes
  | CData peer data => MakeChannelData junk peer data
  | CExt peer type data => MakeChannelExtendedData junk peer type data
  | CEof peer => MakeChannelEof junk peer
  | CClose peer => MakeChannelClose junk peer
  | CRequest peer name data => let* s := MakeChannelReqest junk peer name false in WriteN s data
  | CReply peer success => MakeChannelResponse junk success peer
  end.
