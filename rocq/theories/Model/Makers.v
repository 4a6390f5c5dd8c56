(** Model of the messages which are not built by src/ssh/MakePacket.hxx (see
    Model/Packets.v for those): src/ssh/Channel.cxx, src/ssh/CSupport.cxx,
    src/ssh/GSupport.cxx, src/ssh/Connection.cxx, src/ssh/EarlyDisconnect.cxx,
    the channel factories, and SessionChannel::OnChildProcessExit(). *)

From Coq Require Import NArith List Bool String.
From Verif.Base Require Import Bytes.
From Verif.Model Require Import Wire Frame Packets.
Import ListNotations.
Open Scope N_scope.

(** src/ssh/Channel.cxx:143-149 SendEof(), the packet *)
Definition MakeChannelEof (junk : bytes) (peer_channel : N) : option serializer :=
  let* s := new_packet junk MSG_CHANNEL_EOF in
  WriteU32 s peer_channel.

(** src/ssh/Channel.cxx:206-213 in SubmitRequestResponses(), the packet *)
Definition MakeChannelResponse (junk : bytes) (success : bool) (peer_channel : N) : option serializer :=
  let* s := new_packet junk (if success then MSG_CHANNEL_SUCCESS else MSG_CHANNEL_FAILURE) in
  WriteU32 s peer_channel.

(** src/ssh/GSupport.cxx:95-97 in SubmitGlobalRequestResponses(), the packet *)
Definition MakeGlobalResponse (junk : bytes) (success : bool) : option serializer :=
  new_packet junk (if success then MSG_REQUEST_SUCCESS else MSG_REQUEST_FAILURE).

(** src/ssh/Channel.cxx:151-157 SendExitStatus(), the packet *)
Definition MakeExitStatus (junk : bytes) (peer_channel exit_status : N) : option serializer :=
  let* s := MakeChannelReqest junk peer_channel (bs "exit-status") false in
  WriteU32 s exit_status.

(** src/ssh/Channel.cxx:159-169 SendExitSignal(), the packet *)
Definition MakeExitSignal (junk : bytes) (peer_channel : N) (signal_name : bytes) (core_dumped : bool) (error_message : bytes)
  : option serializer :=
  let* s := MakeChannelReqest junk peer_channel (bs "exit-signal") false in
  let* s := WriteString s signal_name in
  let* s := WriteBool s core_dumped in
  let* s := WriteString s error_message in
  WriteString s EN.

(** glibc <bits/waitstatus.h>: WTERMSIG(), WIFSIGNALED(), WEXITSTATUS(),
    WCOREDUMP() *)
Definition WTERMSIG (status : N) : N := N.land status 127.
Definition WIFSIGNALED (status : N) : bool := negb (WTERMSIG status =? 0) && negb (WTERMSIG status =? 127).
Definition WEXITSTATUS (status : N) : N := N.land (N.shiftr status 8) 255.
Definition WCOREDUMP (status : N) : bool := negb (N.land status 128 =? 0).

(** src/SessionChannel.cxx:971-990 OnChildProcessExit(), the packet;
    [sigdescr_np]: the function of the C library, [None] for numbers it does
    not know *)
Definition MakeExit (sigdescr_np : N -> option bytes) (junk : bytes) (peer_channel status : N) : option serializer :=
  if WIFSIGNALED status
  then MakeExitSignal junk peer_channel (match sigdescr_np (WTERMSIG status) with Some n => n | None => bs "UNKNOWN" end) (WCOREDUMP status) []
  else MakeExitStatus junk peer_channel (WEXITSTATUS status).

(** src/ssh/CSupport.cxx:124-132 in OpenChannel(), the packet; [extra]: what
    ChannelFactory::SerializeOpen() adds *)
Definition MakeChannelOpen (junk : bytes) (channel_type : bytes) (local_channel initial_window_size maximum_packet_size : N)
    (extra : serializer -> option serializer) : option serializer :=
  let* s := new_packet junk MSG_CHANNEL_OPEN in
  let* s := WriteString s channel_type in
  let* s := WriteU32 s local_channel in
  let* s := WriteU32 s initial_window_size in
  let* s := WriteU32 s maximum_packet_size in
  extra s.

(** src/SocketForwardListener.cxx:75-82 Factory::SerializeOpen() *)
Definition SerializeForwarded (bind_address : bytes) (bind_port : N) (peer_address : bytes) (peer_port : N) (s : serializer) : option serializer :=
  let* s := WriteString s bind_address in
  let* s := WriteU32 s bind_port in
  let* s := WriteString s peer_address in
  WriteU32 s peer_port.

(** src/AgentForward.cxx:65-69 Factory::SerializeOpen() *)
Definition SerializeAgent (s : serializer) : option serializer := Some s.

(** src/ssh/Connection.cxx:425-445 SendExtInfo(), the packet *)
Definition MakeExtInfo (junk : bytes) (all_public_key_algorithms : bytes) : option serializer :=
  let* s := new_packet junk MSG_EXT_INFO in
  let* s := WriteU32 s 2 in
  let* s := WriteString s (bs "server-sig-algs") in
  let* s := WriteString s all_public_key_algorithms in
  let* s := WriteString s (bs "agent-forward") in
  WriteString s (bs "0").

(** src/ssh/IdentificationString.hxx:17; [version]: the version number of the
    build *)
Definition IDENTIFICATION_STRING (version : bytes) : bytes := bs "SSH-2.0-Lukko_" ++ version ++ bs " CM4all" ++ [13; 10].

(** src/ssh/EarlyDisconnect.cxx:14-29 SendEarlyDisconnect(): the bytes which
    are sent before the connection is shut down.  [None]: std::terminate() *)
Definition SendEarlyDisconnect (rnd : N -> bytes) (junk version : bytes) (reason_code : N) (msg : bytes) : option bytes :=
  let* s := MakeDisconnect junk reason_code msg in
  let* packet := FinishPacket rnd s 8 false in
  Some (IDENTIFICATION_STRING version ++ packet).
