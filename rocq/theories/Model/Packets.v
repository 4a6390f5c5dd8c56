(** Model of src/ssh/ParsePacket.hxx (packet payload parsers),
    src/ssh/MakePacket.hxx (packet builders) and the numbers in
    src/ssh/Protocol.hxx.

    A parser gets the payload without the message number.  [None] is
    [throw MalformedPacket].  A builder starts with the serializer state
    that holds the (uninitialized) packet header and padding length,
    see [Frame.new_packet]; [None] is [throw PacketTooLarge], which the
    noexcept builders turn into std::terminate(). *)

From Coq Require Import NArith List Bool String.
From Verif.Base Require Import Bytes.
From Verif.Model Require Import Wire Frame.
Import ListNotations.
Open Scope N_scope.

(** ** src/ssh/Protocol.hxx:65-104 enum class MessageNumber *)
Definition MSG_DISCONNECT : N := 1.
Definition MSG_IGNORE : N := 2.
Definition MSG_UNIMPLEMENTED : N := 3.
Definition MSG_DEBUG : N := 4.
Definition MSG_SERVICE_REQUEST : N := 5.
Definition MSG_SERVICE_ACCEPT : N := 6.
Definition MSG_EXT_INFO : N := 7.
Definition MSG_NEWCOMPRESS : N := 8.
Definition MSG_KEXINIT : N := 20.
Definition MSG_NEWKEYS : N := 21.
Definition MSG_ECDH_KEX_INIT : N := 30.
Definition MSG_ECDH_KEX_INIT_REPLY : N := 31.
Definition MSG_USERAUTH_REQUEST : N := 50.
Definition MSG_USERAUTH_FAILURE : N := 51.
Definition MSG_USERAUTH_SUCCESS : N := 52.
Definition MSG_USERAUTH_BANNER : N := 53.
Definition MSG_USERAUTH_PK_OK : N := 60.
Definition MSG_GLOBAL_REQUEST : N := 80.
Definition MSG_REQUEST_SUCCESS : N := 81.
Definition MSG_REQUEST_FAILURE : N := 82.
Definition MSG_CHANNEL_OPEN : N := 90.
Definition MSG_CHANNEL_OPEN_CONFIRMATION : N := 91.
Definition MSG_CHANNEL_OPEN_FAILURE : N := 92.
Definition MSG_CHANNEL_WINDOW_ADJUST : N := 93.
Definition MSG_CHANNEL_DATA : N := 94.
Definition MSG_CHANNEL_EXTENDED_DATA : N := 95.
Definition MSG_CHANNEL_EOF : N := 96.
Definition MSG_CHANNEL_CLOSE : N := 97.
Definition MSG_CHANNEL_REQUEST : N := 98.
Definition MSG_CHANNEL_SUCCESS : N := 99.
Definition MSG_CHANNEL_FAILURE : N := 100.

(** ** Parsers *)

(** src/ssh/ParsePacket.hxx:16-19 *)
Record Disconnect := { disconnect_reason : N; disconnect_description : bytes }.

(** src/ssh/ParsePacket.hxx:21-31 *)
Definition ParseDisconnect (raw : bytes) : option Disconnect :=
  let* (reason_code, d) := ReadU32 raw in
  let* (description, d) := ReadString d in
  let* (_, d) := ReadString d in
  let* _ := ExpectEnd d in
  Some {| disconnect_reason := reason_code; disconnect_description := description |}.

(** src/ssh/ParsePacket.hxx:33-45 *)
Definition ParseServiceRequest (raw : bytes) : option bytes :=
  let* (service_name, d) := ReadString raw in
  let* _ := ExpectEnd d in
  Some service_name.

(** src/ssh/ParsePacket.hxx:47-59 *)
Definition ParseServiceAccept (raw : bytes) : option bytes :=
  let* (service_name, d) := ReadString raw in
  let* _ := ExpectEnd d in
  Some service_name.

(** src/ssh/ParsePacket.hxx:61-69 *)
Record KexInit := {
  ki_kex_algorithms : bytes;
  ki_server_host_key_algorithms : bytes;
  ki_encryption_ctos : bytes;
  ki_encryption_stoc : bytes;
  ki_mac_ctos : bytes;
  ki_mac_stoc : bytes;
  ki_first_kex_packet_follows : bool
}.

(** src/ssh/ParsePacket.hxx:71-91 *)
Definition ParseKexInit (raw : bytes) : option KexInit :=
  let* (_, d) := ReadN 16 raw in
  let* (kex_algorithms, d) := ReadString d in
  let* (server_host_key_algorithms, d) := ReadString d in
  let* (encryption_ctos, d) := ReadString d in
  let* (encryption_stoc, d) := ReadString d in
  let* (mac_ctos, d) := ReadString d in
  let* (mac_stoc, d) := ReadString d in
  let* (_, d) := ReadString d in
  let* (_, d) := ReadString d in
  let* (_, d) := ReadString d in
  let* (_, d) := ReadString d in
  let* (follows, d) := ReadBool d in
  let* (_, d) := ReadU32 d in
  let* _ := ExpectEnd d in
  Some {| ki_kex_algorithms := kex_algorithms;
          ki_server_host_key_algorithms := server_host_key_algorithms;
          ki_encryption_ctos := encryption_ctos;
          ki_encryption_stoc := encryption_stoc;
          ki_mac_ctos := mac_ctos;
          ki_mac_stoc := mac_stoc;
          ki_first_kex_packet_follows := follows |}.

(** src/ssh/ParsePacket.hxx:93-105 *)
Definition ParseECDHKexInit (raw : bytes) : option bytes :=
  let* (client_ephemeral_public_key, d) := ReadLengthEncoded raw in
  let* _ := ExpectEnd d in
  Some client_ephemeral_public_key.

(** src/ssh/ParsePacket.hxx:107-111 *)
Record ECDHKexInitReply := {
  kr_server_host_key_blob : bytes;
  kr_server_ephemeral_public_key : bytes;
  kr_signature : bytes
}.

(** src/ssh/ParsePacket.hxx:113-123 *)
Definition ParseECDHKexInitReply (raw : bytes) : option ECDHKexInitReply :=
  let* (server_host_key_blob, d) := ReadLengthEncoded raw in
  let* (server_ephemeral_public_key, d) := ReadLengthEncoded d in
  let* (signature, d) := ReadLengthEncoded d in
  let* _ := ExpectEnd d in
  Some {| kr_server_host_key_blob := server_host_key_blob;
          kr_server_ephemeral_public_key := server_ephemeral_public_key;
          kr_signature := signature |}.

(** src/ssh/ParsePacket.hxx:125-131 *)
Record ChannelOpen := {
  co_channel_type : bytes;
  co_peer_channel : N;
  co_initial_window_size : N;
  co_maximum_packet_size : N;
  co_data : bytes
}.

(** src/ssh/ParsePacket.hxx:133-144 *)
Definition ParseChannelOpen (raw : bytes) : option ChannelOpen :=
  let* (channel_type, d) := ReadString raw in
  let* (peer_channel, d) := ReadU32 d in
  let* (initial_window_size, d) := ReadU32 d in
  let* (maximum_packet_size, d) := ReadU32 d in
  Some {| co_channel_type := channel_type;
          co_peer_channel := peer_channel;
          co_initial_window_size := initial_window_size;
          co_maximum_packet_size := maximum_packet_size;
          co_data := d |}.

(** src/ssh/ParsePacket.hxx:146-152 *)
Record ChannelOpenConfirmation := {
  cc_local_channel : N;
  cc_peer_channel : N;
  cc_initial_window_size : N;
  cc_maximum_packet_size : N;
  cc_data : bytes
}.

(** src/ssh/ParsePacket.hxx:154-165 *)
Definition ParseChannelOpenConfirmation (raw : bytes) : option ChannelOpenConfirmation :=
  let* (local_channel, d) := ReadU32 raw in
  let* (peer_channel, d) := ReadU32 d in
  let* (initial_window_size, d) := ReadU32 d in
  let* (maximum_packet_size, d) := ReadU32 d in
  Some {| cc_local_channel := local_channel;
          cc_peer_channel := peer_channel;
          cc_initial_window_size := initial_window_size;
          cc_maximum_packet_size := maximum_packet_size;
          cc_data := d |}.

(** src/ssh/ParsePacket.hxx:167-171 *)
Record ChannelOpenFailure := {
  cf_local_channel : N;
  cf_reason_code : N;
  cf_description : bytes
}.

(** src/ssh/ParsePacket.hxx:173-184 *)
Definition ParseChannelOpenFailure (raw : bytes) : option ChannelOpenFailure :=
  let* (local_channel, d) := ReadU32 raw in
  let* (reason_code, d) := ReadU32 d in
  let* (description, d) := ReadString d in
  let* (_, d) := ReadString d in
  let* _ := ExpectEnd d in
  Some {| cf_local_channel := local_channel;
          cf_reason_code := reason_code;
          cf_description := description |}.

(** src/ssh/ParsePacket.hxx:186-189 *)
Record ChannelWindowAdjust := { wa_local_channel : N; wa_nbytes : N }.

(** src/ssh/ParsePacket.hxx:191-200 *)
Definition ParseChannelWindowAdjust (raw : bytes) : option ChannelWindowAdjust :=
  let* (local_channel, d) := ReadU32 raw in
  let* (nbytes, d) := ReadU32 d in
  let* _ := ExpectEnd d in
  Some {| wa_local_channel := local_channel; wa_nbytes := nbytes |}.

(** src/ssh/ParsePacket.hxx:202-205 *)
Record ChannelData := { cd_local_channel : N; cd_data : bytes }.

(** src/ssh/ParsePacket.hxx:207-216 *)
Definition ParseChannelData (raw : bytes) : option ChannelData :=
  let* (local_channel, d) := ReadU32 raw in
  let* (data, d) := ReadLengthEncoded d in
  let* _ := ExpectEnd d in
  Some {| cd_local_channel := local_channel; cd_data := data |}.

(** src/ssh/ParsePacket.hxx:218-222 *)
Record ChannelExtendedData := { ce_local_channel : N; ce_data_type : N; ce_data : bytes }.

(** src/ssh/ParsePacket.hxx:224-234 *)
Definition ParseChannelExtendedData (raw : bytes) : option ChannelExtendedData :=
  let* (local_channel, d) := ReadU32 raw in
  let* (data_type, d) := ReadU32 d in
  let* (data, d) := ReadLengthEncoded d in
  let* _ := ExpectEnd d in
  Some {| ce_local_channel := local_channel; ce_data_type := data_type; ce_data := data |}.

(** src/ssh/ParsePacket.hxx:236-248 *)
Definition ParseChannelEof (raw : bytes) : option N :=
  let* (local_channel, d) := ReadU32 raw in
  let* _ := ExpectEnd d in
  Some local_channel.

(** src/ssh/ParsePacket.hxx:250-262 *)
Definition ParseChannelClose (raw : bytes) : option N :=
  let* (local_channel, d) := ReadU32 raw in
  let* _ := ExpectEnd d in
  Some local_channel.

(** src/ssh/ParsePacket.hxx:264-269 *)
Record ChannelRequest := {
  cr_local_channel : N;
  cr_request_type : bytes;
  cr_want_reply : bool;
  cr_data : bytes
}.

(** src/ssh/ParsePacket.hxx:271-281 *)
Definition ParseChannelRequest (raw : bytes) : option ChannelRequest :=
  let* (local_channel, d) := ReadU32 raw in
  let* (request_type, d) := ReadString d in
  let* (want_reply, d) := ReadBool d in
  Some {| cr_local_channel := local_channel;
          cr_request_type := request_type;
          cr_want_reply := want_reply;
          cr_data := d |}.

(** src/ssh/ParsePacket.hxx:283-294; there is no ExpectEnd() *)
Definition ParseChannelResponse (raw : bytes) : option N :=
  let* (local_channel, d) := ReadU32 raw in
  Some local_channel.

(** src/ssh/ParsePacket.hxx:296-300 *)
Record GlobalRequest := {
  gr_request_name : bytes;
  gr_want_reply : bool;
  gr_data : bytes
}.

(** src/ssh/ParsePacket.hxx:302-311 *)
Definition ParseGlobalRequest (raw : bytes) : option GlobalRequest :=
  let* (request_name, d) := ReadString raw in
  let* (want_reply, d) := ReadBool d in
  Some {| gr_request_name := request_name; gr_want_reply := want_reply; gr_data := d |}.

(** ** Builders *)

(** the language tag, [""en""] *)
Definition EN : bytes := bs "en".

(** src/ssh/MakePacket.hxx:13-22 *)
Definition MakeDisconnect (junk : bytes) (reason_code : N) (msg : bytes) : option serializer :=
  let* s := new_packet junk MSG_DISCONNECT in
  let* s := WriteU32 s reason_code in
  let* s := WriteString s msg in
  WriteString s EN.

(** src/ssh/MakePacket.hxx:24-31 *)
Definition MakeUnimplemented (junk : bytes) (seq : N) : option serializer :=
  let* s := new_packet junk MSG_UNIMPLEMENTED in
  WriteU32 s seq.

(** src/ssh/MakePacket.hxx:33-40 *)
Definition MakeServiceRequest (junk : bytes) (service_name : bytes) : option serializer :=
  let* s := new_packet junk MSG_SERVICE_REQUEST in
  WriteString s service_name.

(** src/ssh/MakePacket.hxx:42-49 *)
Definition MakeServiceAccept (junk : bytes) (service_name : bytes) : option serializer :=
  let* s := new_packet junk MSG_SERVICE_ACCEPT in
  WriteString s service_name.

(** src/ssh/MakePacket.hxx:51-60 *)
Definition MakeUserauthFailure (junk : bytes) (continue_authentications : bytes)
                               (partial_success : bool) : option serializer :=
  let* s := new_packet junk MSG_USERAUTH_FAILURE in
  let* s := WriteString s continue_authentications in
  WriteBool s partial_success.

(** src/ssh/MakePacket.hxx:62-70 *)
Definition MakeUserauthBanner (junk : bytes) (msg : bytes) : option serializer :=
  let* s := new_packet junk MSG_USERAUTH_BANNER in
  let* s := WriteString s msg in
  WriteString s EN.

(** src/ssh/MakePacket.hxx:72-81 *)
Definition MakeUserauthPkOk (junk : bytes) (public_key_algorithm public_key : bytes)
  : option serializer :=
  let* s := new_packet junk MSG_USERAUTH_PK_OK in
  let* s := WriteString s public_key_algorithm in
  WriteLengthEncoded s public_key.

(** src/ssh/MakePacket.hxx:83-91 *)
Definition MakeGlobalRequest (junk : bytes) (request_name : bytes) (want_reply : bool)
  : option serializer :=
  let* s := new_packet junk MSG_GLOBAL_REQUEST in
  let* s := WriteString s request_name in
  WriteBool s want_reply.

(** src/ssh/MakePacket.hxx:93-106 *)
Definition MakeChannelOpenConfirmation (junk : bytes)
    (recipient_channel sender_channel initial_window_size max_packet_size : N)
  : option serializer :=
  let* s := new_packet junk MSG_CHANNEL_OPEN_CONFIRMATION in
  let* s := WriteU32 s recipient_channel in
  let* s := WriteU32 s sender_channel in
  let* s := WriteU32 s initial_window_size in
  WriteU32 s max_packet_size.

(** src/ssh/MakePacket.hxx:108-120 *)
Definition MakeChannelOpenFailure (junk : bytes) (recipient_channel reason_code : N)
    (description : bytes) : option serializer :=
  let* s := new_packet junk MSG_CHANNEL_OPEN_FAILURE in
  let* s := WriteU32 s recipient_channel in
  let* s := WriteU32 s reason_code in
  let* s := WriteString s description in
  WriteString s EN.

(** src/ssh/MakePacket.hxx:122-131 *)
Definition MakeChannelWindowAdjust (junk : bytes) (recipient_channel nbytes : N)
  : option serializer :=
  let* s := new_packet junk MSG_CHANNEL_WINDOW_ADJUST in
  let* s := WriteU32 s recipient_channel in
  WriteU32 s nbytes.

(** src/ssh/MakePacket.hxx:133-140 *)
Definition MakeChannelClose (junk : bytes) (recipient_channel : N) : option serializer :=
  let* s := new_packet junk MSG_CHANNEL_CLOSE in
  WriteU32 s recipient_channel.

(** src/ssh/MakePacket.hxx:142-153 *)
Definition MakeChannelReqest (junk : bytes) (recipient_channel : N)
    (request_type : bytes) (want_reply : bool) : option serializer :=
  let* s := new_packet junk MSG_CHANNEL_REQUEST in
  let* s := WriteU32 s recipient_channel in
  let* s := WriteString s request_type in
  WriteBool s want_reply.

(** src/ssh/Channel.cxx:109-120 Channel::SendData(), the packet *)
Definition MakeChannelData (junk : bytes) (recipient_channel : N) (data : bytes)
  : option serializer :=
  let* s := new_packet junk MSG_CHANNEL_DATA in
  let* s := WriteU32 s recipient_channel in
  WriteLengthEncoded s data.

(** src/ssh/Channel.cxx:122-136 Channel::SendExtendedData(), the packet *)
Definition MakeChannelExtendedData (junk : bytes) (recipient_channel data_type : N)
    (data : bytes) : option serializer :=
  let* s := new_packet junk MSG_CHANNEL_EXTENDED_DATA in
  let* s := WriteU32 s recipient_channel in
  let* s := WriteU32 s data_type in
  WriteLengthEncoded s data.
