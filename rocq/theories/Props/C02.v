(** * C02: packet parsers are exact

    For every byte string, a parser succeeds with certain field values if
    and only if the byte string is a payload with this layout and these
    values (Spec/PacketSpec.v); in all other cases it reports a malformed
    packet. *)

From Coq Require Import NArith List Bool String.
From Verif.Base Require Import Bytes.
From Verif.Model Require Import Wire Packets.
From Verif.Spec Require Import WireSpec PacketSpec.
From Verif.Proofs Require Import PacketFacts.
Import ListNotations.
Open Scope N_scope.
Open Scope list_scope.

Theorem C02_disconnect : forall raw reason desc, bytes_ok raw ->
  ParseDisconnect raw =
    Some {| disconnect_reason := reason; disconnect_description := desc |} <->
  disconnect_layout raw reason desc.
Proof. exact ParseDisconnect_exact. Qed.
Print Assumptions C02_disconnect.

Example C02_disconnect_witness :
  ParseDisconnect (be32 2 ++ string_enc (bs "bye") ++ string_enc (bs "en")) = Some {| disconnect_reason := 2; disconnect_description := bs "bye" |} /\
  ParseDisconnect (be32 2 ++ string_enc (bs "bye") ++ string_enc (bs "en") ++ [0]) = None /\
  ParseDisconnect (be32 2 ++ string_enc (bs "bye") ++ [0;0;0;1]) = None.
Proof. vm_compute. repeat split. Qed.

Theorem C02_service_request : forall raw name, bytes_ok raw ->
  ParseServiceRequest raw =
    Some name <->
  service_layout raw name.
Proof. exact ParseServiceRequest_exact. Qed.
Print Assumptions C02_service_request.

Example C02_service_request_witness :
  ParseServiceRequest (string_enc (bs "ssh-userauth")) = Some (bs "ssh-userauth") /\
  ParseServiceRequest (string_enc (bs "ssh-userauth") ++ [1]) = None.
Proof. vm_compute. repeat split. Qed.

Theorem C02_service_accept : forall raw name, bytes_ok raw ->
  ParseServiceAccept raw =
    Some name <->
  service_layout raw name.
Proof. exact ParseServiceAccept_exact. Qed.
Print Assumptions C02_service_accept.

Example C02_service_accept_witness :
  ParseServiceAccept (string_enc (bs "ssh-userauth")) = Some (bs "ssh-userauth") /\
  ParseServiceAccept [0;0;0;2;65] = None.
Proof. vm_compute. repeat split. Qed.

Theorem C02_kexinit : forall raw kex hostkey enc1 enc2 mac1 mac2 follows, bytes_ok raw ->
  ParseKexInit raw =
    Some {| ki_kex_algorithms := kex; ki_server_host_key_algorithms := hostkey;
            ki_encryption_ctos := enc1; ki_encryption_stoc := enc2;
            ki_mac_ctos := mac1; ki_mac_stoc := mac2;
            ki_first_kex_packet_follows := follows |} <->
  kexinit_layout raw kex hostkey enc1 enc2 mac1 mac2 follows.
Proof. exact ParseKexInit_exact. Qed.
Print Assumptions C02_kexinit.

Example C02_kexinit_witness :
  ParseKexInit (repeat 9 16 ++ string_enc (bs "curve25519-sha256") ++ string_enc (bs "ssh-ed25519") ++
    string_enc (bs "a") ++ string_enc (bs "b") ++ string_enc (bs "c") ++ string_enc (bs "d") ++
    string_enc (bs "none") ++ string_enc (bs "none") ++ string_enc [] ++ string_enc [] ++ [7] ++ be32 0) =
  Some {| ki_kex_algorithms := bs "curve25519-sha256"; ki_server_host_key_algorithms := bs "ssh-ed25519";
          ki_encryption_ctos := bs "a"; ki_encryption_stoc := bs "b";
          ki_mac_ctos := bs "c"; ki_mac_stoc := bs "d"; ki_first_kex_packet_follows := true |}.
Proof. vm_compute. repeat split. Qed.

Theorem C02_ecdh_init : forall raw pub, bytes_ok raw ->
  ParseECDHKexInit raw =
    Some pub <->
  ecdh_init_layout raw pub.
Proof. exact ParseECDHKexInit_exact. Qed.
Print Assumptions C02_ecdh_init.

Example C02_ecdh_init_witness :
  ParseECDHKexInit (string_enc (repeat 7 32)) = Some (repeat 7 32).
Proof. vm_compute. repeat split. Qed.

Theorem C02_ecdh_reply : forall raw hostkey pub sig, bytes_ok raw ->
  ParseECDHKexInitReply raw =
    Some {| kr_server_host_key_blob := hostkey; kr_server_ephemeral_public_key := pub;
            kr_signature := sig |} <->
  ecdh_reply_layout raw hostkey pub sig.
Proof. exact ParseECDHKexInitReply_exact. Qed.
Print Assumptions C02_ecdh_reply.

Example C02_ecdh_reply_witness :
  ParseECDHKexInitReply (string_enc (repeat 1 51) ++ string_enc (repeat 2 32) ++ string_enc (repeat 3 83)) =
  Some {| kr_server_host_key_blob := repeat 1 51; kr_server_ephemeral_public_key := repeat 2 32;
          kr_signature := repeat 3 83 |}.
Proof. vm_compute. repeat split. Qed.

Theorem C02_channel_open : forall raw type peer window max data, bytes_ok raw ->
  ParseChannelOpen raw =
    Some {| co_channel_type := type; co_peer_channel := peer;
            co_initial_window_size := window; co_maximum_packet_size := max; co_data := data |} <->
  channel_open_layout raw type peer window max data.
Proof. exact ParseChannelOpen_exact. Qed.
Print Assumptions C02_channel_open.

Example C02_channel_open_witness :
  ParseChannelOpen (string_enc (bs "session") ++ be32 5 ++ be32 2097152 ++ be32 32768) =
  Some {| co_channel_type := bs "session"; co_peer_channel := 5;
          co_initial_window_size := 2097152; co_maximum_packet_size := 32768; co_data := [] |}.
Proof. vm_compute. repeat split. Qed.

Theorem C02_channel_open_confirmation : forall raw local peer window max data, bytes_ok raw ->
  ParseChannelOpenConfirmation raw =
    Some {| cc_local_channel := local; cc_peer_channel := peer;
            cc_initial_window_size := window; cc_maximum_packet_size := max; cc_data := data |} <->
  channel_confirm_layout raw local peer window max data.
Proof. exact ParseChannelOpenConfirmation_exact. Qed.
Print Assumptions C02_channel_open_confirmation.

Example C02_channel_open_confirmation_witness :
  ParseChannelOpenConfirmation (be32 1 ++ be32 5 ++ be32 2097152 ++ be32 32768 ++ [1;2]) =
  Some {| cc_local_channel := 1; cc_peer_channel := 5;
          cc_initial_window_size := 2097152; cc_maximum_packet_size := 32768; cc_data := [1;2] |}.
Proof. vm_compute. repeat split. Qed.

Theorem C02_channel_open_failure : forall raw local reason desc, bytes_ok raw ->
  ParseChannelOpenFailure raw =
    Some {| cf_local_channel := local; cf_reason_code := reason; cf_description := desc |} <->
  channel_open_failure_layout raw local reason desc.
Proof. exact ParseChannelOpenFailure_exact. Qed.
Print Assumptions C02_channel_open_failure.

Example C02_channel_open_failure_witness :
  ParseChannelOpenFailure (be32 1 ++ be32 3 ++ string_enc (bs "no") ++ string_enc []) =
  Some {| cf_local_channel := 1; cf_reason_code := 3; cf_description := bs "no" |}.
Proof. vm_compute. repeat split. Qed.

Theorem C02_window_adjust : forall raw local nbytes, bytes_ok raw ->
  ParseChannelWindowAdjust raw =
    Some {| wa_local_channel := local; wa_nbytes := nbytes |} <->
  window_adjust_layout raw local nbytes.
Proof. exact ParseChannelWindowAdjust_exact. Qed.
Print Assumptions C02_window_adjust.

Example C02_window_adjust_witness :
  ParseChannelWindowAdjust (be32 1 ++ be32 4294967295) = Some {| wa_local_channel := 1; wa_nbytes := 4294967295 |} /\
  ParseChannelWindowAdjust (be32 1 ++ [1;2;3]) = None.
Proof. vm_compute. repeat split. Qed.

Theorem C02_channel_data : forall raw local data, bytes_ok raw ->
  ParseChannelData raw =
    Some {| cd_local_channel := local; cd_data := data |} <->
  channel_data_layout raw local data.
Proof. exact ParseChannelData_exact. Qed.
Print Assumptions C02_channel_data.

Example C02_channel_data_witness :
  ParseChannelData (be32 1 ++ string_enc (bs "hello")) = Some {| cd_local_channel := 1; cd_data := bs "hello" |} /\
  ParseChannelData (be32 1 ++ [255;255;255;255;65]) = None.
Proof. vm_compute. repeat split. Qed.

Theorem C02_channel_extended_data : forall raw local type data, bytes_ok raw ->
  ParseChannelExtendedData raw =
    Some {| ce_local_channel := local; ce_data_type := type; ce_data := data |} <->
  channel_ext_data_layout raw local type data.
Proof. exact ParseChannelExtendedData_exact. Qed.
Print Assumptions C02_channel_extended_data.

Example C02_channel_extended_data_witness :
  ParseChannelExtendedData (be32 1 ++ be32 1 ++ string_enc (bs "err")) =
  Some {| ce_local_channel := 1; ce_data_type := 1; ce_data := bs "err" |}.
Proof. vm_compute. repeat split. Qed.

Theorem C02_channel_eof : forall raw local, bytes_ok raw ->
  ParseChannelEof raw =
    Some local <->
  channel_only_layout raw local.
Proof. exact ParseChannelEof_exact. Qed.
Print Assumptions C02_channel_eof.

Example C02_channel_eof_witness :
  ParseChannelEof (be32 63) = Some 63 /\ ParseChannelEof (be32 63 ++ [0]) = None.
Proof. vm_compute. repeat split. Qed.

Theorem C02_channel_close : forall raw local, bytes_ok raw ->
  ParseChannelClose raw =
    Some local <->
  channel_only_layout raw local.
Proof. exact ParseChannelClose_exact. Qed.
Print Assumptions C02_channel_close.

Example C02_channel_close_witness :
  ParseChannelClose (be32 63) = Some 63 /\ ParseChannelClose [0;0;0] = None.
Proof. vm_compute. repeat split. Qed.

Theorem C02_channel_request : forall raw local type want data, bytes_ok raw ->
  ParseChannelRequest raw =
    Some {| cr_local_channel := local; cr_request_type := type; cr_want_reply := want; cr_data := data |} <->
  channel_request_layout raw local type want data.
Proof. exact ParseChannelRequest_exact. Qed.
Print Assumptions C02_channel_request.

Example C02_channel_request_witness :
  ParseChannelRequest (be32 1 ++ string_enc (bs "exec") ++ [255] ++ string_enc (bs "ls")) =
  Some {| cr_local_channel := 1; cr_request_type := bs "exec"; cr_want_reply := true; cr_data := string_enc (bs "ls") |}.
Proof. vm_compute. repeat split. Qed.

Theorem C02_channel_response : forall raw local, bytes_ok raw ->
  ParseChannelResponse raw =
    Some local <->
  channel_response_layout raw local.
Proof. exact ParseChannelResponse_exact. Qed.
Print Assumptions C02_channel_response.

Example C02_channel_response_witness :
  ParseChannelResponse (be32 1 ++ [9;9]) = Some 1.
Proof. vm_compute. repeat split. Qed.

Theorem C02_global_request : forall raw name want data, bytes_ok raw ->
  ParseGlobalRequest raw =
    Some {| gr_request_name := name; gr_want_reply := want; gr_data := data |} <->
  global_request_layout raw name want data.
Proof. exact ParseGlobalRequest_exact. Qed.
Print Assumptions C02_global_request.

Example C02_global_request_witness :
  ParseGlobalRequest (string_enc (bs "tcpip-forward") ++ [0] ++ be32 1) =
  Some {| gr_request_name := bs "tcpip-forward"; gr_want_reply := false; gr_data := be32 1 |}.
Proof. vm_compute. repeat split. Qed.
