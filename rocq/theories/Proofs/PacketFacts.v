(** Exactness of the packet parsers. *)

From Coq Require Import NArith List Bool Lia.
From Verif.Base Require Import Bytes.
From Verif.Model Require Import Wire WireSchema Packets.
From Verif.Spec Require Import WireSpec PacketSpec.
From Verif.Proofs Require Import WireFacts.
Import ListNotations.
Open Scope N_scope.

Lemma bool_byte_negb : forall x, x < 256 -> bool_byte x (negb (x =? 0)).
Proof.
  intros x H. split; [assumption|].
  rewrite negb_true_iff, N.eqb_neq. reflexivity.
Qed.

Lemma bool_byte_inv : forall x b, bool_byte x b -> b = negb (x =? 0).
Proof.
  intros x b [_ H]. destruct b; destruct (x =? 0) eqn:E; try reflexivity.
  - apply N.eqb_eq in E. destruct H as [H _]. specialize (H eq_refl). contradiction.
  - apply N.eqb_neq in E. apply H in E. discriminate.
Qed.

(** Take apart a successful parse. *)
Ltac parse_inv :=
  repeat match goal with
  | H : obind (ReadU32 ?d) _ = Some _ |- _ =>
      let n := fresh "n" in let r := fresh "r" in let E := fresh "E" in
      destruct (ReadU32 d) as [[n r]|] eqn:E; [|discriminate H]; cbn [obind] in H;
      apply ReadU32_inv in E as (E & ? & ?); [|assumption]
  | H : obind (ReadString ?d) _ = Some _ |- _ =>
      let n := fresh "x" in let r := fresh "r" in let E := fresh "E" in
      destruct (ReadString d) as [[n r]|] eqn:E; [|discriminate H]; cbn [obind] in H;
      apply ReadString_inv in E as (E & ? & ? & ?); [|assumption]
  | H : obind (ReadLengthEncoded ?d) _ = Some _ |- _ =>
      change (ReadLengthEncoded d) with (ReadString d) in H
  | H : obind (ReadBool ?d) _ = Some _ |- _ =>
      let n := fresh "b" in let r := fresh "r" in let E := fresh "E" in
      destruct (ReadBool d) as [[n r]|] eqn:E; [|discriminate H]; cbn [obind] in H;
      apply ReadBool_inv in E as (? & E & ? & ? & ?); [|assumption]
  | H : obind (ReadN ?k ?d) _ = Some _ |- _ =>
      let n := fresh "x" in let r := fresh "r" in let E := fresh "E" in
      destruct (ReadN k d) as [[n r]|] eqn:E; [|discriminate H]; cbn [obind] in H;
      apply ReadN_inv_ok in E as (E & ? & ? & ?); [|assumption]
  | H : obind (ExpectEnd ?d) _ = Some _ |- _ =>
      destruct d; [|discriminate H]; cbn [obind ExpectEnd] in H
  end;
  try match goal with H : Some _ = Some _ |- _ => injection H; clear H; intros end;
  subst.

Ltac layout_solve :=
  unfold exactly, enc; cbn [map concat enc_field];
  rewrite ?app_nil_r;
  repeat split; try assumption;
  repeat (apply Forall_cons || apply Forall_nil); cbn [field_ok]; auto;
  now rewrite <- ?app_assoc.

Ltac parse_run :=
  repeat first
  [ rewrite ReadU32_be32 by assumption; cbn [obind]
  | rewrite ReadString_enc by assumption; cbn [obind]
  | rewrite ReadN_app; cbn [obind] ].

Ltac layout_inv :=
  repeat match goal with
  | H : exactly _ _ |- _ => destruct H as [? ->]
  | H : Forall field_ok (_ :: _) |- _ => inversion H; clear H; subst
  | H : Forall field_ok [] |- _ => clear H
  | H : field_ok _ |- _ => cbn [field_ok] in H
  end;
  unfold enc; cbn [map concat enc_field]; rewrite ?app_nil_r.

Lemma ReadString_enc_end : forall x, len x < pow32 -> ReadString (string_enc x) = Some (x, []).
Proof. intros. rewrite <- (app_nil_r (string_enc x)). now apply ReadString_enc. Qed.

Lemma ReadU32_be32_end : forall n, n < pow32 -> ReadU32 (be32 n) = Some (n, []).
Proof. intros. rewrite <- (app_nil_r (be32 n)). now apply ReadU32_be32. Qed.

Ltac parse_run' :=
  repeat first
  [ rewrite ReadU32_be32 by assumption; cbn [obind]
  | rewrite ReadString_enc by assumption; cbn [obind]
  | rewrite ReadU32_be32_end by assumption; cbn [obind ExpectEnd]
  | rewrite ReadString_enc_end by assumption; cbn [obind ExpectEnd] ].

Lemma ParseDisconnect_exact : forall raw reason desc, bytes_ok raw ->
  ParseDisconnect raw = Some {| disconnect_reason := reason; disconnect_description := desc |} <->
  disconnect_layout raw reason desc.
Proof.
  intros raw reason desc Hok. unfold ParseDisconnect, disconnect_layout. split.
  - intro H. parse_inv. eexists. layout_solve.
  - intros [lang H]. layout_inv. parse_run'. reflexivity.
Qed.

Lemma ParseServiceRequest_exact : forall raw name, bytes_ok raw ->
  ParseServiceRequest raw = Some name <-> service_layout raw name.
Proof.
  intros raw name Hok. unfold ParseServiceRequest, service_layout. split.
  - intro H. parse_inv. layout_solve.
  - intros H. layout_inv. parse_run'. reflexivity.
Qed.

Lemma ParseServiceAccept_exact : forall raw name, bytes_ok raw ->
  ParseServiceAccept raw = Some name <-> service_layout raw name.
Proof. exact ParseServiceRequest_exact. Qed.

Lemma ParseKexInit_exact : forall raw kex hostkey enc1 enc2 mac1 mac2 follows, bytes_ok raw ->
  ParseKexInit raw = Some {| ki_kex_algorithms := kex;
          ki_server_host_key_algorithms := hostkey;
          ki_encryption_ctos := enc1;
          ki_encryption_stoc := enc2;
          ki_mac_ctos := mac1;
          ki_mac_stoc := mac2;
          ki_first_kex_packet_follows := follows |} <->
  kexinit_layout raw kex hostkey enc1 enc2 mac1 mac2 follows.
Proof.
  intros. unfold ParseKexInit, kexinit_layout. split.
  - intro K. parse_inv.
    do 7 eexists. split; [reflexivity || eassumption|]. split; [apply bool_byte_negb; eassumption|].
    layout_solve.
  - intros (cookie & comp1 & comp2 & lang1 & lang2 & x & reserved & Hc & Hb & K).
    apply bool_byte_inv in Hb. layout_inv. rewrite <- Hc, ReadN_app. cbn [obind].
    parse_run'. cbn [app ReadBool obind]. parse_run'. reflexivity.
Qed.

Lemma ParseECDHKexInit_exact : forall raw pub, bytes_ok raw ->
  ParseECDHKexInit raw = Some pub <-> ecdh_init_layout raw pub.
Proof. exact ParseServiceRequest_exact. Qed.

Lemma ParseECDHKexInitReply_exact : forall raw hostkey pub sig, bytes_ok raw ->
  ParseECDHKexInitReply raw =
    Some {| kr_server_host_key_blob := hostkey;
            kr_server_ephemeral_public_key := pub; kr_signature := sig |} <->
  ecdh_reply_layout raw hostkey pub sig.
Proof.
  intros. unfold ParseECDHKexInitReply, ecdh_reply_layout.
  change ReadLengthEncoded with ReadString. split.
  - intro K. parse_inv. layout_solve.
  - intros K. layout_inv. parse_run'. reflexivity.
Qed.

Lemma ParseChannelOpen_exact : forall raw type peer window max data, bytes_ok raw ->
  ParseChannelOpen raw =
    Some {| co_channel_type := type; co_peer_channel := peer;
            co_initial_window_size := window; co_maximum_packet_size := max;
            co_data := data |} <->
  channel_open_layout raw type peer window max data.
Proof.
  intros. unfold ParseChannelOpen, channel_open_layout. split.
  - intro K. parse_inv. layout_solve.
  - intros K. layout_inv. parse_run'. reflexivity.
Qed.

Lemma ParseChannelOpenConfirmation_exact : forall raw local peer window max data, bytes_ok raw ->
  ParseChannelOpenConfirmation raw =
    Some {| cc_local_channel := local; cc_peer_channel := peer;
            cc_initial_window_size := window; cc_maximum_packet_size := max;
            cc_data := data |} <->
  channel_confirm_layout raw local peer window max data.
Proof.
  intros. unfold ParseChannelOpenConfirmation, channel_confirm_layout. split.
  - intro K. parse_inv. layout_solve.
  - intros K. layout_inv. parse_run'. reflexivity.
Qed.

Lemma ParseChannelOpenFailure_exact : forall raw local reason desc, bytes_ok raw ->
  ParseChannelOpenFailure raw =
    Some {| cf_local_channel := local; cf_reason_code := reason; cf_description := desc |} <->
  channel_open_failure_layout raw local reason desc.
Proof.
  intros. unfold ParseChannelOpenFailure, channel_open_failure_layout. split.
  - intro K. parse_inv. eexists. layout_solve.
  - intros [lang K]. layout_inv. parse_run'. reflexivity.
Qed.

Lemma ParseChannelWindowAdjust_exact : forall raw local nbytes, bytes_ok raw ->
  ParseChannelWindowAdjust raw = Some {| wa_local_channel := local; wa_nbytes := nbytes |} <->
  window_adjust_layout raw local nbytes.
Proof.
  intros. unfold ParseChannelWindowAdjust, window_adjust_layout. split.
  - intro K. parse_inv. layout_solve.
  - intros K. layout_inv. parse_run'. reflexivity.
Qed.

Lemma ParseChannelData_exact : forall raw local data, bytes_ok raw ->
  ParseChannelData raw = Some {| cd_local_channel := local; cd_data := data |} <->
  channel_data_layout raw local data.
Proof.
  intros. unfold ParseChannelData, channel_data_layout.
  change ReadLengthEncoded with ReadString. split.
  - intro K. parse_inv. layout_solve.
  - intros K. layout_inv. parse_run'. reflexivity.
Qed.

Lemma ParseChannelExtendedData_exact : forall raw local type data, bytes_ok raw ->
  ParseChannelExtendedData raw =
    Some {| ce_local_channel := local; ce_data_type := type; ce_data := data |} <->
  channel_ext_data_layout raw local type data.
Proof.
  intros. unfold ParseChannelExtendedData, channel_ext_data_layout.
  change ReadLengthEncoded with ReadString. split.
  - intro K. parse_inv. layout_solve.
  - intros K. layout_inv. parse_run'. reflexivity.
Qed.

Lemma ParseChannelEof_exact : forall raw local, bytes_ok raw ->
  ParseChannelEof raw = Some local <-> channel_only_layout raw local.
Proof.
  intros. unfold ParseChannelEof, channel_only_layout. split.
  - intro K. parse_inv. layout_solve.
  - intros K. layout_inv. parse_run'. reflexivity.
Qed.

Lemma ParseChannelClose_exact : forall raw local, bytes_ok raw ->
  ParseChannelClose raw = Some local <-> channel_only_layout raw local.
Proof. exact ParseChannelEof_exact. Qed.

Lemma ParseChannelRequest_exact : forall raw local type want data, bytes_ok raw ->
  ParseChannelRequest raw =
    Some {| cr_local_channel := local; cr_request_type := type;
            cr_want_reply := want; cr_data := data |} <->
  channel_request_layout raw local type want data.
Proof.
  intros. unfold ParseChannelRequest, channel_request_layout. split.
  - intro K. parse_inv. eexists. split; [apply bool_byte_negb; eassumption|]. layout_solve.
  - intros (x & Hb & K). apply bool_byte_inv in Hb. layout_inv. parse_run'.
    cbn [app ReadBool obind]. reflexivity.
Qed.

Lemma ParseChannelResponse_exact : forall raw local, bytes_ok raw ->
  ParseChannelResponse raw = Some local <-> channel_response_layout raw local.
Proof.
  intros. unfold ParseChannelResponse, channel_response_layout. split.
  - intro K. parse_inv. eexists r. layout_solve.
  - intros [t K]. layout_inv. parse_run'. reflexivity.
Qed.

Lemma ParseGlobalRequest_exact : forall raw name want data, bytes_ok raw ->
  ParseGlobalRequest raw =
    Some {| gr_request_name := name; gr_want_reply := want; gr_data := data |} <->
  global_request_layout raw name want data.
Proof.
  intros. unfold ParseGlobalRequest, global_request_layout. split.
  - intro K. parse_inv. eexists. split; [apply bool_byte_negb; eassumption|]. layout_solve.
  - intros (x & Hb & K). apply bool_byte_inv in Hb. layout_inv. parse_run'.
    cbn [app ReadBool obind]. reflexivity.
Qed.
