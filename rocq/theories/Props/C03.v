(** * C03: framing is well-formed and reversible *)

From Coq Require Import NArith List Bool String Lia.
From Verif.Base Require Import Bytes.
From Verif.Model Require Import Wire Frame Packets.
From Verif.Spec Require Import WireSpec FrameSpec.
From Verif.Proofs Require Import WireFacts FrameFacts.
Import ListNotations.
Open Scope N_scope.

(** Any packet that was started with message number [msg], filled with
    [payload], and finished with any of the block sizes in use (8 for no
    cipher / chacha20-poly1305, 16 for AES) is a well-formed binary packet
    that carries exactly message number and payload.  [junk] is the
    uninitialized header memory, [rnd] the random number generator. *)
Theorem C03_finish_well_formed :
  forall (rnd : N -> bytes) (junk : bytes) (msg : N) (payload : bytes)
         (block_size : N) (without_header : bool) s0 s frame,
  (forall n, len (rnd n) = n) ->
  len junk = 5 -> msg < 256 ->
  block_size = 8 \/ block_size = 16 ->
  new_packet junk msg = Some s0 ->
  WriteN s0 payload = Some s ->
  FinishPacket rnd s block_size without_header = Some frame ->
  exists padding,
    framed (msg :: payload) padding frame /\
    4 <= len padding <= 255 /\
    (len frame - (if without_header then 4 else 0)) mod block_size = 0 /\
    16 <= len frame - (if without_header then 4 else 0) /\
    unframe frame = Some (msg :: payload).
Proof.
  intros rnd junk msg payload block wh s0 s frame Hr Hj Hm Hb H0 H1 H2.
  unfold new_packet, WriteU8 in H0. apply WriteN_inv in H0 as [-> H0]; [|rewrite Hj; discriminate].
  apply WriteN_inv in H1 as [-> H1]; [|assumption].
  rewrite N.mod_small in * by assumption.
  rewrite <- app_assoc in H1, H2. change ([msg] ++ payload) with (msg :: payload) in *.
  rewrite FinishPacket_spec in H2 by assumption.
  set (ex := if wh then 4 else 0) in *.
  set (p := Padding (len (junk ++ msg :: payload) - ex) block) in *.
  destruct (_ <=? BUFFER_SIZE) eqn:E; [|discriminate]. apply Some_inj in H2 as <-.
  apply N.leb_le in E.
  assert (Hex : ex <= 4) by (unfold ex; destruct wh; lia).
  exists (rnd p).
  assert (F : framed (msg :: payload) (rnd p)
                (be32 (1 + len (msg :: payload) + p) ++ [p] ++ (msg :: payload) ++ rnd p)).
  { unfold framed. now rewrite Hr. }
  pose proof (Padding_correct (len (junk ++ msg :: payload) - ex) block Hb) as (P1 & P2 & P3 & P4).
  fold p in P1, P2, P3, P4.
  assert (L : len (be32 (1 + len (msg :: payload) + p) ++ [p] ++ (msg :: payload) ++ rnd p) - ex
              = len (junk ++ msg :: payload) - ex + p).
  { rewrite !len_app, len_be32, Hr, Hj. change (len [p]) with 1. lia. }
  split; [exact F|]. rewrite Hr. rewrite L.
  repeat split; try assumption; try lia.
  eapply framed_unframe; [|exact F]. rewrite Hr.
  rewrite len_app, Hj in E. unfold pow32. unfold BUFFER_SIZE in E. lia.
Qed.
Print Assumptions C03_finish_well_formed.

(** Finishing (which is noexcept) cannot fail for any packet whose contents
    leave 19 bytes of room in the buffer; in particular not for any
    packet a peer would accept. *)
Theorem C03_finish_total :
  forall (rnd : N -> bytes) (junk message : bytes) (block_size : N) (without_header : bool),
  (forall n, len (rnd n) = n) ->
  len junk = 5 ->
  block_size = 8 \/ block_size = 16 ->
  len message <= 65536 - 5 - 19 ->
  exists frame, FinishPacket rnd (junk ++ message) block_size without_header = Some frame.
Proof.
  intros rnd junk message block wh Hr Hj Hb Hl.
  rewrite FinishPacket_spec; try assumption.
  - pose proof (Padding_small_block (len (junk ++ message) - (if wh then 4 else 0)) block Hb) as X.
    replace (_ <=? BUFFER_SIZE) with true; [eexists; reflexivity|].
    symmetry. apply N.leb_le. rewrite len_app, Hj in *. unfold BUFFER_SIZE. lia.
  - rewrite len_app, Hj. unfold BUFFER_SIZE. lia.
Qed.
Print Assumptions C03_finish_total.

(** Packets of the builders arrive as what they were built from: here for
    CHANNEL_DATA (builder, framing, unframing, parser). *)
Theorem C03_channel_data_end_to_end :
  forall (rnd : N -> bytes) (junk : bytes) (channel : N) (data : bytes)
         (block_size : N) (without_header : bool) s frame,
  (forall n, len (rnd n) = n) ->
  len junk = 5 ->
  block_size = 8 \/ block_size = 16 ->
  channel < 4294967296 -> bytes_ok data ->
  MakeChannelData junk channel data = Some s ->
  FinishPacket rnd s block_size without_header = Some frame ->
  exists payload, unframe frame = Some (94 :: payload) /\
    ParseChannelData payload = Some {| cd_local_channel := channel; cd_data := data |}.
Proof.
  intros rnd junk channel data block wh s frame Hr Hj Hb Hc Hd H1 H2.
  unfold MakeChannelData in H1.
  destruct (new_packet junk MSG_CHANNEL_DATA) as [s0|] eqn:E0; [|discriminate].
  cbn [obind] in H1. pose proof E0 as E0'.
  unfold new_packet, WriteU8 in E0. apply WriteN_inv in E0 as [-> L0]; [|rewrite Hj; discriminate].
  destruct (WriteU32 _ channel) as [s1|] eqn:E1; [|discriminate]. cbn [obind] in H1.
  unfold WriteU32 in E1. apply WriteN_inv in E1 as [-> L1]; [|assumption].
  change WriteLengthEncoded with WriteString in H1.
  rewrite WriteString_spec in H1 by assumption.
  destruct (_ <=? BUFFER_SIZE) eqn:E2; [|discriminate]. injection H1 as <-.
  apply N.leb_le in E2.
  assert (HW : WriteN (junk ++ [MSG_CHANNEL_DATA mod 256]) (be32 channel ++ string_enc data) =
               Some (((junk ++ [MSG_CHANNEL_DATA mod 256]) ++ put_u32 channel) ++ string_enc data)).
  { rewrite put_u32_be32 in *. rewrite <- app_assoc. apply WriteN_Some.
    rewrite !len_app in *. lia. }
  destruct (C03_finish_well_formed rnd junk MSG_CHANNEL_DATA (be32 channel ++ string_enc data)
              block wh _ _ _ Hr Hj eq_refl Hb E0' HW H2) as (padding & _ & _ & _ & _ & U).
  exists (be32 channel ++ string_enc data). split; [exact U|].
  assert (Ld : len data < pow32).
  { unfold string_enc in E2. rewrite !len_app in E2. unfold BUFFER_SIZE in E2. unfold pow32. lia. }
  unfold ParseChannelData. change ReadLengthEncoded with ReadString.
  rewrite ReadU32_be32 by assumption. cbn [obind].
  rewrite <- (app_nil_r (string_enc data)). rewrite ReadString_enc by assumption.
  reflexivity.
Qed.
Print Assumptions C03_channel_data_end_to_end.

(** A concrete case: the hypotheses are met. *)
Example C03_witness :
  let rnd := fun n => repeat 42 (N.to_nat n) in
  exists s0 s frame,
    new_packet [1;2;3;4;5] 94 = Some s0 /\ WriteN s0 (bs "hello world") = Some s /\
    FinishPacket rnd s 16 true = Some frame /\
    frame = [0;0;0;32;19;94] ++ bs "hello world" ++ repeat 42 19.
Proof. do 3 eexists. vm_compute. repeat split. Qed.

Example C03_witness_rnd : forall n, len (repeat 42 (N.to_nat n)) = n.
Proof. intro n. unfold len. rewrite repeat_length. apply Nnat.N2Nat.id. Qed.

Example C03_data_witness :
  let rnd := fun n => repeat 42 (N.to_nat n) in
  exists s frame,
    MakeChannelData [1;2;3;4;5] 7 (bs "data") = Some s /\
    FinishPacket rnd s 8 false = Some frame /\ len frame = 24.
Proof. do 2 eexists. vm_compute. repeat split. Qed.
