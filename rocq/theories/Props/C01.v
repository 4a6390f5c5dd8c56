(** * C01: field serialization round-trips *)

From Coq Require Import NArith List Bool String Lia.
From Verif.Base Require Import Bytes.
From Verif.Model Require Import Wire WireSchema.
From Verif.Spec Require Import WireSpec.
From Verif.Proofs Require Import WireFacts.
Import ListNotations.
Open Scope N_scope.

(** Writing any sequence of fields to a serializer (which already holds [s])
    appends exactly the RFC 4251 encoding if and only if it fits into the
    65536 bytes of the buffer, and reports PacketTooLarge otherwise. *)
Theorem C01_write_exact : forall (s : bytes) (fs : list field),
  len s <= 65536 -> Forall field_ok fs ->
  write_fields s fs =
    (if len s + len (enc fs) <=? 65536 then Some (s ++ enc fs) else None).
Proof. exact (fun s fs => write_fields_spec fs s). Qed.
Print Assumptions C01_write_exact.

(** What was accepted by the serializer reads back to exactly the written
    values, and leaves exactly the bytes that followed. *)
Theorem C01_roundtrip : forall (fs : list field) (out trailing : bytes),
  Forall field_ok fs ->
  write_fields new_serializer fs = Some out ->
  read_fields (map type_of fs) (Finish out ++ trailing) = Some (fs, trailing).
Proof.
  intros fs out trailing Hok H.
  assert (out = enc fs) as ->.
  { rewrite write_fields_spec in H; [|discriminate|assumption].
    destruct (_ <=? _); [|discriminate]. now injection H as <-. }
  exact (read_fields_enc fs trailing Hok).
Qed.
Print Assumptions C01_roundtrip.

(** The fixed-width and length-placeholder primitives: PrepareLength(),
    any further writes, CommitLength() produce a length-prefixed string. *)
Theorem C01_deferred_length : forall (s body : bytes) at_ s1 s2,
  len s <= 65536 ->
  PrepareLength s = Some (at_, s1) ->
  WriteN s1 body = Some s2 ->
  CommitLength s2 at_ = s ++ string_enc body.
Proof.
  intros s body at_ s1 s2 Hs H1 H2. unfold PrepareLength, WriteU32 in H1.
  destruct (WriteN s (put_u32 0)) as [x|] eqn:E; [|discriminate].
  simpl in H1. injection H1 as <- <-.
  apply WriteN_inv in E as [-> E]; [|assumption].
  apply WriteN_inv in H2 as [-> H2]; [|assumption].
  unfold CommitLength. rewrite !len_app.
  replace (len (put_u32 0)) with 4 by reflexivity.
  replace (len s + 4 + len body - len s - 4) with (len body) by lia.
  rewrite <- app_assoc. rewrite take_len.
  rewrite (app_assoc s (put_u32 0) body).
  replace (len s + 4) with (len (s ++ put_u32 0)) by (rewrite len_app; reflexivity).
  rewrite drop_len. unfold string_enc. now rewrite put_u32_be32.
Qed.
Print Assumptions C01_deferred_length.

(** A concrete case: all field kinds, extreme values, trailing bytes. *)
Example C01_witness :
  let fs := [FByte 255; FBool true; FU32 4294967295; FString (bs "ssh"); FString []; FRaw [0; 1]] in
  Forall field_ok fs /\
  exists out, write_fields new_serializer fs = Some out /\
  read_fields (map type_of fs) (Finish out ++ [7]) = Some (fs, [7]).
Proof.
  split.
  - repeat constructor.
  - eexists. split; reflexivity.
Qed.

(** ... and a sequence that does not fit is refused. *)
Example C01_witness_too_large :
  write_fields (repeat 0 (N.to_nat 65530)) [FU32 1; FString []] = None.
Proof. vm_compute. reflexivity. Qed.
