(** Facts about building messages (C73, C74). *)

From Coq Require Import NArith List Bool Lia String.
From Verif.Base Require Import Bytes.
From Verif.Spec Require Import WireSpec PacketSpec MessageSpec.
From Verif.Model Require Import Wire Frame Packets Makers.
From Verif.Proofs Require Import WireFacts KeyFacts.
Import ListNotations.
Open Scope N_scope.

Local Arguments bs : simpl never.
Local Arguments string_enc : simpl never.
Local Arguments be32 : simpl never.

Lemma appends_eq : forall f p q, appends f p -> p = q -> appends f q.
Proof. intros; now subst. Qed.

Lemma appends_string : forall x, appends (fun s => WriteString s x) (string_enc x).
Proof. intros x s L. now apply WriteString_spec. Qed.
Lemma appends_length_encoded : forall x, appends (fun s => WriteLengthEncoded s x) (string_enc x).
Proof. exact appends_string. Qed.

Lemma appends_N : forall x, x <> [] -> appends (fun s => WriteN s x) x.
Proof.
  intros x NE s L. rewrite WriteN_spec. destruct (len s + len x <=? BUFFER_SIZE); [reflexivity|].
  destruct (N.eqb_spec (len x) 0) as [E|E]; [|reflexivity]. apply len_0 in E. contradiction.
Qed.

Lemma appends_u32 : forall n, appends (fun s => WriteU32 s n) (be32 n).
Proof. intros n. unfold WriteU32. rewrite put_u32_be32. now apply appends_N. Qed.

Lemma appends_u8 : forall n, n < 256 -> appends (fun s => WriteU8 s n) [n].
Proof. intros n B. unfold WriteU8. rewrite N.mod_small by exact B. now apply appends_N. Qed.

Lemma appends_bool : forall b, appends (fun s => WriteBool s b) (bool_enc b).
Proof. intros b. unfold WriteBool. apply (appends_u8 (if b then 1 else 0)). destruct b; lia. Qed.

Lemma appends_none : appends (fun s => Some s) [].
Proof. intros s L. rewrite len_nil, N.add_0_r, app_nil_r. apply N.leb_le in L. now rewrite L. Qed.

Lemma appends_packet : forall msg, msg < 256 -> appends (fun s => new_packet s msg) [msg].
Proof. exact appends_u8. Qed.

(** Tactic: the bytes of a chain of writes *)
Ltac writes :=
  lazymatch goal with
  | |- appends (fun s => obind _ _) _ => eapply appends_chain; [writes|cbv beta; writes]
  | |- appends (fun s => Some s) _ => apply appends_none
  | |- appends (fun s => WriteString s ?x) _ => apply (appends_string x)
  | |- appends (fun s => WriteLengthEncoded s ?x) _ => apply (appends_length_encoded x)
  | |- appends (fun s => WriteU32 s ?x) _ => apply (appends_u32 x)
  | |- appends (fun s => WriteBool s ?x) _ => apply (appends_bool x)
  | |- appends (fun s => new_packet s ?x) _ => apply (appends_packet x); first [reflexivity | match goal with b : bool |- _ => destruct b; reflexivity end]
  end.

(** a whole message in the buffer of a new packet *)
Lemma made_by : forall f number fields junk, len junk = 5 -> appends f (number :: enc fields) -> f junk = made junk number fields.
Proof. intros f number fields junk L A. unfold made. rewrite (A junk) by (rewrite L; discriminate). now rewrite L. Qed.

Ltac made f := apply (made_by f); [assumption|]; eapply appends_eq;
  [cbv beta delta [MakeDisconnect MakeUnimplemented MakeServiceRequest MakeServiceAccept MakeExtInfo MakeUserauthFailure MakeUserauthBanner MakeUserauthPkOk
     MakeGlobalRequest MakeGlobalResponse MakeChannelOpen SerializeForwarded SerializeAgent MakeChannelOpenConfirmation MakeChannelOpenFailure MakeChannelEof
     MakeChannelClose MakeChannelWindowAdjust MakeChannelData MakeChannelExtendedData MakeChannelReqest MakeChannelResponse MakeExitStatus MakeExitSignal]; writes
  |unfold enc; cbn [map enc_field List.concat app]; rewrite ?app_nil_r, <- ?app_assoc; cbn [app]; reflexivity].
