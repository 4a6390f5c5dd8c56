(** * C66: public keys are written and read in the standard format *)

From Coq Require Import NArith List Bool Lia String.
From Verif.Base Require Import Bytes.
From Verif.Spec Require Import WireSpec KeyFormatSpec.
From Verif.Model Require Import Wire Bignum Keys.
From Verif.Proofs Require Import WireFacts BignumFacts KeyFormatFacts.
Import ListNotations.
Open Scope N_scope.

Local Arguments bs : simpl never.

(** Writing a key (with enough room) appends its blob in the format of the
    RFCs. *)
Theorem C66_written :
  forall s k, len s + 8192 <= 65536 -> public_ok k ->
  exists blob, SerializePublic s k = Some (s ++ blob) /\ public_blob k blob.
Proof. intros s k L OK. destruct (SerializePublic_some s k L OK) as (b & A & B & _). eauto. Qed.
Print Assumptions C66_written.

(** Reading such a blob gives the key, for all keys which the libraries
    support. *)
Theorem C66_read :
  forall c k blob, public_ok k -> supported c k -> public_blob k blob -> ParsePublicKeyBlob c blob = Some k.
Proof. intros c k blob OK S B. rewrite <- (app_nil_r blob). now apply ParsePublicKeyBlob_blob. Qed.
Print Assumptions C66_read.

(** A key has one blob, and a blob belongs to one key: comparing blobs (which
    is how lukko looks a key up) is comparing keys. *)
Theorem C66_unique :
  forall k k' blob blob', public_ok k -> public_ok k' -> public_blob k blob -> public_blob k' blob' ->
  (blob = blob' <-> k = k').
Proof.
  intros k k' blob blob' OK OK' B B'. split.
  - intros <-.
    set (c := {| c_openssl := true; c_libmd := true; c_ed_sign := fun _ _ => []; c_ed_verify := fun _ _ _ => true; c_digest := fun _ _ => [];
      c_rsa_public_ok := fun _ _ => true; c_rsa_ok := fun _ => true; c_ec_public := @Some bytes; c_ec := fun q _ => Some q;
      c_sign := fun _ _ _ => None; c_verify := fun _ _ _ _ => None; c_d2i := fun _ => None; c_i2d := fun _ => []; c_base64 := fun _ => None |}).
    assert (S : forall k, supported c k) by (intros []; cbn; auto).
    pose proof (C66_read c k blob OK (S k) B) as P. pose proof (C66_read c k' blob OK' (S k') B') as P'. congruence.
  - intros <-. destruct k as [p|e n|q]; cbn [public_blob] in *.
    + congruence.
    + destruct B as (e1 & n1 & E1 & N1 & ->). destruct B' as (e2 & n2 & E2 & N2 & ->).
      now rewrite (is_mpint_unique _ _ _ E1 E2), (is_mpint_unique _ _ _ N1 N2).
    + congruence.
Qed.
Print Assumptions C66_unique.

(** Only blobs in this format are accepted. *)
Definition C66_full_statement : Prop :=
  forall c blob k, bytes_ok blob -> ParsePublicKeyBlob c blob = Some k -> public_blob k blob.

(** It is false: what follows the key is ignored. *)
Definition toy_crypto : crypto := {| c_openssl := true; c_libmd := true;
  c_ed_sign := fun secret m => secret; c_ed_verify := fun p m s => bytes_eqb (take 32 s) p; c_digest := fun _ m => m;
  c_rsa_public_ok := fun _ _ => true; c_rsa_ok := fun _ => true; c_ec_public := @Some bytes; c_ec := fun q _ => Some q;
  c_sign := fun k h d => Some (match k with SecEC _ _ => [5; 7] | _ => d end);
  c_verify := fun k h d s => Some (match k with PubEC _ => bytes_eqb s [5; 7] | _ => bytes_eqb s d end);
  c_d2i := fun b => match b with [r; s] => Some (r, s) | _ => None end; c_i2d := fun x => [fst x; snd x]; c_base64 := fun b => Some b |}.
Definition demo_public : bytes := repeat 9 32.
Theorem C66_refuted : ~ C66_full_statement.
Proof.
  intro H. specialize (H toy_crypto (enc [FString (bs "ssh-ed25519"); FString demo_public] ++ [1]) (PubEd25519 demo_public)).
  assert (OK : bytes_ok (enc [FString (bs "ssh-ed25519"); FString demo_public] ++ [1])).
  { apply Forall_forall. intros x I. apply N.ltb_lt. revert x I. apply forallb_forall. vm_compute. reflexivity. }
  specialize (H OK). assert (P : ParsePublicKeyBlob toy_crypto (enc [FString (bs "ssh-ed25519"); FString demo_public] ++ [1]) = Some (PubEd25519 demo_public))
    by (vm_compute; reflexivity). specialize (H P). vm_compute in H. discriminate.
Qed.
Print Assumptions C66_refuted.

(** What holds: the blob begins with fields which give the key, of the right
    type and size. *)
Theorem C66_accepted_partial :
  forall c blob k, bytes_ok blob -> ParsePublicKeyBlob c blob = Some k ->
  match k with
  | PubEd25519 public => len public = 32 /\ exists rest, blob = enc [FString (bs "ssh-ed25519"); FString public] ++ rest
  | PubRSA e n => c_openssl c = true /\ exists e' n' rest, be_value e' = e /\ be_value n' = n /\
      blob = enc [FString (bs "ssh-rsa"); FString e'; FString n'] ++ rest
  | PubEC q => c_openssl c = true /\ exists q' rest, c_ec_public c q' = Some q /\
      blob = enc [FString (bs "ecdsa-sha2-nistp256"); FString (bs "nistp256"); FString q'] ++ rest
  end.
Proof. exact ParsePublicKeyBlob_inv. Qed.
Print Assumptions C66_accepted_partial.

Example C66_demo :
  public_ok (PubRSA 65537 (2 ^ 2047 + 1)) /\ supported toy_crypto (PubRSA 65537 (2 ^ 2047 + 1)) /\
  match SerializePublic [] (PubRSA 65537 (2 ^ 2047 + 1)) with
  | Some b => len b = 279 /\ ParsePublicKeyBlob toy_crypto b = Some (PubRSA 65537 (2 ^ 2047 + 1))
  | None => False
  end.
Proof.
  split; [split; vm_compute; reflexivity|]. split; [now split|]. vm_compute. auto.
Qed.
