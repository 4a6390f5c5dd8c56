(** * What is expected of the two curves, and of a shared secret *)

From Coq Require Import NArith List.
From Verif.Base Require Import Bytes.
From Verif.Spec Require Import WireSpec.
From Verif.Model Require Import Negotiate KexSecret.
Import ListNotations.
Open Scope N_scope.

(** Sizes, and the Diffie-Hellman law: it does not matter whose secret is
    combined with whose public key. *)
Record curve_laws (C : curves) : Prop := {
  base_size : forall a, len (cv_base C a) = 32;
  mult_size : forall a p z, cv_mult C a p = Some z -> len z = 32 /\ bytes_ok z;
  mult_same : forall a b, cv_mult C a (cv_base C b) = cv_mult C b (cv_base C a);
  public_size : forall a, len (cv_public C a) = 65;
  derive_size : forall a p z, cv_derive C a p = Some z -> len z = 32 /\ bytes_ok z;
  derive_same : forall a b, cv_derive C a (cv_public C b) = cv_derive C b (cv_public C a)
}.

(** The number (32 bytes, big-endian) on which the two sides agree, RFC 8731
    section 3 and RFC 5656 section 4.  For X25519, public keys which do not
    have 32 bytes and the result zero must be rejected. *)
Definition agreed (C : curves) (alg : kexalg) (secret peer : bytes) (n : N) : Prop :=
  match alg with
  | Curve25519 => len peer = 32 /\ exists z, cv_mult C secret peer = Some z /\ be_value z = n /\ n <> 0
  | NistP256 => exists z, cv_derive C secret peer = Some z /\ be_value z = n
  end.

(** K is sent into hashes as an mpint: a string with the shortest
    representation. *)
Definition is_mpint_string (n : N) (k : bytes) : Prop :=
  exists m, mpint_canonical m /\ be_value m = n /\ k = string_enc m.
