(** * The Diffie-Hellman part of the key exchange

    The classes [Curve25519Kex] (libsodium) and [ECDHKex] (OpenSSL).  The
    arithmetic of the two curves is a parameter; what is modelled is what this
    code does with its results.  [EVP_PKEY_derive()] is called twice (for the
    size and for the value); both calls give the same size. *)

From Coq Require Import NArith List Bool.
From Verif.Base Require Import Bytes.
From Verif.Model Require Import Wire Negotiate KexMachine Keys.
Import ListNotations.
Open Scope N_scope.

(** The external functions.  [None]: the call fails. *)
Record curves := {
  (** crypto_scalarmult_curve25519(secret, public) *)
  cv_mult : bytes -> bytes -> option bytes;
  (** crypto_scalarmult_curve25519_base(secret) *)
  cv_base : bytes -> bytes;
  (** the public key (OSSL_PKEY_PARAM_PUB_KEY) of a generated P-256 key *)
  cv_public : bytes -> bytes;
  (** DeserializeECPublic("P-256", peer) (src/openssl/DeserializeEC.cxx:38-58)
      and EVP_PKEY_derive(secret, peer) *)
  cv_derive : bytes -> bytes -> option bytes
}.

(** sodium_is_zero() *)
Definition sodium_is_zero (x : bytes) : bool := forallb (fun b => b =? 0) x.

(** src/ssh/KexCurve25519.cxx:38-66 KexCurve25519CalcSharedKey(); [None]: an
    exception ([raw] is never true) *)
Definition KexCurve25519CalcSharedKey (C : curves) (key pub : bytes) (out : serializer) (raw : bool) : option serializer :=
  let* shared_key := cv_mult C key pub in
  if sodium_is_zero shared_key then None
  else if raw then WriteN out shared_key
  else WriteNested out (fun out => WriteBignum2 out shared_key).

(** src/ssh/KexECDH.cxx:22-38 EVP_PKEY_derive(Serializer) *)
Definition EVP_PKEY_derive (C : curves) (key peer : bytes) (s : serializer) : option serializer :=
  let* dest := cv_derive C key peer in
  let* s := WriteN s dest in
  CommitBignum2 s (len dest).

(** src/ssh/KexCurve25519.cxx:68-72 and src/ssh/KexECDH.cxx:40-44 (with
    src/openssl/SerializeEVP.cxx) SerializeEphemeralPublicKey() *)
Definition SerializeEphemeralPublicKey (C : curves) (alg : kexalg) (secret : bytes) : bytes :=
  match alg with
  | Curve25519 => cv_base C secret
  | NistP256 => cv_public C secret
  end.

(** src/ssh/KexCurve25519.cxx:74-84, src/ssh/KexECDH.cxx:46-64
    GenerateSharedSecret() into an empty serializer
    (src/ssh/Connection.cxx HandleECDHKexInit(), HandleECDHKexInitReply()) *)
Definition GenerateSharedSecret (C : curves) (alg : kexalg) (secret peer : bytes) : option bytes :=
  match alg with
  | Curve25519 =>
      if negb (len peer =? 32) then None
      else KexCurve25519CalcSharedKey C secret peer new_serializer false
  | NistP256 => WriteNested new_serializer (fun s => EVP_PKEY_derive C secret peer s)
  end.

(** An environment of the key exchange machine which computes with the
    curves. *)
Definition with_curves (C : curves) (E : kenv) : kenv := {|
  e_digest := e_digest E; e_version := e_version E; e_host_key_algorithms := e_host_key_algorithms E;
  e_choose := e_choose E; e_blob := e_blob E; e_sign := e_sign E;
  e_verify_host_key := e_verify_host_key E; e_verify_signature := e_verify_signature E;
  e_public := SerializeEphemeralPublicKey C; e_shared := GenerateSharedSecret C
|}.
