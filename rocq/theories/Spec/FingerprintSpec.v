(** Fingerprints of keys (C92). *)

From Coq Require Import NArith List Bool String.
From Verif.Base Require Import Bytes.
From Verif.Spec Require Import WireSpec KeyFormatSpec.
From Verif.Model Require Import Keys Auth AuditLog.
Import ListNotations.
Open Scope N_scope.

(** RFC 4648 section 4 *)
Definition ALPHABET : bytes := bs "ABCDEFGHIJKLMNOPQRSTUVWXYZabcdefghijklmnopqrstuvwxyz0123456789+/".
Definition symbol (digit : N) : N := nth (N.to_nat digit) ALPHABET 0.
Definition value64 (digits : list N) : N := fold_left (fun acc d => acc * 64 + d) digits 0.

(** The bits of [data], filled up with zeros, in groups of six. *)
Definition base64_text (padded : bool) (data text : bytes) : Prop :=
  exists digits fill,
    Forall (fun d => d < 64) digits /\
    8 * len data <= 6 * len digits < 8 * len data + 6 /\
    value64 digits = be_value data * 2 ^ (6 * len digits - 8 * len data) /\
    text = map symbol digits ++ repeat 61 fill /\
    if padded then (len text mod 4 = 0 /\ (fill < 4)%nat) else fill = O.

(** "SHA256:" and the hash of the public key, as in its RFC. *)
Definition fingerprint (hash : bytes -> bytes) (padded : bool) (k : public_key) (text : bytes) : Prop :=
  exists blob t, public_blob k blob /\ base64_text padded (hash blob) t /\ text = bs "SHA256:" ++ t.

(** Two messages with the same hash. *)
Definition colliding (hash : bytes -> bytes) : Prop :=
  exists a b, a <> b /\ hash a = hash b.

(** A hash of 32 bytes. *)
Definition hash32 (hash : bytes -> bytes) : Prop := forall m, len (hash m) = 32 /\ bytes_ok (hash m).

(** OpenSSL gives points of a curve in at most 1024 bytes (65 for P-256). *)
Definition small_points (c : crypto) : Prop := forall q q', c_ec_public c q = Some q' -> len q' <= 1024.

(** The server verifies signatures with the code of C66-C68. *)
Definition uses_keys (cfg : config) (c : crypto) : Prop :=
  (forall blob, cf_parse_key cfg blob = match ParsePublicKeyBlob c blob with Some _ => true | None => false end) /\
  (forall blob message signature, cf_verify cfg blob message signature =
     match ParsePublicKeyBlob c blob with Some k => Verify c k message signature | None => None end).

(** RFC 8709, RFC 4253, RFC 5656: the names of the types *)
Definition type_name (k : public_key) : bytes :=
  match k with
  | PubEd25519 _ => bs "ssh-ed25519"
  | PubRSA _ _ => bs "ssh-rsa"
  | PubEC _ => bs "ecdsa-sha2-nistp256"
  end.

(** A line about a key. *)
Definition key_line (l : line) (user blob : bytes) : Prop := l = LAcceptedKey user blob \/ l = LAcceptedHost user blob.
