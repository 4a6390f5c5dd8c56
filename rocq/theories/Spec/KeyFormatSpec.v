(** The formats of keys, signatures and key files (C66-C68). *)

From Coq Require Import NArith List Bool String.
From Verif.Base Require Import Bytes.
From Verif.Spec Require Import WireSpec.
From Verif.Model Require Import Keys.
Import ListNotations.
Open Scope N_scope.

(** RFC 4251: the contents of an "mpint" with a given value. *)
Definition is_mpint (n : N) (e : bytes) : Prop := mpint_canonical e /\ be_value e = n.

(** Numbers up to 16384 bits. *)
Definition number_ok (n : N) : Prop := n < 256 ^ 2048.

(** Public keys: RFC 8709 section 4, RFC 4253 section 6.6, RFC 5656 section
    3.1. *)
Definition public_blob (k : public_key) (blob : bytes) : Prop :=
  match k with
  | PubEd25519 public => blob = enc [FString (bs "ssh-ed25519"); FString public]
  | PubRSA e n => exists e' n', is_mpint e e' /\ is_mpint n n' /\
      blob = enc [FString (bs "ssh-rsa"); FString e'; FString n']
  | PubEC q => blob = enc [FString (bs "ecdsa-sha2-nistp256"); FString (bs "nistp256"); FString q]
  end.

(** Keys of the right size. *)
Definition public_ok (k : public_key) : Prop :=
  match k with
  | PubEd25519 public => len public = 32
  | PubRSA e n => number_ok e /\ number_ok n
  | PubEC q => len q <= 1024
  end.

(** Keys which OpenSSL accepts (if lukko was built with it). *)
Definition supported (c : crypto) (k : public_key) : Prop :=
  match k with
  | PubEd25519 _ => True
  | PubRSA e n => c_openssl c = true /\ c_rsa_public_ok c e n = true
  | PubEC q => c_openssl c = true /\ c_ec_public c q = Some q
  end.

(** The algorithms of a kind of key, and their hash functions: RFC 8709
    section 6, RFC 4253 section 6.6 and RFC 8332, RFC 5656 section 6.2. *)
Definition algorithm_of (k : public_key) (algorithm : bytes) : Prop :=
  match k with
  | PubEd25519 _ => algorithm = bs "ssh-ed25519"
  | PubRSA _ _ => algorithm = bs "ssh-rsa" \/ algorithm = bs "rsa-sha2-256" \/ algorithm = bs "rsa-sha2-512"
  | PubEC _ => algorithm = bs "ecdsa-sha2-nistp256"
  end.
Definition hash_of (algorithm : bytes) (h : digest_algorithm) : Prop :=
  (algorithm = bs "ssh-rsa" /\ h = SHA1) \/ (algorithm = bs "rsa-sha2-256" /\ h = SHA256) \/
  (algorithm = bs "rsa-sha2-512" /\ h = SHA512) \/ (algorithm = bs "ecdsa-sha2-nistp256" /\ h = SHA256).

(** What it means that a raw signature is valid: the primitive accepts it.
    RFC 5656: an ECDSA signature is two numbers. *)
Definition raw_valid (c : crypto) (k : public_key) (algorithm message raw : bytes) : Prop :=
  match k with
  | PubEd25519 public => len raw = 64 /\ c_ed_verify c public message raw = true
  | PubRSA _ _ => exists h, hash_of algorithm h /\ c_verify c k h (c_digest c h message) raw = Some true
  | PubEC _ => exists h r s r' s' rest, hash_of algorithm h /\
      be_value r' = r /\ be_value s' = s /\ raw = enc [FString r'; FString s'] ++ rest /\
      c_verify c k h (c_digest c h message) (c_i2d c (r, s)) = Some true
  end.

(** What we know about libsodium and OpenSSL: what was signed with a key
    verifies with it; signatures of Ed25519 have 64 bytes; those of ECDSA are
    in DER format, which is two numbers. *)
Record signs_well (c : crypto) (k : secret_key) : Prop := {
  sw_ed : forall public secret message, k = SecEd25519 public secret ->
    len (c_ed_sign c secret message) = 64 /\ c_ed_verify c public message (c_ed_sign c secret message) = true;
  sw_sign : forall h d raw, c_sign c k h d = Some raw -> c_verify c (public_of k) h d raw = Some true;
  sw_der : forall raw sig, c_d2i c raw = Some sig -> c_i2d c sig = raw
}.

(** *** Key files

    https://github.com/openssh/openssh-portable/blob/master/PROTOCOL.key *)

(** The key itself, as in draft-miller-ssh-agent: for Ed25519 the public and
    the secret key, for RSA n, e, d, iqmp, p, q, for ECDSA the curve, the
    public point and the secret number. *)
Definition private_fields (k : secret_key) (fs : list field) : Prop :=
  match k with
  | SecEd25519 public secret => fs = [FString (bs "ssh-ed25519"); FString public; FString secret]
  | SecRSA k => exists n e d i p q,
      is_mpint (rsa_n k) n /\ is_mpint (rsa_e k) e /\ is_mpint (rsa_d k) d /\ is_mpint (rsa_iqmp k) i /\
      is_mpint (rsa_p k) p /\ is_mpint (rsa_q k) q /\
      fs = [FString (bs "ssh-rsa"); FString n; FString e; FString d; FString i; FString p; FString q]
  | SecEC q d => exists d', is_mpint d d' /\
      fs = [FString (bs "ecdsa-sha2-nistp256"); FString (bs "nistp256"); FString q; FString d']
  end.

(** The file: magic, cipher, key derivation function and its options, number
    of keys, public keys, private section. *)
Definition v1_file (cipher kdf options : bytes) (publics : list bytes) (private : bytes) : bytes :=
  bs "openssh-key-v1" ++ [0] ++
  enc ([FString cipher; FString kdf; FString options; FU32 (len publics)] ++ map FString publics ++ [FString private]).

(** The private section: twice the same random number, the key, a comment,
    padding. *)
Definition private_section (check : N) (fs : list field) (comment padding : bytes) : bytes :=
  enc ([FU32 check; FU32 check] ++ fs ++ [FString comment; FRaw padding]).

(** An unencrypted file with one key. *)
Definition plain_file (k : secret_key) (file : bytes) : Prop :=
  exists public check fs comment padding,
    private_fields k fs /\ check < pow32 /\ len public < pow32 /\ len comment < pow32 /\
    len (private_section check fs comment padding) < pow32 /\
    file = v1_file (bs "none") (bs "none") [] [public] (private_section check fs comment padding).

Definition secret_ok (k : secret_key) : Prop :=
  match k with
  | SecEd25519 public secret => len public = 32 /\ len secret = 64
  | SecRSA k => number_ok (rsa_n k) /\ number_ok (rsa_e k) /\ number_ok (rsa_d k) /\ number_ok (rsa_iqmp k) /\
      number_ok (rsa_p k) /\ number_ok (rsa_q k) /\
      (* RFC 8017 section 3.2: what the exponents for the two primes are *)
      1 < rsa_p k /\ 1 < rsa_q k /\ 2 < rsa_d k /\
      rsa_dmp k = rsa_d k mod (rsa_p k - 1) /\ rsa_dmq k = rsa_d k mod (rsa_q k - 1)
  | SecEC q d => len q <= 1024 /\ number_ok d
  end.
(** OpenSSL accepts the key. *)
Definition secret_supported (c : crypto) (k : secret_key) : Prop :=
  match k with
  | SecEd25519 _ _ => True
  | SecRSA _ => c_openssl c = true /\ forall k, c_rsa_ok c k = true
  | SecEC q d => c_openssl c = true /\ c_ec c q d = Some q
  end.
