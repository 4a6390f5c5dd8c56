(** The encrypted packets as the standards describe them, written without
    reference to the cipher classes.

    - chacha20-poly1305@openssh.com: OpenSSH's PROTOCOL.chacha20poly1305
    - aes*-gcm@openssh.com: RFC 5647 section 7
    - aes*-ctr: RFC 4344 section 4; hmac-sha2-256: RFC 4253 section 6.4 and
      RFC 6668

    The primitives (key streams and authentication codes) are the record
    [crypto]; only its type is used. *)

From Coq Require Import NArith List Bool String.
From Verif.Base Require Import Bytes.
From Verif.Model Require Import Ciphers.
Import ListNotations.
Open Scope N_scope.

(** the number [n] in [k] bytes, the most significant byte first *)
Fixpoint big_endian (k : nat) (n : N) : bytes :=
  match k with
  | O => []
  | S k => big_endian k (n / 256) ++ [n mod 256]
  end.

(** the number written in these bytes *)
Fixpoint number (l : bytes) : N :=
  match l with
  | [] => 0
  | b :: r => b * 256 ^ len r + number r
  end.

(** [n] bytes of a key stream, from position [from] on *)
Definition stream (ks : N -> N) (from : N) (n : nat) : bytes :=
  map (fun i => ks (from + N.of_nat i)) (seq 0 n).

Definition xor (a b : bytes) : bytes := map (fun x => N.lxor (fst x) (snd x)) (combine a b).

(** the text encrypted with the key stream from this position on *)
Definition enciphered (ks : N -> N) (from : N) (text : bytes) : bytes :=
  xor text (stream ks from (List.length text)).

Inductive kind := ChaChaPoly | AesGcm | AesCtrHmac.

(** name, kind, size of the key *)
Definition methods : list (bytes * (kind * N)) := [
  (bs "chacha20-poly1305@openssh.com", (ChaChaPoly, 64));
  (bs "aes128-ctr", (AesCtrHmac, 16));
  (bs "aes192-ctr", (AesCtrHmac, 24));
  (bs "aes256-ctr", (AesCtrHmac, 32));
  (bs "aes128-gcm@openssh.com", (AesGcm, 16));
  (bs "aes256-gcm@openssh.com", (AesGcm, 32))
].

(** The packet [p] (length, padding length, payload, padding) on the wire.
    [key], [iv], [mac_key]: the key material of this direction; [seqnr]: the
    sequence number; [k]: how many packets were encrypted with this key
    before; [total]: how many bytes these had. *)
Definition sealed (P : crypto) (m : kind) (size : N) (key iv mac_key : bytes) (seqnr k total : N) (p : bytes) : bytes :=
  match m with
  | ChaChaPoly =>
      (* "K_2" encrypts the payload, "K_1" the length *)
      let k2 := take 32 key in
      let k1 := take 32 (drop 32 key) in
      let nonce := big_endian 8 seqnr in
      let text := enciphered (chacha20 P k1 nonce) 0 (take 4 p)
                  ++ enciphered (chacha20 P k2 nonce) 64 (drop 4 p) in
      text ++ poly1305 P (stream (chacha20 P k2 nonce) 0 32) text
  | AesGcm =>
      (* 4 bytes "fixed", 8 bytes "invocation counter" *)
      let key := take size key in
      let nonce := take 4 iv ++ big_endian 8 (number (take 8 (drop 4 iv)) + k) in
      let text := enciphered (aes_gcm P key nonce) 0 (drop 4 p) in
      take 4 p ++ text ++ gcm_tag P key nonce (take 4 p) text
  | AesCtrHmac =>
      enciphered (aes_ctr P (take size key) (take 16 iv)) total p
      ++ hmac_sha256 P (take 32 mac_key) (big_endian 4 seqnr ++ p)
  end.

(** one packet after another; the sequence number has 64 bits *)
Fixpoint sealed_all (P : crypto) (m : kind) (size : N) (key iv mac_key : bytes) (seqnr k total : N) (ps : list bytes) : list bytes :=
  match ps with
  | [] => []
  | p :: r =>
      sealed P m size key iv mac_key seqnr k total p
      :: sealed_all P m size key iv mac_key ((seqnr + 1) mod 2 ^ 64) (k + 1) (total + len p) r
  end.

(** A packet is padded for this kind (RFC 4253 section 6; with the two
    others the length field does not count). *)
Definition padded (m : kind) (p : bytes) : Prop :=
  match m with
  | ChaChaPoly => 20 <= len p /\ (len p - 4) mod 8 = 0
  | AesGcm => 20 <= len p /\ (len p - 4) mod 16 = 0
  | AesCtrHmac => 16 <= len p /\ len p mod 16 = 0
  end.
