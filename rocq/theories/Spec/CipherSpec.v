(** Specification for the ciphers, written without reference to the model
    of the cipher classes: the authentication tags of the three packet
    formats, and what it means that one end decrypts what the other end
    encrypts. *)

From Coq Require Import NArith List Bool.
From Verif.Base Require Import Bytes.
Import ListNotations.
Open Scope N_scope.

(** One use of a message authentication code:
    - chacha20-poly1305@openssh.com: Poly1305 of [message] with the key that
      ChaCha20 generates from [key] and [nonce]
    - aes*-gcm@openssh.com: the tag for additional data and cipher text
    - hmac-sha2-256: HMAC of [message] *)
Inductive mac_use :=
| UsePoly1305 (key nonce message : bytes)
| UseGcm (key iv additional cipher_text : bytes)
| UseHmac (key message : bytes).

Section Both.

(** the sender's and the receiver's cipher objects *)
Variables S R : Type.
Variable encrypt : S -> N -> bytes -> option (S * bytes).
Variable auth_size : R -> N.
Variable dec_header : R -> N -> bytes -> option (R * bytes).
Variable dec_payload : R -> N -> bytes -> option (R * bytes).

(** [decrypts d seq b p d']: the receiver decrypts [b] to the packet [p] *)
Definition decrypts (d : R) (seq : N) (b p : bytes) (d' : R) : Prop :=
  exists d1 h r, dec_header d seq (take 4 b) = Some (d1, h) /\ auth_size d1 = auth_size d /\
    dec_payload d1 seq b = Some (d', r) /\ p = h ++ r.

(** [mirror] is kept by sending and receiving: whatever is encrypted gets
    decrypted to the same packet (at least 4 bytes), and it is longer by
    the size of the authentication tag. *)
Definition inverse (mirror : S -> R -> Prop) : Prop :=
  forall c d seq p c' b, mirror c d -> 4 <= len p -> encrypt c seq p = Some (c', b) ->
    len b = len p + auth_size d /\
    exists d1 d', dec_header d seq (take 4 b) = Some (d1, take 4 p) /\ auth_size d1 = auth_size d /\
      dec_payload d1 seq b = Some (d', drop 4 p) /\ mirror c' d'.

End Both.

(** One byte of key stream: the cipher, the key, the nonce (or initial
    counter block), and the position. *)
Inductive stream_byte :=
| ChaChaByte (key nonce : bytes) (pos : N)
| CtrByte (key iv : bytes) (pos : N)
| GcmByte (key iv : bytes) (pos : N).
