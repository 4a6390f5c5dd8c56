(** Model of the ciphers: src/cipher/ChaCha20Poly1305Cipher.cxx,
    src/cipher/OsslCipher.cxx, src/cipher/HmacSHA256Cipher.cxx.

    The cryptographic primitives (libsodium, OpenSSL; not part of this
    code base) are the record [crypto]: any functions.  Stream ciphers are
    given by their key streams, which is how ChaCha20 and the counter modes
    are defined. *)

From Coq Require Import NArith List Bool String.
From Verif.Base Require Import Bytes.
From Verif.Model Require Import Negotiate.
Import ListNotations.
Open Scope N_scope.

Record crypto := {
  chacha20 : bytes -> bytes -> N -> N;      (* key, nonce, position: one byte of the key stream *)
  poly1305 : bytes -> bytes -> bytes;       (* key, message: crypto_onetimeauth_poly1305() *)
  aes_ctr : bytes -> bytes -> N -> N;       (* key, initial counter block, position *)
  aes_gcm : bytes -> bytes -> N -> N;       (* key, IV, position *)
  gcm_tag : bytes -> bytes -> bytes -> bytes -> bytes; (* key, IV, additional data, cipher text *)
  hmac_sha256 : bytes -> bytes -> bytes     (* key, message *)
}.

(** A call of a Cipher method: returns, throws, or fails an assert(). *)
Inductive cresult (A : Type) :=
| COk (a : A)
| CThrow
| CAssert.
Arguments COk {A}.
Arguments CThrow {A}.
Arguments CAssert {A}.

(** util/PackedBigEndian.hxx PackedBE64 *)
Definition be64 (n : N) : bytes := be32 (n / pow32) ++ be32 (n mod pow32).

(** [src] combined with the key stream from position [pos] on *)
Fixpoint xor_stream (ks : N -> N) (pos : N) (src : bytes) : bytes :=
  match src with
  | [] => []
  | b :: l => N.lxor b (ks pos) :: xor_stream ks (pos + 1) l
  end.

Definition zeroes (n : nat) : bytes := repeat 0 n.

(** An object of class ChaCha20Poly1305Cipher or OsslCipher.
    - [ChaCha]: payload_key and header_key
    - [Gcm]: OsslCipher with auth_size=16: key, the fixed part of the IV
      (4 bytes), the invocation counter (8 bytes), do_encrypt
    - [Ctr]: OsslCipher with auth_size=0: key, initial counter block, the
      number of bytes processed so far *)
Inductive base :=
| ChaCha (payload_key header_key : bytes)
| Gcm (key fixed : bytes) (counter : N) (do_encrypt : bool)
| Ctr (key iv : bytes) (pos : N).

(** [Hmac next key state]: class HmacSHA256Cipher; [state] is what has been
    passed to crypto_auth_hmacsha256_update() since the last InitState(). *)
Inductive running :=
| Plain (b : base)
| Hmac (next : base) (key state : bytes).

(** sizeof(PacketHeader) *)
Definition header_size : N := 4.

(** src/cipher/Cipher.hxx:28-80, with the arguments given by
    src/cipher/ChaCha20Poly1305Cipher.cxx:41 and src/cipher/Factory.cxx:27-56 *)
Definition base_block_size (b : base) : N := match b with ChaCha _ _ => 8 | _ => 16 end.
Definition base_auth_size (b : base) : N := match b with Ctr _ _ _ => 0 | _ => 16 end.
(** src/cipher/OsslCipher.cxx:46: [_auth_size > 0] *)
Definition base_header_excluded (b : base) : bool := match b with Ctr _ _ _ => false | _ => true end.

(** src/cipher/HmacSHA256Cipher.cxx:17-22 *)
Definition run_block_size (c : running) : N :=
  match c with Plain b => base_block_size b | Hmac b _ _ => base_block_size b end.
Definition run_auth_size (c : running) : N :=
  match c with Plain b => base_auth_size b | Hmac b _ _ => base_auth_size b + 32 end.
Definition run_header_excluded (c : running) : bool :=
  match c with Plain b => base_header_excluded b | Hmac b _ _ => base_header_excluded b end.

(** src/cipher/ChaCha20Poly1305Cipher.cxx:17-36 class ChaCha20Poly1305Key *)
Definition poly_key (P : crypto) (nonce key : bytes) : bytes :=
  xor_stream (chacha20 P key nonce) 0 (zeroes 32).

(** src/cipher/OsslCipher.cxx:76-84 IncrementIV(): EVP_CTRL_GCM_IV_GEN uses
    the current IV for the next operation, and then increments the
    invocation counter (the last 8 bytes). *)
Definition gcm_iv (fixed : bytes) (counter : N) : bytes := fixed ++ be64 counter.
Definition gcm_next (counter : N) : N := (counter + 1) mod pow64.

(** ChaCha20Poly1305Cipher.cxx:59-68, OsslCipher.cxx:86-100 DecryptHeader() *)
Definition base_DecryptHeader (P : crypto) (b : base) (seqnr : N) (src : bytes)
  : cresult (base * bytes) :=
  match b with
  | ChaCha pk hk => COk (b, xor_stream (chacha20 P hk (be64 seqnr)) 0 src)
  | Gcm _ _ _ _ => COk (b, src)
  | Ctr k iv pos => COk (Ctr k iv (pos + len src), xor_stream (aes_ctr P k iv) pos src)
  end.

(** ChaCha20Poly1305Cipher.cxx:70-91, OsslCipher.cxx:102-145
    DecryptPayload().  EVP_CTRL_GCM_SET_TAG fails on a context for
    encryption; EVP_CipherFinal_ex() compares the tag. *)
Definition base_DecryptPayload (P : crypto) (b : base) (seqnr : N) (src : bytes)
  : cresult (base * bytes) :=
  match b with
  | ChaCha pk hk =>
      if negb (header_size + 16 <? len src) then CAssert
      else
        let nonce := be64 seqnr in
        let auth := drop (len src - 16) src in
        let src := take (len src - 16) src in
        if negb (bytes_eqb auth (poly1305 P (poly_key P nonce pk) src)) then CThrow
        else COk (b, xor_stream (chacha20 P pk nonce) 64 (drop header_size src))
  | Gcm k fixed counter enc =>
      if negb (header_size + 16 <=? len src) then CAssert
      else if enc then CThrow
      else
        let iv := gcm_iv fixed counter in
        let auth := drop (len src - 16) src in
        let src := take (len src - 16) src in
        let aad := take header_size src in
        let src := drop header_size src in
        if negb (len src mod 16 =? 0) then CAssert
        else if negb (bytes_eqb auth (gcm_tag P k iv aad src)) then CThrow
        else COk (Gcm k fixed (gcm_next counter) enc, xor_stream (aes_gcm P k iv) 0 src)
  | Ctr k iv pos =>
      if negb (header_size <=? len src) then CAssert
      else if negb (len src mod 16 =? 0) then CAssert
      else
        let src := drop header_size src in
        COk (Ctr k iv (pos + len src), xor_stream (aes_ctr P k iv) pos src)
  end.

(** ChaCha20Poly1305Cipher.cxx:93-122, OsslCipher.cxx:147-192 Encrypt().
    EVP_CTRL_GCM_GET_TAG fails on a context for decryption. *)
Definition base_Encrypt (P : crypto) (b : base) (seqnr : N) (src : bytes)
  : cresult (base * bytes) :=
  match b with
  | ChaCha pk hk =>
      if negb (header_size <? len src) then CAssert
      else
        let nonce := be64 seqnr in
        let dest := xor_stream (chacha20 P hk nonce) 0 (take header_size src)
                    ++ xor_stream (chacha20 P pk nonce) 64 (drop header_size src) in
        COk (b, dest ++ poly1305 P (poly_key P nonce pk) dest)
  | Gcm k fixed counter enc =>
      if negb (header_size <=? len src) then CAssert
      else if negb enc then CThrow
      else
        let iv := gcm_iv fixed counter in
        let aad := take header_size src in
        let src := drop header_size src in
        if negb (len src mod 16 =? 0) then CAssert
        else
          let dest := xor_stream (aes_gcm P k iv) 0 src in
          COk (Gcm k fixed (gcm_next counter) enc, aad ++ dest ++ gcm_tag P k iv aad dest)
  | Ctr k iv pos =>
      if negb (header_size <=? len src) then CAssert
      else if negb (len src mod 16 =? 0) then CAssert
      else COk (Ctr k iv (pos + len src), xor_stream (aes_ctr P k iv) pos src)
  end.

(** src/cipher/HmacSHA256Cipher.cxx:38-49 InitState(): ToBE32() truncates *)
Definition InitState (seqnr : N) : bytes := be32 seqnr.

(** src/cipher/HmacSHA256Cipher.cxx:51-63 DecryptHeader() *)
Definition DecryptHeader (P : crypto) (c : running) (seqnr : N) (src : bytes)
  : cresult (running * bytes) :=
  match c with
  | Plain b =>
      match base_DecryptHeader P b seqnr src with
      | COk (b, dest) => COk (Plain b, dest)
      | CThrow => CThrow
      | CAssert => CAssert
      end
  | Hmac b key _ =>
      match base_DecryptHeader P b seqnr src with
      | COk (b, dest) => COk (Hmac b key (InitState seqnr ++ dest), dest)
      | CThrow => CThrow
      | CAssert => CAssert
      end
  end.

(** src/cipher/HmacSHA256Cipher.cxx:65-92 DecryptPayload() *)
Definition DecryptPayload (P : crypto) (c : running) (seqnr : N) (src : bytes)
  : cresult (running * bytes) :=
  match c with
  | Plain b =>
      match base_DecryptPayload P b seqnr src with
      | COk (b, dest) => COk (Plain b, dest)
      | CThrow => CThrow
      | CAssert => CAssert
      end
  | Hmac b key state =>
      if negb (header_size + 32 <=? len src) then CAssert
      else
        let hmac_received := drop (len src - 32) src in
        let src := take (len src - 32) src in
        match base_DecryptPayload P b seqnr src with
        | COk (b, dest) =>
            let state := state ++ dest in
            if negb (bytes_eqb hmac_received (hmac_sha256 P key state)) then CThrow
            else COk (Hmac b key state, dest)
        | CThrow => CThrow
        | CAssert => CAssert
        end
  end.

(** src/cipher/HmacSHA256Cipher.cxx:94-114 Encrypt() *)
Definition Encrypt (P : crypto) (c : running) (seqnr : N) (src : bytes)
  : cresult (running * bytes) :=
  match c with
  | Plain b =>
      match base_Encrypt P b seqnr src with
      | COk (b, dest) => COk (Plain b, dest)
      | CThrow => CThrow
      | CAssert => CAssert
      end
  | Hmac b key _ =>
      if negb (header_size <=? len src) then CAssert
      else
        let state := InitState seqnr ++ src in
        match base_Encrypt P b seqnr src with
        | COk (b, dest) => COk (Hmac b key state, dest ++ hmac_sha256 P key state)
        | CThrow => CThrow
        | CAssert => CAssert
        end
  end.

(** The object after its construction by src/cipher/Factory.cxx (the model
    of the factory, Model/Negotiate.v, records the arguments of the
    constructors).  ChaCha20Poly1305Cipher.cxx:40-51: the first half of the
    key is payload_key, the second half is header_key.  OsslCipher.cxx:40-72. *)
Definition new_base (c : cipher) : base :=
  if bytes_eqb (c_alg c) (bs "chacha20-poly1305@openssh.com") then
    ChaCha (take 32 (c_key c)) (drop (len (c_key c) - 32) (c_key c))
  else if bytes_eqb (c_alg c) (bs "aes128-gcm@openssh.com")
       || bytes_eqb (c_alg c) (bs "aes256-gcm@openssh.com") then
    Gcm (c_key c) (take 4 (c_iv c))
        (fold_left (fun n b => n * 256 + b) (drop 4 (c_iv c)) 0) (c_encrypt c)
  else
    Ctr (c_key c) (c_iv c) 0.

Definition new_running (c : cipher) : running :=
  match c_mac c with
  | None => Plain (new_base c)
  | Some _ => Hmac (new_base c) (c_mac_key c) []
  end.

(** What class Output and class Input see of a cipher: an exception, or the
    result.  (A failed assert() ends the process; see C59.) *)
Definition returned {A} (r : cresult A) : option A :=
  match r with COk a => Some a | _ => None end.

Definition out_encrypt (P : crypto) (c : running) (seqnr : N) (src : bytes) : option (running * bytes) :=
  returned (Encrypt P c seqnr src).
Definition in_header (P : crypto) (c : running) (seqnr : N) (src : bytes) : option (running * bytes) :=
  returned (DecryptHeader P c seqnr src).
Definition in_payload (P : crypto) (c : running) (seqnr : N) (src : bytes) : option (running * bytes) :=
  returned (DecryptPayload P c seqnr src).
