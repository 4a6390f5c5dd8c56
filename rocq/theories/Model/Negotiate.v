(** Model of src/ssh/KexStrings.hxx (algorithm negotiation),
    src/ssh/KexFactory.cxx and src/cipher/Factory.cxx. *)

From Coq Require Import NArith List Bool String.
From Verif.Base Require Import Bytes.
From Verif.Model Require Import StringList.
Import ListNotations.
Open Scope N_scope.

(** src/ssh/KexEnums.hxx:12-20 *)
Inductive Role := SERVER | CLIENT.
Inductive Direction := INCOMING | OUTGOING.

Definition is_server (r : Role) : bool := match r with SERVER => true | CLIENT => false end.

(** src/ssh/KexStrings.hxx:13-21 FindCommonAlgorithm(); the empty
    std::string_view means "none" *)
Definition FindCommonAlgorithm (preferred supported : bytes) : bytes :=
  match find (StringListContains supported) (split 44 preferred) with
  | Some i => i
  | None => []
  end.

(** src/ssh/KexStrings.hxx:23-41 GetPeerAlgorithms() *)
Definition GetPeerAlgorithms (role : Role) (direction : Direction) (peer_ctos peer_stoc : bytes)
  : bytes :=
  match direction with
  | INCOMING => if is_server role then peer_ctos else peer_stoc
  | OUTGOING => if is_server role then peer_stoc else peer_ctos
  end.

(** src/ssh/KexStrings.hxx:43-56 FindNegotiatedAlgorithm() *)
Definition FindNegotiatedAlgorithm (role : Role) (direction : Direction)
  (local_algorithms peer_ctos peer_stoc : bytes) : bytes :=
  let peer_algorithms := GetPeerAlgorithms role direction peer_ctos peer_stoc in
  if is_server role then FindCommonAlgorithm peer_algorithms local_algorithms
  else FindCommonAlgorithm local_algorithms peer_algorithms.

(** src/ssh/KexFactory.hxx all_server_kex_algorithms, all_client_kex_algorithms
    (HAVE_OPENSSL) *)
Definition all_server_kex_algorithms : bytes :=
  bs "curve25519-sha256,ecdh-sha2-nistp256,kex-strict-s-v00@openssh.com".
Definition all_client_kex_algorithms : bytes :=
  bs "curve25519-sha256,ecdh-sha2-nistp256,kex-strict-c-v00@openssh.com".

Inductive kexalg := Curve25519 | NistP256.

(** src/ssh/KexFactory.cxx:17-29 MakeKex(); which class is constructed *)
Fixpoint MakeKex_loop (algorithms : list bytes) : option kexalg :=
  match algorithms with
  | [] => None
  | a :: l =>
      if bytes_eqb a (bs "curve25519-sha256") then Some Curve25519
      else if bytes_eqb a (bs "ecdh-sha2-nistp256") then Some NistP256
      else MakeKex_loop l
  end.

Definition MakeKex (algorithms : bytes) : option kexalg := MakeKex_loop (split 44 algorithms).

(** src/cipher/Factory.hxx:16-26 (HAVE_OPENSSL) *)
Definition all_encryption_algorithms : bytes :=
  bs "chacha20-poly1305@openssh.com,aes128-ctr,aes192-ctr,aes256-ctr,aes128-gcm@openssh.com,aes256-gcm@openssh.com".
Definition all_mac_algorithms : bytes := bs "hmac-sha2-256".

(** A class Cipher instance: which algorithm, its authentication tag size,
    the MAC wrapped around it, and the key material it uses.
    (src/cipher/Cipher.hxx; the block sizes are left out.) *)
Record cipher := {
  c_alg : bytes;
  c_auth_size : N;
  c_mac : option bytes;
  c_key : bytes;
  c_iv : bytes;
  c_mac_key : bytes;
  c_encrypt : bool
}.

(** src/cipher/OsslCipher.cxx:40-72 constructor called from
    src/cipher/Factory.cxx:29-56.  [None] is an exception ("Bad IV", "Wrong
    key size").  EVP_CipherInit() reads [iv_size] bytes of the IV. *)
Definition OsslCipher (alg : bytes) (auth_size key_size iv_size : N) (key iv : bytes)
  (do_encrypt : bool) : option cipher :=
  if len iv <? iv_size then None
  else if negb (len (take key_size key) =? key_size) then None
  else Some {| c_alg := alg; c_auth_size := auth_size; c_mac := None;
               c_key := take key_size key; c_iv := take iv_size iv; c_mac_key := [];
               c_encrypt := do_encrypt |}.

(** src/cipher/ChaCha20Poly1305Cipher.cxx:40-51 constructor; [None] is the
    exception "Wrong key size" *)
Definition ChaCha20Poly1305Cipher (key : bytes) (do_encrypt : bool) : option cipher :=
  if len key =? 64 then
    Some {| c_alg := bs "chacha20-poly1305@openssh.com"; c_auth_size := 16; c_mac := None;
            c_key := key; c_iv := []; c_mac_key := []; c_encrypt := do_encrypt |}
  else None.

(** src/cipher/Factory.cxx:21-59 MakeEncryptionCipher().  The outer [None]
    is an exception, the inner one is nullptr.  (ChaCha20Poly1305Cipher does
    not get [do_encrypt]; it is kept in the model to name the direction.) *)
Fixpoint MakeEncryptionCipher_loop (algorithms : list bytes) (key iv : bytes) (do_encrypt : bool)
  : option (option cipher) :=
  match algorithms with
  | [] => Some None
  | a :: l =>
      if bytes_eqb a (bs "chacha20-poly1305@openssh.com") then
        option_map Some (ChaCha20Poly1305Cipher key do_encrypt)
      else if bytes_eqb a (bs "aes128-ctr") then
        option_map Some (OsslCipher (bs "aes128-ctr") 0 16 16 key iv do_encrypt)
      else if bytes_eqb a (bs "aes192-ctr") then
        option_map Some (OsslCipher (bs "aes192-ctr") 0 24 16 key iv do_encrypt)
      else if bytes_eqb a (bs "aes256-ctr") then
        option_map Some (OsslCipher (bs "aes256-ctr") 0 32 16 key iv do_encrypt)
      else if bytes_eqb a (bs "aes128-gcm@openssh.com") then
        option_map Some (OsslCipher (bs "aes128-gcm@openssh.com") 16 16 12 key (take 12 iv) do_encrypt)
      else if bytes_eqb a (bs "aes256-gcm@openssh.com") then
        option_map Some (OsslCipher (bs "aes256-gcm@openssh.com") 16 32 12 key (take 12 iv) do_encrypt)
      else MakeEncryptionCipher_loop l key iv do_encrypt
  end.

(** src/cipher/HmacSHA256Cipher.cxx:17-30 constructor: wraps another cipher *)
Definition HmacSHA256Cipher (next : cipher) (key : bytes) : option cipher :=
  if len key <? 32 then None
  else Some {| c_alg := c_alg next; c_auth_size := c_auth_size next + 32;
               c_mac := Some (bs "hmac-sha2-256");
               c_key := c_key next; c_iv := c_iv next; c_mac_key := take 32 key;
               c_encrypt := c_encrypt next |}.

(** src/cipher/Factory.cxx:61-72 MakeMacCipher() *)
Fixpoint MakeMacCipher_loop (algorithms : list bytes) (encryption_cipher : cipher) (key : bytes)
  : option (option cipher) :=
  match algorithms with
  | [] => Some None
  | a :: l =>
      if bytes_eqb a (bs "hmac-sha2-256") then
        option_map Some (HmacSHA256Cipher encryption_cipher key)
      else MakeMacCipher_loop l encryption_cipher key
  end.

(** src/cipher/Factory.cxx:74-90 MakeCipher() *)
Definition MakeCipher (cipher_algorithms mac_algorithms key iv mac_key : bytes) (do_encrypt : bool)
  : option (option cipher) :=
  match MakeEncryptionCipher_loop (split 44 cipher_algorithms) key iv do_encrypt with
  | Some (Some c) =>
      if c_auth_size c =? 0 then MakeMacCipher_loop (split 44 mac_algorithms) c mac_key
      else Some (Some c)
  | r => r
  end.
