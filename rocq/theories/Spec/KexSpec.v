(** The reference for key exchanges, written from RFC 4253 without
    reference to the state of the model.  It only looks at the sequence of
    observable events (packets sent and received, ciphers put into use). *)

From Coq Require Import NArith List Bool String.
From Verif.Base Require Import Bytes.
From Verif.Spec Require Import WireSpec PacketSpec NamesSpec.
From Verif.Model Require Import Negotiate KexMachine.
Import ListNotations.
Open Scope N_scope.

(** ** RFC 4253 section 8 (and RFC 5656 section 4): the exchange hash *)

Record handshake := {
  V_C : bytes; V_S : bytes;   (* version strings without CR LF *)
  I_C : bytes; I_S : bytes;   (* KEXINIT payloads, with message number *)
  K_S : bytes;                (* host key *)
  Q_C : bytes; Q_S : bytes;   (* ephemeral public keys *)
  K : bytes                   (* shared secret, encoded as mpint *)
}.

Definition hash_input (h : handshake) : bytes :=
  string_enc (V_C h) ++ string_enc (V_S h) ++ string_enc (I_C h) ++ string_enc (I_S h) ++
  string_enc (K_S h) ++ string_enc (Q_C h) ++ string_enc (Q_S h) ++ K h.

(** ** RFC 4253 section 7.2: key derivation.
    K1 = HASH(K || H || X || session_id), K2 = HASH(K || H || K1),
    K3 = HASH(K || H || K1 || K2), ...; key = K1 || K2 || K3 || ... *)
Fixpoint key_stream (HASH : bytes -> bytes) (k h sid : bytes) (letter : N) (blocks : nat) : bytes :=
  match blocks with
  | O => []
  | S O => HASH (k ++ h ++ [letter] ++ sid)
  | S n => let before := key_stream HASH k h sid letter n in before ++ HASH (k ++ h ++ before)
  end.

(** [key] is "key data taken from the beginning of the hash output" *)
Definition derived_key (HASH : bytes -> bytes) (k h sid : bytes) (letter : N) (key : bytes) : Prop :=
  exists blocks rest, key_stream HASH k h sid letter blocks = key ++ rest.

(** Which letters belong to a direction: initial IV, encryption key,
    integrity key.  "Client to server" is A, C, E; "server to client" is
    B, D, F. *)
Inductive flow := client_to_server | server_to_client.

Definition letters (f : flow) : N * N * N :=
  match f with
  | client_to_server => (65, 67, 69)
  | server_to_client => (66, 68, 70)
  end.

Definition flow_of (role : Role) (d : Direction) : flow :=
  match role, d with
  | CLIENT, OUTGOING | SERVER, INCOMING => client_to_server
  | CLIENT, INCOMING | SERVER, OUTGOING => server_to_client
  end.

(** ** The order of one key exchange *)

(** What has happened since the last exchange was completed. *)
Record progress := {
  x_version : bytes;          (* the peer's version string *)
  x_tx20 : option bytes;      (* KEXINIT sent *)
  x_rx20 : option bytes;      (* KEXINIT received *)
  x_init : option bytes;      (* ECDH_KEX_INIT (sent by the client) *)
  x_reply : option bytes;     (* ECDH_KEX_REPLY (sent by the server) *)
  x_secret : option bytes;    (* the shared secret from which keys were derived *)
  x_tx21 : bool;              (* NEWKEYS sent *)
  x_out : bool;               (* new keys in use for sending *)
  x_rx21 : bool               (* NEWKEYS received *)
}.

Definition idle (version : bytes) : progress :=
  {| x_version := version; x_tx20 := None; x_rx20 := None; x_init := None; x_reply := None;
     x_secret := None; x_tx21 := false; x_out := false; x_rx21 := false |}.

Inductive phase :=
| XRun (x : progress)
| XBad        (* the peer has sent something out of order: DISCONNECT must follow *)
| XEnd.       (* nothing may happen any more *)

Definition is_some {A} (o : option A) : bool := match o with Some _ => true | None => false end.
Definition is_none {A} (o : option A) : bool := negb (is_some o).

Definition with_version v x := {| x_version := v; x_tx20 := x_tx20 x; x_rx20 := x_rx20 x; x_init := x_init x; x_reply := x_reply x; x_secret := x_secret x; x_tx21 := x_tx21 x; x_out := x_out x; x_rx21 := x_rx21 x |}.
Definition with_tx20 p x := {| x_version := x_version x; x_tx20 := Some p; x_rx20 := x_rx20 x; x_init := x_init x; x_reply := x_reply x; x_secret := x_secret x; x_tx21 := x_tx21 x; x_out := x_out x; x_rx21 := x_rx21 x |}.
Definition with_rx20 p x := {| x_version := x_version x; x_tx20 := x_tx20 x; x_rx20 := Some p; x_init := x_init x; x_reply := x_reply x; x_secret := x_secret x; x_tx21 := x_tx21 x; x_out := x_out x; x_rx21 := x_rx21 x |}.
Definition with_init p x := {| x_version := x_version x; x_tx20 := x_tx20 x; x_rx20 := x_rx20 x; x_init := Some p; x_reply := x_reply x; x_secret := x_secret x; x_tx21 := x_tx21 x; x_out := x_out x; x_rx21 := x_rx21 x |}.
Definition with_reply p x := {| x_version := x_version x; x_tx20 := x_tx20 x; x_rx20 := x_rx20 x; x_init := x_init x; x_reply := Some p; x_secret := x_secret x; x_tx21 := x_tx21 x; x_out := x_out x; x_rx21 := x_rx21 x |}.
Definition with_secret p x := {| x_version := x_version x; x_tx20 := x_tx20 x; x_rx20 := x_rx20 x; x_init := x_init x; x_reply := x_reply x; x_secret := Some p; x_tx21 := x_tx21 x; x_out := x_out x; x_rx21 := x_rx21 x |}.
Definition with_tx21 x := {| x_version := x_version x; x_tx20 := x_tx20 x; x_rx20 := x_rx20 x; x_init := x_init x; x_reply := x_reply x; x_secret := x_secret x; x_tx21 := true; x_out := x_out x; x_rx21 := x_rx21 x |}.
Definition with_out x := {| x_version := x_version x; x_tx20 := x_tx20 x; x_rx20 := x_rx20 x; x_init := x_init x; x_reply := x_reply x; x_secret := x_secret x; x_tx21 := x_tx21 x; x_out := true; x_rx21 := x_rx21 x |}.
Definition with_rx21 x := {| x_version := x_version x; x_tx20 := x_tx20 x; x_rx20 := x_rx20 x; x_init := x_init x; x_reply := x_reply x; x_secret := x_secret x; x_tx21 := x_tx21 x; x_out := x_out x; x_rx21 := true |}.

(** [None]: the connection itself has violated the protocol. *)
Definition must (b : bool) (x : progress) : option phase := if b then Some (XRun x) else None.
(** the peer has violated the protocol *)
Definition expect (b : bool) (x : progress) : option phase := Some (if b then XRun x else XBad).

Definition both20 (x : progress) : bool := is_some (x_tx20 x) && is_some (x_rx20 x).

Definition xstep (role : Role) (ph : phase) (e : kevent) : option phase :=
  match ph with
  | XEnd => None
  | XBad => match e with ETx (1 :: _) => Some XEnd | _ => None end
  | XRun x =>
      match e with
      | EClosed | ETx (1 :: _) => Some XEnd
      (* the version strings come first *)
      | EVersion v => must (is_none (x_tx20 x) && is_none (x_rx20 x)) (with_version v x)
      (* KEXINIT: once per exchange in each direction, in any order *)
      | ETx ((20 :: _) as p) => must (is_none (x_tx20 x)) (with_tx20 p x)
      | ERx ((20 :: _) as p) => expect (is_none (x_rx20 x)) (with_rx20 p x)
      (* after that the client sends ECDH_KEX_INIT *)
      | ETx ((30 :: _) as p) =>
          must (both20 x && is_none (x_init x) && negb (is_server role)) (with_init p x)
      | ERx ((30 :: _) as p) =>
          expect (both20 x && is_none (x_init x) && is_server role) (with_init p x)
      (* and the server replies *)
      | ETx ((31 :: _) as p) =>
          must (is_some (x_init x) && is_none (x_reply x) && is_server role) (with_reply p x)
      | ERx ((31 :: _) as p) =>
          expect (is_some (x_init x) && is_none (x_reply x) && negb (is_server role)) (with_reply p x)
      (* then keys are derived, once *)
      | ESecret k => must (is_some (x_reply x) && is_none (x_secret x)) (with_secret k x)
      (* NEWKEYS and new keys for sending *)
      | ETx (21 :: _) => must (is_some (x_secret x) && negb (x_tx21 x)) (with_tx21 x)
      | EOutCipher _ => must (x_tx21 x && negb (x_out x)) (with_out x)
      (* NEWKEYS from the peer and new keys for receiving; this completes
         the exchange *)
      | ERx (21 :: _) => expect (x_out x && negb (x_rx21 x)) (with_rx21 x)
      | EInCipher _ => must (x_rx21 x) (idle (x_version x))
      | _ => Some (XRun x)
      end
  end.

Fixpoint xsteps (role : Role) (ph : phase) (log : list kevent) : option phase :=
  match log with
  | [] => Some ph
  | e :: log => match xstep role ph e with Some ph => xsteps role ph log | None => None end
  end.

(** the history of a connection *)
Definition history (role : Role) (log : list kevent) : option phase :=
  xsteps role (XRun (idle [])) log.

(** ** Facts about one exchange *)

(** [h] is what was exchanged in this exchange, [signature] what the server
    has sent in its reply. *)
Definition exchanged (role : Role) (my_version : bytes) (x : progress) (h : handshake)
  (signature : bytes) : Prop :=
  x_init x = Some (30 :: string_enc (Q_C h)) /\
  x_reply x = Some (31 :: string_enc (K_S h) ++ string_enc (Q_S h) ++ string_enc signature) /\
  match role with
  | CLIENT => V_C h = my_version /\ V_S h = x_version x /\
              x_tx20 x = Some (I_C h) /\ x_rx20 x = Some (I_S h)
  | SERVER => V_S h = my_version /\ V_C h = x_version x /\
              x_tx20 x = Some (I_S h) /\ x_rx20 x = Some (I_C h)
  end.

(** ** What may be put into use *)

(** A cipher of this direction was negotiated from the KEXINIT packets of
    both sides. *)
Definition on_list (role : Role) (mine peers : bytes) (chosen : bytes) : Prop :=
  exists my_names peer_names, name_list mine my_names /\ name_list peers peer_names /\
  match role with
  | CLIENT => first_common my_names peer_names chosen
  | SERVER => first_common peer_names my_names chosen
  end.

Definition per_flow (f : flow) (ctos stoc : bytes) : bytes :=
  match f with client_to_server => ctos | server_to_client => stoc end.

(** encryption algorithms which authenticate each packet by themselves *)
Definition aead (alg : bytes) : Prop :=
  In alg [bs "chacha20-poly1305@openssh.com"; bs "aes128-gcm@openssh.com"; bs "aes256-gcm@openssh.com"].

(** ... and no MAC is used with them; otherwise a MAC is negotiated, too *)
Definition negotiated_cipher (role : Role) (d : Direction) (x : progress) (c : cipher) : Prop :=
  let f := flow_of role d in
  (c_encrypt c = match d with OUTGOING => true | INCOMING => false end) /\
  exists mine peers kex1 host1 ec1 es1 mc1 ms1 fol1 kex2 host2 ec2 es2 mc2 ms2 fol2,
    x_tx20 x = Some (20 :: mine) /\ kexinit_layout mine kex1 host1 ec1 es1 mc1 ms1 fol1 /\
    x_rx20 x = Some (20 :: peers) /\ kexinit_layout peers kex2 host2 ec2 es2 mc2 ms2 fol2 /\
    on_list role (per_flow f ec1 es1) (per_flow f ec2 es2) (c_alg c) /\
    ((aead (c_alg c) /\ c_mac c = None /\ c_auth_size c = 16) \/
     (~ aead (c_alg c) /\ c_auth_size c = 32 /\
      exists mac, c_mac c = Some mac /\
       on_list role (per_flow f mc1 ms1) (per_flow f mc2 ms2) mac)).

(** key and IV sizes in bytes *)
Definition cipher_sizes : list (bytes * (N * N)) :=
  [(bs "chacha20-poly1305@openssh.com", (64, 0));
   (bs "aes128-ctr", (16, 16)); (bs "aes192-ctr", (24, 16)); (bs "aes256-ctr", (32, 16));
   (bs "aes128-gcm@openssh.com", (16, 12)); (bs "aes256-gcm@openssh.com", (32, 12))].

(** The key material of the cipher was derived for this direction. *)
Definition derived_cipher (HASH : bytes -> bytes) (f : flow) (h : handshake) (sid : bytes)
  (c : cipher) : Prop :=
  let '(iv, key, mac) := letters f in
  let H := HASH (hash_input h) in
  In (c_alg c, (len (c_key c), len (c_iv c))) cipher_sizes /\
  (c_mac c <> None -> len (c_mac_key c) = 32) /\
  (c_mac c = None -> c_mac_key c = []) /\
  derived_key HASH (K h) H sid iv (c_iv c) /\
  derived_key HASH (K h) H sid key (c_key c) /\
  derived_key HASH (K h) H sid mac (c_mac_key c).

(** The server was authenticated in this exchange: its key was accepted and
    its signature of the exchange hash is valid. *)
Definition server_verified (E : kenv) (h : handshake) (signature : bytes) : Prop :=
  exists accept, e_verify_host_key E = Some accept /\ accept (K_S h) = true /\
  e_verify_signature E (K_S h) (e_digest E (hash_input h)) signature = Some true.

(** The server has signed the exchange hash with one of its keys. *)
Definition server_signed (E : kenv) (h : handshake) (signature : bytes) : Prop :=
  exists key alg, K_S h = e_blob E key /\
  e_sign E key (e_digest E (hash_input h)) alg = Some signature.

(** The shared secret is the result of the Diffie-Hellman computation with
    our secret and the peer's public key. *)
Definition secret_shared (E : kenv) (role : Role) (h : handshake) : Prop :=
  exists alg secret,
  match role with
  | CLIENT => Q_C h = e_public E alg secret /\ e_shared E alg secret (Q_S h) = Some (K h)
  | SERVER => Q_S h = e_public E alg secret /\ e_shared E alg secret (Q_C h) = Some (K h)
  end.

(** ** Who may do what

    The rest of the program sends no key exchange messages and no
    DISCONNECT through SendPacket() (it uses DoDisconnect()), and does not
    fail an assertion of its own. *)
Definition app_message (p : bytes) : Prop :=
  exists m r, p = m :: r /\ m <> 1 /\ m <> 20 /\ m <> 21 /\ m <> 30 /\ m <> 31.

Definition action_ok (a : handler_action) : Prop :=
  match a with HSend p => app_message p | HAuthenticated => True end.

Definition answer_ok (h : handler_answer) : Prop :=
  match h with
  | HPass => True
  | HDone actions => Forall action_ok actions
  | HThrow e => e <> XAssert
  end.

Definition op_ok (op : kop) : Prop :=
  match op with
  | OpVersion _ rnd | OpRekeyTimer rnd => len (rnd_cookie rnd) = 16
  | OpPacket payload _ rnd h => bytes_ok payload /\ len (rnd_cookie rnd) = 16 /\ answer_ok h
  | OpSend p => app_message p
  | OpAuthenticated | OpDisconnect _ _ | OpClose => True
  end.

(** ** The initial key exchange, on the level of packets *)

(** what happened before the peer's packets were encrypted *)
Fixpoint initial (log : list kevent) : list kevent :=
  match log with
  | [] => []
  | EInCipher _ :: _ => []
  | e :: log => e :: initial log
  end.

(** the packets which were received *)
Fixpoint received (log : list kevent) : list bytes :=
  match log with
  | [] => []
  | ERx p :: log | EIgnored p :: log => p :: received log
  | _ :: log => received log
  end.

(** the messages of a key exchange which follow KEXINIT *)
Definition kex_message (role : Role) (p : bytes) : Prop :=
  exists m r, p = m :: r /\
  (m = 21 \/ match role with SERVER => m = 30 | CLIENT => m = 31 end).

(** how the peer announces "strict KEX" *)
Definition strict_marker (role : Role) : bytes :=
  match role with
  | SERVER => bs "kex-strict-c-v00@openssh.com"
  | CLIENT => bs "kex-strict-s-v00@openssh.com"
  end.

(** The peer has announced strict KEX in the packet [20 :: p]. *)
Definition announced_strict (role : Role) (p : bytes) (guessed : bool) : Prop :=
  exists kex host ec es mc ms names, kexinit_layout p kex host ec es mc ms guessed /\
    name_list kex names /\ In (strict_marker role) names.

(** Nothing but the key exchange was accepted, and sequence numbers were
    asked to restart. *)
Definition strictly_initial (role : Role) (p : bytes) (log : list kevent) : Prop :=
  exists rest, received (initial log) = (20 :: p) :: rest /\ Forall (kex_message role) rest /\
    In EInReset (initial log) /\ In EOutReset (initial log).
