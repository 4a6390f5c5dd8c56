(** Model of the key exchange part of SSH::Connection
    (src/ssh/Connection.cxx, src/ssh/Connection.hxx) for both roles.

    Modelled: the packet dispatcher, all key exchange messages, the strict
    key exchange and wrong guess logic, the rekey timer, DISCONNECT and the
    end of the connection.  Input and Output (which see the events
    [EInCipher], [EOutCipher], [EInReset], [EOutReset]) have their own
    models.

    Not modelled here: the socket, read/write blocking, metrics, what the
    other packet handlers do (they are an oracle, see [handler_answer]), and
    the counter of encrypted bytes: instead of counting up to 1 GB, each
    packet sent may start a rekey (see [SendPacket]).

    A C++ exception leaves the state as it is at the time it is thrown. *)

From Coq Require Import NArith List Bool String.
From Verif.Base Require Import Bytes.
From Verif.Model Require Import Wire Frame Packets StringList Negotiate KexKeys.
Import ListNotations.
Open Scope N_scope.

(** What the connection needs from outside: the hash function, keys and
    signatures.  Secret host keys are numbers here. *)
Record kenv := {
  (** Digest(SHA256, ...), src/Digest.hxx *)
  e_digest : bytes -> bytes;
  (** IDENTIFICATION_STRING without CR LF, src/ssh/IdentificationString.hxx:17 *)
  e_version : bytes;
  (** server: HostKeyChooser::GetServerHostKeyAlgorithms(); client:
      all_public_key_algorithms (src/ssh/Connection.cxx:268) *)
  e_host_key_algorithms : bytes;
  (** HostKeyChooser::ChooseHostKey() *)
  e_choose : bytes -> option (N * bytes);
  (** SecretKey::SerializePublic() *)
  e_blob : N -> bytes;
  (** SecretKey::Sign(hash, algorithm); [None] is an exception *)
  e_sign : N -> bytes -> bytes -> option bytes;
  (** host_key_verifier->VerifyHostKey(); [None] is nullptr *)
  e_verify_host_key : option (bytes -> bool);
  (** VerifyKexSignature(blob, hash, signature), src/ssh/KexSignature.cxx;
      [None] is an exception *)
  e_verify_signature : bytes -> bytes -> bytes -> option bool;
  (** Kex::SerializeEphemeralPublicKey() for a random secret *)
  e_public : kexalg -> bytes -> bytes;
  (** Kex::GenerateSharedSecret(); [None] is an exception *)
  e_shared : kexalg -> bytes -> bytes -> option bytes
}.

(** Random numbers drawn while one event is handled: the KEXINIT cookie and
    the ephemeral secret. *)
Record random := { rnd_cookie : bytes; rnd_secret : bytes }.

(** What the connection does, in order. *)
Inductive kevent :=
| EVersion (peer_version : bytes)      (* version exchange complete *)
| ERx (payload : bytes)                (* packet accepted for processing *)
| EIgnored (payload : bytes)           (* packet dropped: wrong guess *)
| ETx (payload : bytes)                (* SendPacket() *)
| ESecret (shared_secret : bytes)      (* DeriveKeys() *)
| EOutCipher (c : cipher)              (* output.SetCipher() *)
| EInCipher (c : cipher)               (* input.SetCipher() *)
| EOutReset                            (* output.AutoResetSeq() *)
| EInReset                             (* input.AutoResetSeq() *)
| EEncrypted                           (* OnEncrypted() *)
| EAuthenticated                       (* SetAuthenticated() *)
| EClosed.                             (* closed without DISCONNECT *)

Inductive kstatus := Running | Dead | AssertFailed.

(** src/ssh/Connection.hxx:140-161 kex_flags *)
Record kflags := {
  kexinit_sent : bool; kexinit_received : bool;
  newkeys_sent : bool; newkeys_received : bool
}.

Definition no_flags : kflags :=
  {| kexinit_sent := false; kexinit_received := false;
     newkeys_sent := false; newkeys_received := false |}.

(** src/ssh/Connection.hxx:146-149 IsIdle() *)
Definition IsIdle (f : kflags) : bool :=
  negb (kexinit_sent f) && negb (kexinit_received f) &&
  negb (newkeys_sent f) && negb (newkeys_received f).

(** src/ssh/Connection.hxx:151-153 IsComplete() *)
Definition IsComplete (f : kflags) : bool := newkeys_sent f && newkeys_received f.

(** The members of class Connection (src/ssh/Connection.hxx:46-139).  The
    const members [role] etc. are parameters of the functions.  [k_log] is
    a history variable. *)
Record kstate := {
  k_version_exchanged : bool;
  k_peer_version : bytes;
  k_my_kexinit : bytes;
  k_peer_kexinit : bytes;
  k_enc_ctos : bytes; k_enc_stoc : bytes; k_mac_ctos : bytes; k_mac_stoc : bytes;
  k_session_id : bytes;
  k_new_keys : NewKeys;
  k_kex : option (kexalg * bytes);
  k_host_key : option (N * bytes);
  k_in_encrypted : bool;
  k_out_encrypted : bool;
  k_flags : kflags;
  k_ext_info : bool;
  k_strict : bool;
  k_first_packet_was_kexinit : bool;
  k_ignore_next : bool;
  k_authenticated : bool;
  k_timer : bool;
  k_status : kstatus;
  k_log : list kevent
}.

(** src/ssh/Connection.cxx:54-77 constructor.
    [peer_wants_strict_key_exchange] is not initialized, so its value is a
    parameter. *)
Definition new_connection (uninitialized : bool) : kstate := {|
  k_version_exchanged := false;
  k_peer_version := [];
  k_my_kexinit := []; k_peer_kexinit := [];
  k_enc_ctos := []; k_enc_stoc := []; k_mac_ctos := []; k_mac_stoc := [];
  k_session_id := [];
  k_new_keys := no_keys;
  k_kex := None;
  k_host_key := None;
  k_in_encrypted := false; k_out_encrypted := false;
  k_flags := no_flags;
  k_ext_info := false;
  k_strict := uninitialized;
  k_first_packet_was_kexinit := true;
  k_ignore_next := false;
  k_authenticated := false;
  k_timer := false;
  k_status := Running;
  k_log := [] |}.

(** Assignments to members. *)
Definition upd (s : kstate)
  (version_exchanged : bool) (peer_version my_kexinit peer_kexinit : bytes)
  (session_id : bytes) (new_keys : NewKeys) (kex : option (kexalg * bytes))
  (host_key : option (N * bytes)) (inenc outenc : bool) (flags : kflags)
  (ext strict first ign auth timer : bool) (status : kstatus) (log : list kevent) : kstate := {|
  k_version_exchanged := version_exchanged; k_peer_version := peer_version;
  k_my_kexinit := my_kexinit; k_peer_kexinit := peer_kexinit;
  k_enc_ctos := k_enc_ctos s; k_enc_stoc := k_enc_stoc s;
  k_mac_ctos := k_mac_ctos s; k_mac_stoc := k_mac_stoc s;
  k_session_id := session_id; k_new_keys := new_keys; k_kex := kex; k_host_key := host_key;
  k_in_encrypted := inenc; k_out_encrypted := outenc; k_flags := flags;
  k_ext_info := ext; k_strict := strict; k_first_packet_was_kexinit := first;
  k_ignore_next := ign; k_authenticated := auth; k_timer := timer;
  k_status := status; k_log := log |}.

Definition upd_self (s : kstate)
  (f : bool -> bytes -> bytes -> bytes -> bytes -> NewKeys -> option (kexalg * bytes) ->
       option (N * bytes) -> bool -> bool -> kflags ->
       bool -> bool -> bool -> bool -> bool -> bool -> kstatus -> list kevent -> kstate) : kstate :=
  f (k_version_exchanged s) (k_peer_version s) (k_my_kexinit s) (k_peer_kexinit s)
    (k_session_id s) (k_new_keys s) (k_kex s) (k_host_key s) (k_in_encrypted s) (k_out_encrypted s)
    (k_flags s) (k_ext_info s) (k_strict s) (k_first_packet_was_kexinit s) (k_ignore_next s)
    (k_authenticated s) (k_timer s) (k_status s) (k_log s).

Definition set_version (v : bytes) (s : kstate) : kstate :=
  upd_self s (fun _ _ mk pk sid nk kx hk ie oe fl ex st fi ig au ti stt lg =>
    upd s true v mk pk sid nk kx hk ie oe fl ex st fi ig au ti stt lg).
Definition set_my_kexinit (v : bytes) (s : kstate) : kstate :=
  upd_self s (fun ve pv _ pk sid nk kx hk ie oe fl ex st fi ig au ti stt lg =>
    upd s ve pv v pk sid nk kx hk ie oe fl ex st fi ig au ti stt lg).
Definition set_peer_kexinit (v : bytes) (s : kstate) : kstate :=
  upd_self s (fun ve pv mk _ sid nk kx hk ie oe fl ex st fi ig au ti stt lg =>
    upd s ve pv mk v sid nk kx hk ie oe fl ex st fi ig au ti stt lg).
Definition set_keys (sid : bytes) (nk : NewKeys) (s : kstate) : kstate :=
  upd_self s (fun ve pv mk pk _ _ kx hk ie oe fl ex st fi ig au ti stt lg =>
    upd s ve pv mk pk sid nk kx hk ie oe fl ex st fi ig au ti stt lg).
Definition set_kex (v : option (kexalg * bytes)) (s : kstate) : kstate :=
  upd_self s (fun ve pv mk pk sid nk _ hk ie oe fl ex st fi ig au ti stt lg =>
    upd s ve pv mk pk sid nk v hk ie oe fl ex st fi ig au ti stt lg).
Definition set_host_key (v : option (N * bytes)) (s : kstate) : kstate :=
  upd_self s (fun ve pv mk pk sid nk kx _ ie oe fl ex st fi ig au ti stt lg =>
    upd s ve pv mk pk sid nk kx v ie oe fl ex st fi ig au ti stt lg).
Definition set_in_encrypted (s : kstate) : kstate :=
  upd_self s (fun ve pv mk pk sid nk kx hk _ oe fl ex st fi ig au ti stt lg =>
    upd s ve pv mk pk sid nk kx hk true oe fl ex st fi ig au ti stt lg).
Definition set_out_encrypted (s : kstate) : kstate :=
  upd_self s (fun ve pv mk pk sid nk kx hk ie _ fl ex st fi ig au ti stt lg =>
    upd s ve pv mk pk sid nk kx hk ie true fl ex st fi ig au ti stt lg).
Definition set_flags (v : kflags) (s : kstate) : kstate :=
  upd_self s (fun ve pv mk pk sid nk kx hk ie oe _ ex st fi ig au ti stt lg =>
    upd s ve pv mk pk sid nk kx hk ie oe v ex st fi ig au ti stt lg).
Definition set_ext_info (v : bool) (s : kstate) : kstate :=
  upd_self s (fun ve pv mk pk sid nk kx hk ie oe fl _ st fi ig au ti stt lg =>
    upd s ve pv mk pk sid nk kx hk ie oe fl v st fi ig au ti stt lg).
Definition set_strict (v : bool) (s : kstate) : kstate :=
  upd_self s (fun ve pv mk pk sid nk kx hk ie oe fl ex _ fi ig au ti stt lg =>
    upd s ve pv mk pk sid nk kx hk ie oe fl ex v fi ig au ti stt lg).
Definition set_first (v : bool) (s : kstate) : kstate :=
  upd_self s (fun ve pv mk pk sid nk kx hk ie oe fl ex st _ ig au ti stt lg =>
    upd s ve pv mk pk sid nk kx hk ie oe fl ex st v ig au ti stt lg).
Definition set_ignore_next (v : bool) (s : kstate) : kstate :=
  upd_self s (fun ve pv mk pk sid nk kx hk ie oe fl ex st fi _ au ti stt lg =>
    upd s ve pv mk pk sid nk kx hk ie oe fl ex st fi v au ti stt lg).
Definition set_authenticated (s : kstate) : kstate :=
  upd_self s (fun ve pv mk pk sid nk kx hk ie oe fl ex st fi ig _ ti stt lg =>
    upd s ve pv mk pk sid nk kx hk ie oe fl ex st fi ig true ti stt lg).
Definition set_timer (v : bool) (s : kstate) : kstate :=
  upd_self s (fun ve pv mk pk sid nk kx hk ie oe fl ex st fi ig au _ stt lg =>
    upd s ve pv mk pk sid nk kx hk ie oe fl ex st fi ig au v stt lg).
Definition set_status (v : kstatus) (s : kstate) : kstate :=
  upd_self s (fun ve pv mk pk sid nk kx hk ie oe fl ex st fi ig au ti _ lg =>
    upd s ve pv mk pk sid nk kx hk ie oe fl ex st fi ig au ti v lg).
Definition emit (e : kevent) (s : kstate) : kstate :=
  upd_self s (fun ve pv mk pk sid nk kx hk ie oe fl ex st fi ig au ti stt lg =>
    upd s ve pv mk pk sid nk kx hk ie oe fl ex st fi ig au ti stt (lg ++ [e])).

(** src/ssh/Connection.cxx:476-479 the four algorithm lists *)
Definition set_lists (p : KexInit) (s : kstate) : kstate := {|
  k_version_exchanged := k_version_exchanged s; k_peer_version := k_peer_version s;
  k_my_kexinit := k_my_kexinit s; k_peer_kexinit := k_peer_kexinit s;
  k_enc_ctos := ki_encryption_ctos p; k_enc_stoc := ki_encryption_stoc p;
  k_mac_ctos := ki_mac_ctos p; k_mac_stoc := ki_mac_stoc p;
  k_session_id := k_session_id s; k_new_keys := k_new_keys s; k_kex := k_kex s;
  k_host_key := k_host_key s;
  k_in_encrypted := k_in_encrypted s; k_out_encrypted := k_out_encrypted s; k_flags := k_flags s;
  k_ext_info := k_ext_info s; k_strict := k_strict s;
  k_first_packet_was_kexinit := k_first_packet_was_kexinit s;
  k_ignore_next := k_ignore_next s; k_authenticated := k_authenticated s; k_timer := k_timer s;
  k_status := k_status s; k_log := k_log s |}.

(** ** Exceptions *)

Inductive exn :=
| XDisconnect (reason_code : N) (msg : bytes)  (* struct Connection::Disconnect *)
| XDestroyed                                   (* struct Connection::Destroyed *)
| XMalformed                                   (* MalformedPacket *)
| XError                                       (* any other exception *)
| XAssert.                                     (* failed assertion *)

Inductive res :=
| Ret (s : kstate)
| Throw (e : exn) (s : kstate).

Definition bind (r : res) (f : kstate -> res) : res :=
  match r with Ret s => f s | Throw e s => Throw e s end.

Notation "'do' s <- m ; k" := (bind m (fun s => k)) (at level 61, s name, m at next level, right associativity).

Definition check (b : bool) (s : kstate) : res := if b then Ret s else Throw XAssert s.

(** ** src/ssh/Protocol.hxx:113-127 *)
Definition PROTOCOL_ERROR : N := 2.
Definition KEY_EXCHANGE_FAILED : N := 3.
Definition HOST_KEY_NOT_VERIFIABLE : N := 9.

(** src/ssh/Connection.cxx:91-95 IsEncrypted() *)
Definition IsEncrypted (s : kstate) : bool := k_in_encrypted s && k_out_encrypted s.

(** src/ssh/Connection.cxx:139-163 SendPacket().  The counter
    [encrypted_bytes_since_kex] is not modelled: the rekey timer is
    scheduled by each packet which could reach the limit.  A scheduled
    timer need not fire. *)
Definition SendPacket (payload : bytes) (s : kstate) : kstate :=
  let s := emit (ETx payload) s in
  set_timer (if k_out_encrypted s && k_authenticated s && IsIdle (k_flags s) then true else k_timer s) s.

Section Machine.

Variable E : kenv.
Variable role : Role.

(** src/ssh/KexProposal.cxx:10-22 SerializeProposal() and
    src/ssh/Connection.cxx:44-52 SerializeKex() with the proposal built in
    lines 266-277; the payload without the message number *)
Definition SerializeKex (cookie : bytes) : option bytes :=
  let* s := WriteN new_serializer cookie in
  let* s := WriteString s (if is_server role then all_server_kex_algorithms
                           else all_client_kex_algorithms) in
  let* s := WriteString s (e_host_key_algorithms E) in
  let* s := WriteString s all_encryption_algorithms in
  let* s := WriteString s all_encryption_algorithms in
  let* s := WriteString s all_mac_algorithms in
  let* s := WriteString s all_mac_algorithms in
  let* s := WriteString s (bs "none") in
  let* s := WriteString s (bs "none") in
  let* s := WriteString s [] in
  let* s := WriteString s [] in
  let* s := WriteBool s false in
  WriteU32 s 0.

(** src/ssh/Connection.cxx:256-292 SendKexInit() *)
Definition SendKexInit (rnd : random) (s : kstate) : res :=
  let f := k_flags s in
  do s <- check (negb (kexinit_sent f) && negb (newkeys_sent f) && negb (newkeys_received f)) s;
  match SerializeKex (rnd_cookie rnd) with
  | None => Throw XError s
  | Some body =>
      let s := set_my_kexinit body s in
      let s := set_flags {| kexinit_sent := true; kexinit_received := kexinit_received f;
                            newkeys_sent := newkeys_sent f; newkeys_received := newkeys_received f |} s in
      Ret (SendPacket (MSG_KEXINIT :: body) s)
  end.

(** src/ssh/Connection.cxx:294-311 SendECDHKexInit() *)
Definition SendECDHKexInit (s : kstate) : res :=
  let f := k_flags s in
  do s <- check (negb (is_server role) && kexinit_sent f && kexinit_received f
                 && negb (newkeys_sent f) && negb (newkeys_received f)) s;
  match k_kex s with
  | None => Throw XAssert s
  | Some (alg, secret) =>
      match WriteLengthEncoded new_serializer (e_public E alg secret) with
      | None => Throw XError s
      | Some body => Ret (SendPacket (MSG_ECDH_KEX_INIT :: body) s)
      end
  end.

(** src/ssh/Connection.cxx:313-373 SendECDHKexInitReply() *)
Definition SendECDHKexInitReply (client_ephemeral_public_key : bytes) (s : kstate) : res :=
  let f := k_flags s in
  do s <- check (is_server role && kexinit_sent f && kexinit_received f
                 && negb (newkeys_sent f) && negb (newkeys_received f)) s;
  match k_kex s, k_host_key s with
  | Some (alg, secret), Some (host_key, host_key_algorithm) =>
      let server_host_key_blob := e_blob E host_key in
      let server_ephemeral_public_key := e_public E alg secret in
      match e_shared E alg secret client_ephemeral_public_key with
      | None => Throw XError s
      | Some shared_secret =>
          let hash := e_digest E (KexHashInput (k_peer_version s) (e_version E)
                        (k_peer_kexinit s) (k_my_kexinit s) server_host_key_blob
                        client_ephemeral_public_key server_ephemeral_public_key shared_secret) in
          match e_sign E host_key hash host_key_algorithm with
          | None => Throw XError s
          | Some signature =>
              match (let* w := WriteLengthEncoded new_serializer server_host_key_blob in
                     let* w := WriteLengthEncoded w server_ephemeral_public_key in
                     WriteLengthEncoded w signature) with
              | None => Throw XError s
              | Some body =>
                  let s := SendPacket (MSG_ECDH_KEX_INIT_REPLY :: body) s in
                  let initial_kex := len (k_session_id s) =? 0 in
                  match DeriveKeys (e_digest E) (k_session_id s) hash shared_secret role initial_kex with
                  | None => Throw XError s
                  | Some (session_id, new_keys) =>
                      let s := emit (ESecret shared_secret) s in
                      let s := set_keys session_id new_keys s in
                      Ret (set_kex None s)
                  end
              end
          end
      end
  | _, _ => Throw XAssert s
  end.

(** src/ssh/Connection.hxx:155-160 ResetIfComplete() followed by
    rekey_timer.Schedule(), src/ssh/Connection.cxx:415-416 and 590-591 *)
Definition ResetIfComplete (s : kstate) : kstate :=
  if IsComplete (k_flags s) then set_timer true (set_flags no_flags s) else s.

(** src/ssh/Connection.cxx:375-423 SendNewKeys() *)
Definition SendNewKeys (s : kstate) : res :=
  let f := k_flags s in
  do s <- check (kexinit_sent f && kexinit_received f
                 && negb (newkeys_sent f) && negb (newkeys_received f)) s;
  let s := set_timer false s in
  let s := SendPacket [MSG_NEWKEYS] s in
  let s := set_flags {| kexinit_sent := kexinit_sent f; kexinit_received := kexinit_received f;
                        newkeys_sent := true; newkeys_received := newkeys_received f |} s in
  let send_encryption_algorithm :=
    FindNegotiatedAlgorithm role OUTGOING all_encryption_algorithms (k_enc_ctos s) (k_enc_stoc s) in
  let send_mac_algorithm :=
    FindNegotiatedAlgorithm role OUTGOING all_mac_algorithms (k_mac_ctos s) (k_mac_stoc s) in
  match KexState_MakeCipher (k_new_keys s) send_encryption_algorithm send_mac_algorithm OUTGOING with
  | None => Throw XError s
  | Some None => Throw (XDisconnect KEY_EXCHANGE_FAILED (bs "No outgoing encryption algorithm")) s
  | Some (Some send_cipher) =>
      let was_encrypted := k_out_encrypted s in
      let s := set_out_encrypted (emit (EOutCipher send_cipher) s) in
      let s := ResetIfComplete s in
      Ret (if negb was_encrypted && IsEncrypted s then emit EEncrypted s else s)
  end.

(** src/ssh/Connection.cxx:425-444 SendExtInfo() *)
Definition SendExtInfo (s : kstate) : res :=
  match (let* w := WriteU32 new_serializer 2 in
         let* w := WriteString w (bs "server-sig-algs") in
         let* w := WriteString w (bs "ssh-ed25519,ecdsa-sha2-nistp256,rsa-sha2-256,rsa-sha2-512,ssh-rsa") in
         let* w := WriteString w (bs "agent-forward") in
         WriteString w (bs "0")) with
  | None => Throw XError s
  | Some body => Ret (SendPacket (MSG_EXT_INFO :: body) s)
  end.

(** src/ssh/Connection.cxx:446-454 HandleDisconnect() *)
Definition HandleDisconnect (payload : bytes) (s : kstate) : res :=
  match ParseDisconnect payload with
  | None => Throw XMalformed s
  | Some _ => Throw XDestroyed s
  end.

(** src/ssh/Connection.cxx:456-540 HandleKexInit() *)
Definition HandleKexInit (payload : bytes) (rnd : random) (s : kstate) : res :=
  let s := set_timer false s in
  let initial_kex := negb (IsEncrypted s) in
  let f := k_flags s in
  if kexinit_received f || newkeys_sent f || newkeys_received f then
    Throw (XDisconnect PROTOCOL_ERROR (bs "Unexpected KEXINIT")) s
  else
  match ParseKexInit payload with
  | None => Throw XMalformed s
  | Some p =>
      let s := set_flags {| kexinit_sent := kexinit_sent f; kexinit_received := true;
                            newkeys_sent := newkeys_sent f; newkeys_received := newkeys_received f |} s in
      let s := set_peer_kexinit payload s in
      let s := set_lists p s in
      let negotiated_kex_algorithm :=
        if is_server role then FindCommonAlgorithm (ki_kex_algorithms p) all_server_kex_algorithms
        else FindCommonAlgorithm all_client_kex_algorithms (ki_kex_algorithms p) in
      match MakeKex negotiated_kex_algorithm with
      | None =>
          Throw (XDisconnect KEY_EXCHANGE_FAILED (bs "No supported KEX algorithm")) (set_kex None s)
      | Some alg =>
          let s := set_kex (Some (alg, rnd_secret rnd)) s in
          let s := set_ext_info (StringListContains (ki_kex_algorithms p)
                     (if is_server role then bs "ext-info-c" else bs "ext-info-s")) s in
          let s := if initial_kex then
                     set_strict (StringListContains (ki_kex_algorithms p)
                       (if is_server role then bs "kex-strict-c-v00@openssh.com"
                        else bs "kex-strict-s-v00@openssh.com")) s
                   else s in
          if k_strict s && negb (k_first_packet_was_kexinit s) then
            Throw (XDisconnect KEY_EXCHANGE_FAILED (bs "First packet was not KEXINIT")) s
          else
          let s := if k_strict s then emit EOutReset (emit EInReset s) else s in
          if is_server role then
            match e_choose E (ki_server_host_key_algorithms p) with
            | None =>
                Throw (XDisconnect KEY_EXCHANGE_FAILED (bs "No supported host key")) (set_host_key None s)
            | Some (host_key, host_key_algorithm) =>
                let s := set_host_key (Some (host_key, host_key_algorithm)) s in
                do s <- (if kexinit_sent (k_flags s) then Ret s else SendKexInit rnd s);
                Ret (set_ignore_next
                       (ki_first_kex_packet_follows p &&
                        (negb (bytes_eqb (FirstStringListItem (ki_kex_algorithms p)) negotiated_kex_algorithm)
                         || negb (bytes_eqb (FirstStringListItem (ki_server_host_key_algorithms p))
                                            host_key_algorithm))) s)
            end
          else
            do s <- (if kexinit_sent (k_flags s) then Ret s else SendKexInit rnd s);
            SendECDHKexInit s
      end
  end.

(** src/ssh/Connection.cxx:542-595 HandleNewKeys() *)
Definition HandleNewKeys (s : kstate) : res :=
  let s := set_timer false s in
  let f := k_flags s in
  if negb (kexinit_sent f) || negb (kexinit_received f) || negb (newkeys_sent f) || newkeys_received f then
    Throw (XDisconnect PROTOCOL_ERROR (bs "Unexpected NEWKEYS")) s
  else
  let s := set_flags {| kexinit_sent := kexinit_sent f; kexinit_received := kexinit_received f;
                        newkeys_sent := newkeys_sent f; newkeys_received := true |} s in
  if len (k_session_id s) =? 0 then
    Throw (XDisconnect KEY_EXCHANGE_FAILED (bs "No session id")) s
  else
  let receive_encryption_algorithm :=
    FindNegotiatedAlgorithm role INCOMING all_encryption_algorithms (k_enc_ctos s) (k_enc_stoc s) in
  let receive_mac_algorithm :=
    FindNegotiatedAlgorithm role INCOMING all_mac_algorithms (k_mac_ctos s) (k_mac_stoc s) in
  match KexState_MakeCipher (k_new_keys s) receive_encryption_algorithm receive_mac_algorithm INCOMING with
  | None => Throw XError s
  | Some None => Throw (XDisconnect KEY_EXCHANGE_FAILED (bs "No incoming encryption algorithm")) s
  | Some (Some c) =>
      let was_encrypted := k_in_encrypted s in
      let s := set_in_encrypted (emit (EInCipher c) s) in
      let s := ResetIfComplete s in
      Ret (if negb was_encrypted && IsEncrypted s then emit EEncrypted s else s)
  end.

(** src/ssh/Connection.cxx:597-623 HandleECDHKexInit() *)
Definition HandleECDHKexInit (payload : bytes) (s : kstate) : res :=
  if negb (is_server role) then
    Throw (XDisconnect PROTOCOL_ERROR (bs "Unexpected packet")) s
  else
  let f := k_flags s in
  if negb (kexinit_sent f) || negb (kexinit_received f) || newkeys_sent f || newkeys_received f
     || match k_kex s with None => true | Some _ => false end then
    Throw (XDisconnect PROTOCOL_ERROR (bs "No KEXINIT")) s
  else
  match ParseECDHKexInit payload with
  | None => Throw XMalformed s
  | Some client_ephemeral_public_key =>
      do s <- SendECDHKexInitReply client_ephemeral_public_key s;
      do s <- SendNewKeys s;
      if k_ext_info s then SendExtInfo s else Ret s
  end.

(** src/ssh/Connection.cxx:625-703 HandleECDHKexInitReply() *)
Definition HandleECDHKexInitReply (payload : bytes) (s : kstate) : res :=
  if is_server role then
    Throw (XDisconnect PROTOCOL_ERROR (bs "Unexpected packet")) s
  else
  let f := k_flags s in
  if negb (kexinit_sent f) || negb (kexinit_received f) || newkeys_sent f || newkeys_received f then
    Throw (XDisconnect PROTOCOL_ERROR (bs "No KEXINIT")) s
  else
  match k_kex s with
  | None => Throw (XDisconnect PROTOCOL_ERROR (bs "No KEXINIT")) s
  | Some (alg, secret) =>
  match ParseECDHKexInitReply payload with
  | None => Throw XMalformed s
  | Some p =>
      if negb (match e_verify_host_key E with
               | None => false
               | Some v => v (kr_server_host_key_blob p) end) then
        Throw (XDisconnect HOST_KEY_NOT_VERIFIABLE (bs "Host key not accepted")) s
      else
      let client_ephemeral_public_key := e_public E alg secret in
      match e_shared E alg secret (kr_server_ephemeral_public_key p) with
      | None => Throw XError s
      | Some shared_secret =>
          let hash := e_digest E (KexHashInput (e_version E) (k_peer_version s)
                        (k_my_kexinit s) (k_peer_kexinit s) (kr_server_host_key_blob p)
                        client_ephemeral_public_key (kr_server_ephemeral_public_key p)
                        shared_secret) in
          let valid_signature :=
            match e_verify_signature E (kr_server_host_key_blob p) hash (kr_signature p) with
            | Some b => b
            | None => false
            end in
          if negb valid_signature then
            Throw (XDisconnect KEY_EXCHANGE_FAILED (bs "Bad host key signature")) s
          else
          let initial_kex := len (k_session_id s) =? 0 in
          match DeriveKeys (e_digest E) (k_session_id s) hash shared_secret role initial_kex with
          | None => Throw XError s
          | Some (session_id, new_keys) =>
              let s := emit (ESecret shared_secret) s in
              let s := set_keys session_id new_keys s in
              let s := set_kex None s in
              SendNewKeys s
          end
      end
  end
  end.

(** src/ssh/Connection.cxx:705-722 IsAllowedKexMessage() *)
Definition IsAllowedKexMessage (msg : N) : bool :=
  if (msg =? MSG_DISCONNECT) || (msg =? MSG_NEWKEYS) then true
  else if msg =? MSG_ECDH_KEX_INIT then is_server role
  else if msg =? MSG_ECDH_KEX_INIT_REPLY then negb (is_server role)
  else false.

(** src/ssh/Protocol.hxx:106-111 IsKex() *)
Definition IsKex (msg : N) : bool := (30 <=? msg) && (msg <? 50).

(** What the packet handlers (src/ssh/Handler.hxx: UserAuthServer,
    UserAuthClient, GlobalRequestSupport, ChannelSupport,
    ProxyConnectionHandler) answer to one packet, lines 752-754.  None of
    them handles a message of [core_message], and there are no handlers
    before OnEncrypted(). *)
Inductive handler_action := HSend (payload : bytes) | HAuthenticated.

Inductive handler_answer :=
| HPass                                   (* all handlers returned false *)
| HDone (actions : list handler_action)   (* one returned true *)
| HThrow (e : exn).                       (* one threw an exception *)

Definition core_message (msg : N) : bool :=
  existsb (N.eqb msg) [MSG_DISCONNECT; MSG_IGNORE; MSG_KEXINIT; MSG_NEWKEYS;
                       MSG_ECDH_KEX_INIT; MSG_ECDH_KEX_INIT_REPLY].

(** src/ssh/Connection.cxx:105-116 SetAuthenticated() *)
Definition SetAuthenticated (s : kstate) : res :=
  do s <- check (IsEncrypted s && negb (k_authenticated s)) s;
  Ret (set_timer true (emit EAuthenticated (set_authenticated s))).

Fixpoint run_actions (l : list handler_action) (s : kstate) : res :=
  match l with
  | [] => Ret s
  | HSend payload :: l => run_actions l (SendPacket payload s)
  | HAuthenticated :: l => do s <- SetAuthenticated s; run_actions l s
  end.

(** src/ssh/Connection.cxx:756-782 the switch in HandlePacket().  The
    sequence number in UNIMPLEMENTED is the one of the packet; it is a
    parameter here because class Input has it. *)
Definition HandleCore (msg : N) (payload : bytes) (seq : N) (rnd : random) (s : kstate) : res :=
  if msg =? MSG_DISCONNECT then HandleDisconnect payload s
  else if (msg =? MSG_IGNORE) || (msg =? MSG_UNIMPLEMENTED) then Ret s
  else if msg =? MSG_KEXINIT then HandleKexInit payload rnd s
  else if msg =? MSG_NEWKEYS then HandleNewKeys s
  else if msg =? MSG_ECDH_KEX_INIT then HandleECDHKexInit payload s
  else if msg =? MSG_ECDH_KEX_INIT_REPLY then HandleECDHKexInitReply payload s
  else Ret (SendPacket (MSG_UNIMPLEMENTED :: put_u32 seq) s).

(** src/ssh/Connection.cxx:724-782 HandlePacket() *)
Definition HandlePacket (msg : N) (payload : bytes) (seq : N) (rnd : random) (h : handler_answer)
  (s : kstate) : res :=
  let go (s : kstate) :=
    let s := emit (ERx (msg :: payload)) s in
    if IsEncrypted s && negb (core_message msg) then
      match h with
      | HPass => HandleCore msg payload seq rnd s
      | HDone actions => run_actions actions s
      | HThrow e => Throw e s
      end
    else HandleCore msg payload seq rnd s in
  if negb (k_in_encrypted s) then
    if negb (kexinit_received (k_flags s)) then
      go (if msg =? MSG_KEXINIT then s else set_first false s)
    else if k_ignore_next s then
      let s := set_ignore_next false s in
      if IsKex msg then Ret (emit (EIgnored (msg :: payload)) s)
      else go s
    else if k_strict s && negb (IsAllowedKexMessage msg) then
      Throw (XDisconnect KEY_EXCHANGE_FAILED (bs "Unexpected KEX packet"))
            (emit (ERx (msg :: payload)) s)
    else go s
  else go s.

(** src/ssh/Connection.cxx:784-800 HandleRawPacket() *)
Definition HandleRawPacket (payload : bytes) (seq : N) (rnd : random) (h : handler_answer)
  (s : kstate) : res :=
  match payload with
  | [] => Throw XError s
  | msg :: payload =>
      match HandlePacket msg payload seq rnd h s with
      | Throw XMalformed s => Throw (XDisconnect PROTOCOL_ERROR (bs "Malformed packet")) s
      | r => r
      end
  end.

(** src/ssh/Connection.cxx:183-227 DoDisconnect().  Dead: no packet is
    handled or sent any more; the object lives until the DISCONNECT is sent
    (see Model/Closing.v). *)
Definition DoDisconnect (reason_code : N) (msg : bytes) (s : kstate) : kstate :=
  match k_status s with
  | Running =>
      set_status Dead (set_timer false
        (emit (ETx (MSG_DISCONNECT :: put_u32 reason_code ++ put_u32 (len msg) ++ msg
                    ++ put_u32 2 ++ bs "en")) s))
  | _ => s
  end.

(** src/ssh/Connection.cxx:948-957 the catch blocks of OnInputReady();
    XMalformed cannot arrive here (see HandleRawPacket) except from other
    entry points, which close the connection *)
Definition finish (r : res) : kstate :=
  match r with
  | Ret s => s
  | Throw (XDisconnect reason msg) s => DoDisconnect reason msg s
  | Throw XAssert s => set_status AssertFailed s
  | Throw _ s => set_status Dead (emit EClosed s)
  end.

(** The events which drive a connection. *)
Inductive kop :=
| OpVersion (v : bytes) (rnd : random)   (* the version line was received *)
| OpPacket (payload : bytes) (seq : N) (rnd : random) (h : handler_answer)
| OpRekeyTimer (rnd : random)
| OpSend (payload : bytes)               (* packet from the application *)
| OpAuthenticated                        (* the application, e.g. a coroutine *)
| OpDisconnect (reason : N) (msg : bytes)
| OpClose.                               (* socket closed or failed *)

(** [None]: this event cannot happen in this state.
    OpVersion: src/ssh/Connection.cxx:826-856; OpPacket: lines 914-946;
    OpRekeyTimer: lines 118-137. *)
Definition kstep (op : kop) (s : kstate) : option kstate :=
  match k_status s with
  | Running =>
      match op with
      | OpVersion v rnd =>
          if k_version_exchanged s then None
          else
            let s := emit (EVersion v) (set_version v s) in
            Some (finish (if is_server role then Ret s else SendKexInit rnd s))
      | OpPacket payload seq rnd h =>
          if k_version_exchanged s then Some (finish (HandleRawPacket payload seq rnd h s)) else None
      | OpRekeyTimer rnd =>
          if k_timer s then
            let s := set_timer false s in
            Some (finish
              (do s <- check (IsEncrypted s && k_authenticated s) s;
               if IsIdle (k_flags s) then SendKexInit rnd s else Ret s))
          else None
      | OpSend payload => Some (SendPacket payload s)
      | OpAuthenticated => Some (finish (SetAuthenticated s))
      | OpDisconnect reason msg => Some (DoDisconnect reason msg s)
      | OpClose => Some (set_status Dead (emit EClosed s))
      end
  | _ => None
  end.

(** Runs of a new connection. *)
Inductive kruns (uninitialized : bool) : list kop -> kstate -> Prop :=
| kruns_nil : kruns uninitialized [] (new_connection uninitialized)
| kruns_snoc : forall ops s op s', kruns uninitialized ops s -> kstep op s = Some s' ->
    kruns uninitialized (ops ++ [op]) s'.

End Machine.
