(** Model of the client side of user authentication: class UserAuthClient
    (src/ssh/UserAuthClient.cxx) and class OutgoingConnection
    (src/OutgoingConnection.cxx).

    Not modelled: the socket, the transport (Model/KexMachine.v), logging. *)

From Coq Require Import NArith List Bool String.
From Verif.Base Require Import Bytes.
From Verif.Model Require Import Wire Frame Packets.
Import ListNotations.
Open Scope N_scope.

(** A secret key: SerializePublic() writes these bytes, Sign(message,
    algorithm) those ([None]: exception); src/key/Key.hxx:60-85. *)
Record secret_key := {
  sk_blob : bytes;
  sk_sign : bytes -> bytes -> option bytes
}.

(** PrepareLength(), the writes of SerializePublic() or Sign(),
    CommitLength() *)
Definition WriteSized (s : serializer) (body : bytes) : option serializer :=
  let* (at_, s) := PrepareLength s in
  let* s := WriteN s body in
  Some (CommitLength s at_).

(** lines 57-64, 92-99: the rest of a request with signature: sign what was
    written since [marker], append the signature *)
Definition AppendSignature (session_id : bytes) (key : secret_key) (key_algorithm : bytes) (marker : N)
  (s : serializer) : option serializer :=
  let to_be_signed := Since s marker in
  let* s2 := WriteLengthEncoded new_serializer session_id in
  let* s2 := WriteU8 s2 MSG_USERAUTH_REQUEST in
  let* s2 := WriteN s2 to_be_signed in
  let* signature := sk_sign key (Finish s2) key_algorithm in
  WriteSized s signature.

(** src/ssh/UserAuthClient.cxx:36-69 SendUserAuthRequestPublicKey(): the
    packet; [None]: exception *)
Definition UserAuthRequestPublicKey (junk session_id username : bytes) (key : secret_key) (key_algorithm : bytes)
  : option serializer :=
  let* s := new_packet junk MSG_USERAUTH_REQUEST in
  let marker := Mark s in
  let* s := WriteString s username in
  let* s := WriteString s (bs "ssh-connection") in
  let* s := WriteString s (bs "publickey") in
  let* s := WriteBool s true in
  let* s := WriteString s key_algorithm in
  let* s := WriteSized s (sk_blob key) in
  AppendSignature session_id key key_algorithm marker s.

(** src/ssh/UserAuthClient.cxx:71-106 SendUserAuthRequestHostbased() *)
Definition UserAuthRequestHostbased (junk session_id username : bytes) (key : secret_key)
  (key_algorithm client_host_name client_user_name : bytes) : option serializer :=
  let* s := new_packet junk MSG_USERAUTH_REQUEST in
  let marker := Mark s in
  let* s := WriteString s username in
  let* s := WriteString s (bs "ssh-connection") in
  let* s := WriteString s (bs "hostbased") in
  let* s := WriteString s key_algorithm in
  let* s := WriteSized s (sk_blob key) in
  let* s := WriteString s client_host_name in
  let* s := WriteString s client_user_name in
  AppendSignature session_id key key_algorithm marker s.

(** ** The state machine *)

(** src/ssh/UserAuthClient.hxx:28-34 *)
Inductive auth_state := INIT | SERVICE_REQUEST_SSH_USERAUTH | SERVICE_SSH_USERAUTH | USERAUTH_REQUEST | USERAUTH_SUCCESS.

(** What an outgoing connection does, visible from outside. *)
Inductive cevent :=
| CSendServiceRequest        (* SERVICE_REQUEST ssh-userauth is sent *)
| CSendRequest               (* USERAUTH_REQUEST is sent *)
| CAuthenticated             (* SetAuthenticated(), then OnOutgoingUserauthSuccess(): ProxyHandlers are created *)
| CFailure                   (* OnOutgoingUserauthFailure(): the proxy connection is closed *)
| CRelay (msg : N)           (* the packet goes to the ProxyHandlers *)
| CTransport (msg : N)       (* the packet goes to SSH::Connection (Model/KexMachine.v) *)
| CDisconnect                (* throw Disconnect: DISCONNECT is sent, the connection is closed *)
| CError                     (* other exception: the connection is closed *)
| CAssert.                   (* assertion failure *)

(** class OutgoingConnection, src/OutgoingConnection.hxx:28-75;
    [cl_user_auth] is the UserAuthClient (its state), [cl_encrypted] that
    OnEncrypted() has been called *)
Record client := {
  cl_user_auth : option auth_state;
  cl_encrypted : bool;
  cl_authenticated : bool;
  cl_alive : bool;
  cl_log : list cevent
}.

Definition new_client : client :=
  {| cl_user_auth := None; cl_encrypted := false; cl_authenticated := false; cl_alive := true; cl_log := [] |}.

(** the next state: user_auth, whether the connection lives, what happened *)
Definition cl_set (u : option auth_state) (alive : bool) (l : list cevent) (c : client) : client :=
  {| cl_user_auth := u; cl_encrypted := cl_encrypted c; cl_authenticated := cl_authenticated c;
     cl_alive := alive; cl_log := cl_log c ++ l |}.

(** a Disconnect is caught by SSH::Connection (src/ssh/Connection.cxx:785-800),
    which sends DISCONNECT and closes *)
Definition cl_disconnect (c : client) : client := cl_set (cl_user_auth c) false [CDisconnect] c.

(** src/ssh/UserAuthClient.cxx:110-125 HandleServiceAccept() with
    OutgoingConnection::OnUserAuthService() (src/OutgoingConnection.cxx:33-39)
    and Connection::OnOutgoingUserauthService() (src/Connection.cxx:1361-1389)
    inlined; [sendable]: a host key was found and the request could be built
    ([UserAuthRequestHostbased]) *)
Definition HandleServiceAccept (sendable : bool) (payload : bytes) (c : client) : client :=
  match ParseServiceAccept payload with
  | None => cl_disconnect c
  | Some name =>
      match cl_user_auth c with
      | Some SERVICE_REQUEST_SSH_USERAUTH =>
          if bytes_eqb name (bs "ssh-userauth") then
            (* state = SERVICE_SSH_USERAUTH; OnUserAuthService() *)
            if sendable
            then cl_set (Some USERAUTH_REQUEST) true [CSendRequest] c
            else cl_set (Some SERVICE_SSH_USERAUTH) false [CError] c
          else cl_disconnect c
      | _ => cl_disconnect c
      end
  end.

(** the messages in lines 160-173 *)
Definition IsConnectionMessage (msg : N) : bool :=
  existsb (N.eqb msg) [MSG_GLOBAL_REQUEST; MSG_REQUEST_SUCCESS; MSG_REQUEST_FAILURE; MSG_CHANNEL_OPEN;
    MSG_CHANNEL_OPEN_CONFIRMATION; MSG_CHANNEL_OPEN_FAILURE; MSG_CHANNEL_WINDOW_ADJUST; MSG_CHANNEL_DATA;
    MSG_CHANNEL_EXTENDED_DATA; MSG_CHANNEL_EOF; MSG_CHANNEL_CLOSE; MSG_CHANNEL_REQUEST; MSG_CHANNEL_SUCCESS;
    MSG_CHANNEL_FAILURE].

(** src/OutgoingConnection.cxx:41-49 OnUserAuthSuccess() *)
Definition OnUserAuthSuccess (c : client) : client :=
  {| cl_user_auth := None; cl_encrypted := cl_encrypted c; cl_authenticated := true;
     cl_alive := true; cl_log := cl_log c ++ [CAuthenticated] |}.

(** no ConnectionHandler has consumed the packet: it goes to the ProxyHandlers,
    if there are any, or else to the switch in SSH::Connection::HandlePacket()
    (src/ssh/Connection.cxx:752-783).  Simplification: that the ProxyHandlers
    do not consume all messages is in Model/Server.v. *)
Definition NotConsumed (msg : N) (c : client) : client :=
  cl_set (cl_user_auth c) true [if cl_authenticated c then CRelay msg else CTransport msg] c.

(** src/ssh/UserAuthClient.cxx:127-185 HandlePacket(), with the handlers in
    src/OutgoingConnection.cxx:33-58.  OnOutgoingUserauthFailure()
    (src/Connection.cxx:1421-1432) destroys both connections. *)
Definition ClientPacket (sendable : bool) (msg : N) (payload : bytes) (c : client) : client :=
  match cl_user_auth c with
  | None => NotConsumed msg c
  | Some st =>
      if msg =? MSG_SERVICE_ACCEPT then HandleServiceAccept sendable payload c
      else if msg =? MSG_USERAUTH_FAILURE then
        match st with
        | USERAUTH_REQUEST => cl_set None false [CFailure] c
        | _ => cl_disconnect c
        end
      else if msg =? MSG_USERAUTH_SUCCESS then
        match st with
        | USERAUTH_REQUEST => OnUserAuthSuccess c
        | _ => cl_disconnect c
        end
      else if IsConnectionMessage msg then
        match st with
        | USERAUTH_SUCCESS => NotConsumed msg c
        | _ => cl_disconnect c
        end
      else NotConsumed msg c
  end.

Inductive cop :=
| COEncrypted                                        (* both directions are encrypted *)
| COPacket (sendable : bool) (msg : N) (payload : bytes)
| COClose.                                           (* the connection is lost *)

(** OnEncrypted() is called once: when both directions have got their first
    cipher (src/ssh/Connection.cxx:418-419, 593-594; C17).
    src/OutgoingConnection.cxx:60-68 OnEncrypted() and
    src/ssh/UserAuthClient.cxx:26-34 Start() *)
Definition cstep (op : cop) (c : client) : client :=
  if negb (cl_alive c) then c
  else
    match op with
    | COEncrypted =>
        if cl_encrypted c then c
        else
          match cl_user_auth c with
          | Some _ => cl_set (cl_user_auth c) false [CAssert] c
          | None =>
              {| cl_user_auth := Some SERVICE_REQUEST_SSH_USERAUTH; cl_encrypted := true;
                 cl_authenticated := cl_authenticated c; cl_alive := true;
                 cl_log := cl_log c ++ [CSendServiceRequest] |}
          end
    | COPacket sendable msg payload => ClientPacket sendable msg payload c
    | COClose => cl_set (cl_user_auth c) false [] c
    end.

Definition crun (ops : list cop) : client := fold_left (fun c op => cstep op c) ops new_client.
