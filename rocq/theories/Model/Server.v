(** Model of the server connection as a whole: src/Connection.cxx together
    with class UserAuthServer (src/ssh/UserAuthServer.cxx).

    This is the part above the transport (Model/KexMachine.v): its input are
    the packets which the transport accepted, and the completion of what it
    started.  Model/Auth.v has the handling of one authentication request,
    Model/Session.v the session channels; Model/Channels.v, Requests.v and
    Globals.v model how channels, requests and replies are managed, which is
    simplified here: a channel number is chosen by the environment, and
    packets for channels other than sessions have no effect.

    Not modelled: log messages, counters, the data of channels. *)

From Coq Require Import NArith List Bool String.
From Verif.Base Require Import Bytes.
From Verif.Model Require Import Wire Frame Packets KeyOptions Auth Session.
Import ListNotations.
Open Scope N_scope.

(** What the connection does, visible from outside. *)
Inductive vevent :=
| VSend (payload : bytes)                   (* packet to the client *)
| VAuthenticated (user : bytes)             (* SetAuthenticated() *)
| VSession (n : N)                          (* a session channel was created *)
| VSess (n : N) (e : sevent)                (* ... and does this *)
| VConnectTcp (host : bytes) (port : N)     (* direct-tcpip *)
| VConnectLocal (path : bytes)              (* direct-streamlocal@openssh.com *)
| VBind (address : bytes) (port : N)        (* tcpip-forward *)
| VForwarded (address : bytes) (port : N)   (* a connection accepted by the listener *)
| VOpenFailure                              (* CHANNEL_OPEN_FAILURE *)
| VGlobal (name data : bytes)               (* a global request is executed *)
| VGlobalAnswer (ok : bool)
| VConnectProxy (address : bytes)           (* connect to the target *)
| VHostbased (user : bytes)                 (* USERAUTH_REQUEST to the target *)
| VOptions (o : key_options)                (* AUTHORIZED_KEY_OPTIONS_REQUEST to the target *)
| VForward (payload : bytes)                (* packet to the target *)
| VDead.                                    (* the connection is closed *)

(** What the current authentication request waits for. *)
Inductive busy :=
| Idle
| Checking (payload : bytes)      (* OnUserAuthRequest() is running *)
| Connecting (address : bytes).   (* its last part: CoConnectSocket() *)

(** class Connection (src/Connection.hxx:50-140) and its UserAuthServer
    (src/ssh/UserAuthServer.hxx).  [sv_log] is a history variable. *)
Record server := {
  sv_account : account;
  sv_user_auth : bool;               (* user_auth != nullptr *)
  sv_service : bool;                 (* have_service_userauth *)
  sv_busy : busy;                    (* occupied_task *)
  sv_got_request : bool;             (* got_userauth_request *)
  sv_timeout : bool;                 (* auth_timeout is scheduled *)
  sv_channels : bool;                (* channels and global_requests != nullptr *)
  sv_outgoing : bool;                (* outgoing != nullptr *)
  sv_proxy : bool;                   (* proxy_handlers != nullptr *)
  sv_no_more_sessions : bool;
  sv_binds : list (bytes * N);       (* tcpip-forward in progress *)
  sv_listeners : list (bytes * N);   (* socket_forward_listeners *)
  sv_sessions : list (N * session);
  sv_alive : bool;
  sv_log : list vevent
}.

Definition new_server (peer_address : bytes) : server := {|
  sv_account := new_account peer_address; sv_user_auth := false; sv_service := false; sv_busy := Idle;
  sv_got_request := false; sv_timeout := true; sv_channels := false; sv_outgoing := false; sv_proxy := false;
  sv_no_more_sessions := false; sv_binds := []; sv_listeners := []; sv_sessions := []; sv_alive := true; sv_log := [] |}.

Definition mk_server account user_auth service busy got timeout channels outgoing proxy nms binds listeners sessions alive log : server := {|
  sv_account := account; sv_user_auth := user_auth; sv_service := service; sv_busy := busy;
  sv_got_request := got; sv_timeout := timeout; sv_channels := channels; sv_outgoing := outgoing; sv_proxy := proxy;
  sv_no_more_sessions := nms; sv_binds := binds; sv_listeners := listeners; sv_sessions := sessions;
  sv_alive := alive; sv_log := log |}.

Definition emit (l : list vevent) (s : server) : server :=
  mk_server (sv_account s) (sv_user_auth s) (sv_service s) (sv_busy s) (sv_got_request s) (sv_timeout s)
    (sv_channels s) (sv_outgoing s) (sv_proxy s) (sv_no_more_sessions s) (sv_binds s) (sv_listeners s)
    (sv_sessions s) (sv_alive s) (sv_log s ++ l).
Definition with_account (a : account) (s : server) : server :=
  mk_server a (sv_user_auth s) (sv_service s) (sv_busy s) (sv_got_request s) (sv_timeout s)
    (sv_channels s) (sv_outgoing s) (sv_proxy s) (sv_no_more_sessions s) (sv_binds s) (sv_listeners s)
    (sv_sessions s) (sv_alive s) (sv_log s).
(** the members of class UserAuthServer, and the timer *)
Definition with_auth (user_auth service : bool) (b : busy) (got timeout : bool) (s : server) : server :=
  mk_server (sv_account s) user_auth service b got timeout
    (sv_channels s) (sv_outgoing s) (sv_proxy s) (sv_no_more_sessions s) (sv_binds s) (sv_listeners s)
    (sv_sessions s) (sv_alive s) (sv_log s).
Definition with_handlers (channels outgoing proxy : bool) (s : server) : server :=
  mk_server (sv_account s) (sv_user_auth s) (sv_service s) (sv_busy s) (sv_got_request s) (sv_timeout s)
    channels outgoing proxy (sv_no_more_sessions s) (sv_binds s) (sv_listeners s)
    (sv_sessions s) (sv_alive s) (sv_log s).
Definition with_nms (s : server) : server :=
  mk_server (sv_account s) (sv_user_auth s) (sv_service s) (sv_busy s) (sv_got_request s) (sv_timeout s)
    (sv_channels s) (sv_outgoing s) (sv_proxy s) true (sv_binds s) (sv_listeners s)
    (sv_sessions s) (sv_alive s) (sv_log s).
Definition with_listeners (binds listeners : list (bytes * N)) (s : server) : server :=
  mk_server (sv_account s) (sv_user_auth s) (sv_service s) (sv_busy s) (sv_got_request s) (sv_timeout s)
    (sv_channels s) (sv_outgoing s) (sv_proxy s) (sv_no_more_sessions s) binds listeners
    (sv_sessions s) (sv_alive s) (sv_log s).
Definition with_sessions (l : list (N * session)) (s : server) : server :=
  mk_server (sv_account s) (sv_user_auth s) (sv_service s) (sv_busy s) (sv_got_request s) (sv_timeout s)
    (sv_channels s) (sv_outgoing s) (sv_proxy s) (sv_no_more_sessions s) (sv_binds s) (sv_listeners s)
    l (sv_alive s) (sv_log s).

(** The end of the connection: DoDisconnect(), CloseError(), destruction
    (src/Connection.cxx:1259-1304, 215-222): nothing is handled any more,
    listeners are closed, sessions end with the connection. *)
Definition die (s : server) : server :=
  mk_server (sv_account s) false (sv_service s) Idle (sv_got_request s) false
    false false false (sv_no_more_sessions s) [] [] [] false (sv_log s ++ [VDead]).

Definition send_string (s : bytes) : bytes := put_u32 (len s) ++ s.

(** src/ssh/MakePacket.hxx:51-60, 72-81, 42-49; USERAUTH_SUCCESS *)
Definition userauth_failure (methods : bytes) : bytes := MSG_USERAUTH_FAILURE :: send_string methods ++ [0].
Definition userauth_pk_ok (algorithm blob : bytes) : bytes :=
  MSG_USERAUTH_PK_OK :: send_string algorithm ++ send_string blob.
Definition userauth_success : bytes := [MSG_USERAUTH_SUCCESS].
Definition service_accept (name : bytes) : bytes := MSG_SERVICE_ACCEPT :: send_string name.

(** ** Permissions *)

(** src/Connection.cxx:424-446 IsForwardingAllowed() *)
Definition IsForwardingAllowed (a : account) : bool :=
  if ko_no_port_forwarding (ac_options a) then false
  else if negb (ac_allow_exec a) then false
  else
    match response_of a with
    | Some r => match tr_execute_options r with
                | Some eo => negb (eo_enable_network eo)
                | None => true
                end
    | None => true
    end.

(** src/Connection.cxx:448-457 IsLocalForwardingAllowed() *)
Definition IsLocalForwardingAllowed (a : account) : bool := ac_allow_exec a.

(** ** Packets *)

(** What the environment decides while a packet is handled: the number of
    the new channel (none is left if it is already in use: then the
    connection is closed, see C28), and whether pseudo-terminal calls work. *)
Record packet_env := { pe_channel : N; pe_pty : pty_answer }.

Fixpoint find_session (n : N) (l : list (N * session)) : option session :=
  match l with
  | [] => None
  | (k, x) :: r => if k =? n then Some x else find_session n r
  end.
Fixpoint set_session (n : N) (x : session) (l : list (N * session)) : list (N * session) :=
  match l with
  | [] => []
  | (k, y) :: r => if k =? n then (k, x) :: r else (k, y) :: set_session n x r
  end.

(** lines 732-737 *)
Definition parse_direct_tcpip (payload : bytes) : option (bytes * N) :=
  let* (host, d) := ReadString payload in
  let* (port, d) := ReadU32 d in
  let* (_, d) := ReadString d in
  let* (_, d) := ReadU32 d in
  let* _ := ExpectEnd d in
  Some (host, port).

(** src/Connection.cxx:709-772 CreateChannel() *)
Definition CreateChannel (channel_type payload : bytes) (env : packet_env) (s : server) : server :=
  let a := sv_account s in
  if bytes_eqb channel_type (bs "session") then
    if sv_no_more_sessions s then die s
    else
      match find_session (pe_channel env) (sv_sessions s) with
      | Some _ => die s
      | None => emit [VSession (pe_channel env)] (with_sessions (sv_sessions s ++ [(pe_channel env, new_session)]) s)
      end
  else if bytes_eqb channel_type (bs "direct-tcpip") then
    if negb (IsForwardingAllowed a) then emit [VOpenFailure] s
    else
      match parse_direct_tcpip payload with
      | None => die s
      | Some (host, port) => emit [VConnectTcp host port] s
      end
  else if bytes_eqb channel_type (bs "direct-streamlocal@openssh.com") then
    if negb (IsLocalForwardingAllowed a) then emit [VOpenFailure] s
    else
      match ReadString payload with
      | None => die s
      | Some (path, _) => emit [VConnectLocal path] s
      end
  else emit [VOpenFailure] s.

(** lines 1190-1194, 1215-1218 *)
Definition parse_bind (data : bytes) : option (bytes * N) :=
  let* (address, d) := ReadString data in
  let* (port, d) := ReadU32 d in
  let* _ := ExpectEnd d in
  Some (address, port).

Definition same_address (x y : bytes * N) : bool := bytes_eqb (fst x) (fst y) && (snd x =? snd y).

(** src/Connection.cxx:1179-1249 HandleGlobalRequest() *)
Definition HandleGlobalRequest (name data : bytes) (s : server) : server :=
  let a := sv_account s in
  let s := emit [VGlobal name data] s in
  if bytes_eqb name (bs "tcpip-forward") then
    if negb (IsForwardingAllowed a) then emit [VGlobalAnswer false] s
    else
      match parse_bind data with
      | None => die s
      | Some (address, port) =>
          emit [VBind address port] (with_listeners (sv_binds s ++ [(address, port)]) (sv_listeners s) s)
      end
  else if bytes_eqb name (bs "cancel-tcpip-forward") then
    match parse_bind data with
    | None => die s
    | Some x =>
        emit [VGlobalAnswer (existsb (same_address x) (sv_listeners s))]
          (with_listeners (sv_binds s) (filter (fun y => negb (same_address x y)) (sv_listeners s)) s)
    end
  else if bytes_eqb name (bs "no-more-sessions@openssh.com") then emit [VGlobalAnswer true] (with_nms s)
  else if bytes_eqb name AUTHORIZED_KEY_OPTIONS_REQUEST then
    if negb (ac_hostbased a) then emit [VGlobalAnswer false] s
    else
      match DeserializeAuthorizedKeyOptions data with
      | None => die s
      | Some o =>
          let '(o, ok) := Restrict (ac_options a) o in
          emit [VGlobalAnswer ok] (with_account (set_options o a) s)
      end
  else emit [VGlobalAnswer false] s.

(** src/ssh/UserAuthServer.cxx:97-117 IsAllowedWhileOccupied() *)
Definition IsAllowedWhileOccupied (msg : N) : bool :=
  existsb (N.eqb msg) [MSG_DISCONNECT; MSG_IGNORE; 8; MSG_KEXINIT; MSG_NEWKEYS; MSG_ECDH_KEX_INIT; MSG_ECDH_KEX_INIT_REPLY].

(** src/ProxyCheck.hxx:9-39 ShouldProxy() *)
Definition ShouldProxy (msg : N) : bool :=
  existsb (N.eqb msg) [MSG_GLOBAL_REQUEST; MSG_REQUEST_SUCCESS; MSG_REQUEST_FAILURE; MSG_CHANNEL_OPEN;
    MSG_CHANNEL_OPEN_CONFIRMATION; MSG_CHANNEL_OPEN_FAILURE; MSG_CHANNEL_WINDOW_ADJUST; MSG_CHANNEL_DATA;
    MSG_CHANNEL_EXTENDED_DATA; MSG_CHANNEL_EOF; MSG_CHANNEL_CLOSE; MSG_CHANNEL_REQUEST; MSG_CHANNEL_SUCCESS;
    MSG_CHANNEL_FAILURE].

Definition busy_now (s : server) : bool := match sv_busy s with Idle => false | _ => true end.

(** src/ssh/UserAuthServer.cxx:28-92, 119-142 HandlePacket().  The result
    says whether the packet was handled.  The coroutine starts; it is run by
    [OAuth] (which can follow at once). *)
Definition UserAuthPacket (msg : N) (payload : bytes) (s : server) : server * bool :=
  if busy_now s && negb (IsAllowedWhileOccupied msg) then (die s, true)
  else if msg =? MSG_SERVICE_REQUEST then
    match ParseServiceRequest payload with
    | None => (die s, true)
    | Some name =>
        if bytes_eqb name (bs "ssh-userauth") then
          (emit [VSend (service_accept name)]
             (with_auth (sv_user_auth s) true (sv_busy s) (sv_got_request s) (sv_timeout s) s), true)
        else (die s, true)
    end
  else if msg =? MSG_USERAUTH_REQUEST then
    if ac_authenticated (sv_account s) then (s, true)
    else if negb (sv_service s) then (die s, true)
    else (with_auth (sv_user_auth s) (sv_service s) (Checking payload) true (sv_timeout s) s, true)
  else (s, false).

(** the events of a session channel; an exception closes the connection *)
Definition session_step (cfg : config) (n : N) (op : sop) (s : server) : server :=
  match find_session n (sv_sessions s) with
  | Some x =>
      let '(x, l) := sstep cfg (sv_account s) op x in
      let s := emit (map (VSess n) l) (with_sessions (set_session n x (sv_sessions s)) s) in
      if existsb (fun e => match e with SDisconnect => true | _ => false end) l then die s else s
  | None => s
  end.

(** src/ssh/Connection.cxx:752-782 HandlePacket(): the handlers in the order
    of their registration, then the transport.  GlobalRequestSupport and
    ChannelSupport (src/ssh/GSupport.cxx, src/ssh/CSupport.cxx) ignore
    everything before authentication; the transport's own messages are in
    Model/KexMachine.v. *)
Definition Packet (cfg : config) (msg : N) (payload : bytes) (env : packet_env) (s : server) : server :=
  let base (s : server) :=
    if msg =? MSG_DISCONNECT then die s
    else if existsb (N.eqb msg) [MSG_IGNORE; MSG_UNIMPLEMENTED; MSG_KEXINIT; MSG_NEWKEYS; MSG_ECDH_KEX_INIT; MSG_ECDH_KEX_INIT_REPLY]
    then s
    else emit [VSend [MSG_UNIMPLEMENTED]] s in
  let proxy (s : server) :=
    if sv_proxy s && ShouldProxy msg then emit [VForward (msg :: payload)] s else base s in
  let channels (s : server) :=
    if sv_channels s && ac_authenticated (sv_account s) then
      if msg =? MSG_GLOBAL_REQUEST then
        match ParseGlobalRequest payload with
        | None => die s
        | Some g => HandleGlobalRequest (gr_request_name g) (gr_data g) s
        end
      else if msg =? MSG_CHANNEL_OPEN then
        match ParseChannelOpen payload with
        | None => die s
        | Some c => CreateChannel (co_channel_type c) (co_data c) env s
        end
      else if msg =? MSG_CHANNEL_REQUEST then
        match ParseChannelRequest payload with
        | None => die s
        | Some c => session_step cfg (cr_local_channel c) (ORequest (cr_request_type c) (cr_data c) (pe_pty env)) s
        end
      else if ShouldProxy msg then s
      else proxy s
    else proxy s in
  if sv_user_auth s then
    match UserAuthPacket msg payload s with
    | (s, true) => s
    | (s, false) => channels s
    end
  else channels s.

(** ** Other events *)

Inductive vop :=
| OEncrypted                                      (* OnEncrypted() *)
| OPacket (msg : N) (payload : bytes) (env : packet_env)
| OAuth (w : world)                               (* OnUserAuthRequest() gets its answers *)
| OConnected (ok : bool)                          (* CoConnectSocket() finishes *)
| OOutgoingService                                (* OnOutgoingUserauthService() *)
| OOutgoingSuccess                                (* OnOutgoingUserauthSuccess() *)
| OOutgoingPacket (msg : N) (payload : bytes)     (* packet from the target *)
| OOutgoingEnd                                    (* the outgoing connection fails or ends *)
| OTimeout                                        (* OnAuthTimeout() *)
| OClose                                          (* the socket is closed, Terminate(), an error *)
| OBound (x : bytes * N) (ok : bool)              (* ResolveBindTCP() finishes *)
| OAccept (x : bytes * N)                         (* a connection arrives at a listener *)
| OSession (n : N) (op : sop)                     (* spawner, child process, terminal *)
| OSessionGone (n : N).                           (* the channel is closed *)

Fixpoint remove_first (x : bytes * N) (l : list (bytes * N)) : list (bytes * N) :=
  match l with
  | [] => []
  | y :: r => if same_address x y then r else y :: remove_first x r
  end.

(** One event.  An event which cannot happen has no effect.
    OEncrypted: src/Connection.cxx:1251-1258; OAuth: lines 788-1169 and
    src/ssh/UserAuthServer.cxx:45-60; OConnected: src/Connection.cxx:1151-1162,
    1172-1177; outgoing connection: lines 1326-1440; OTimeout: 1314-1324;
    OBound: lines 1199-1212; OAccept: src/SocketForwardListener.cxx;
    a session is never asked by [OSession] to handle a request: that is a
    packet. *)
Definition vstep (cfg : config) (session_id : bytes) (op : vop) (s : server) : server :=
  if negb (sv_alive s) then s
  else
    match op with
    | OEncrypted =>
        if sv_user_auth s || ac_authenticated (sv_account s) then s
        else with_auth true (sv_service s) (sv_busy s) (sv_got_request s) (sv_timeout s) s
    | OPacket msg payload env => Packet cfg msg payload env s
    | OAuth w =>
        match sv_busy s with
        | Checking payload =>
            let '(a, o) := OnUserAuthRequest cfg w session_id payload (sv_account s) in
            let s := with_account a s in
            let idle := with_auth (sv_user_auth s) (sv_service s) Idle (sv_got_request s) (sv_timeout s) s in
            match o with
            | Failure methods => emit [VSend (userauth_failure methods)] idle
            | PkOk algorithm blob => emit [VSend (userauth_pk_ok algorithm blob)] idle
            | Die => die s
            | Accepted None =>
                with_handlers true (sv_outgoing s) (sv_proxy s)
                  (emit [VAuthenticated (ac_username a); VSend userauth_success]
                    (with_auth false (sv_service s) Idle (sv_got_request s) false s))
            | Accepted (Some address) =>
                emit [VAuthenticated (ac_username a); VConnectProxy address]
                  (with_auth (sv_user_auth s) (sv_service s) (Connecting address) (sv_got_request s) false s)
            end
        | _ => s
        end
    | OConnected ok =>
        match sv_busy s with
        | Connecting _ =>
            if ok then
              with_handlers (sv_channels s) true (sv_proxy s)
                (with_auth false (sv_service s) Idle (sv_got_request s) (sv_timeout s) s)
            else die s
        | _ => s
        end
    | OOutgoingService =>
        if sv_outgoing s && negb (sv_proxy s) then emit [VHostbased (ac_username (sv_account s))] s else s
    | OOutgoingSuccess =>
        if sv_outgoing s && negb (sv_proxy s) then
          emit [VSend userauth_success]
            (with_handlers (sv_channels s) (sv_outgoing s) true
              (emit [VOptions (ac_options (sv_account s))] s))
        else s
    | OOutgoingPacket msg payload =>
        if sv_proxy s && ShouldProxy msg then emit [VSend (msg :: payload)] s else s
    | OOutgoingEnd => if sv_outgoing s then die s else s
    | OTimeout => if sv_timeout s then die s else s
    | OClose => die s
    | OBound x ok =>
        if existsb (same_address x) (sv_binds s) then
          let s := with_listeners (remove_first x (sv_binds s)) (sv_listeners s) s in
          if ok then emit [VGlobalAnswer true] (with_listeners (sv_binds s) (sv_listeners s ++ [x]) s)
          else emit [VGlobalAnswer false] s
        else s
    | OAccept x =>
        if existsb (same_address x) (sv_listeners s) then emit [VForwarded (fst x) (snd x)] s else s
    | OSession n op =>
        match op with
        | ORequest _ _ _ => s
        | _ => session_step cfg n op s
        end
    | OSessionGone n => with_sessions (filter (fun x => negb (fst x =? n)) (sv_sessions s)) s
    end.

Definition vrun (cfg : config) (session_id peer_address : bytes) (ops : list vop) : server :=
  fold_left (fun s op => vstep cfg session_id op s) ops (new_server peer_address).
