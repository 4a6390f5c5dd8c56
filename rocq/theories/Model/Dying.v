(** Model of the end of a connection: what DoDisconnect() stops, what is
    still sent afterwards, and when the object is destroyed.  Both
    connections of a proxy are modelled: the one of the client (class
    Connection) and the one to the backend (class OutgoingConnection).

    Packets are numbers here; what matters is which events make a
    connection send one.  Simplified: the contents of packets, flow control
    (the events say whether reading was blocked), rekeying because of the
    amount of data, and the moment of encryption (Model/Closing.v has it):
    [s_waiting] is the number of packets which have not been written to the
    socket. *)

From Coq Require Import NArith List Bool.
From Verif.Base Require Import Bytes.
Import ListNotations.
Open Scope N_scope.

(** a packet given to Output::Push(); [Farewell] is DISCONNECT *)
Inductive msg := Msg (n : N) | Farewell.

(** src/ssh/Connection.hxx:67-137: output.IsEncrypted(), dead, packets in
    the output, rekey_timer.IsPending() *)
Record side := { s_encrypted : bool; s_dead : bool; s_waiting : N; s_rekey : bool }.

Definition new_side : side := {| s_encrypted := false; s_dead := false; s_waiting := 0; s_rekey := false |}.

(** OutgoingConnection: before OnEncrypted(), with user_auth, after
    OnUserAuthSuccess() *)
Inductive stage := Handshake | Authenticating | Accepted.

(** src/Connection.hxx:63-160
    - [client]: the base class
    - [disposed]: the object has been deleted
    - [aborted]: an assertion has failed
    - [user_auth]: UserAuthServer; whether its occupied_task is running
    - [services]: channels and global_requests
    - [pending]: what these own and what may send something later: channels
      (with their programs), pending requests, channels being opened
    - [listeners]: socket_forward_listeners
    - [outgoing], [proxy_handlers]
    - [sent], [out_sent]: all packets of the two connections *)
Record state := {
  client : side;
  disposed : bool;
  aborted : bool;
  user_auth : option bool;
  auth_timer : bool;
  authenticated : bool;
  services : bool;
  pending : list N;
  listeners : list N;
  outgoing : option (side * stage);
  proxy_handlers : bool;
  sent : list msg;
  out_sent : list msg
}.

(** src/Connection.cxx:184-206 *)
Definition start : state := {|
  client := new_side; disposed := false; aborted := false; user_auth := None; auth_timer := true;
  authenticated := false; services := false; pending := []; listeners := []; outgoing := None;
  proxy_handlers := false; sent := []; out_sent := [] |}.

(** ** Setters *)
Definition set_side (d : bool) (w : N) (r : bool) (c : side) : side :=
  {| s_encrypted := s_encrypted c; s_dead := d; s_waiting := w; s_rekey := r |}.
Definition set_client (c : side) (s : state) : state :=
  {| client := c; disposed := disposed s; aborted := aborted s; user_auth := user_auth s; auth_timer := auth_timer s;
     authenticated := authenticated s; services := services s; pending := pending s; listeners := listeners s;
     outgoing := outgoing s; proxy_handlers := proxy_handlers s; sent := sent s; out_sent := out_sent s |}.
Definition set_sent (l o : list msg) (s : state) : state :=
  {| client := client s; disposed := disposed s; aborted := aborted s; user_auth := user_auth s; auth_timer := auth_timer s;
     authenticated := authenticated s; services := services s; pending := pending s; listeners := listeners s;
     outgoing := outgoing s; proxy_handlers := proxy_handlers s; sent := l; out_sent := o |}.
Definition abort (s : state) : state :=
  {| client := client s; disposed := disposed s; aborted := true; user_auth := user_auth s; auth_timer := auth_timer s;
     authenticated := authenticated s; services := services s; pending := pending s; listeners := listeners s;
     outgoing := outgoing s; proxy_handlers := proxy_handlers s; sent := sent s; out_sent := out_sent s |}.
Definition set_auth (u : option bool) (timer auth : bool) (s : state) : state :=
  {| client := client s; disposed := disposed s; aborted := aborted s; user_auth := u; auth_timer := timer;
     authenticated := auth; services := services s; pending := pending s; listeners := listeners s;
     outgoing := outgoing s; proxy_handlers := proxy_handlers s; sent := sent s; out_sent := out_sent s |}.
Definition set_services (b : bool) (p l : list N) (s : state) : state :=
  {| client := client s; disposed := disposed s; aborted := aborted s; user_auth := user_auth s; auth_timer := auth_timer s;
     authenticated := authenticated s; services := b; pending := p; listeners := l;
     outgoing := outgoing s; proxy_handlers := proxy_handlers s; sent := sent s; out_sent := out_sent s |}.
Definition set_proxy (o : option (side * stage)) (p : bool) (s : state) : state :=
  {| client := client s; disposed := disposed s; aborted := aborted s; user_auth := user_auth s; auth_timer := auth_timer s;
     authenticated := authenticated s; services := services s; pending := pending s; listeners := listeners s;
     outgoing := o; proxy_handlers := p; sent := sent s; out_sent := out_sent s |}.

(** src/Listener.cxx:208-213 and src/Connection.cxx:208-214: the object is
    deleted with everything it owns *)
Definition Dispose (s : state) : state :=
  {| client := client s; disposed := true; aborted := aborted s; user_auth := None; auth_timer := false;
     authenticated := authenticated s; services := false; pending := []; listeners := [];
     outgoing := None; proxy_handlers := false; sent := sent s; out_sent := out_sent s |}.

Section Steps.

(** assertions are enabled (not NDEBUG) *)
Variable dbg : bool.

(** src/ssh/Connection.cxx:139-164 SendPacket() of the client's connection:
    assert(!IsDead()), output.Push() *)
Definition SendPacket (m : msg) (s : state) : state :=
  let c := client s in
  if s_dead c && dbg then abort s
  else set_client (set_side (s_dead c) (s_waiting c + 1) (s_rekey c) c) (set_sent (sent s ++ [m]) (out_sent s) s).

(** ... and of the backend's *)
Definition SendOut (m : msg) (s : state) : state :=
  match outgoing s with
  | None => s
  | Some (c, g) =>
      if s_dead c && dbg then abort s
      else set_proxy (Some (set_side (s_dead c) (s_waiting c + 1) (s_rekey c) c, g)) (proxy_handlers s)
             (set_sent (sent s) (out_sent s ++ [m]) s)
  end.

(** src/Connection.cxx:1260-1272 with src/ssh/Connection.cxx:243-249,
    src/ssh/CSupport.cxx:563-572 and src/ssh/GSupport.cxx:167-173:
    OnDisconnecting().  [outgoing] is not touched. *)
Definition OnDisconnecting (s : state) : state :=
  set_proxy (outgoing s) false (set_auth None false (authenticated s) (set_services (services s) [] [] s)).

(** src/ssh/Connection.cxx:183-227 DoDisconnect() *)
Definition DoDisconnect (s : state) : state :=
  if s_dead (client s) then s
  else
    let s := SendPacket Farewell (OnDisconnecting s) in
    if s_encrypted (client s) then
      set_client (set_side true (s_waiting (client s)) false (client s)) s
    else Dispose s.

(** src/Connection.cxx:1336-1348 Dispose(), 1350-1361 OnOutgoingError(),
    1421-1433 OnOutgoingUserauthFailure() *)
Definition OutgoingGone (s : state) : state := DoDisconnect (set_proxy None false s).

(** src/ssh/Connection.cxx:183-227 DoDisconnect() of the backend's
    connection.  ProxyConnectionHandler does not override OnDisconnecting()
    (src/ProxyConnectionHandler.hxx), and
    OutgoingConnection::OnDisconnecting() (src/OutgoingConnection.cxx:70-77)
    only writes to the log. *)
Definition OutDoDisconnect (s : state) : state :=
  match outgoing s with
  | None => s
  | Some (c, g) =>
      if s_dead c then s
      else
        let s := SendOut Farewell s in
        if s_encrypted c then
          match outgoing s with
          | Some (c, g) => set_proxy (Some (set_side true (s_waiting c) false c, g)) (proxy_handlers s) s
          | None => s
          end
        else OutgoingGone s
  end.

Inductive event :=
(* packets of the client *)
| InEncrypted                    (* the NEWKEYS of the first key exchange *)
| InAnswered (n : N)             (* anything that is answered at once *)
| InAuth                         (* USERAUTH_REQUEST *)
| InStart (id : N)               (* opens a channel, starts a program, ... *)
| InListen (id : N)              (* "tcpip-forward" *)
| InProxied (n : N)              (* ShouldProxy() *)
| InBad                          (* throws Disconnect *)
| InError                        (* throws something else *)
| InDisconnect                   (* DISCONNECT *)
(* occupied_task *)
| AuthRefused
| AuthLocal                      (* success, no proxy *)
| AuthProxy                      (* success, connects to the backend *)
| AuthConnected
| AuthDisconnect                 (* ends with the exception Disconnect *)
| AuthError                      (* ends with another exception *)
(* what is going on in the background *)
| Output (id n : N)              (* something [pending] sends a packet *)
| Finished (id : N)
| Failed (id : N)                (* CloseError() *)
| Accept (id n : N)              (* a listener accepts: CHANNEL_OPEN *)
| AuthTimeout
| RekeyTimer (n : N)
| Terminate
(* the socket of the client *)
| Flushed (k : N)                (* [k] packets have been written *)
| WriteError
| Hangup (blocked : bool)
| Closed
(* the same for the backend *)
| OutEncrypted (n : N)
| OutService (host_key : bool) (n : N)
| OutSuccess (n m : N)
| OutFailure
| OutAnswered (n : N)
| OutProxied (n : N)
| OutBad
| OutError
| OutDisconnect
| OutRekeyTimer (n : N)
| OutFlushed (k : N)
| OutWriteError
| OutHangup (blocked : bool)
| OutClosed.

Definition remove (id : N) (l : list N) : list N := filter (fun i => negb (i =? id)) l.

Definition has (id : N) (l : list N) : bool := existsb (N.eqb id) l.

(** src/ssh/Connection.cxx:913-918 OnInputReady(): nothing is handled on a
    dead connection *)
Definition input (s : state) (f : state -> state) : state :=
  if s_dead (client s) then s else f s.

(** ... of the backend's connection *)
Definition out_input (s : state) (f : side -> stage -> state) : state :=
  match outgoing s with
  | Some (c, g) => if s_dead c then s else f c g
  | None => s
  end.

(** one event; an event which cannot happen in this state changes nothing *)
Definition handle (s : state) (e : event) : state :=
  match e with
  | InEncrypted =>
      (* src/ssh/Connection.cxx:405-423, src/Connection.cxx:1252-1258 *)
      input s (fun s =>
        let c := client s in
        if s_encrypted c then s
        else set_auth (Some false) (auth_timer s) (authenticated s)
               (set_client {| s_encrypted := true; s_dead := s_dead c; s_waiting := s_waiting c; s_rekey := s_rekey c |} s))
  | InAnswered n => input s (SendPacket (Msg n))
  | InAuth =>
      (* src/ssh/UserAuthServer.cxx:61-92 *)
      input s (fun s =>
        match user_auth s with
        | Some false => if authenticated s then s else set_auth (Some true) (auth_timer s) false s
        | _ => s
        end)
  | InStart id =>
      input s (fun s => if services s then set_services true (pending s ++ [id]) (listeners s) s else s)
  | InListen id =>
      (* src/Connection.cxx:1208-1217 *)
      input s (fun s => if services s then set_services true (pending s) (listeners s ++ [id]) s else s)
  | InProxied n =>
      (* src/ProxyConnectionHandler.cxx:31-40; else UNIMPLEMENTED *)
      input s (fun s => if proxy_handlers s then SendOut (Msg n) s else SendPacket (Msg n) s)
  | InBad => input s DoDisconnect        (* src/ssh/Connection.cxx:949-951 *)
  | InError => input s Dispose           (* src/ssh/Connection.cxx:954-957, 903-907 *)
  | InDisconnect => input s Dispose      (* src/ssh/Connection.cxx:446-454 *)
  | AuthRefused =>
      match user_auth s with
      | Some true =>
          if authenticated s then s
          else set_auth (Some false) (auth_timer s) false (SendPacket (Msg 51) s)
      | _ => s
      end
  | AuthLocal =>
      (* src/Connection.cxx:1147-1149, 1165-1170, 1174-1179; 52 is USERAUTH_SUCCESS *)
      match user_auth s with
      | Some true =>
          if authenticated s then s
          else
            let s := SendPacket (Msg 52) s in
            let c := client s in
            set_services true [] [] (set_auth None false true (set_client (set_side (s_dead c) (s_waiting c) true c) s))
      | _ => s
      end
  | AuthProxy =>
      (* src/Connection.cxx:1147-1153: co_await CoConnectSocket() *)
      match user_auth s with
      | Some true =>
          if authenticated s then s
          else
            let c := client s in
            set_auth (Some true) false true (set_client (set_side (s_dead c) (s_waiting c) true c) s)
      | _ => s
      end
  | AuthConnected =>
      (* src/Connection.cxx:1155-1164 *)
      match user_auth s with
      | Some true =>
          if authenticated s then set_auth None false true (set_proxy (Some (new_side, Handshake)) false s) else s
      | _ => s
      end
  | AuthDisconnect =>
      (* src/ssh/UserAuthServer.cxx:48-52 *)
      match user_auth s with Some true => DoDisconnect s | _ => s end
  | AuthError =>
      (* src/ssh/UserAuthServer.cxx:53-55 *)
      match user_auth s with Some true => Dispose s | _ => s end
  | Output id n => if has id (pending s) then SendPacket (Msg n) s else s
  | Finished id => set_services (services s) (remove id (pending s)) (listeners s) s
  | Failed id => if has id (pending s) then Dispose s else s
  | Accept id n => if has id (listeners s) then SendPacket (Msg n) s else s
  | AuthTimeout =>
      (* src/Connection.cxx:1323-1334 *)
      if auth_timer s then DoDisconnect (set_auth (user_auth s) false (authenticated s) s) else s
  | RekeyTimer n =>
      (* src/ssh/Connection.cxx:118-137; it is scheduled again when the key
         exchange is complete, see Model/Rekey.v *)
      if s_rekey (client s) then SendPacket (Msg n) s else s
  | Terminate => DoDisconnect s          (* src/Connection.cxx:216-228 *)
  | Flushed k =>
      (* src/ssh/Connection.cxx:868-894 OnBufferedWrite() *)
      let c := client s in
      if s_waiting c <? k then s
      else
        let s := set_client (set_side (s_dead c) (s_waiting c - k) (s_rekey c) c) s in
        if s_dead c && (s_waiting c - k =? 0) then Dispose s else s
  | WriteError => Dispose s              (* src/ssh/Connection.cxx:903-907 *)
  | Hangup blocked =>
      (* src/ssh/Connection.cxx:802-822 OnBufferedHangup() *)
      if s_dead (client s) || blocked then Dispose s else s
  | Closed => Dispose s                  (* src/ssh/Connection.cxx:896-901 *)
  | OutEncrypted n =>
      (* src/OutgoingConnection.cxx:60-68: SERVICE_REQUEST *)
      out_input s (fun c g =>
        if s_encrypted c then s
        else SendOut (Msg n)
               (set_proxy (Some ({| s_encrypted := true; s_dead := false; s_waiting := s_waiting c; s_rekey := false |}, Authenticating))
                          (proxy_handlers s) s))
  | OutService host_key n =>
      (* src/Connection.cxx:1363-1391 OnOutgoingUserauthService() *)
      out_input s (fun c g =>
        match g with
        | Authenticating => if host_key then SendOut (Msg n) s else OutgoingGone s
        | _ => s
        end)
  | OutSuccess n m =>
      (* src/OutgoingConnection.cxx:42-49, src/Connection.cxx:1403-1419
         OnOutgoingUserauthSuccess(); AddHandler() (src/ssh/Connection.cxx:84-90)
         and SendPacket() assert that the client's connection is not dead *)
      out_input s (fun c g =>
        match g with
        | Authenticating =>
            let s := set_proxy (Some (set_side false (s_waiting c) true c, Accepted)) (proxy_handlers s) s in
            let s := SendOut (Msg n) s in
            if s_dead (client s) && dbg then abort s
            else SendPacket (Msg m) (set_proxy (outgoing s) true s)
        | _ => s
        end)
  | OutFailure =>
      out_input s (fun c g => match g with Authenticating => OutgoingGone s | _ => s end)
  | OutAnswered n => out_input s (fun c g => SendOut (Msg n) s)
  | OutProxied n =>
      out_input s (fun c g => if proxy_handlers s then SendPacket (Msg n) s else SendOut (Msg n) s)
  | OutBad => out_input s (fun c g => OutDoDisconnect s)
  | OutError => out_input s (fun c g => OutgoingGone s)
  | OutDisconnect => out_input s (fun c g => OutgoingGone s)
  | OutRekeyTimer n =>
      match outgoing s with
      | Some (c, _) => if s_rekey c then SendOut (Msg n) s else s
      | None => s
      end
  | OutFlushed k =>
      match outgoing s with
      | Some (c, g) =>
          if s_waiting c <? k then s
          else
            let s := set_proxy (Some (set_side (s_dead c) (s_waiting c - k) (s_rekey c) c, g)) (proxy_handlers s) s in
            if s_dead c && (s_waiting c - k =? 0) then OutgoingGone s else s
      | None => s
      end
  | OutWriteError => match outgoing s with Some _ => OutgoingGone s | None => s end
  | OutHangup blocked =>
      match outgoing s with
      | Some (c, _) => if s_dead c || blocked then OutgoingGone s else s
      | None => s
      end
  | OutClosed => match outgoing s with Some _ => OutgoingGone s | None => s end
  end.

(** nothing happens to an object which does not exist any more *)
Definition step (s : state) (e : event) : state :=
  if disposed s || aborted s then s else handle s e.

Definition run (s : state) (evs : list event) : state := fold_left step evs s.

End Steps.
