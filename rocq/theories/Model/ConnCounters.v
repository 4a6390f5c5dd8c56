(** Model of the counters for connections (src/Instance.hxx:154-162,
    src/Listener.cxx:215-257 OnAccept(), src/Connection.cxx:216-228
    Terminate(), 774-778 OnUnsupportedService(), 819-823, 988-993, 1063-1067,
    1260-1304 OnDisconnecting(), 1323-1334 OnAuthTimeout(),
    src/ssh/Connection.cxx:187-230 DoDisconnect(), src/Listener.hxx:193-197
    GetStats(), src/Instance.cxx:195-325 OnPrometheusExporterRequest()) and of
    those for packets (src/ssh/Connection.cxx:140-149, 935-940).

    Based on Model/Accounting.v, which has the open sockets of a listener.
    Simplifications: one listener; of a connection only its number and whether
    it is waiting for its DISCONNECT packet to be written ("dead") are
    modelled; counters never reach 2^64. *)

From Coq Require Import NArith List Bool.
From Verif.Base Require Import Bytes.
From Verif.Model Require Import Frame.
From Verif.Model Require Import Accounting.
Import ListNotations.
Open Scope N_scope.

(** src/Instance.hxx:154-162 *)
Record counters := {
  n_accepted : N;
  n_rejected : N;
  n_tarpit : N;
  n_terminated : N;
  n_unsupported : N;
  n_protocol : N
}.

Definition zero : counters := {|
  n_accepted := 0; n_rejected := 0; n_tarpit := 0; n_terminated := 0; n_unsupported := 0; n_protocol := 0 |}.

Inductive counter := CAccepted | CRejected | CTarpit | CTerminated | CUnsupported | CProtocol.

Definition inc (c : counter) (n : counters) : counters :=
  let f (x : counter) (v : N) :=
    match c, x with
    | CAccepted, CAccepted | CRejected, CRejected | CTarpit, CTarpit | CTerminated, CTerminated
    | CUnsupported, CUnsupported | CProtocol, CProtocol => v + 1
    | _, _ => v
    end in
  {| n_accepted := f CAccepted (n_accepted n); n_rejected := f CRejected (n_rejected n);
     n_tarpit := f CTarpit (n_tarpit n); n_terminated := f CTerminated (n_terminated n);
     n_unsupported := f CUnsupported (n_unsupported n); n_protocol := f CProtocol (n_protocol n) |}.

(** What happens, as somebody would see it who watches the sockets and the
    control channel. *)
Inductive event :=
| Arrived                          (* accept() *)
| Refused                          (* DISCONNECT(TOO_MANY_CONNECTIONS) without a connection *)
| Waiting (id : N)                 (* the socket is held back *)
| Opened (id : N)                  (* the server begins to speak SSH on it *)
| Slowed (id : N)                  (* an authentication request is held back *)
| BadKey (id : N)                  (* a key which cannot be decoded; USERAUTH_FAILURE *)
| AskedUnsupported (id : N)        (* SERVICE_REQUEST for an unknown service *)
| AskedTerminate (id : N)          (* a control packet which names this connection's tag *)
| Disconnecting (id code : N)      (* DISCONNECT with this reason is sent *)
| Closed (id : N).                 (* the socket of a connection is closed *)

Record host := {
  h_acc : accounting;
  h_dead : list N;
  h_counters : counters;
  h_log : list event
}.

Definition mk_host a d c l : host := {| h_acc := a; h_dead := d; h_counters := c; h_log := l |}.
Definition new_host : host := mk_host new_accounting [] zero [].

Definition tell (e : event) (s : host) : host := mk_host (h_acc s) (h_dead s) (h_counters s) (h_log s ++ [e]).
Definition count_ (c : counter) (s : host) : host := mk_host (h_acc s) (h_dead s) (inc c (h_counters s)) (h_log s).
Definition set_acc (a : accounting) (s : host) : host := mk_host a (h_dead s) (h_counters s) (h_log s).

(** src/ssh/Connection.hxx:222-224 IsDead() *)
Definition is_dead (id : N) (s : host) : bool := existsb (N.eqb id) (h_dead s).

(** a Connection of the listener (not a DelayedConnection) *)
Definition served (id : N) (s : host) : option client :=
  match find_client id (h_acc s) with
  | Some x => match cl_kind x with Served => Some x | Delayed => None end
  | None => None
  end.

(** src/Connection.cxx:1279-1303, the switch *)
Definition reason_counter (code : N) : option counter :=
  match code with
  | 2 | 3 | 5 | 6 | 15 | 8 => Some CProtocol   (* PROTOCOL_ERROR, KEY_EXCHANGE_FAILED, MAC_ERROR,
                                                  COMPRESSION_ERROR, ILLEGAL_USER_NAME,
                                                  PROTOCOL_VERSION_NOT_SUPPORTED *)
  | 12 | 1 => Some CRejected                   (* TOO_MANY_CONNECTIONS, HOST_NOT_ALLOWED_TO_CONNECT *)
  | _ => None
  end.

(** Listener::Dispose(), src/Listener.cxx:207-212, and the destructor *)
Definition dispose (now id : N) (s : host) : host :=
  match served id s with
  | Some x => tell (Closed id) (set_acc (destroy_client now x (h_acc s)) s)
  | None => s
  end.

(** src/ssh/Connection.cxx:187-230 DoDisconnect(); [keep]: the output is
    encrypted *)
Definition DoDisconnect (now id code : N) (keep : bool) (s : host) : host :=
  if is_dead id s then s
  else
    let s := match reason_counter code with Some c => count_ c s | None => s end in
    let s := tell (Disconnecting id code) s in
    if keep then mk_host (h_acc s) (id :: h_dead s) (h_counters s) (h_log s)
    else dispose now id s.

(** The reasons given by this program: the arguments of DoDisconnect() and
    of "throw Disconnect" in all files of src. *)
Inductive reason :=
| ProtocolError | KeyExchangeFailed | ServiceNotAvailable | HostKeyNotVerifiable | ConnectionLost | ByApplication
| IllegalUserName.

(** src/ssh/Protocol.hxx:113-129 DisconnectReasonCode *)
Definition reason_code (r : reason) : N :=
  match r with
  | ProtocolError => 2
  | KeyExchangeFailed => 3
  | ServiceNotAvailable => 7
  | HostKeyNotVerifiable => 9
  | ConnectionLost => 10
  | ByApplication => 11
  | IllegalUserName => 15
  end.

Inductive hop :=
| HAccept (now : N) (peer : option N) (over fails : bool)
| HTimer (now id : N) (fails : bool)                       (* of a DelayedConnection *)
| HHangup (now id : N)                                     (* DelayedConnection::OnSocketReady() *)
| HCleanup (now : N)
| HRequest (now id : N) (over : bool)                      (* an authentication request; 819-832 *)
| HBadKey (id : N)                                         (* 988-993, 1063-1067 *)
| HUnsupported (now id : N) (keep : bool)                  (* src/ssh/UserAuthServer.cxx:36-42 *)
| HTerminate (now id : N) (keep : bool)                    (* Terminate() *)
| HDisconnect (now id : N) (why : reason) (keep : bool)    (* DoDisconnect() *)
| HGone (now id : N).                                      (* Dispose() for any other reason *)

Definition hstep (c : acfg) (o : hop) (s : host) : host :=
  match o with
  | HAccept now peer over fails =>
      let id := ac_next (h_acc s) in
      let '(r, a) := OnAccept c now peer over fails (h_acc s) in
      let s := tell Arrived (count_ CAccepted (set_acc a s)) in
      match r with
      | Rejected => tell Refused (count_ CRejected s)
      | Held _ => tell (Waiting id) (count_ CTarpit s)
      | Accepted => tell (Opened id) s
      | Failed | Quiet => s
      end
  | HTimer now id fails =>
      match find_client id (h_acc s) with
      | Some x =>
          match cl_kind x with
          | Delayed =>
              let n := ac_next (h_acc s) in
              let s := set_acc (OnTimer now fails x (h_acc s)) s in
              if fails then s else tell (Opened n) s
          | Served => s
          end
      | None => s
      end
  | HHangup now id =>
      match find_client id (h_acc s) with
      | Some x =>
          match cl_kind x with
          | Delayed => set_acc (destroy_client now x (h_acc s)) s
          | Served => s
          end
      | None => s
      end
  | HCleanup now => set_acc (snd (astep c (ACleanup now) (h_acc s))) s
  | HRequest now id over =>
      match served id s with
      | Some x =>
          if is_dead id s then s
          else
            let s := if 0 <? GetDelay x (h_acc s) then tell (Slowed id) (count_ CTarpit s) else s in
            set_acc (snd (astep c (AUpdate now id over) (h_acc s))) s
      | None => s
      end
  | HBadKey id =>
      match served id s with
      | Some _ => if is_dead id s then s else tell (BadKey id) (count_ CProtocol s)
      | None => s
      end
  | HUnsupported now id keep =>
      match served id s with
      | Some _ =>
          if is_dead id s then s
          else DoDisconnect now id (reason_code ServiceNotAvailable) keep
                 (tell (AskedUnsupported id) (count_ CUnsupported s))
      | None => s
      end
  | HTerminate now id keep =>
      match served id s with
      | Some _ =>
          DoDisconnect now id (reason_code ConnectionLost) keep (tell (AskedTerminate id) (count_ CTerminated s))
      | None => s
      end
  | HDisconnect now id why keep =>
      match served id s with
      | Some _ => DoDisconnect now id (reason_code why) keep s
      | None => s
      end
  | HGone now id => dispose now id s
  end.

Definition hrun (c : acfg) (ops : list hop) : host := fold_left (fun s o => hstep c o s) ops new_host.

(** Listener::GetStats(): lukko_connections_active *)
Definition active (s : host) : N :=
  N.of_nat (List.length (List.filter (fun x => match cl_kind x with Served => true | Delayed => false end)
                           (ac_open (h_acc s)))).

(** ** Packets *)

(** src/ssh/Metrics.hxx:11-14 *)
Record traffic := { packets_received : N; packets_sent : N; bytes_received : N; bytes_sent : N }.
Definition no_traffic : traffic := {|
  packets_received := 0; packets_sent := 0; bytes_received := 0; bytes_sent := 0 |}.

(** src/ssh/Connection.cxx:140-149 SendPacket(); [src] is the result of
    PacketSerializer::Finish() *)
Definition count_sent (src : bytes) (t : traffic) : traffic := {|
  packets_received := packets_received t; packets_sent := packets_sent t + 1;
  bytes_received := bytes_received t; bytes_sent := bytes_sent t + len src |}.

(** src/ssh/Connection.cxx:931-940 OnInputReady() *)
Definition count_received (payload : bytes) (t : traffic) : traffic := {|
  packets_received := packets_received t + 1; packets_sent := packets_sent t;
  bytes_received := bytes_received t + len payload; bytes_sent := bytes_sent t |}.
