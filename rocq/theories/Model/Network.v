(** Model of how network connections and listeners are made for a client:
    src/RConnect.cxx, src/RBind.cxx, src/Delegate.cxx.

    The server (Model/Server.v) decides that a connection or a listener is to
    be made; this file says by which process and to which target.  A helper
    process is started by the spawner with the options of the account and
    receives the target through a SOCK_SEQPACKET socket, i.e. as one message
    which is cut to the size of the receive buffer.

    Not modelled: what the resolver answers, the time limit of 5 seconds,
    errors of the spawner.  The build has nlohmann_json (systemd-resolved gets
    the host name with its length). *)

From Coq Require Import NArith List Bool String.
From Verif.Base Require Import Bytes.
From Verif.Model Require Import Wire Packets StringList KeyOptions Auth Session Server.
Import ListNotations.
Open Scope N_scope.

(** Addresses a listener can be bound to: BindLoopback(), BindPort(),
    ResolveBindStreamSocket() *)
Inductive bind_target := BLoopback | BAll | BHost (host : bytes).

(** What is done, and by whom: a helper process with these ids and
    namespaces, or the SSH server itself. *)
Inductive netcall :=
| NHelperConnect (i : identity) (host : bytes) (port : N)
| NHelperBind (i : identity) (t : bind_target) (port : N)
| NHelperLocal (i : identity) (path : bytes)
| NOwnConnect (host : bytes) (port : N)
| NOwnBind (t : bind_target) (port : N).

(** src/Connection.cxx:323-329 GetNetworkChildOptions() *)
Definition GetNetworkChildOptions (a : account) : option execute_options :=
  match response_of a with
  | Some r => tr_execute_options r
  | None => None
  end.

(** src/RConnect.cxx:43-65 and src/RBind.cxx:63-85: the helper receives the
    port and the host into a buffer of 1024 bytes and terminates the host with
    a null byte; everything behind the first null byte is ignored.  [None]:
    SocketBufferFullError *)
Definition helper_host (message : bytes) : option bytes :=
  let received := take 1024 message in
  if 1024 <=? len received then None else Some (c_str received).

(** src/Delegate.cxx:25-37 ReceivePath().  [None]: nothing was received, or
    SocketBufferFullError *)
Definition ReceivePath (message : bytes) : option bytes :=
  let received := take 4096 message in
  if (len received =? 0) || (4096 <=? len received) then None else Some (c_str received).

(** src/RBind.cxx:46-60 SshResolveBindStreamSocket() and lines 178-186 of
    NormalResolveBindTCP() *)
Definition ResolveBind (host : bytes) : bind_target :=
  if bytes_eqb host (bs "localhost") then BLoopback
  else match host with [] => BAll | _ => BHost host end.

(** src/RConnect.cxx:179-200 ResolveConnectTCP(); [None]: exception *)
Definition ResolveConnectTCP (a : account) (host : bytes) (port : N) : option netcall :=
  match GetNetworkChildOptions a with
  | Some eo =>
      match helper_host host with
      | Some host => Some (NHelperConnect (AsOptions eo) host port)
      | None => None
      end
  | None =>
      match ac_translation a with
      | Some _ => None
      | None => Some (NOwnConnect host port)
      end
  end.

(** src/RBind.cxx:214-235 ResolveBindTCP() *)
Definition ResolveBindTCP (a : account) (host : bytes) (port : N) : option netcall :=
  match GetNetworkChildOptions a with
  | Some eo =>
      match helper_host host with
      | Some host => Some (NHelperBind (AsOptions eo) (ResolveBind host) port)
      | None => None
      end
  | None =>
      match ac_translation a with
      | Some _ => None
      | None => Some (NOwnBind (ResolveBind host) port)
      end
  end.

(** src/Delegate.cxx:152-160 DelegateLocalConnect(), lines 112-139 Delegate(),
    lines 39-61 LocalConnectExec() *)
Definition DelegateLocalConnect (a : account) (path : bytes) : option netcall :=
  match ShellIdentity a with
  | Some i =>
      match ReceivePath path with
      | Some path => Some (NHelperLocal i path)
      | None => None
      end
  | None => None
  end.

(** src/Connection.cxx:637-639, 684-687, 1202: the calls which belong to what
    the server decides *)
Definition netcall_of (a : account) (e : vevent) : option netcall :=
  match e with
  | VConnectTcp host port => ResolveConnectTCP a host port
  | VBind host port => ResolveBindTCP a host port
  | VConnectLocal path => DelegateLocalConnect a path
  | _ => None
  end.

Fixpoint netcalls_of (a : account) (l : list vevent) : list netcall :=
  match l with
  | [] => []
  | e :: l => match netcall_of a e with Some c => c :: netcalls_of a l | None => netcalls_of a l end
  end.

(** One event of the server with its network calls. *)
Definition nstep (cfg : config) (session_id : bytes) (x : server * list netcall) (op : vop) : server * list netcall :=
  let '(s, calls) := x in
  let s' := vstep cfg session_id op s in
  (s', calls ++ netcalls_of (sv_account s) (skipn (List.length (sv_log s)) (sv_log s'))).

Definition nrun (cfg : config) (session_id peer_address : bytes) (ops : list vop) : server * list netcall :=
  fold_left (nstep cfg session_id) ops (new_server peer_address, []).
