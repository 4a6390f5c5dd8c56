(** Model of the output which waits for a client: src/ssh/Output.cxx,
    src/ssh/Connection.cxx:139-160 (SendPacket), 868-899 (OnBufferedWrite),
    914-954 (OnInputReady), together with the server connection
    (Model/Server.v), which answers packets, and a session channel
    (Model/ChannelIO.v), which sends the output of a program.

    The queues are numbers of payload bytes (headers, padding and MACs are
    not counted): the bytes which were pushed, those of them which were
    encrypted (Output::encrypted_queue, pending_queue), and those of them
    which were written to the socket.

    A packet of the client is handled regardless of these numbers:
    OnInputReady() looks only at read_blocked, which is set only in proxy mode
    (src/ProxyConnectionHandler.cxx, Model/Relay.v). *)

From Coq Require Import NArith List Bool.
From Verif.Base Require Import Bytes.
From Verif.Model Require Import Wire Auth Session Server ChannelIO.
Import ListNotations.
Open Scope N_scope.

(** the payload bytes of the packets which the server connection sent *)
Definition server_bytes (l : list vevent) : N :=
  fold_right (fun e n => match e with VSend p => len p + n | _ => n end) 0 l.

(** the data bytes of the packets which the session channel sent *)
Definition session_bytes (l : list iev) : N :=
  fold_right (fun e n => match e with ISent _ d => len d + n | _ => n end) 0 l.

(** the number of packets which they sent *)
Definition server_packets (l : list vevent) : N :=
  len (filter (fun e => match e with VSend _ => true | _ => false end) l).
Definition session_packets (l : list iev) : N :=
  len (filter (fun e => match e with ISent _ _ | ISentEof | ISentExit | IClosed => true | _ => false end) l).

Record backlog := {
  bk_server : server;
  bk_session : sess;
  bk_encrypted : N;
  bk_written : N;
  bk_defer : bool    (* BufferedSocket::DeferWrite() *)
}.

(** everything that was given to SendPacket(), src/ssh/Connection.cxx:139-160,
    src/ssh/Output.cxx:45-70 Push() *)
Definition bk_pushed (s : backlog) : N := server_bytes (sv_log (bk_server s)) + session_bytes (ss_log (bk_session s)).

Definition mk_backlog server session encrypted written defer : backlog :=
  {| bk_server := server; bk_session := session; bk_encrypted := encrypted; bk_written := written; bk_defer := defer |}.

Inductive bevent :=
| BServer (op : vop)            (* a packet of the client, or something else which the server connection handles *)
| BSession (o : ChannelIO.sop)  (* the program, the event loop, CHANNEL_WINDOW_ADJUST, a key exchange *)
| BWork                         (* Output::Run() in the worker thread, then Done() *)
| BWrite (k : N).               (* OnBufferedWrite(), and the kernel takes [k] bytes, if there are so many *)

(** One event.
    SendPacket() calls DeferWrite() (src/ssh/Connection.cxx:152).
    Output::Run(): src/ssh/Output.cxx:120-155, queued by Push(); Done(): 157-166.
    OnBufferedWrite(): src/ssh/Connection.cxx:868-899 with Output::Flush(),
    src/ssh/Output.cxx:72-118; it is called because of DeferWrite() or because
    the kernel takes more.
    The session channel exists while the client is logged in
    (src/Connection.cxx:1163-1168).  Simplified: one session channel; of its
    packets, only data is counted, not EOF, exit status and CLOSE. *)
Definition bstep (cfg : config) (session_id : bytes) (s : backlog) (e : bevent) : backlog :=
  match e with
  | BServer op =>
      let v := vstep cfg session_id op (bk_server s) in
      mk_backlog v (bk_session s) (bk_encrypted s) (bk_written s)
        (bk_defer s || (server_packets (sv_log (bk_server s)) <? server_packets (sv_log v)))
  | BSession (SFlush _) => s
  | BSession o =>
      if sv_alive (bk_server s) && sv_channels (bk_server s) then
        let x := sstep (bk_session s) o in
        mk_backlog (bk_server s) x (bk_encrypted s) (bk_written s)
          (bk_defer s || (session_packets (ss_log (bk_session s)) <? session_packets (ss_log x)))
      else s
  | BWork =>
      if bk_encrypted s <? bk_pushed s
      then mk_backlog (bk_server s) (bk_session s) (bk_pushed s) (bk_written s) true
      else s
  | BWrite k =>
      if bk_defer s || (0 <? k) then
        let written := N.min (bk_written s + k) (bk_encrypted s) in
        mk_backlog (bk_server s) (sstep (bk_session s) (SFlush (written <? bk_encrypted s))) (bk_encrypted s) written false
      else s
  end.

(** [w]: the client's initial window *)
Definition bstart (peer_address : bytes) (w : N) : backlog :=
  mk_backlog (new_server peer_address) (ss_init w {| b_write := false; b_rekey := false |}) 0 0 false.

Definition brun (cfg : config) (session_id peer_address : bytes) (w : N) (evs : list bevent) : backlog :=
  fold_left (bstep cfg session_id) evs (bstart peer_address w).
