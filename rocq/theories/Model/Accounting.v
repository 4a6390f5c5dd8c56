(** Model of the accounting of client addresses: the limit on the number of
    connections and the tarpit.
    src/net/ClientAccounting.cxx, src/net/ClientAccounting.hxx,
    Listener::OnAccept() in src/Listener.cxx and src/DelayedConnection.cxx.

    Simplifications: a time is a number of milliseconds; the token bucket (a
    class of libcommon) is not modelled: each update comes with a flag telling
    whether the bucket was overdrawn; the hash set is a list with at most one
    entry per address; objects have numbers instead of addresses in memory.
    What the connections do is not part of this model, apart from the updates
    of the token bucket (src/Connection.cxx:302, 831, 869-882, 936, 976, 1052,
    1137) and from the delay of authentication requests
    (src/Connection.cxx:819-823). *)

From Coq Require Import NArith List Bool.
Import ListNotations.
Open Scope N_scope.

(** One client address.  src/net/ClientAccounting.hxx:46-83 *)
Record per_client := {
  pc_address : N;               (* address *)
  pc_connections : list N;      (* connections *)
  pc_expires : N;
  pc_tarpit_until : N;
  pc_delay : N
}.

Definition mk_pc a cs ex tu d : per_client := {|
  pc_address := a; pc_connections := cs; pc_expires := ex; pc_tarpit_until := tu; pc_delay := d |}.

(** PerClientAccounting::PerClientAccounting(),
    src/net/ClientAccounting.cxx:32-37 *)
Definition new_client (a : N) : per_client := mk_pc a [] 0 0 0.

(** The settings of the listener.  src/Listener.cxx:142-145 *)
Record acfg := { max_connections : N; tarpit : bool }.

(** An open socket: its number, whether it is a DelayedConnection or a
    Connection, the address of the peer (if it is an internet address) and
    AccountedClientConnection::per_client. *)
Inductive kind := Delayed | Served.
Record client := {
  cl_id : N;
  cl_kind : kind;
  cl_peer : option N;
  cl_per_client : option N
}.

(** The listener with its accounting. *)
Record accounting := {
  ac_map : list per_client;     (* ClientAccountingMap::map *)
  ac_cleanup : bool;            (* cleanup_timer.IsPending() *)
  ac_open : list client;        (* Listener::connections and Listener::delayed_connections *)
  ac_next : N                   (* the next number *)
}.

Definition mk_ac m c o n : accounting := {| ac_map := m; ac_cleanup := c; ac_open := o; ac_next := n |}.
Definition new_accounting : accounting := mk_ac [] false [] 0.

(** Listener::Listener(), src/Listener.cxx:142-145 *)
Definition accounts (c : acfg) : bool := (0 <? max_connections c) || tarpit c.

Definition lookup (a : N) (m : list per_client) : option per_client :=
  find (fun p => pc_address p =? a) m.

(** Changes the entry of an address. *)
Definition change (a : N) (f : per_client -> per_client) (m : list per_client) : list per_client :=
  map (fun p => if pc_address p =? a then f p else p) m.

(** ClientAccountingMap::Get(), src/net/ClientAccounting.cxx:100-115 *)
Definition Get (a : N) (m : list per_client) : list per_client :=
  match lookup a m with
  | Some _ => m
  | None => new_client a :: m
  end.

(** PerClientAccounting::Check(), src/net/ClientAccounting.cxx:45-50 *)
Definition Check (c : acfg) (p : per_client) : bool :=
  (max_connections c =? 0) || (N.of_nat (List.length (pc_connections p)) <? max_connections c).

(** PerClientAccounting::AddConnection(),
    src/net/ClientAccounting.cxx:52-59 *)
Definition AddConnection (id : N) (p : per_client) : per_client :=
  mk_pc (pc_address p) (pc_connections p ++ [id]) (pc_expires p) (pc_tarpit_until p) (pc_delay p).

(** PerClientAccounting::RemoveConnection(),
    src/net/ClientAccounting.cxx:61-73; scheduling the cleanup timer is in
    [remove] below *)
Definition RemoveConnection (now id : N) (p : per_client) : per_client :=
  mk_pc (pc_address p) (List.filter (fun i => negb (i =? id)) (pc_connections p)) (now + 300000)
    (pc_tarpit_until p) (pc_delay p).

(** PerClientAccounting::UpdateTokenBucket(),
    src/net/ClientAccounting.cxx:75-97; [over] is available < 0 *)
Definition UpdateTokenBucket (c : acfg) (now : N) (over : bool) (p : per_client) : per_client :=
  if negb (tarpit c) then p
  else if over then
    mk_pc (pc_address p) (pc_connections p) (pc_expires p) (now + 60000)
      (if pc_delay p <? 60000 then pc_delay p + 100 else pc_delay p)
  else if now <? pc_tarpit_until p then
    mk_pc (pc_address p) (pc_connections p) (pc_expires p) (pc_tarpit_until p)
      (if 100 <? pc_delay p then pc_delay p - 100 else pc_delay p)
  else mk_pc (pc_address p) (pc_connections p) (pc_expires p) (pc_tarpit_until p) 0.

(** A new DelayedConnection or Connection.  The latter calls AddConnection()
    only if it was given a PerClientAccounting: src/Connection.cxx:183-206;
    src/DelayedConnection.cxx:14-31 *)
Definition open_client (k : kind) (peer per : option N) (s : accounting) : accounting :=
  let id := ac_next s in
  mk_ac (match per with Some a => change a (AddConnection id) (ac_map s) | None => ac_map s end)
    (ac_cleanup s)
    (ac_open s ++ [{| cl_id := id; cl_kind := k; cl_peer := peer; cl_per_client := per |}])
    (id + 1).

(** The destructor of a DelayedConnection or Connection:
    AccountedClientConnection::~AccountedClientConnection(),
    src/net/ClientAccounting.cxx:11-15, 61-73 *)
Definition destroy_client (now : N) (x : client) (s : accounting) : accounting :=
  let opened := List.filter (fun y => negb (cl_id y =? cl_id x)) (ac_open s) in
  match cl_per_client x with
  | None => mk_ac (ac_map s) (ac_cleanup s) opened (ac_next s)
  | Some a =>
      let m := change a (RemoveConnection now (cl_id x)) (ac_map s) in
      let empty :=
        match lookup a m with
        | Some p => match pc_connections p with [] => true | _ :: _ => false end
        | None => false
        end in
      mk_ac m (ac_cleanup s || empty) opened (ac_next s)
  end.

(** What the client notices. *)
Inductive reaction :=
| Rejected                      (* SendEarlyDisconnect(TOO_MANY_CONNECTIONS) *)
| Held (delay : N)              (* a DelayedConnection *)
| Accepted                      (* a Connection *)
| Failed                        (* the constructor of Connection has thrown *)
| Quiet.                        (* not a new client *)

Definition serve (fails : bool) (peer per : option N) (s : accounting) : reaction * accounting :=
  if fails then (Failed, s) else (Accepted, open_client Served peer per s).

(** Listener::OnAccept(), src/Listener.cxx:215-257; [fails]: the constructor
    of Connection throws *)
Definition OnAccept (c : acfg) (now : N) (peer : option N) (over fails : bool) (s : accounting)
  : reaction * accounting :=
  match (if accounts c then peer else None) with
  | None => serve fails peer None s
  | Some a =>
      let m := change a (UpdateTokenBucket c now over) (Get a (ac_map s)) in
      let s1 := mk_ac m (ac_cleanup s) (ac_open s) (ac_next s) in
      match lookup a m with
      | None => (Quiet, s1)     (* cannot happen *)
      | Some p =>
          if negb (Check c p) then (Rejected, s1)
          else if 0 <? pc_delay p then (Held (pc_delay p), open_client Delayed peer (Some a) s1)
          else serve fails peer (Some a) s1
      end
  end.

Definition find_client (id : N) (s : accounting) : option client :=
  find (fun x => cl_id x =? id) (ac_open s).

(** DelayedConnection::OnTimer(), src/DelayedConnection.cxx:38-53 *)
Definition OnTimer (now : N) (fails : bool) (x : client) (s : accounting) : accounting :=
  destroy_client now x (snd (serve fails (cl_peer x) (cl_per_client x) s)).

(** ClientAccountingMap::OnCleanupTimer(),
    src/net/ClientAccounting.cxx:124-145 *)
Definition expired (now : N) (p : per_client) : bool :=
  match pc_connections p with [] => pc_expires p <=? now | _ :: _ => false end.
Definition idle (p : per_client) : bool :=
  match pc_connections p with [] => true | _ :: _ => false end.
Definition OnCleanupTimer (now : N) (s : accounting) : accounting :=
  let kept := List.filter (fun p => negb (expired now p)) (ac_map s) in
  mk_ac kept (existsb idle kept) (ac_open s) (ac_next s).

(** The events of the event loop. *)
Inductive aop :=
| AAccept (now : N) (peer : option N) (over fails : bool)
| ATimer (now : N) (id : N) (fails : bool)      (* of a DelayedConnection *)
| AClose (now : N) (id : N)                     (* DelayedConnection::OnSocketReady(); a Connection is gone *)
| AUpdate (now : N) (id : N) (over : bool)      (* AccountedClientConnection::UpdateTokenBucket() *)
| ACleanup (now : N).

Definition astep (c : acfg) (o : aop) (s : accounting) : reaction * accounting :=
  match o with
  | AAccept now peer over fails => OnAccept c now peer over fails s
  | ATimer now id fails =>
      match find_client id s with
      | Some x =>
          match cl_kind x with
          | Delayed => (Quiet, OnTimer now fails x s)
          | Served => (Quiet, s)
          end
      | None => (Quiet, s)
      end
  | AClose now id =>
      match find_client id s with
      | Some x => (Quiet, destroy_client now x s)
      | None => (Quiet, s)
      end
  | AUpdate now id over =>
      match find_client id s with
      | Some x =>
          match cl_kind x, cl_per_client x with
          | Served, Some a =>
              (Quiet, mk_ac (change a (UpdateTokenBucket c now over) (ac_map s)) (ac_cleanup s) (ac_open s)
                        (ac_next s))
          | _, _ => (Quiet, s)
          end
      | None => (Quiet, s)
      end
  | ACleanup now => if ac_cleanup s then (Quiet, OnCleanupTimer now s) else (Quiet, s)
  end.

Fixpoint arun (c : acfg) (ops : list aop) (s : accounting) : accounting :=
  match ops with
  | [] => s
  | o :: rest => arun c rest (snd (astep c o s))
  end.

(** AccountedClientConnection::GetDelay(), src/net/ClientAccounting.cxx:24-30:
    the time for which an authentication request is held back,
    src/Connection.cxx:819-823 *)
Definition GetDelay (x : client) (s : accounting) : N :=
  match cl_per_client x with
  | None => 0
  | Some a => match lookup a (ac_map s) with Some p => pc_delay p | None => 0 end
  end.
