(** Model of the tarpit for one client address: its token bucket, its
    connections and the authentication requests they have in progress, with a
    clock.  src/net/ClientAccounting.cxx (with [UpdateTokenBucket], [Check],
    [AddConnection] and [RemoveConnection] from Model/Accounting.v),
    src/Listener.cxx:215-257, src/DelayedConnection.cxx:14-53,
    src/Connection.cxx:808-823, 866-890.

    The state is that of one PerClientAccounting object from its creation to
    its removal (OnCleanupTimer(), proved about in C46); times are in
    milliseconds since the creation, tokens are thousandths of tokens.

    Contract of the token bucket (a class of libcommon, which is not here):
    the level rises by one token per second ("rate") up to ten ("burst"),
    Update() takes away its argument and returns the new level.  Exact
    arithmetic instead of floating point.

    Simplifications: what a request does, apart from the costs, is not here;
    the time for which a failure is withheld (100 ms) is left out.  Both let
    a client be faster than it is. *)

From Coq Require Import NArith ZArith List Bool.
From Verif.Model Require Import Accounting.
Import ListNotations.
Open Scope N_scope.

(** A request in progress: its connection, when it arrived, for how long it
    sleeps, and whether its password was passed on to the translation server *)
Record request := { rq_conn : N; rq_start : N; rq_wait : N; rq_asked : bool }.

Record tpit := {
  tp_now : N;
  tp_level : Z;                  (* of the token bucket *)
  tp_client : per_client;
  tp_ready : N -> N;             (* when the DelayedConnection becomes a Connection *)
  tp_requests : list request;
  tp_next : N;                   (* the next connection's number *)
  tp_wrong : N                   (* history: refused passwords *)
}.

Definition mk_tp n l c r q x w : tpit :=
  {| tp_now := n; tp_level := l; tp_client := c; tp_ready := r; tp_requests := q; tp_next := x; tp_wrong := w |}.

Definition BURST : Z := 10000.

(** src/net/ClientAccounting.hxx:46-83 *)
Definition new_tarpit (a : N) : tpit := mk_tp 0 BURST (new_client a) (fun _ => 0) [] 0 0.

(** PerClientAccounting::UpdateTokenBucket(), src/net/ClientAccounting.cxx:75-97 *)
Definition spend (c : acfg) (size : N) (s : tpit) : tpit :=
  let level := (tp_level s - Z.of_N size)%Z in
  mk_tp (tp_now s) level (UpdateTokenBucket c (tp_now s) (level <? 0)%Z (tp_client s))
    (tp_ready s) (tp_requests s) (tp_next s) (tp_wrong s).

Definition with_requests (q : list request) (s : tpit) : tpit :=
  mk_tp (tp_now s) (tp_level s) (tp_client s) (tp_ready s) q (tp_next s) (tp_wrong s).

Definition find_request (id : N) (s : tpit) : option request := find (fun r => rq_conn r =? id) (tp_requests s).
Definition drop_request (id : N) (l : list request) : list request := filter (fun r => negb (rq_conn r =? id)) l.
Definition slept (r : request) (s : tpit) : bool := rq_start r + rq_wait r <=? tp_now s.

Inductive top :=
| TTick                          (* a millisecond passes *)
| TAccept                        (* Listener::OnAccept() *)
| TClose (id : N)                (* the connection is gone *)
| TRequest (id : N)              (* a USERAUTH_REQUEST arrives *)
| TSpend (id size : N)           (* the request costs something, Connection.cxx:302, 831, 869, 936, 976, 1052, 1137 *)
| TPassword (id : N)             (* the request carries a password, Connection.cxx:874-876 *)
| TWrong (id : N)                (* the translation server has refused it, Connection.cxx:880-890 *)
| TDone (id : N).                (* the request was answered otherwise *)

Definition tstep (c : acfg) (s : tpit) (op : top) : tpit :=
  match op with
  | TTick => mk_tp (tp_now s + 1) (Z.min BURST (tp_level s + 1)) (tp_client s) (tp_ready s) (tp_requests s) (tp_next s) (tp_wrong s)
  | TAccept =>
      (* Listener.cxx:225-247 *)
      let s := spend c 1000 s in
      if Check c (tp_client s) then
        let id := tp_next s in
        let ready := tp_now s + pc_delay (tp_client s) in
        mk_tp (tp_now s) (tp_level s) (AddConnection id (tp_client s)) (fun i => if i =? id then ready else tp_ready s i)
          (tp_requests s) (id + 1) (tp_wrong s)
      else s
  | TClose id =>
      mk_tp (tp_now s) (tp_level s) (RemoveConnection (tp_now s) id (tp_client s)) (tp_ready s)
        (drop_request id (tp_requests s)) (tp_next s) (tp_wrong s)
  | TRequest id =>
      (* one request of a connection at a time: C52 *)
      if existsb (N.eqb id) (pc_connections (tp_client s)) && (tp_ready s id <=? tp_now s) &&
         match find_request id s with None => true | Some _ => false end
      then with_requests ({| rq_conn := id; rq_start := tp_now s; rq_wait := pc_delay (tp_client s); rq_asked := false |} :: tp_requests s) s
      else s
  | TSpend id size =>
      match find_request id s with
      | Some r => if slept r s then spend c size s else s
      | None => s
      end
  | TPassword id =>
      match find_request id s with
      | Some r =>
          if slept r s && negb (rq_asked r) then
            with_requests ({| rq_conn := id; rq_start := rq_start r; rq_wait := rq_wait r; rq_asked := true |} :: drop_request id (tp_requests s))
              (spend c 1000 s)
          else s
      | None => s
      end
  | TWrong id =>
      match find_request id s with
      | Some r =>
          if rq_asked r then
            let s := with_requests (drop_request id (tp_requests s)) (spend c 8000 s) in
            mk_tp (tp_now s) (tp_level s) (tp_client s) (tp_ready s) (tp_requests s) (tp_next s) (tp_wrong s + 1)
          else s
      | None => s
      end
  | TDone id => with_requests (drop_request id (tp_requests s)) s
  end.

Definition trun (c : acfg) (a : N) (ops : list top) : tpit := fold_left (tstep c) ops (new_tarpit a).
