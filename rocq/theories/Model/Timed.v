(** Model of the authentication timeout: the server connection
    (Model/Server.v) with a clock.  src/Connection.cxx:194-203 (construction),
    796-801 (first USERAUTH_REQUEST), 1147 and 1268 (Cancel()), 1321-1334
    OnAuthTimeout().

    A time is a number of milliseconds.  Contract of the event loop and of
    CoarseTimerEvent (libcommon): a timer is never run before it is due; no
    other event is handled [slack] or more milliseconds after the timer was
    due and before it was run. *)

From Coq Require Import NArith List Bool.
From Verif.Base Require Import Bytes.
From Verif.Model Require Import Auth Session Server.
Import ListNotations.
Open Scope N_scope.

Definition AUTH_TIMEOUT_CONNECT : N := 10 * 1000.        (* line 202 *)
Definition AUTH_TIMEOUT_REQUEST : N := 2 * 60 * 1000.    (* line 800 *)

(** [tm_due] is the due time of auth_timeout, which is scheduled if
    [sv_timeout].  [tm_fired] is a history variable: when the timer was
    run. *)
Record timed := { tm_server : server; tm_due : N; tm_fired : list N }.

Definition new_timed (peer_address : bytes) (t : N) : timed :=
  {| tm_server := new_server peer_address; tm_due := t + AUTH_TIMEOUT_CONNECT; tm_fired := [] |}.

(** the timer is run (unless the connection is gone, and the timer with it) *)
Definition fire (cfg : config) (session_id : bytes) (t : N) (s : timed) : timed :=
  if sv_alive (tm_server s) && sv_timeout (tm_server s) && (tm_due s <=? t) then
    {| tm_server := vstep cfg session_id OTimeout (tm_server s); tm_due := tm_due s; tm_fired := tm_fired s ++ [t] |}
  else s.

(** an event at time [t]; a timer which is overdue goes first *)
Definition tstep (cfg : config) (session_id : bytes) (slack : N) (x : N * vop) (s : timed) : timed :=
  let '(t, op) := x in
  let s := if tm_due s + slack <=? t then fire cfg session_id t s else s in
  match op with
  | OTimeout => fire cfg session_id t s
  | _ =>
      let v := vstep cfg session_id op (tm_server s) in
      {| tm_server := v;
         tm_due := if negb (sv_got_request (tm_server s)) && sv_got_request v then t + AUTH_TIMEOUT_REQUEST else tm_due s;
         tm_fired := tm_fired s |}
  end.

Definition trun (cfg : config) (session_id peer_address : bytes) (slack t0 : N) (ops : list (N * vop)) : timed :=
  fold_left (fun s x => tstep cfg session_id slack x s) ops (new_timed peer_address t0).
