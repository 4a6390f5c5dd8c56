(** * When keys are renewed

    src/ssh/Connection.cxx: the rekey timer and the counter of encrypted bytes,
    with a clock.  The messages of the key exchange and what they contain are in
    Model/KexMachine.v; here they are events with sizes, and failures of any kind
    are flags.

    A time is a number of milliseconds.  Contract of the event loop and of
    FarTimerEvent (libcommon): a timer is never run before it is due; it is run
    no later than [slack] milliseconds after it has become due; a timer which is
    already due and is scheduled for "now" again remains due. *)

From Coq Require Import NArith List Bool.
From Verif.Model Require Import Negotiate KexKeys KexMachine.
Import ListNotations.
Open Scope N_scope.

(** src/ssh/Connection.hxx:40-44 *)
Definition REKEY_BYTES : N := 1024 * 1024 * 1024.
Definition REKEY_INTERVAL : N := 60 * 60 * 1000.

Inductive rstatus := RRunning | RDead | RAssert.

(** history of the connection *)
Inductive revent :=
| VPacket (encrypted : bool) (size : N)  (* packet sent, with its tag *)
| VKexInit (own : bool)                  (* KEXINIT sent; [own]: not as an answer *)
| VKeys                                  (* new outgoing keys in use *)
| VInKeys                                (* new incoming keys in use *)
| VDone                                  (* the key exchange is complete *)
| VAuth                                  (* SetAuthenticated() *)
| VReceived (size : N).                  (* packet received *)

Record rconn := {
  r_now : N;
  r_flags : kflags;          (* kex_flags *)
  r_auth : bool;             (* authenticated *)
  r_in : bool;               (* input.IsEncrypted() *)
  r_out : bool;              (* output.IsEncrypted() *)
  r_tag : N;                 (* output.GetCipher()->GetAuthSize() *)
  r_bytes : N;               (* encrypted_bytes_since_kex; 2^64 is not reached *)
  r_due : option N;          (* rekey_timer *)
  r_status : rstatus;
  r_log : list (N * revent)     (* oldest first *)
}.

Definition r_init (now : N) : rconn :=
  {| r_now := now; r_flags := no_flags; r_auth := false; r_in := false; r_out := false; r_tag := 0; r_bytes := 0; r_due := None; r_status := RRunning; r_log := [] |}.

Definition r_set_now n s := {| r_now := n; r_flags := r_flags s; r_auth := r_auth s; r_in := r_in s; r_out := r_out s; r_tag := r_tag s; r_bytes := r_bytes s; r_due := r_due s; r_status := r_status s; r_log := r_log s |}.
Definition r_set_flags f s := {| r_now := r_now s; r_flags := f; r_auth := r_auth s; r_in := r_in s; r_out := r_out s; r_tag := r_tag s; r_bytes := r_bytes s; r_due := r_due s; r_status := r_status s; r_log := r_log s |}.
Definition r_set_auth s := {| r_now := r_now s; r_flags := r_flags s; r_auth := true; r_in := r_in s; r_out := r_out s; r_tag := r_tag s; r_bytes := r_bytes s; r_due := r_due s; r_status := r_status s; r_log := r_log s |}.
Definition r_set_in s := {| r_now := r_now s; r_flags := r_flags s; r_auth := r_auth s; r_in := true; r_out := r_out s; r_tag := r_tag s; r_bytes := r_bytes s; r_due := r_due s; r_status := r_status s; r_log := r_log s |}.
Definition r_set_out t s := {| r_now := r_now s; r_flags := r_flags s; r_auth := r_auth s; r_in := r_in s; r_out := true; r_tag := t; r_bytes := r_bytes s; r_due := r_due s; r_status := r_status s; r_log := r_log s |}.
Definition r_set_bytes b s := {| r_now := r_now s; r_flags := r_flags s; r_auth := r_auth s; r_in := r_in s; r_out := r_out s; r_tag := r_tag s; r_bytes := b; r_due := r_due s; r_status := r_status s; r_log := r_log s |}.
Definition r_set_due d s := {| r_now := r_now s; r_flags := r_flags s; r_auth := r_auth s; r_in := r_in s; r_out := r_out s; r_tag := r_tag s; r_bytes := r_bytes s; r_due := d; r_status := r_status s; r_log := r_log s |}.
Definition r_end x s := {| r_now := r_now s; r_flags := r_flags s; r_auth := r_auth s; r_in := r_in s; r_out := r_out s; r_tag := r_tag s; r_bytes := r_bytes s; r_due := None; r_status := x; r_log := r_log s |}.
Definition r_note e s := {| r_now := r_now s; r_flags := r_flags s; r_auth := r_auth s; r_in := r_in s; r_out := r_out s; r_tag := r_tag s; r_bytes := r_bytes s; r_due := r_due s; r_status := r_status s; r_log := r_log s ++ [(r_now s, e)] |}.

(** rekey_timer.Schedule(REKEY_INTERVAL) *)
Definition r_schedule (s : rconn) : rconn := r_set_due (Some (r_now s + REKEY_INTERVAL)) s.
(** rekey_timer.Schedule(Event::Duration::zero()) *)
Definition r_schedule_now (s : rconn) : rconn :=
  r_set_due (Some (match r_due s with Some due => N.min due (r_now s) | None => r_now s end)) s.

(** src/ssh/Connection.cxx:139-163 SendPacket() *)
Definition r_SendPacket (size : N) (s : rconn) : rconn :=
  if r_out s then
    let n := size + r_tag s in
    let s := r_note (VPacket true n) s in
    let s := r_set_bytes (r_bytes s + n) s in
    if r_auth s && (REKEY_BYTES <=? r_bytes s) && IsIdle (r_flags s) then r_schedule_now s else s
  else r_note (VPacket false size) s.

(** src/ssh/Connection.cxx:256-292 SendKexInit() *)
Definition r_SendKexInit (own : bool) (size : N) (s : rconn) : rconn :=
  let f := r_flags s in
  let s := r_note (VKexInit own) s in
  r_SendPacket size (r_set_flags {| kexinit_sent := true; kexinit_received := kexinit_received f; newkeys_sent := newkeys_sent f; newkeys_received := newkeys_received f |} s).

(** src/ssh/Connection.hxx:155-160 and src/ssh/Connection.cxx:415-416, 590-591 *)
Definition r_ResetIfComplete (s : rconn) : rconn :=
  if IsComplete (r_flags s) then r_schedule (r_note VDone (r_set_flags no_flags s)) else s.

(** src/ssh/Connection.cxx:375-423 SendNewKeys(); [tag] of the new cipher *)
Definition r_SendNewKeys (fails : bool) (size tag : N) (s : rconn) : rconn :=
  let f := r_flags s in
  let s := r_set_due None s in
  let s := r_SendPacket size s in
  let s := r_set_flags {| kexinit_sent := kexinit_sent f; kexinit_received := kexinit_received f; newkeys_sent := true; newkeys_received := newkeys_received f |} s in
  if fails then r_end RDead s
  else r_ResetIfComplete (r_note VKeys (r_set_bytes 0 (r_set_out tag s))).

Inductive rop :=
| RSend (size : N)                       (* any other packet is sent *)
| RReceive (size : N)                    (* any other packet is received *)
| RAuthenticated                         (* the user has been authenticated *)
| RVersion (size : N)                    (* client: the version was received, KEXINIT is sent *)
| RKexInit (fails : bool) (size1 size2 : N)  (* KEXINIT is received *)
| RExchange (fails : bool) (size1 size2 tag : N)  (* ECDH_KEX_INIT or ECDH_KEX_INIT_REPLY is received *)
| RNewKeys (fails : bool)                (* NEWKEYS is received *)
| RTimer (size : N)                      (* the timer is run *)
| RTick (d : N)                          (* time passes *)
| RClose.                                (* anything else ends the connection *)

(** [None]: cannot happen in this state *)
Definition rk_step (dbg : bool) (slack : N) (role : Role) (o : rop) (s : rconn) : option rconn :=
  match r_status s with
  | RRunning =>
      let f := r_flags s in
      match o with
      | RSend n => Some (r_SendPacket n s)
      | RReceive n => Some (r_note (VReceived n) s)
      | RAuthenticated =>
          (* src/ssh/Connection.cxx:105-116; its callers do this once, on an
             encrypted connection (Model/Server.v, Model/KexMachine.v) *)
          if r_in s && r_out s && negb (r_auth s) then Some (r_schedule (r_note VAuth (r_set_auth s))) else None
      | RVersion n =>
          (* src/ssh/Connection.cxx:842-853 *)
          match role with
          | CLIENT => if IsIdle f && negb (r_out s) && negb (r_in s) then Some (r_SendKexInit true n s) else None
          | SERVER => None
          end
      | RKexInit fails n1 n2 =>
          (* src/ssh/Connection.cxx:456-540 *)
          let s := r_set_due None s in
          if kexinit_received f || newkeys_sent f || newkeys_received f || fails then Some (r_end RDead s) else
          let s := r_set_flags {| kexinit_sent := kexinit_sent f; kexinit_received := true; newkeys_sent := false; newkeys_received := false |} s in
          let s := if kexinit_sent f then s else r_SendKexInit false n1 s in
          Some (match role with CLIENT => r_SendPacket n2 s | SERVER => s end)
      | RExchange fails n1 n2 tag =>
          (* src/ssh/Connection.cxx:597-704: the server's reply, then NEWKEYS *)
          if negb (kexinit_sent f) || negb (kexinit_received f) || newkeys_sent f || newkeys_received f then Some (r_end RDead s) else
          let s := match role with SERVER => r_SendPacket n1 s | CLIENT => s end in
          Some (r_SendNewKeys fails n2 tag s)
      | RNewKeys fails =>
          (* src/ssh/Connection.cxx:542-595 *)
          let s := r_set_due None s in
          if negb (kexinit_sent f) || negb (kexinit_received f) || negb (newkeys_sent f) || newkeys_received f then Some (r_end RDead s) else
          let s := r_set_flags {| kexinit_sent := kexinit_sent f; kexinit_received := kexinit_received f; newkeys_sent := newkeys_sent f; newkeys_received := true |} s in
          Some (if fails then r_end RDead s else r_ResetIfComplete (r_note VInKeys (r_set_in s)))
      | RTimer n =>
          (* src/ssh/Connection.cxx:118-137 *)
          match r_due s with
          | Some due =>
              if due <=? r_now s then
                let s := r_set_due None s in
                if dbg && negb (r_in s && r_out s && r_auth s) then Some (r_end RAssert s)
                else Some (if IsIdle f then r_SendKexInit true n s else s)
              else None
          | None => None
          end
      | RTick d =>
          match r_due s with
          | Some due => if r_now s + d <=? due + slack then Some (r_set_now (r_now s + d) s) else None
          | None => Some (r_set_now (r_now s + d) s)
          end
      | RClose => Some (r_end RDead s)
      end
  | _ => None
  end.

Inductive rk_runs (dbg : bool) (slack : N) (role : Role) : list rop -> rconn -> Prop :=
| rk_nil : forall now, rk_runs dbg slack role [] (r_init now)
| rk_snoc : forall ops s o s', rk_runs dbg slack role ops s -> rk_step dbg slack role o s = Some s' -> rk_runs dbg slack role (ops ++ [o]) s'.
