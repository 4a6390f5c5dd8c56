(** Model of proxy mode: two connections whose connection-layer messages are
    relayed to each other, with backpressure.
    src/ProxyConnectionHandler.cxx, src/ProxyCheck.hxx and the parts of
    src/ssh/Connection.cxx which start and stop reading.

    Each of the two connections has its socket, a worker thread which decrypts
    what was received, and a list of decrypted packets (Model/Input.v).

    Simplifications: the stream of one direction is already cut into packets;
    the pause of the worker after a NEWKEYS packet is left out (Model/Input.v
    has it); what a key exchange message contains does not matter here
    (Model/KexMachine.v): an exchange which fails is the event [REnd]; the
    answer UNIMPLEMENTED is not recorded. *)

From Coq Require Import NArith List Bool.
From Verif.Base Require Import Bytes.
From Verif.Model Require Import Wire Frame Packets Server.
Import ListNotations.
Open Scope N_scope.

(** One of the two connections.
    src/ssh/Connection.hxx:99-161, src/ssh/Input.hxx *)
Record end_point := {
  ep_raw : list bytes;          (* received, not yet decrypted: Input::raw_buffer *)
  ep_job : bool;                (* the worker thread will call Input::Run() *)
  ep_list : list bytes;         (* Input::decrypted_list *)
  ep_done : bool;               (* Input::Done() will be called *)
  ep_reading : bool;            (* the socket is registered for reading *)
  ep_read_blocked : bool;       (* read_blocked *)
  ep_input_ready : bool;        (* input_ready *)
  ep_resume : bool;             (* resume_input is scheduled *)
  ep_write_blocked : bool;      (* write_blocked *)
  ep_kexinit_sent : bool;       (* kex_flags *)
  ep_kexinit_received : bool;
  ep_newkeys_sent : bool;
  ep_newkeys_received : bool
}.

Definition mk_end raw job l done reading read_blocked input_ready resume write_blocked ks kr ns nr : end_point := {|
  ep_raw := raw; ep_job := job; ep_list := l; ep_done := done; ep_reading := reading;
  ep_read_blocked := read_blocked; ep_input_ready := input_ready; ep_resume := resume;
  ep_write_blocked := write_blocked; ep_kexinit_sent := ks; ep_kexinit_received := kr;
  ep_newkeys_sent := ns; ep_newkeys_received := nr |}.

Definition with_input raw job l done (e : end_point) : end_point :=
  mk_end raw job l done (ep_reading e) (ep_read_blocked e) (ep_input_ready e) (ep_resume e) (ep_write_blocked e)
    (ep_kexinit_sent e) (ep_kexinit_received e) (ep_newkeys_sent e) (ep_newkeys_received e).
Definition with_reading reading read_blocked input_ready resume (e : end_point) : end_point :=
  mk_end (ep_raw e) (ep_job e) (ep_list e) (ep_done e) reading read_blocked input_ready resume (ep_write_blocked e)
    (ep_kexinit_sent e) (ep_kexinit_received e) (ep_newkeys_sent e) (ep_newkeys_received e).
Definition with_write_blocked b (e : end_point) : end_point :=
  mk_end (ep_raw e) (ep_job e) (ep_list e) (ep_done e) (ep_reading e) (ep_read_blocked e) (ep_input_ready e) (ep_resume e) b
    (ep_kexinit_sent e) (ep_kexinit_received e) (ep_newkeys_sent e) (ep_newkeys_received e).
Definition with_kex ks kr ns nr (e : end_point) : end_point :=
  mk_end (ep_raw e) (ep_job e) (ep_list e) (ep_done e) (ep_reading e) (ep_read_blocked e) (ep_input_ready e) (ep_resume e)
    (ep_write_blocked e) ks kr ns nr.

(** The client's connection (role SERVER) and the connection to the target
    (role CLIENT). *)
Inductive side := Client | Target.
Definition other (x : side) : side := match x with Client => Target | Target => Client end.

(** [rl_relayed] and [rl_handled] are history variables: the calls of
    SendPacket() by the handler whose source is that side, and all packets
    handled by that side, in order. *)
Record relay := {
  rl_client : end_point;
  rl_target : end_point;
  rl_relayed : list (side * bytes);
  rl_handled : list (side * bytes);
  rl_alive : bool
}.

Definition get (x : side) (r : relay) : end_point := match x with Client => rl_client r | Target => rl_target r end.
Definition set (x : side) (e : end_point) (r : relay) : relay :=
  match x with
  | Client => {| rl_client := e; rl_target := rl_target r; rl_relayed := rl_relayed r; rl_handled := rl_handled r; rl_alive := rl_alive r |}
  | Target => {| rl_client := rl_client r; rl_target := e; rl_relayed := rl_relayed r; rl_handled := rl_handled r; rl_alive := rl_alive r |}
  end.
Definition add_relayed (x : side) (p : bytes) (r : relay) : relay :=
  {| rl_client := rl_client r; rl_target := rl_target r; rl_relayed := rl_relayed r ++ [(x, p)]; rl_handled := rl_handled r; rl_alive := rl_alive r |}.
Definition add_handled (x : side) (p : bytes) (r : relay) : relay :=
  {| rl_client := rl_client r; rl_target := rl_target r; rl_relayed := rl_relayed r; rl_handled := rl_handled r ++ [(x, p)]; rl_alive := rl_alive r |}.
Definition close (r : relay) : relay :=
  {| rl_client := rl_client r; rl_target := rl_target r; rl_relayed := rl_relayed r; rl_handled := rl_handled r; rl_alive := false |}.

(** src/ssh/Connection.cxx:98-103 IsRekeying() (the output is encrypted) *)
Definition IsRekeying (e : end_point) : bool := ep_kexinit_sent e && negb (ep_newkeys_sent e).

(** src/ssh/Connection.hxx:260-263 BlockRead() *)
Definition BlockRead (e : end_point) : end_point :=
  with_reading (ep_reading e) true false (ep_resume e) e.

(** src/ssh/Connection.hxx:268-275 UnblockRead() *)
Definition UnblockRead (e : end_point) : end_point :=
  with_reading (ep_reading e) false (ep_input_ready e) (ep_resume e || ep_input_ready e) e.

(** src/ssh/Connection.cxx:229-241 OnWriteBlocked(), OnWriteUnblocked();
    src/ProxyConnectionHandler.cxx:18-28, 42-54: the other handler's source is
    the other connection *)
Definition OnWriteBlocked (x : side) (r : relay) : relay := set (other x) (BlockRead (get (other x) r)) r.
Definition OnWriteUnblocked (x : side) (r : relay) : relay := set (other x) (UnblockRead (get (other x) r)) r.

(** src/ssh/Connection.cxx:257-292 SendKexInit() *)
Definition SendKexInit (x : side) (r : relay) : relay :=
  let e := get x r in
  let e := with_kex true (ep_kexinit_received e) (ep_newkeys_sent e) (ep_newkeys_received e) e in
  let r := set x e r in
  if IsRekeying e && negb (ep_write_blocked e) then OnWriteBlocked x r else r.

(** [ResetIfComplete()], src/ssh/Connection.hxx:151-160 *)
Definition ResetIfComplete (e : end_point) : end_point :=
  if ep_newkeys_sent e && ep_newkeys_received e then with_kex false false false false e else e.

(** src/ssh/Connection.cxx:375-423 SendNewKeys() *)
Definition SendNewKeys (x : side) (r : relay) : relay :=
  let e := get x r in
  let was_rekeying := IsRekeying e in
  let e := ResetIfComplete (with_kex (ep_kexinit_sent e) (ep_kexinit_received e) true (ep_newkeys_received e) e) in
  let r := set x e r in
  if was_rekeying && negb (ep_write_blocked e) then OnWriteUnblocked x r else r.

(** The first byte of a packet is the message number. *)
Definition number (p : bytes) : N := match p with m :: _ => m | [] => 0 end.

(** src/ssh/Connection.cxx:724-782 HandlePacket() on an encrypted connection
    whose only handler is the proxy's (src/ProxyConnectionHandler.cxx:30-40);
    HandleKexInit() 456-540: a second KEXINIT or one in the middle of an
    exchange is an error; HandleNewKeys() 542-595; HandleECDHKexInit()
    597-623 and HandleECDHKexInitReply() 625-702: only in the right role and
    only between the KEXINITs and NEWKEYS. *)
Definition HandlePacket (x : side) (p : bytes) (r : relay) : relay :=
  let r := add_handled x p r in
  let e := get x r in
  let between := ep_kexinit_sent e && ep_kexinit_received e && negb (ep_newkeys_sent e) in
  if ShouldProxy (number p) then add_relayed x p r
  else if number p =? MSG_DISCONNECT then close r
  else if number p =? MSG_KEXINIT then
    if ep_kexinit_received e || ep_newkeys_sent e || ep_newkeys_received e then close r
    else
      let r := set x (with_kex (ep_kexinit_sent e) true (ep_newkeys_sent e) (ep_newkeys_received e) e) r in
      if ep_kexinit_sent e then r else SendKexInit x r
  else if number p =? MSG_NEWKEYS then
    if ep_kexinit_sent e && ep_kexinit_received e && ep_newkeys_sent e && negb (ep_newkeys_received e) then
      set x (ResetIfComplete (with_kex (ep_kexinit_sent e) (ep_kexinit_received e) (ep_newkeys_sent e) true e)) r
    else close r
  else if number p =? MSG_ECDH_KEX_INIT then
    match x with Client => if between && negb (ep_newkeys_received e) then SendNewKeys x r else close r | Target => close r end
  else if number p =? MSG_ECDH_KEX_INIT_REPLY then
    match x with Target => if between && negb (ep_newkeys_received e) then SendNewKeys x r else close r | Client => close r end
  else r.

(** src/ssh/Connection.cxx:915-958 OnInputReady(): the loop *)
Fixpoint read_loop (x : side) (l : list bytes) (r : relay) : relay :=
  if negb (rl_alive r) then r
  else
    let e := get x r in
    if ep_read_blocked e then set x (with_reading false true true (ep_resume e) e) r
    else
      match l with
      | [] => set x (with_reading true false false (ep_resume e) e) r
      | p :: l' =>
          read_loop x l'
            (let r := HandlePacket x p r in
             let e := get x r in
             set x (with_input (ep_raw e) (ep_job e) l' (ep_done e) e) r)
      end.
Definition OnInputReady (x : side) (r : relay) : relay := read_loop x (ep_list (get x r)) r.

Inductive rop :=
| RReceive (x : side) (l : list bytes)   (* the socket delivers these packets *)
| RWork (x : side)                       (* Input::Run() in the worker thread *)
| RDone (x : side)                       (* Input::Done() in the main thread *)
| RResume (x : side)                     (* OnResumeInput() *)
| RWrite (x : side) (full : bool)        (* OnBufferedWrite(); does the socket block? *)
| RRekey (x : side)                      (* the rekey timer: InitiateRekey() *)
| RHangup (x : side)                     (* OnBufferedHangup() *)
| REnd.                                  (* an error, a timeout, the end of the socket *)

(** RReceive: src/ssh/Connection.cxx:858-865, src/ssh/Input.cxx:86-111 Feed();
    RWork, RDone: Input.cxx:222-312; RResume: Connection.hxx:366-368;
    RWrite: Connection.cxx:868-899 (the socket is closed in between if Flush()
    fails: [REnd]); RRekey: Connection.cxx:117-128 InitiateRekey(); RHangup: lines 802-820. *)
Definition rstep (op : rop) (r : relay) : relay :=
  if negb (rl_alive r) then r
  else
    match op with
    | RReceive x l =>
        let e := get x r in
        if ep_reading e then set x (with_input (ep_raw e ++ l) true (ep_list e) (ep_done e) e) r else r
    | RWork x =>
        let e := get x r in
        if ep_job e then set x (with_input [] false (ep_list e ++ ep_raw e) true e) r else r
    | RDone x =>
        let e := get x r in
        if ep_done e then
          let r := set x (with_input (ep_raw e) (ep_job e) (ep_list e) false e) r in
          match ep_list e with [] => r | _ => OnInputReady x r end
        else r
    | RResume x =>
        let e := get x r in
        if ep_resume e then
          OnInputReady x (set x (with_reading (ep_reading e) (ep_read_blocked e) (ep_input_ready e) false e) r)
        else r
    | RWrite x full =>
        let e := get x r in
        let was := ep_write_blocked e in
        let r := set x (with_write_blocked false e) r in
        let r := if was && negb (IsRekeying e) then OnWriteUnblocked x r else r in
        if full then
          let e := get x r in
          let r := set x (with_write_blocked true e) r in
          if negb (IsRekeying e) then OnWriteBlocked x r else r
        else r
    | RRekey x =>
        let e := get x r in
        if negb (ep_kexinit_sent e) && negb (ep_kexinit_received e) && negb (ep_newkeys_sent e) && negb (ep_newkeys_received e)
        then SendKexInit x r else r
    | RHangup x => if ep_read_blocked (get x r) then close r else r
    | REnd => close r
    end.

(** The two connections when the handlers are created
    (src/Connection.cxx:171-180, 1414-1418): reading, nothing waits; either may
    be in the middle of a key exchange, or its socket may be full. *)
Definition new_end (write_blocked ks kr ns nr : bool) : end_point :=
  mk_end [] false [] false true false false false write_blocked ks kr ns nr.
Definition new_relay (client target : end_point) : relay :=
  {| rl_client := client; rl_target := target; rl_relayed := []; rl_handled := []; rl_alive := true |}.

Definition rrun (client target : end_point) (ops : list rop) : relay :=
  fold_left (fun r op => rstep op r) ops (new_relay client target).
