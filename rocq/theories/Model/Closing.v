(** Model of the end of an encrypted connection: what
    SSH::Connection::DoDisconnect() and SSH::Connection::OnBufferedWrite()
    do with the output.

    Simplifications: only the steps that touch the output are modelled
    (timeouts, OnDisconnecting() callbacks and reads are not; a peer that
    stops reading runs into the one second write timeout and is not modelled
    here); [payload] stands for the already padded DISCONNECT packet. *)

From Coq Require Import NArith List Bool.
From Verif.Base Require Import Bytes.
From Verif.Model Require Import Queue Output.
Import ListNotations.
Open Scope N_scope.

Section Closing.

Variable C : Type.
Variable encrypt : C -> N -> bytes -> option (C * bytes).

(** the members of SSH::Connection that matter here
    (src/ssh/Connection.hxx:67-137); [disposed]: the disposer has been
    called, i.e. the socket has been closed *)
Record conn := { k_out : ostate C; k_dead : bool; k_disposed : bool }.

Definition new_conn : conn := {| k_out := new_output C; k_dead := false; k_disposed := false |}.

Inductive cop :=
| Output (o : op C)              (* any step of the output except Flush() *)
| DoDisconnect (payload : bytes)
| OnBufferedWrite (k : option N). (* the result of the vectored write *)

Inductive cresult :=
| COk (s : conn) (written : bytes)
| CDisabled
| CFailed.                       (* thrown or failed assertion *)

Definition lift (s : conn) (dead : bool) (r : result C) : cresult :=
  match r with
  | Ok _ o b => COk {| k_out := o; k_dead := dead; k_disposed := k_disposed s |} b
  | Disabled _ => CDisabled
  | _ => CFailed
  end.

Definition cstep (s : conn) (o : cop) : cresult :=
  if k_disposed s then CDisabled
  else match o with
  | Output (Flush _ _) => CDisabled
  | Output (Push _ p) =>
      (* src/ssh/Connection.cxx:139-142 SendPacket() asserts !IsDead() *)
      if k_dead s then CDisabled else lift s (k_dead s) (step C encrypt (k_out s) (Push C p))
  | Output o => lift s (k_dead s) (step C encrypt (k_out s) o)
  | DoDisconnect p =>
      (* src/ssh/Connection.cxx:183-211 *)
      if k_dead s then COk s []
      else if o_encrypted C (k_out s) then lift s true (step C encrypt (k_out s) (Push C p))
      else CDisabled (* unencrypted: see [disconnect_plain] *)
  | OnBufferedWrite k =>
      (* src/ssh/Connection.cxx:868-882 *)
      match step C encrypt (k_out s) (Flush C k) with
      | Ok _ out b =>
          COk {| k_out := out; k_dead := k_dead s;
                 k_disposed := flush_done C out && k_dead s && IsEmpty C out |} b
      | Disabled _ => CDisabled
      | _ => CFailed
      end
  end.

(** src/ssh/Connection.cxx:183-227 on an unencrypted connection: one
    attempt to write, then the socket is closed. *)
Definition disconnect_plain (s : conn) (p : bytes) (k : option N) : cresult :=
  match step C encrypt (k_out s) (Push C p) with
  | Ok _ out _ =>
      match step C encrypt out (Flush C k) with
      | Ok _ out b => COk {| k_out := out; k_dead := k_dead s; k_disposed := true |} b
      | Disabled _ => CDisabled
      | _ => CFailed
      end
  | _ => CFailed
  end.

End Closing.
