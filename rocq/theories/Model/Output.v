(** Model of class SSH::Output (src/ssh/Output.hxx, src/ssh/Output.cxx): the
    main thread and the encryption worker as one transition system.

    Threads: every critical section (protected by [mutex]) is one step, and
    the unprotected stretch of Run() between its two critical sections is
    one step per packet; it only touches [cipher], [seq] and local
    variables.  Any interleaving of the steps is a sequence of [op]s.

    Thread queue (libcommon, thread/Queue.hxx; not in this checkout; see
    DESIGN.md "Contracts"): Add() moves an idle job to the waiting list and
    sets [again] if the job is being run or has just been run; the worker
    runs a waiting job; when the main thread gets to know that a job is
    done, it is queued again if [again] is set, otherwise Done() is called
    and the job is idle. *)

From Coq Require Import NArith List Bool.
From Verif.Base Require Import Bytes.
From Verif.Model Require Import Queue.
Import ListNotations.
Open Scope N_scope.

Section Output.

(** A cipher with its internal state (an object of a subclass of
    src/cipher/Cipher.hxx). *)
Variable C : Type.

(** Cipher::Encrypt(seq, src): the new cipher state and the encrypted
    packet, or [None] if it throws. *)
Variable encrypt : C -> N -> bytes -> option (C * bytes).

(** ThreadJob::State; [JBusy src dest] is a running Run() between its two
    critical sections with its local variables. *)
Inductive ojob :=
| JInitial
| JWaiting
| JBusy (src dest : list bytes)
| JDone.

(** src/ssh/Output.hxx:26-89; [o_encrypted] is [push_cipher != nullptr];
    for postponed_destroy see Model/Lifetime.v. *)
Record ostate := {
  o_seq : N;
  o_cipher : option C;
  o_next_cipher : option C;
  o_encrypted : bool;
  o_pending : SendQueue;
  o_plain : list bytes;
  o_next_plain : list bytes;
  o_enc : list bytes;
  o_error : bool;
  o_auto_reset_seq : bool;
  o_job : ojob;
  o_again : bool
}.

Definition new_output : ostate :=
  {| o_seq := 0; o_cipher := None; o_next_cipher := None; o_encrypted := false;
     o_pending := new_SendQueue; o_plain := []; o_next_plain := []; o_enc := [];
     o_error := false; o_auto_reset_seq := false; o_job := JInitial; o_again := false |}.

(** ThreadQueue::Add() *)
Definition add_job (j : ojob) (again : bool) : ojob * bool :=
  match j with
  | JInitial => (JWaiting, false)
  | JWaiting => (JWaiting, again)
  | _ => (j, true)
  end.

Inductive op :=
| SetCipher (c : C)      (* main thread *)
| AutoResetSeq           (* main thread *)
| Push (src : bytes)     (* main thread *)
| Flush (k : option N)   (* main thread; the result of the vectored write:
                            [Some k]: k bytes written, [None]: would block *)
| RunBegin               (* worker: first critical section of Run() *)
| RunEncrypt             (* worker: one iteration of the loop *)
| RunEnd                 (* worker: second critical section of Run() *)
| Wakeup.                (* main thread: the thread queue reports the job as done *)

Inductive result :=
| Ok (s : ostate) (written : bytes)
| Disabled               (* this step cannot happen in this state *)
| Thrown                 (* the method throws; the connection gets closed *)
| AssertFailed.

(** src/ssh/Output.hxx:111-116 SetCipher() *)
Definition do_SetCipher (s : ostate) (c : C) : result :=
  Ok {| o_seq := o_seq s; o_cipher := o_cipher s; o_next_cipher := Some c; o_encrypted := true;
        o_pending := o_pending s; o_plain := o_plain s; o_next_plain := o_next_plain s;
        o_enc := o_enc s; o_error := o_error s; o_auto_reset_seq := o_auto_reset_seq s;
        o_job := o_job s; o_again := o_again s |} [].

(** src/ssh/Output.hxx:118-120 AutoResetSeq() *)
Definition do_AutoResetSeq (s : ostate) : result :=
  Ok {| o_seq := o_seq s; o_cipher := o_cipher s; o_next_cipher := o_next_cipher s;
        o_encrypted := o_encrypted s;
        o_pending := o_pending s; o_plain := o_plain s; o_next_plain := o_next_plain s;
        o_enc := o_enc s; o_error := o_error s; o_auto_reset_seq := true;
        o_job := o_job s; o_again := o_again s |} [].

(** [seq] is a uint_least64_t *)
Definition next_seq (n : N) : N := (n + 1) mod pow64.

(** src/ssh/Output.cxx:45-70 Push() *)
Definition do_Push (s : ostate) (src : bytes) : result :=
  if o_encrypted s then
    let '(job, again) := add_job (o_job s) (o_again s) in
    match o_next_cipher s with
    | Some _ =>
        Ok {| o_seq := o_seq s; o_cipher := o_cipher s; o_next_cipher := o_next_cipher s;
              o_encrypted := true; o_pending := o_pending s; o_plain := o_plain s;
              o_next_plain := o_next_plain s ++ [src];
              o_enc := o_enc s; o_error := o_error s; o_auto_reset_seq := o_auto_reset_seq s;
              o_job := job; o_again := again |} []
    | None =>
        Ok {| o_seq := o_seq s; o_cipher := o_cipher s; o_next_cipher := None;
              o_encrypted := true; o_pending := o_pending s; o_plain := o_plain s ++ [src];
              o_next_plain := o_next_plain s;
              o_enc := o_enc s; o_error := o_error s; o_auto_reset_seq := o_auto_reset_seq s;
              o_job := job; o_again := again |} []
    end
  else
    Ok {| o_seq := next_seq (o_seq s); o_cipher := o_cipher s; o_next_cipher := o_next_cipher s;
          o_encrypted := false; o_pending := sq_Push (o_pending s) src; o_plain := o_plain s;
          o_next_plain := o_next_plain s;
          o_enc := o_enc s; o_error := o_error s; o_auto_reset_seq := o_auto_reset_seq s;
          o_job := o_job s; o_again := o_again s |} [].

Definition with_pending (s : ostate) (q : SendQueue) (enc : list bytes) : ostate :=
  {| o_seq := o_seq s; o_cipher := o_cipher s; o_next_cipher := o_next_cipher s;
     o_encrypted := o_encrypted s; o_pending := q; o_plain := o_plain s;
     o_next_plain := o_next_plain s;
     o_enc := enc; o_error := o_error s; o_auto_reset_seq := o_auto_reset_seq s;
     o_job := o_job s; o_again := o_again s |}.

(** src/ssh/Output.cxx:72-117 Flush() with the result of WriteV().  A failed
    write (WRITE_ERRNO, WRITE_BROKEN) throws and WRITE_DESTROYED ends the
    connection; both are not modelled as steps. *)
Definition do_Flush (s : ostate) (k : option N) : result :=
  if o_encrypted s && o_error s then Thrown
  else
    let '(q, enc) :=
      if o_encrypted s then (sq_MoveFrom (o_pending s) (o_enc s), [])
      else (o_pending s, o_enc s) in
    match sq_Prepare q 32 with
    | None => AssertFailed
    | Some [] => Ok (with_pending s q enc) []
    | Some v =>
        match k with
        | None => Ok (with_pending s q enc) []
        | Some k =>
            if len (concat v) <? k then Disabled
            else match sq_Consume q k with
                 | None => AssertFailed
                 | Some q => Ok (with_pending s q enc) (take k (concat v))
                 end
        end
    end.

(** src/ssh/Output.cxx:76-81,112-116: FlushResult::DONE is returned if and
    only if the pending queue is empty afterwards. *)
Definition flush_done (s : ostate) : bool := sq_empty (o_pending s).

(** src/ssh/Output.hxx:100-105 IsEmpty() *)
Definition IsEmpty (s : ostate) : bool :=
  sq_empty (o_pending s) &&
  match o_plain s, o_next_plain s, o_enc s with
  | [], [], [] => true
  | _, _, _ => false
  end.

(** src/ssh/Output.cxx:122-137 Run(), first critical section *)
Definition do_RunBegin (s : ostate) : result :=
  match o_job s with
  | JWaiting =>
      let switch := match o_plain s, o_next_cipher s with
                    | [], Some c => Some c
                    | _, _ => None
                    end in
      match switch with
      | Some c =>
          Ok {| o_seq := if o_auto_reset_seq s then 0 else o_seq s;
                o_cipher := Some c; o_next_cipher := None;
                o_encrypted := o_encrypted s; o_pending := o_pending s;
                o_plain := []; o_next_plain := [];
                o_enc := o_enc s; o_error := o_error s; o_auto_reset_seq := o_auto_reset_seq s;
                o_job := JBusy (o_next_plain s) []; o_again := o_again s |} []
      | None =>
          Ok {| o_seq := o_seq s; o_cipher := o_cipher s; o_next_cipher := o_next_cipher s;
                o_encrypted := o_encrypted s; o_pending := o_pending s;
                o_plain := []; o_next_plain := o_next_plain s;
                o_enc := o_enc s; o_error := o_error s; o_auto_reset_seq := o_auto_reset_seq s;
                o_job := JBusy (o_plain s) []; o_again := o_again s |} []
      end
  | _ => Disabled
  end.

(** src/ssh/Output.cxx:139-143 Run(), one iteration of the loop, including
    EncryptPacket() (32-43).  An exception ends Run() (152-155). *)
Definition do_RunEncrypt (s : ostate) : result :=
  match o_job s with
  | JBusy (p :: src) dest =>
      match o_cipher s with
      | None => AssertFailed
      | Some c =>
          match encrypt c (o_seq s) p with
          | Some (c, b) =>
              Ok {| o_seq := next_seq (o_seq s); o_cipher := Some c;
                    o_next_cipher := o_next_cipher s;
                    o_encrypted := o_encrypted s; o_pending := o_pending s;
                    o_plain := o_plain s; o_next_plain := o_next_plain s;
                    o_enc := o_enc s; o_error := o_error s;
                    o_auto_reset_seq := o_auto_reset_seq s;
                    o_job := JBusy src (dest ++ [b]); o_again := o_again s |} []
          | None =>
              Ok {| o_seq := o_seq s; o_cipher := o_cipher s;
                    o_next_cipher := o_next_cipher s;
                    o_encrypted := o_encrypted s; o_pending := o_pending s;
                    o_plain := o_plain s; o_next_plain := o_next_plain s;
                    o_enc := o_enc s; o_error := true;
                    o_auto_reset_seq := o_auto_reset_seq s;
                    o_job := JDone; o_again := o_again s |} []
          end
      end
  | _ => Disabled
  end.

(** src/ssh/Output.cxx:145-151 Run(), second critical section *)
Definition do_RunEnd (s : ostate) : result :=
  match o_job s with
  | JBusy [] dest =>
      Ok {| o_seq := o_seq s; o_cipher := o_cipher s; o_next_cipher := o_next_cipher s;
            o_encrypted := o_encrypted s; o_pending := o_pending s;
            o_plain := o_plain s; o_next_plain := o_next_plain s;
            o_enc := o_enc s ++ dest; o_error := o_error s;
            o_auto_reset_seq := o_auto_reset_seq s;
            o_job := JDone;
            o_again := match o_plain s, o_next_plain s with
                       | [], _ :: _ => true
                       | _, _ => o_again s
                       end |} []
  | _ => Disabled
  end.

(** ThreadQueue::WakeupCallback(); Output::Done() (src/ssh/Output.cxx:157-166)
    only schedules a write event *)
Definition do_Wakeup (s : ostate) : result :=
  match o_job s with
  | JDone =>
      Ok {| o_seq := o_seq s; o_cipher := o_cipher s; o_next_cipher := o_next_cipher s;
            o_encrypted := o_encrypted s; o_pending := o_pending s;
            o_plain := o_plain s; o_next_plain := o_next_plain s;
            o_enc := o_enc s; o_error := o_error s;
            o_auto_reset_seq := o_auto_reset_seq s;
            o_job := if o_again s then JWaiting else JInitial;
            o_again := false |} []
  | _ => Disabled
  end.

Definition step (s : ostate) (o : op) : result :=
  match o with
  | SetCipher c => do_SetCipher s c
  | AutoResetSeq => do_AutoResetSeq s
  | Push src => do_Push s src
  | Flush k => do_Flush s k
  | RunBegin => do_RunBegin s
  | RunEncrypt => do_RunEncrypt s
  | RunEnd => do_RunEnd s
  | Wakeup => do_Wakeup s
  end.

End Output.

