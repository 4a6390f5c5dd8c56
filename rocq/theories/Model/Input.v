(** Model of class SSH::Input (src/ssh/Input.hxx, src/ssh/Input.cxx) and of
    the loop in SSH::Connection::OnInputReady() that uses it: the main
    thread and the decryption worker as one transition system.

    Threads: every critical section (protected by [mutex]) is one step, and
    the unprotected stretch of Run() between its two critical sections is
    one step per iteration.  An access to a variable that is not protected
    by the mutex while the other thread may use it is a data race and has
    its own outcome, [IRace].

    Buffers (libcommon, DefaultFifoBuffer; not in this checkout; see
    DESIGN.md "Contracts"): MoveFrom*() moves some prefix of the source to
    the end of the destination; how much is chosen by the environment. *)

From Coq Require Import NArith List Bool.
From Verif.Base Require Import Bytes.
Import ListNotations.
Open Scope N_scope.

(** src/ssh/Sizes.hxx *)
Definition MAX_PACKET_SIZE : N := 35000.

(** MessageNumber::NEWKEYS (src/ssh/Protocol.hxx) *)
Definition NEWKEYS : N := 21.

Definition is_newkeys (payload : bytes) : bool :=
  match payload with m :: _ => m =? NEWKEYS | [] => false end.

(** PacketHeader::length (src/ssh/Protocol.hxx), a PackedBE32 *)
Definition header_length (h : bytes) : N :=
  match h with a :: b :: c :: d :: _ => un_be32 a b c d | _ => 0 end.

Section Input.

(** A cipher with its internal state (an object of a subclass of
    src/cipher/Cipher.hxx:28-120). *)
Variable C : Type.
Variable auth_size : C -> N.

(** Cipher::DecryptHeader(seq, src), Cipher::DecryptPayload(seq, src): the
    new state and the result, or [None] if it throws. *)
Variable dec_header : C -> N -> bytes -> option (C * bytes).
Variable dec_payload : C -> N -> bytes -> option (C * bytes).

(** ThreadJob::State; [IBusy l nk stop]: Run() between its two critical
    sections with the local variables [unprotected_list] and
    [found_newkeys]; [stop] means that the loop has been left *)
Inductive ijob :=
| IInitial
| IWaiting
| IBusy (l : list bytes) (found_newkeys stop : bool)
| IDone.

(** src/ssh/Input.hxx:30-103; for postponed_destroy see Model/Lifetime.v.  [i_cur]
    and [i_set] describe where the main thread is in OnInputReady():
    [i_cur] is the packet being handled, [i_set] tells whether SetCipher()
    has already been called for it; [i_closed]: ReadPacket() has thrown an
    exception, upon which the connection gets closed. *)
Record istate := {
  i_read_seq : N;
  i_decrypt_seq : N;
  i_packet_length : N;
  i_cipher : option C;
  i_raw : bytes;
  i_unprot : bytes;
  i_list : list bytes;
  i_error : bool;
  i_encrypted : bool;
  i_waiting : bool;
  i_consumed_encrypted : bool;
  i_auto_reset_seq : bool;
  i_job : ijob;
  i_again : bool;
  i_cur : option bytes;
  i_set : bool;
  i_closed : bool
}.

(** src/ssh/Input.hxx:30-103 (initial values).  [decrypt_seq] is not
    initialized by the constructor; 0 stands for any value. *)
Definition new_input : istate :=
  {| i_read_seq := 0; i_decrypt_seq := 0; i_packet_length := 0; i_cipher := None;
     i_raw := []; i_unprot := []; i_list := []; i_error := false; i_encrypted := false;
     i_waiting := false; i_consumed_encrypted := false; i_auto_reset_seq := false;
     i_job := IInitial; i_again := false; i_cur := None; i_set := false; i_closed := false |}.

Inductive iop :=
| Feed (l : bytes)       (* main: [l] is moved from the socket's buffer *)
| Read                   (* main: OnInputReady() calls ReadPacket() *)
| SetCipher (c : C)      (* main: the handler of NEWKEYS *)
| AutoResetSeq           (* main *)
| Consume                (* main: ConsumePacket() *)
| RunBegin (k : N)       (* worker: first critical section; k bytes are moved *)
| RunLoop                (* worker: one iteration of the loop *)
| RunEnd (k : N)         (* worker: second critical section *)
| Wakeup.                (* main: the thread queue reports the job as done *)

(** What the connection sees. *)
Inductive event :=
| Deliver (seq : N) (payload : bytes)    (* ReadPacket() with GetSeq() *)
| NewCipher (c : C) (reset : bool).      (* SetCipher() *)

Inductive iresult :=
| IOk (s : istate) (e : list event)
| IDisabled
| IRace
| IAssert.

Definition upd (s : istate) (read_seq decrypt_seq packet_length : N) (cipher : option C)
  (raw unprot : bytes) (list : list bytes) (error encrypted waiting : bool)
  (job : ijob) (again : bool) : istate :=
  {| i_read_seq := read_seq; i_decrypt_seq := decrypt_seq; i_packet_length := packet_length;
     i_cipher := cipher; i_raw := raw; i_unprot := unprot; i_list := list; i_error := error;
     i_encrypted := encrypted; i_waiting := waiting;
     i_consumed_encrypted := i_consumed_encrypted s; i_auto_reset_seq := i_auto_reset_seq s;
     i_job := job; i_again := again; i_cur := i_cur s; i_set := i_set s;
     i_closed := i_closed s |}.

(** ThreadQueue::Add() *)
Definition add_job (j : ijob) (again : bool) : ijob * bool :=
  match j with
  | IInitial => (IWaiting, false)
  | IWaiting => (IWaiting, again)
  | _ => (j, true)
  end.

Definition inc (n : N) : N := (n + 1) mod pow64.

Definition idle (j : ijob) : bool := match j with IInitial => true | _ => false end.
Definition busy (j : ijob) : bool := match j with IBusy _ _ _ => true | _ => false end.

(** src/ssh/Input.cxx:85-107 Feed() (the call of OnInputReady() is the
    following [Read] step) *)
Definition do_Feed (s : istate) (l : bytes) : iresult :=
  match i_cur s with
  | Some _ => IDisabled (* the main thread handles a packet *)
  | None =>
    let raw := i_raw s ++ l in
    if i_encrypted s then
      let '(job, again) :=
        if negb (match raw with [] => true | _ => false end) && negb (i_waiting s)
        then add_job (i_job s) (i_again s)
        else (i_job s, i_again s) in
      IOk (upd s (i_read_seq s) (i_decrypt_seq s) (i_packet_length s) (i_cipher s)
             raw (i_unprot s) (i_list s) (i_error s) true (i_waiting s) job again) []
    else if negb (idle (i_job s)) then IRace
    else
      IOk (upd s (i_read_seq s) (i_decrypt_seq s) (i_packet_length s) (i_cipher s)
             raw (i_unprot s) (i_list s) (i_error s) false (i_waiting s) (i_job s) (i_again s)) []
  end.

(** src/ssh/Input.cxx:69-83 ParseHeader(): does it accept? *)
Definition length_ok (n : N) : bool := negb (n <? 2) && negb (MAX_PACKET_SIZE <? n).

Definition close (s : istate) : iresult :=
  IOk {| i_read_seq := i_read_seq s; i_decrypt_seq := i_decrypt_seq s;
         i_packet_length := i_packet_length s; i_cipher := i_cipher s; i_raw := i_raw s;
         i_unprot := i_unprot s; i_list := i_list s; i_error := i_error s;
         i_encrypted := i_encrypted s; i_waiting := i_waiting s;
         i_consumed_encrypted := i_consumed_encrypted s;
         i_auto_reset_seq := i_auto_reset_seq s; i_job := i_job s; i_again := i_again s;
         i_cur := i_cur s; i_set := i_set s; i_closed := true |} [].

(** the state after ReadPacket() *)
Definition read_state (s : istate) (packet_length : N) (raw : bytes) (waiting consumed_encrypted : bool)
  (cur : option bytes) : istate :=
  {| i_read_seq := i_read_seq s; i_decrypt_seq := i_decrypt_seq s;
     i_packet_length := packet_length; i_cipher := i_cipher s; i_raw := raw;
     i_unprot := i_unprot s; i_list := i_list s; i_error := i_error s;
     i_encrypted := i_encrypted s; i_waiting := waiting;
     i_consumed_encrypted := consumed_encrypted;
     i_auto_reset_seq := i_auto_reset_seq s; i_job := i_job s; i_again := i_again s;
     i_cur := cur; i_set := false; i_closed := i_closed s |}.

(** src/ssh/Input.cxx:159-181, the second half of ReadUnencryptedPacket(),
    with [packet_length] and the raw buffer after the header *)
Definition read_body (s : istate) (packet_length : N) (raw : bytes) : iresult :=
  if len raw <? packet_length then
    IOk (read_state s packet_length raw (i_waiting s) (i_consumed_encrypted s) None) []
  else
    let padding_length := hd 0 raw in
    if packet_length - 2 <? padding_length then close s
    else
      let payload := take (packet_length - padding_length - 1) (drop 1 (take packet_length raw)) in
      IOk (read_state s 0 (drop packet_length raw)
             (if is_newkeys payload then true else i_waiting s) (i_consumed_encrypted s)
             (Some payload))
          [Deliver (i_read_seq s) payload].

(** src/ssh/Input.cxx:143-213 ReadPacket() *)
Definition do_Read (s : istate) : iresult :=
  match i_cur s with
  | Some _ => IDisabled
  | None =>
    if i_encrypted s then
      (* ReadDecryptedPacket() (183-202) *)
      if i_error s then close s
      else match i_list s with
      | [] =>
          if i_waiting s then IAssert
          else IOk (read_state s (i_packet_length s) (i_raw s) (i_waiting s) true None) []
      | d :: _ =>
          let payload := drop 1 d in
          IOk (read_state s (i_packet_length s) (i_raw s) (i_waiting s) true (Some payload))
              [Deliver (i_read_seq s) payload]
      end
    else if negb (idle (i_job s)) then IRace
    else
      (* ReadUnencryptedPacket() (143-181) *)
      if i_waiting s then IAssert
      else if i_packet_length s =? 0 then
        if len (i_raw s) <? 4 then
          IOk (read_state s 0 (i_raw s) (i_waiting s) (i_consumed_encrypted s) None) []
        else
          let n := header_length (i_raw s) in
          if length_ok n then read_body s n (drop 4 (i_raw s)) else close s
      else read_body s (i_packet_length s) (i_raw s)
  end.

(** src/ssh/Input.cxx:33-67 SetCipher(), called by
    SSH::Connection::HandleNewKeys() (src/ssh/Connection.cxx:542-595) while
    it handles a NEWKEYS packet, once. *)
Definition do_SetCipher (s : istate) (c : C) : iresult :=
  match i_cur s with
  | None => IDisabled
  | Some p =>
    if negb (is_newkeys p) || i_set s then IDisabled
    else if busy (i_job s) then IRace
    else if negb (i_waiting s) then IAssert
    else if negb (i_packet_length s =? 0) then IAssert
    else
      let decrypt_seq := if i_encrypted s then i_decrypt_seq s else inc (i_read_seq s) in
      let decrypt_seq := if i_auto_reset_seq s then 0 else decrypt_seq in
      let read_seq := if i_auto_reset_seq s then pow64 - 1 else i_read_seq s in
      let '(job, again) := add_job (i_job s) (i_again s) in
      IOk {| i_read_seq := read_seq; i_decrypt_seq := decrypt_seq;
             i_packet_length := 0; i_cipher := Some c; i_raw := i_raw s;
             i_unprot := i_unprot s; i_list := i_list s; i_error := i_error s;
             i_encrypted := true; i_waiting := false;
             i_consumed_encrypted := i_consumed_encrypted s;
             i_auto_reset_seq := i_auto_reset_seq s; i_job := job; i_again := again;
             i_cur := i_cur s; i_set := true; i_closed := i_closed s |}
          [NewCipher c (i_auto_reset_seq s)]
  end.

(** src/ssh/Input.hxx:124-126 AutoResetSeq() *)
Definition do_AutoResetSeq (s : istate) : iresult :=
  IOk {| i_read_seq := i_read_seq s; i_decrypt_seq := i_decrypt_seq s;
         i_packet_length := i_packet_length s; i_cipher := i_cipher s; i_raw := i_raw s;
         i_unprot := i_unprot s; i_list := i_list s; i_error := i_error s;
         i_encrypted := i_encrypted s; i_waiting := i_waiting s;
         i_consumed_encrypted := i_consumed_encrypted s;
         i_auto_reset_seq := true; i_job := i_job s; i_again := i_again s;
         i_cur := i_cur s; i_set := i_set s; i_closed := i_closed s |} [].

(** src/ssh/Input.cxx:215-225 ConsumePacket(), called by OnInputReady()
    after the packet has been handled; the handler of NEWKEYS has called
    SetCipher() or has thrown an exception.  (Exception: a NEWKEYS packet
    which is ignored as the guessed packet of a wrong guess,
    src/ssh/Connection.cxx:733-738; see C18.) *)
Definition do_Consume (s : istate) : iresult :=
  match i_cur s with
  | None => IDisabled
  | Some p =>
    if is_newkeys p && negb (i_set s) then IDisabled
    else
      let done (l : list bytes) :=
        IOk {| i_read_seq := inc (i_read_seq s); i_decrypt_seq := i_decrypt_seq s;
               i_packet_length := i_packet_length s; i_cipher := i_cipher s; i_raw := i_raw s;
               i_unprot := i_unprot s; i_list := l; i_error := i_error s;
               i_encrypted := i_encrypted s; i_waiting := i_waiting s;
               i_consumed_encrypted := i_consumed_encrypted s;
               i_auto_reset_seq := i_auto_reset_seq s; i_job := i_job s; i_again := i_again s;
               i_cur := None; i_set := false; i_closed := i_closed s |} [] in
      if i_consumed_encrypted s then
        match i_list s with
        | [] => IAssert
        | _ :: l => done l
        end
      else done (i_list s)
  end.

(** src/ssh/Input.cxx:230-236 Run(), first critical section *)
Definition do_RunBegin (s : istate) (k : N) : iresult :=
  match i_job s with
  | IWaiting =>
      if i_error s || i_waiting s then
        IOk (upd s (i_read_seq s) (i_decrypt_seq s) (i_packet_length s) (i_cipher s)
               (i_raw s) (i_unprot s) (i_list s) (i_error s) (i_encrypted s) (i_waiting s)
               IDone (i_again s)) []
      else
        IOk (upd s (i_read_seq s) (i_decrypt_seq s) (i_packet_length s) (i_cipher s)
               (drop k (i_raw s)) (i_unprot s ++ take k (i_raw s)) (i_list s) (i_error s)
               (i_encrypted s) (i_waiting s) (IBusy [] false false) (i_again s)) []
  | _ => IDisabled
  end.

(** the loop has thrown an exception (src/ssh/Input.cxx:283-286); the
    local list is lost *)
Definition run_error (s : istate) (packet_length : N) (cipher : C) (unprot : bytes) : iresult :=
  IOk (upd s (i_read_seq s) (i_decrypt_seq s) packet_length (Some cipher)
         (i_raw s) unprot (i_list s) true (i_encrypted s) (i_waiting s) IDone (i_again s)) [].

(** the loop ends because more data is needed *)
Definition run_stop (s : istate) (l : list bytes) (nk : bool) (packet_length : N) (cipher : C) : iresult :=
  IOk (upd s (i_read_seq s) (i_decrypt_seq s) packet_length (Some cipher)
         (i_raw s) (i_unprot s) (i_list s) (i_error s) (i_encrypted s) (i_waiting s)
         (IBusy l nk true) (i_again s)) [].

(** src/ssh/Input.cxx:109-141 DecryptPacket() and the rest of the loop's
    body (256-269) *)
Definition run_payload (s : istate) (l : list bytes) (packet_length : N) (c : C) : iresult :=
  let need := 4 + packet_length + auth_size c in
  if len (i_unprot s) <? need then run_stop s l false packet_length c
  else match dec_payload c (i_decrypt_seq s) (take need (i_unprot s)) with
  | None => run_error s packet_length c (i_unprot s)
  | Some (c, r) =>
      if negb (len r =? packet_length) then IAssert
      else
        let padding_length := hd 0 r in
        let unprot := drop need (i_unprot s) in
        if packet_length - 2 <? padding_length then run_error s packet_length c unprot
        else
          let d := take (packet_length - padding_length) r in
          let nk := is_newkeys (drop 1 d) in
          IOk (upd s (i_read_seq s) (inc (i_decrypt_seq s)) 0 (Some c)
                 (i_raw s) unprot (i_list s) (i_error s) (i_encrypted s) (i_waiting s)
                 (IBusy (l ++ [d]) nk nk) (i_again s)) []
  end.

(** src/ssh/Input.cxx:241-269 Run(), one iteration of the loop *)
Definition do_RunLoop (s : istate) : iresult :=
  match i_job s with
  | IBusy l nk false =>
      match i_cipher s with
      | None => IAssert
      | Some c =>
          if i_packet_length s =? 0 then
            if len (i_unprot s) <? 4 then run_stop s l false 0 c
            else match dec_header c (i_decrypt_seq s) (take 4 (i_unprot s)) with
            | None => run_error s 0 c (i_unprot s)
            | Some (c, h) =>
                let n := header_length h in
                if length_ok n then run_payload s l n c
                else run_error s n c (i_unprot s)
            end
          else run_payload s l (i_packet_length s) c
      end
  | _ => IDisabled
  end.

(** src/ssh/Input.cxx:271-282 Run(), second critical section *)
Definition do_RunEnd (s : istate) (k : N) : iresult :=
  match i_job s with
  | IBusy l nk true =>
      if i_waiting s then IAssert
      else
        IOk (upd s (i_read_seq s) (i_decrypt_seq s) (i_packet_length s) (i_cipher s)
               (drop k (i_raw s)) (i_unprot s ++ take k (i_raw s)) (i_list s ++ l) (i_error s)
               (i_encrypted s) nk IDone
               (match i_raw s with [] => i_again s | _ => true end)) []
  | _ => IDisabled
  end.

(** ThreadQueue::WakeupCallback(); Done() (src/ssh/Input.cxx:288-306) only
    leads to [Read] steps *)
Definition do_Wakeup (s : istate) : iresult :=
  match i_job s with
  | IDone =>
      IOk (upd s (i_read_seq s) (i_decrypt_seq s) (i_packet_length s) (i_cipher s)
             (i_raw s) (i_unprot s) (i_list s) (i_error s) (i_encrypted s) (i_waiting s)
             (if i_again s then IWaiting else IInitial) false) []
  | _ => IDisabled
  end.

(** After ReadPacket() has thrown, the connection is closed and the main
    thread does nothing more with this object. *)
Definition istep (s : istate) (o : iop) : iresult :=
  match o with
  | RunBegin k => do_RunBegin s k
  | RunLoop => do_RunLoop s
  | RunEnd k => do_RunEnd s k
  | _ =>
    if i_closed s then IDisabled
    else match o with
    | Feed l => do_Feed s l
    | Read => do_Read s
    | SetCipher c => do_SetCipher s c
    | AutoResetSeq => do_AutoResetSeq s
    | Consume => do_Consume s
    | Wakeup => do_Wakeup s
    | _ => IDisabled
    end
  end.

End Input.
