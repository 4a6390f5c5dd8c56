(** Model of src/ssh/BufferedChannel.cxx: incoming channel data on its way to
    a destination which accepts it in portions, and of the destination which
    SessionChannel implements (the standard input of the program).

    Contract of libcommon's BufferQueue: a sequence of the pushed chunks;
    Read() returns the unconsumed rest of the first one, Consume() removes
    bytes from its beginning. *)

From Coq Require Import NArith List Bool.
From Verif.Base Require Import Bytes.
Import ListNotations.
Open Scope N_scope.

(** ** class BufferedChannel *)

Section Buffered.
  (** the state of the destination, and the two virtual methods
      OnBufferedData() (with the number of bytes it consumed) and
      OnBufferedEof(): src/ssh/BufferedChannel.hxx:41-49 *)
  Context {D : Type} (on_data : D -> bytes -> N * D) (on_eof : D -> D).

  Record bch := {
    bc_queue : list bytes;
    bc_eof : bool;      (* eof_pending *)
    bc_dst : D;
    bc_assert : bool    (* an assertion has failed *)
  }.

  Definition bc_init (d : D) : bch := {| bc_queue := []; bc_eof := false; bc_dst := d; bc_assert := false |}.
  Definition bfail (s : bch) : bch :=
    {| bc_queue := bc_queue s; bc_eof := bc_eof s; bc_dst := bc_dst s; bc_assert := true |}.

  (** src/ssh/BufferedChannel.cxx:9-22 *)
  Definition OnData (dbg : bool) (payload : bytes) (s : bch) : bch :=
    if dbg && bc_eof s then bfail s
    else
      match bc_queue s with
      | [] =>
          let '(n, d) := on_data (bc_dst s) payload in
          {| bc_queue := if n <? len payload then [drop n payload] else [];
             bc_eof := bc_eof s; bc_dst := d; bc_assert := bc_assert s |}
      | q => {| bc_queue := q ++ [payload]; bc_eof := bc_eof s; bc_dst := bc_dst s; bc_assert := bc_assert s |}
      end.

  (** src/ssh/BufferedChannel.cxx:24-33 *)
  Definition OnEof (dbg : bool) (s : bch) : bch :=
    if dbg && bc_eof s then bfail s
    else
      match bc_queue s with
      | [] => {| bc_queue := []; bc_eof := bc_eof s; bc_dst := on_eof (bc_dst s); bc_assert := bc_assert s |}
      | q => {| bc_queue := q; bc_eof := true; bc_dst := bc_dst s; bc_assert := bc_assert s |}
      end.

  (** src/ssh/BufferedChannel.cxx:38-45: the loop.  What is left. *)
  Fixpoint read_queue (q : list bytes) (d : D) : list bytes * D :=
    match q with
    | [] => ([], d)
    | payload :: rest =>
        let '(n, d) := on_data d payload in
        if n <? len payload then (drop n payload :: rest, d) else read_queue rest d
    end.

  (** src/ssh/BufferedChannel.cxx:35-51 *)
  Definition ReadBuffer (s : bch) : bch :=
    let '(q, d) := read_queue (bc_queue s) (bc_dst s) in
    match q with
    | [] =>
        if bc_eof s
        then {| bc_queue := []; bc_eof := false; bc_dst := on_eof d; bc_assert := bc_assert s |}
        else {| bc_queue := []; bc_eof := false; bc_dst := d; bc_assert := bc_assert s |}
    | _ => {| bc_queue := q; bc_eof := bc_eof s; bc_dst := d; bc_assert := bc_assert s |}
    end.

  (** What happens to such an object: packets, the destination calling
      ReadBuffer(), and anything else happening to the destination. *)
  Inductive bop :=
  | BData (payload : bytes)
  | BEof
  | BRead
  | BOther (f : D -> D).

  Definition bstep (dbg : bool) (s : bch) (o : bop) : bch :=
    if bc_assert s then s else
    match o with
    | BData p => OnData dbg p s
    | BEof => OnEof dbg s
    | BRead => ReadBuffer s
    | BOther f => {| bc_queue := bc_queue s; bc_eof := bc_eof s; bc_dst := f (bc_dst s); bc_assert := bc_assert s |}
    end.
  Definition bruns (dbg : bool) (d : D) (ops : list bop) : bch := fold_left (bstep dbg) ops (bc_init d).
End Buffered.

(** ** The standard input of a program: src/SessionChannel.cxx *)

Inductive pstate := PNone | POpen | PClosed.

(** result of write() *)
Inductive answer := Wrote (n : N) | Again | Failed.

Inductive fate :=
| Written (d : bytes)    (* to the program *)
| Discarded (d : bytes). (* no destination *)

Record stdin := {
  i_enabled : bool;     (* stdin_enabled *)
  i_deferred : bool;    (* stdin_deferred *)
  i_pipe : pstate;      (* stdin_pipe *)
  i_tty : bool;         (* tty.IsDefined() *)
  i_sched : bool;       (* is WRITE scheduled on the pipe (or else on the tty)? *)
  i_ended : bool;       (* has the pipe been closed by OnBufferedEof()? *)
  i_fate : list fate;   (* oldest first *)
  i_answers : list answer  (* of the kernel to coming writes *)
}.

Definition stdin_init : stdin :=
  {| i_enabled := false; i_deferred := false; i_pipe := PNone; i_tty := false; i_sched := false;
     i_ended := false; i_fate := []; i_answers := [] |}.

Definition i_add (f : fate) (d : stdin) : stdin :=
  {| i_enabled := i_enabled d; i_deferred := i_deferred d; i_pipe := i_pipe d; i_tty := i_tty d; i_sched := i_sched d;
     i_ended := i_ended d; i_fate := i_fate d ++ [f]; i_answers := i_answers d |}.
Definition i_schedule (b : bool) (d : stdin) : stdin :=
  {| i_enabled := i_enabled d; i_deferred := i_deferred d; i_pipe := i_pipe d; i_tty := i_tty d; i_sched := b;
     i_ended := i_ended d; i_fate := i_fate d; i_answers := i_answers d |}.
Definition i_defer (d : stdin) : stdin :=
  {| i_enabled := i_enabled d; i_deferred := true; i_pipe := i_pipe d; i_tty := i_tty d; i_sched := i_sched d;
     i_ended := i_ended d; i_fate := i_fate d; i_answers := i_answers d |}.
(** PipeEvent::Close(); nothing to close if it is not defined *)
Definition i_close (d : stdin) : stdin :=
  match i_pipe d with
  | POpen =>
      {| i_enabled := i_enabled d; i_deferred := i_deferred d; i_pipe := PClosed; i_tty := i_tty d; i_sched := false;
         i_ended := i_ended d; i_fate := i_fate d; i_answers := i_answers d |}
  | _ => d
  end.
Definition i_set_answers (l : list answer) (d : stdin) : stdin :=
  {| i_enabled := i_enabled d; i_deferred := i_deferred d; i_pipe := i_pipe d; i_tty := i_tty d; i_sched := i_sched d;
     i_ended := i_ended d; i_fate := i_fate d; i_answers := l |}.

Definition i_destination (d : stdin) : bool :=
  match i_pipe d with POpen => true | _ => i_tty d end.

(** src/SessionChannel.cxx:132-179 OnBufferedData(), without the receive
    window (Model/Channels.v) *)
Definition stdin_data (d : stdin) (p : bytes) : N * stdin :=
  if negb (i_enabled d) then (0, i_defer d)
  else if negb (i_destination d) then (len p, i_add (Discarded p) d)
  else
    let d' := i_set_answers (tl (i_answers d)) d in
    match hd Again (i_answers d) with
    | Again => (0, i_schedule true d')
    | Failed => (len p, i_add (Discarded p) (i_close d'))
    | Wrote n =>
        let n := N.min n (len p) in
        (n, i_add (Written (take n p)) (if n <? len p then i_schedule true d' else d'))
    end.

(** src/SessionChannel.cxx:181-185 OnBufferedEof() *)
Definition stdin_eof (d : stdin) : stdin :=
  match i_pipe d with
  | POpen =>
      let d := i_close d in
      {| i_enabled := i_enabled d; i_deferred := i_deferred d; i_pipe := i_pipe d; i_tty := i_tty d; i_sched := i_sched d;
         i_ended := true; i_fate := i_fate d; i_answers := i_answers d |}
  | _ => d
  end.

(** src/SessionChannel.cxx:216-239 PreparePipes(): stdin_pipe.Open() *)
Definition stdin_open (d : stdin) : stdin :=
  match i_pipe d with
  | PNone =>
      {| i_enabled := i_enabled d; i_deferred := i_deferred d; i_pipe := POpen; i_tty := i_tty d; i_sched := false;
         i_ended := i_ended d; i_fate := i_fate d; i_answers := i_answers d |}
  | _ => d
  end.
(** src/SessionChannel.cxx:801-812 a "pty-req" *)
Definition stdin_tty (d : stdin) : stdin :=
  {| i_enabled := i_enabled d; i_deferred := i_deferred d; i_pipe := i_pipe d; i_tty := true; i_sched := i_sched d;
     i_ended := i_ended d; i_fate := i_fate d; i_answers := i_answers d |}.
(** src/SessionChannel.hxx:118-134 EnableStdin() *)
Definition stdin_enable (d : stdin) : stdin :=
  {| i_enabled := true; i_deferred := i_deferred d; i_pipe := i_pipe d; i_tty := i_tty d;
     i_sched := if i_deferred d && i_destination d then true else i_sched d;
     i_ended := i_ended d; i_fate := i_fate d; i_answers := i_answers d |}.

Inductive iop :=
| InData (p : bytes) (a : list answer)
| InEof
| InPty
| InPipes
| InEnable
| InReady (a : list answer).   (* the destination has become writable *)

(** [dbg]: with assertions.  A pty is requested before, and instead of, the
    pipes: src/SessionChannel.cxx:300-306; EnableStdin() is called after the
    program was started with one of these (406-420, 477-492, 542-572,
    684-690). *)
Definition istep (dbg : bool) (s : bch (D:=stdin)) (o : iop) : bch (D:=stdin) :=
  let step := bstep stdin_data stdin_eof dbg in
  match o with
  | InData p a => step (step s (BOther (i_set_answers a))) (BData p)
  | InEof => step s BEof
  | InPty =>
      match i_pipe (bc_dst s), i_enabled (bc_dst s) with
      | PNone, false => step s (BOther stdin_tty)
      | _, _ => s
      end
  | InPipes => if i_tty (bc_dst s) then s else step s (BOther stdin_open)
  | InEnable =>
      match i_pipe (bc_dst s), i_tty (bc_dst s) with
      | PNone, false => s
      | _, _ => step s (BOther stdin_enable)
      end
  | InReady a =>
      (* src/SessionChannel.cxx:884-887, 911-919 *)
      if i_sched (bc_dst s)
      then step (step (step s (BOther (i_set_answers a))) (BOther (i_schedule false))) BRead
      else s
  end.
Definition iruns (dbg : bool) (ops : list iop) : bch (D:=stdin) := fold_left (istep dbg) ops (bc_init stdin_init).
