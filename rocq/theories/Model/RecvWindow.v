(** * The receive window of session channels and forwarded connections

    src/ssh/Channel.cxx, src/ssh/CSupport.cxx, src/SessionChannel.cxx,
    src/SocketChannel.cxx: a channel with its buffer (Model/Buffered.v), and how
    much the peer may send. *)

From Coq Require Import NArith List Bool.
From Verif.Base Require Import Bytes.
From Verif.Model Require Import Wire Buffered.
Import ListNotations.
Open Scope N_scope.

(** src/SessionChannel.hxx:27, src/SocketChannel.hxx:20 *)
Definition RECEIVE_WINDOW : N := 1048576.

(** The channel, with its destination. *)
Record wch {D : Type} := {
  w_dst : D;
  w_window : N;          (* Channel::receive_window *)
  w_adjusts : list N;    (* CHANNEL_WINDOW_ADJUST sent so far *)
  w_dropped : N;         (* history: bytes which were taken from the buffer and do not count *)
  w_broken : bool        (* an assertion has failed *)
}.
Arguments wch : clear implicits.

Definition new_channel {D} (d : D) : wch D := {| w_dst := d; w_window := RECEIVE_WINDOW; w_adjusts := []; w_dropped := 0; w_broken := false |}.
Definition w_set_dst {D} (d : D) (w : wch D) : wch D :=
  {| w_dst := d; w_window := w_window w; w_adjusts := w_adjusts w; w_dropped := w_dropped w; w_broken := w_broken w |}.

(** src/ssh/Channel.cxx:90-96; std::size_t has 64 bits *)
Definition ConsumeReceiveWindow {D} (dbg : bool) (n : N) (w : wch D) : wch D :=
  {| w_dst := w_dst w; w_window := (w_window w + pow64 - n) mod pow64; w_adjusts := w_adjusts w; w_dropped := w_dropped w;
     w_broken := w_broken w || (dbg && (w_window w <? n)) |}.

(** src/ssh/Channel.cxx:98-107 *)
Definition SendWindowAdjust {D} (dbg : bool) (n : N) (w : wch D) : wch D :=
  {| w_dst := w_dst w; w_window := (w_window w + n) mod pow64; w_adjusts := w_adjusts w ++ [n]; w_dropped := w_dropped w;
     w_broken := w_broken w || (dbg && ((n =? 0) || (pow64 - 1 - w_window w <? n))) |}.

(** src/SessionChannel.cxx:175-176, src/SocketChannel.cxx:62-63 *)
Definition replenish {D} (dbg : bool) (n : N) (w : wch D) : wch D :=
  let w := ConsumeReceiveWindow dbg n w in
  if w_window w <? RECEIVE_WINDOW / 2 then SendWindowAdjust dbg (RECEIVE_WINDOW - w_window w) w else w.

Section Windowed.
  (** OnBufferedData(): the number of consumed bytes, and whether it calls
      ConsumeReceiveWindow(); OnBufferedEof() *)
  Context {D : Type} (on_data : D -> bytes -> N * bool * D) (on_eof : D -> D).

  Definition wdata (dbg : bool) (w : wch D) (p : bytes) : N * wch D :=
    let '(n, counts, d) := on_data (w_dst w) p in
    let w := w_set_dst d w in
    (n, if counts then replenish dbg n w
        else {| w_dst := d; w_window := w_window w; w_adjusts := w_adjusts w; w_dropped := w_dropped w + n; w_broken := w_broken w |}).
  Definition weof (w : wch D) : wch D := w_set_dst (on_eof (w_dst w)) w.

  Record wst := {
    ws_ch : bch (D:=wch D);
    ws_rejected : bool    (* "Receive window exceeded": the connection is closed *)
  }.
  Definition wst_init (d : D) : wst := {| ws_ch := bc_init (new_channel d); ws_rejected := false |}.

  Inductive wop :=
  | WData (p : bytes)     (* CHANNEL_DATA *)
  | WExt (p : bytes)      (* CHANNEL_EXTENDED_DATA *)
  | WEof                  (* CHANNEL_EOF *)
  | WRead                 (* the destination calls ReadBuffer() *)
  | WOther (f : D -> D).  (* anything else happens to the destination *)

  Definition stopped (s : wst) : bool := ws_rejected s || bc_assert (ws_ch s) || w_broken (bc_dst (ws_ch s)).
  Definition window (s : wst) : N := w_window (bc_dst (ws_ch s)).
  Definition on_ch (f : bch -> bch) (s : wst) : wst := {| ws_ch := f (ws_ch s); ws_rejected := ws_rejected s |}.
  Definition reject (s : wst) : wst := {| ws_ch := ws_ch s; ws_rejected := true |}.

  Definition wstep (dbg : bool) (s : wst) (o : wop) : wst :=
    let b := bstep (wdata dbg) weof dbg in
    if stopped s then s else
    match o with
    | WData p =>
        (* src/ssh/CSupport.cxx:417-427 *)
        if window s <? len p then reject s else on_ch (fun c => b c (BData p)) s
    | WExt p =>
        (* src/ssh/CSupport.cxx:429-439, src/ssh/Channel.cxx:253-258, which is
           not overridden *)
        if window s <? len p then reject s else on_ch (fun c => b c (BOther (ConsumeReceiveWindow dbg (len p)))) s
    | WEof => on_ch (fun c => b c BEof) s
    | WRead => on_ch (fun c => b c BRead) s
    | WOther f => on_ch (fun c => b c (BOther (fun w => w_set_dst (f (w_dst w)) w))) s
    end.
End Windowed.
Arguments wst : clear implicits.
Arguments wop : clear implicits.

(** ** Sessions *)

(** src/SessionChannel.cxx:132-179: only a successful write() counts *)
Definition session_data (d : stdin) (p : bytes) : N * bool * stdin :=
  let '(n, d') := stdin_data d p in
  (n, i_enabled d && i_destination d && match hd Again (i_answers d) with Wrote _ => true | _ => false end, d').

Inductive sop := SIn (o : iop) | SExt (p : bytes).

(** like [istep] *)
Definition sstep (dbg : bool) (s : wst stdin) (o : sop) : wst stdin :=
  let step := wstep session_data stdin_eof dbg in
  let d := w_dst (bc_dst (ws_ch s)) in
  match o with
  | SExt p => step s (WExt p)
  | SIn (InData p a) => step (step s (WOther (i_set_answers a))) (WData p)
  | SIn InEof => step s WEof
  | SIn InPty => match i_pipe d, i_enabled d with PNone, false => step s (WOther stdin_tty) | _, _ => s end
  | SIn InPipes => if i_tty d then s else step s (WOther stdin_open)
  | SIn InEnable => match i_pipe d, i_tty d with PNone, false => s | _, _ => step s (WOther stdin_enable) end
  | SIn (InReady a) =>
      if i_sched d then step (step (step s (WOther (i_set_answers a))) (WOther (i_schedule false))) WRead else s
  end.
Definition sruns (dbg : bool) (ops : list sop) : wst stdin := fold_left (sstep dbg) ops (wst_init stdin_init).

(** ** Forwarded connections *)

Record ksock := {
  k_sched : bool;            (* is WRITE scheduled? *)
  k_written : list bytes;    (* to the socket *)
  k_shut : N;                (* calls of ShutdownWrite() *)
  k_failed : bool;           (* an exception: the connection is closed *)
  k_answers : list answer    (* of the kernel to coming writes *)
}.
Definition ksock_init : ksock := {| k_sched := false; k_written := []; k_shut := 0; k_failed := false; k_answers := [] |}.
Definition k_set_answers (a : list answer) (d : ksock) : ksock :=
  {| k_sched := k_sched d; k_written := k_written d; k_shut := k_shut d; k_failed := k_failed d; k_answers := a |}.
Definition k_schedule (b : bool) (d : ksock) : ksock :=
  {| k_sched := b; k_written := k_written d; k_shut := k_shut d; k_failed := k_failed d; k_answers := k_answers d |}.

(** src/SocketChannel.cxx:36-66 OnBufferedData().  After an exception nothing
    else happens. *)
Definition socket_data (d : ksock) (p : bytes) : N * bool * ksock :=
  let d' := k_set_answers (tl (k_answers d)) d in
  if k_failed d then (0, false, d) else
  match hd Again (k_answers d) with
  | Again => (0, false, k_schedule true d')
  | Failed => (0, false, {| k_sched := k_sched d; k_written := k_written d; k_shut := k_shut d; k_failed := true; k_answers := k_answers d' |})
  | Wrote n =>
      let n := N.min n (len p) in
      (n, true, {| k_sched := if n <? len p then true else k_sched d; k_written := k_written d ++ [take n p]; k_shut := k_shut d; k_failed := k_failed d; k_answers := k_answers d' |})
  end.
(** src/SocketChannel.cxx:68-72 OnBufferedEof() *)
Definition socket_eof (d : ksock) : ksock :=
  {| k_sched := k_sched d; k_written := k_written d; k_shut := k_shut d + 1; k_failed := k_failed d; k_answers := k_answers d |}.

Inductive kop := KData (p : bytes) (a : list answer) | KExt (p : bytes) | KEof | KReady (a : list answer).

(** src/SocketChannel.cxx:88-102: OnSocketReady() with WRITE *)
Definition kstep (dbg : bool) (s : wst ksock) (o : kop) : wst ksock :=
  let step := wstep socket_data socket_eof dbg in
  let d := w_dst (bc_dst (ws_ch s)) in
  if k_failed d then s else
  match o with
  | KData p a => step (step s (WOther (k_set_answers a))) (WData p)
  | KExt p => step s (WExt p)
  | KEof => step s WEof
  | KReady a => if k_sched d then step (step (step s (WOther (k_set_answers a))) (WOther (k_schedule false))) WRead else s
  end.
Definition kruns (dbg : bool) (ops : list kop) : wst ksock := fold_left (kstep dbg) ops (wst_init ksock_init).
