(** Model of the output side of the two channel classes - src/SessionChannel.cxx
    and src/SocketChannel.cxx - and of the write blocking in
    src/ssh/Connection.cxx that controls it: when is output of a program (or
    data from a socket) read, and what becomes of it.

    One channel of one connection is modelled, which is enough because
    channels do not share anything here; OnWriteBlocked() and
    OnWriteUnblocked() are forwarded to all channels (src/ssh/CSupport.cxx:547-561).
    Every observable effect is appended to a log, newest first.

    Contracts of the kernel and of libcommon's SocketEvent/PipeEvent:
    - read() on a pipe, tty or socket returns as much as is available and
      fits; with nothing available it returns 0 (or an error) after all
      writers are gone.
    - An event object which was canceled completely is not registered and
      never called.  One whose READ was canceled with CancelRead() still gets
      HANGUP (SessionChannel.hxx:230-234 says so); READ is reported only if
      scheduled.

    Not modelled: errors reported by read() while a writer exists, ERROR
    events (they close a SocketChannel), and starting a second program while
    pipes of the first are still open. *)

From Coq Require Import NArith List Bool.
From Verif.Base Require Import Bytes.
From Verif.Model Require Import Wire.
Import ListNotations.
Open Scope N_scope.

(** where data comes from *)
Inductive src := Stdout | Stderr | Tty | Sock.

(** why unread data was discarded *)
Inductive lcause :=
| LHangup       (* a HANGUP event closed the tty *)
| LZeroWindow   (* read() was called with an empty buffer *)
| LRejected     (* SetStderrString() *)
| LPeerClosed.  (* the channel was closed by the peer, or with the connection *)

Inductive iev :=
| IProduced (s : src) (d : bytes)  (* the program wrote *)
| ISent (s : src) (d : bytes)      (* CHANNEL_DATA / CHANNEL_EXTENDED_DATA *)
| ILost (s : src) (d : bytes) (c : lcause)
| IEnded (s : src)                 (* our end was closed *)
| ISentEof
| ISentExit                        (* exit-status or exit-signal *)
| IClosed                          (* CHANNEL_CLOSE *)
| IAdjusted (k : N)                (* CHANNEL_WINDOW_ADJUST received *)
| IStarted                         (* a program was started *)
| IKexInit                         (* KEXINIT sent on an encrypted connection *)
| INewKeys                         (* NEWKEYS sent *)
| IAssertFailed.

(** a pipe, a tty or a socket, and its event object: is it open, is it
    registered with the event loop, is READ scheduled, what can be read, and
    are all writers gone *)
Record source := {
  so_open : bool;
  so_reg : bool;
  so_read : bool;
  so_data : bytes;
  so_eof : bool
}.

Definition no_source : source :=
  {| so_open := false; so_reg := false; so_read := false; so_data := []; so_eof := false |}.
Definition new_source (d : bytes) (eof : bool) : source :=
  {| so_open := true; so_reg := false; so_read := false; so_data := d; so_eof := eof |}.

Definition schedule_read (x : source) : source :=
  if so_open x
  then {| so_open := true; so_reg := true; so_read := true; so_data := so_data x; so_eof := so_eof x |}
  else x.
(** PipeEvent::Cancel() *)
Definition cancel_all (x : source) : source :=
  {| so_open := so_open x; so_reg := false; so_read := false; so_data := so_data x; so_eof := so_eof x |}.
(** PipeEvent::CancelRead() *)
Definition cancel_read (x : source) : source :=
  {| so_open := so_open x; so_reg := so_reg x; so_read := false; so_data := so_data x; so_eof := so_eof x |}.
Definition schedule_write (x : source) : source :=
  if so_open x
  then {| so_open := true; so_reg := true; so_read := so_read x; so_data := so_data x; so_eof := so_eof x |}
  else x.
Definition set_data (x : source) (d : bytes) : source :=
  {| so_open := so_open x; so_reg := so_reg x; so_read := so_read x; so_data := d; so_eof := so_eof x |}.
Definition set_eof (x : source) : source :=
  {| so_open := so_open x; so_reg := so_reg x; so_read := so_read x; so_data := so_data x; so_eof := true |}.

(** src/ssh/Connection.hxx:134-138 write_blocked, src/ssh/Connection.cxx:99-103
    IsRekeying() *)
Record blocking := { b_write : bool; b_rekey : bool }.

(** What a connection tells its channels. *)
Inductive btell := TNone | TBlocked | TUnblocked | TUnblockedBlocked.

(** src/ssh/Connection.cxx:286-289 in SendKexInit(), on an encrypted connection *)
Definition b_kexinit (b : blocking) : btell * blocking :=
  (if b_write b then TNone else TBlocked, {| b_write := b_write b; b_rekey := true |}).
(** src/ssh/Connection.cxx:383-422 in SendNewKeys() *)
Definition b_newkeys (b : blocking) : btell * blocking :=
  (if b_rekey b && negb (b_write b) then TUnblocked else TNone, {| b_write := b_write b; b_rekey := false |}).
(** src/ssh/Connection.cxx:868-899 OnBufferedWrite(); [more]: Output::Flush()
    returned MORE *)
Definition b_flush (more : bool) (b : blocking) : btell * blocking :=
  let unblocked := b_write b && negb (b_rekey b) in
  let blocked := more && negb (b_rekey b) in
  (match unblocked, blocked with
   | true, true => TUnblockedBlocked
   | true, false => TUnblocked
   | false, true => TBlocked
   | false, false => TNone
   end, {| b_write := more; b_rekey := b_rekey b |}).

(** ** class SessionChannel *)

Record sess := {
  ss_swin : N;
  ss_out : source;
  ss_err : source;
  ss_tty : source;
  ss_child : bool;
  ss_closed : bool;
  ss_block : blocking;
  ss_log : list iev
}.

(** [w]: the peer's initial window.  src/SessionChannel.cxx:49-58.  The
    channel may be created while writing is blocked. *)
Definition ss_init (w : N) (b : blocking) : sess :=
  {| ss_swin := w; ss_out := no_source; ss_err := no_source; ss_tty := no_source;
     ss_child := false; ss_closed := false; ss_block := b; ss_log := [] |}.

Definition sget (s : sess) (x : src) : source :=
  match x with Stdout => ss_out s | Stderr => ss_err s | Tty => ss_tty s | Sock => no_source end.
Definition sput (x : src) (v : source) (s : sess) : sess :=
  {| ss_swin := ss_swin s;
     ss_out := match x with Stdout => v | _ => ss_out s end;
     ss_err := match x with Stderr => v | _ => ss_err s end;
     ss_tty := match x with Tty => v | _ => ss_tty s end;
     ss_child := ss_child s; ss_closed := ss_closed s; ss_block := ss_block s; ss_log := ss_log s |}.
Definition slog (e : iev) (s : sess) : sess :=
  {| ss_swin := ss_swin s; ss_out := ss_out s; ss_err := ss_err s; ss_tty := ss_tty s;
     ss_child := ss_child s; ss_closed := ss_closed s; ss_block := ss_block s; ss_log := e :: ss_log s |}.
Definition sswin (w : N) (s : sess) : sess :=
  {| ss_swin := w; ss_out := ss_out s; ss_err := ss_err s; ss_tty := ss_tty s;
     ss_child := ss_child s; ss_closed := ss_closed s; ss_block := ss_block s; ss_log := ss_log s |}.
Definition schild (c : bool) (s : sess) : sess :=
  {| ss_swin := ss_swin s; ss_out := ss_out s; ss_err := ss_err s; ss_tty := ss_tty s;
     ss_child := c; ss_closed := ss_closed s; ss_block := ss_block s; ss_log := ss_log s |}.
Definition sblock (b : blocking) (s : sess) : sess :=
  {| ss_swin := ss_swin s; ss_out := ss_out s; ss_err := ss_err s; ss_tty := ss_tty s;
     ss_child := ss_child s; ss_closed := ss_closed s; ss_block := b; ss_log := ss_log s |}.
Definition sclosed (s : sess) : sess :=
  {| ss_swin := ss_swin s; ss_out := ss_out s; ss_err := ss_err s; ss_tty := ss_tty s;
     ss_child := ss_child s; ss_closed := true; ss_block := ss_block s; ss_log := ss_log s |}.

(** src/SessionChannel.hxx:242-249 ScheduleRead() *)
Definition s_schedule (s : sess) : sess :=
  sput Tty (schedule_read (ss_tty s)) (sput Stderr (schedule_read (ss_err s)) (sput Stdout (schedule_read (ss_out s)) s)).
(** src/SessionChannel.hxx:229-240 CancelRead() *)
Definition s_cancel (s : sess) : sess :=
  sput Tty (cancel_read (ss_tty s)) (sput Stderr (cancel_all (ss_err s)) (sput Stdout (cancel_all (ss_out s)) s)).

(** closing one of our ends; unread data is lost *)
Definition s_close_source (x : src) (c : lcause) (s : sess) : sess :=
  if so_open (sget s x) then
    let d := so_data (sget s x) in
    let s := match d with [] => s | _ => slog (ILost x d c) s end in
    slog (IEnded x) (sput x no_source s)
  else s.

(** Channel::Close(), and the destructor src/SessionChannel.cxx:60-66 *)
Definition s_close (c : lcause) (s : sess) : sess :=
  let s := s_close_source Tty c (s_close_source Stderr c (s_close_source Stdout c s)) in
  sclosed (schild false (slog IClosed s)).

(** src/SessionChannel.hxx:89-93 IsActive(), src/SessionChannel.cxx:68-73
    CloseIfInactive() *)
Definition s_outputs (s : sess) : bool :=
  so_open (ss_out s) || so_open (ss_err s) || so_open (ss_tty s).
Definition s_close_if_inactive (s : sess) : sess :=
  if s_outputs s || ss_child s then s else s_close LPeerClosed s.

(** src/SessionChannel.hxx:100-116 MaybeSendEofAndClose() *)
Definition s_maybe_eof (s : sess) : sess :=
  if s_outputs s then s else s_close_if_inactive (slog ISentEof s).

(** src/SessionChannel.cxx:923-969 OnStdoutReady(), OnStderrReady(), and
    891-908 in OnTtyReady(): reading at most 4096 bytes, and at most what the
    window allows.  [assert(!dest.empty())] *)
Definition s_read (x : src) (s : sess) : sess :=
  let size := N.min 4096 (ss_swin s) in
  if size =? 0 then slog IAssertFailed s
  else
    let d := take size (so_data (sget s x)) in
    match d with
    | [] => s_maybe_eof (s_close_source x LHangup s)
    | _ =>
        let s := sput x (set_data (sget s x) (drop size (so_data (sget s x)))) s in
        let s := slog (ISent x d) (sswin (ss_swin s - len d) s) in
        if ss_swin s =? 0 then s_cancel s else s
    end.

(** src/SessionChannel.cxx:874-889 OnTtyReady() *)
Definition s_tty_ready (s : sess) : sess :=
  let readable := so_read (ss_tty s) && negb (match so_data (ss_tty s) with [] => true | _ => false end) in
  if readable then s_read Tty s
  else if so_eof (ss_tty s) then s_maybe_eof (s_close_source Tty LHangup s)
  else s.

(** what OnWriteBlocked() and OnWriteUnblocked() do: src/SessionChannel.cxx:860-872 *)
Definition s_blocked (s : sess) : sess := if ss_swin s =? 0 then s else s_cancel s.
Definition s_unblocked (s : sess) : sess := if ss_swin s =? 0 then s else s_schedule s.
Definition s_tell (t : btell) (s : sess) : sess :=
  match t with
  | TNone => s
  | TBlocked => s_blocked s
  | TUnblocked => s_unblocked s
  | TUnblockedBlocked => s_blocked (s_unblocked s)
  end.

Inductive sop :=
| SProduce (x : src) (d : bytes)
| SFinish (x : src)             (* all writers of this source are gone *)
| SReady (x : src)              (* the event loop finds an event *)
| SWantWrite                    (* input for the tty: tty.ScheduleWrite() *)
| SAdjust (k : N)
| SPty
| SSpawn
| SExit
| SReject (text : bytes)        (* SetStderrString() *)
| SKexInit | SNewKeys | SFlush (more : bool)
| SPeerClose.

Definition sstep (s : sess) (o : sop) : sess :=
  if ss_closed s then s else
  match o with
  | SProduce x d =>
      if so_open (sget s x) && negb (so_eof (sget s x))
      then slog (IProduced x d) (sput x (set_data (sget s x) (so_data (sget s x) ++ d)) s)
      else s
  | SFinish x => if so_open (sget s x) then sput x (set_eof (sget s x)) s else s
  | SReady x =>
      let v := sget s x in
      if so_open v && so_reg v then
        match x with
        | Tty => s_tty_ready s
        | _ => match so_data v, so_eof v with
               | [], false => s
               | _, _ => s_read x s
               end
        end
      else s
  | SWantWrite => sput Tty (schedule_write (ss_tty s)) s
  | SAdjust k =>
      (* src/SessionChannel.cxx:121-130, Channel.cxx:241-245; zero is
         rejected by the caller *)
      if k =? 0 then s
      else
        let s := slog (IAdjusted k) s in
        let s := if ss_swin s =? 0 then s_schedule s else s in
        sswin ((ss_swin s + k) mod pow64) s
  | SPty =>
      (* src/SessionChannel.cxx:801-812, before a program runs *)
      if ss_child s || s_outputs s then s else sput Tty (new_source [] false) s
  | SSpawn =>
      (* src/SessionChannel.cxx:300-306, 317-343 *)
      if ss_child s || so_open (ss_out s) || so_open (ss_err s) then s
      else
        let s := if so_open (ss_tty s) then s
                 else sput Stderr (new_source [] false) (sput Stdout (new_source [] false) s) in
        let s := if ss_swin s =? 0 then s else s_schedule s in
        slog IStarted (schild true s)
  | SExit =>
      (* src/SessionChannel.cxx:971-990 OnChildProcessExit() *)
      if ss_child s then s_close_if_inactive (slog ISentExit (schild false s)) else s
  | SReject text =>
      (* src/SessionChannel.cxx:87-100 SetStderrString() *)
      let s := s_close_source Tty LRejected (s_close_source Stderr LRejected (s_close_source Stdout LRejected s)) in
      let s := slog (IProduced Stderr text) (sput Stderr (new_source text true) (schild false s)) in
      if ss_swin s =? 0 then s else s_schedule s
  | SKexInit =>
      if b_rekey (ss_block s) then s
      else let '(t, b) := b_kexinit (ss_block s) in s_tell t (slog IKexInit (sblock b s))
  | SNewKeys =>
      if b_rekey (ss_block s)
      then let '(t, b) := b_newkeys (ss_block s) in s_tell t (slog INewKeys (sblock b s))
      else s
  | SFlush more => let '(t, b) := b_flush more (ss_block s) in s_tell t (sblock b s)
  | SPeerClose => s_close LPeerClosed s
  end.

Definition sruns (w : N) (b : blocking) (ops : list sop) : sess := fold_left sstep ops (ss_init w b).

(** ** class SocketChannel *)

Record sock := {
  sk_swin : N;
  sk_sock : source;
  sk_closed : bool;
  sk_block : blocking;
  sk_log : list iev
}.

(** src/SocketChannel.cxx:11-19: reading is scheduled by the constructor *)
Definition sk_init (w : N) (b : blocking) : sock :=
  {| sk_swin := w; sk_sock := schedule_read (new_source [] false); sk_closed := false; sk_block := b; sk_log := [] |}.

Definition kset (v : source) (k : sock) : sock :=
  {| sk_swin := sk_swin k; sk_sock := v; sk_closed := sk_closed k; sk_block := sk_block k; sk_log := sk_log k |}.
Definition klog (e : iev) (k : sock) : sock :=
  {| sk_swin := sk_swin k; sk_sock := sk_sock k; sk_closed := sk_closed k; sk_block := sk_block k; sk_log := e :: sk_log k |}.
Definition kswin (w : N) (k : sock) : sock :=
  {| sk_swin := w; sk_sock := sk_sock k; sk_closed := sk_closed k; sk_block := sk_block k; sk_log := sk_log k |}.
Definition kblock (b : blocking) (k : sock) : sock :=
  {| sk_swin := sk_swin k; sk_sock := sk_sock k; sk_closed := sk_closed k; sk_block := b; sk_log := sk_log k |}.

(** Channel::Close(), src/SocketChannel.cxx:21-24 *)
Definition k_close (c : lcause) (k : sock) : sock :=
  let d := so_data (sk_sock k) in
  let k := match d with [] => k | _ => klog (ILost Sock d c) k end in
  let k := klog IClosed (klog (IEnded Sock) (kset no_source k)) in
  {| sk_swin := sk_swin k; sk_sock := sk_sock k; sk_closed := true; sk_block := sk_block k; sk_log := sk_log k |}.

(** src/SocketChannel.cxx:88-144 OnSocketReady(); [dbg]: with assertions *)
Definition k_ready (dbg : bool) (k : sock) : sock :=
  let v := sk_sock k in
  let readable := so_read v && (so_eof v || negb (match so_data v with [] => true | _ => false end)) in
  if readable then
    let size := N.min 4096 (sk_swin k) in
    if dbg && (size =? 0) then klog IAssertFailed k
    else
      let d := take size (so_data v) in
      match d with
      | [] => k_close LZeroWindow k
      | _ =>
          let k := kset (set_data v (drop size (so_data v))) k in
          let k := klog (ISent Sock d) (kswin (sk_swin k - len d) k) in
          let k := if sk_swin k =? 0 then kset (cancel_read (sk_sock k)) k else k in
          if so_eof v && (len d <? size) then k_close LHangup k else k
      end
  else k.

Definition k_blocked (k : sock) : sock := if sk_swin k =? 0 then k else kset (cancel_read (sk_sock k)) k.
Definition k_unblocked (k : sock) : sock := if sk_swin k =? 0 then k else kset (schedule_read (sk_sock k)) k.
Definition k_tell (t : btell) (k : sock) : sock :=
  match t with
  | TNone => k
  | TBlocked => k_blocked k
  | TUnblocked => k_unblocked k
  | TUnblockedBlocked => k_blocked (k_unblocked k)
  end.

Inductive kop :=
| KProduce (d : bytes)
| KFinish
| KReady
| KAdjust (k : N)
| KKexInit | KNewKeys | KFlush (more : bool)
| KPeerClose.

Definition kstep (dbg : bool) (k : sock) (o : kop) : sock :=
  if sk_closed k then k else
  match o with
  | KProduce d =>
      if so_eof (sk_sock k) then k
      else klog (IProduced Sock d) (kset (set_data (sk_sock k) (so_data (sk_sock k) ++ d)) k)
  | KFinish => kset (set_eof (sk_sock k)) k
  | KReady => if so_reg (sk_sock k) then k_ready dbg k else k
  | KAdjust n =>
      (* src/SocketChannel.cxx:26-35 *)
      if n =? 0 then k
      else
        let k := klog (IAdjusted n) k in
        let k := if sk_swin k =? 0 then kset (schedule_read (sk_sock k)) k else k in
        kswin ((sk_swin k + n) mod pow64) k
  | KKexInit =>
      if b_rekey (sk_block k) then k
      else let '(t, b) := b_kexinit (sk_block k) in k_tell t (klog IKexInit (kblock b k))
  | KNewKeys =>
      if b_rekey (sk_block k)
      then let '(t, b) := b_newkeys (sk_block k) in k_tell t (klog INewKeys (kblock b k))
      else k
  | KFlush more => let '(t, b) := b_flush more (sk_block k) in k_tell t (kblock b k)
  | KPeerClose => k_close LPeerClosed k
  end.

Definition kruns (dbg : bool) (w : N) (b : blocking) (ops : list kop) : sock :=
  fold_left (kstep dbg) ops (sk_init w b).
