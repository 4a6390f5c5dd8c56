(** Model of the decoder for the terminal modes of a "pty-req" request.
    src/ssh/TerminalMode.cxx

    Simplifications: the constants of termios.h are those of Linux, where
    VDSUSP, VFLUSH, VSWTCH and VSTATUS are not defined; the two speeds are
    fields of their own instead of bits of the flag words (how the C library
    stores them is not modelled); c_cc is a function.  Reading and writing the
    attributes of the tty (ApplyTerminalModes(), src/SessionChannel.cxx:575-585)
    is not modelled. *)

From Coq Require Import NArith List Bool.
From Verif.Base Require Import Bytes.
Import ListNotations.
Open Scope N_scope.

(** struct termios *)
Record termios := {
  c_iflag : N;
  c_oflag : N;
  c_cflag : N;
  c_lflag : N;
  c_cc : N -> N;
  c_ispeed : N;
  c_ospeed : N
}.

Definition mk_tio i o c l cc is os : termios := {|
  c_iflag := i; c_oflag := o; c_cflag := c; c_lflag := l; c_cc := cc; c_ispeed := is; c_ospeed := os |}.

(** ApplyBit(), src/ssh/TerminalMode.cxx:121-128 *)
Definition ApplyBit (dest bit arg : N) : N := if arg =? 0 then N.ldiff dest bit else N.lor dest bit.

Definition with_iflag (t : termios) (bit arg : N) : termios :=
  mk_tio (ApplyBit (c_iflag t) bit arg) (c_oflag t) (c_cflag t) (c_lflag t) (c_cc t) (c_ispeed t) (c_ospeed t).
Definition with_oflag (t : termios) (bit arg : N) : termios :=
  mk_tio (c_iflag t) (ApplyBit (c_oflag t) bit arg) (c_cflag t) (c_lflag t) (c_cc t) (c_ispeed t) (c_ospeed t).
Definition with_cflag (t : termios) (bit arg : N) : termios :=
  mk_tio (c_iflag t) (c_oflag t) (ApplyBit (c_cflag t) bit arg) (c_lflag t) (c_cc t) (c_ispeed t) (c_ospeed t).
Definition with_lflag (t : termios) (bit arg : N) : termios :=
  mk_tio (c_iflag t) (c_oflag t) (c_cflag t) (ApplyBit (c_lflag t) bit arg) (c_cc t) (c_ispeed t) (c_ospeed t).
(** tio.c_cc[i] = arg; cc_t has 8 bits *)
Definition with_cc (t : termios) (i arg : N) : termios :=
  mk_tio (c_iflag t) (c_oflag t) (c_cflag t) (c_lflag t)
    (fun j => if j =? i then arg mod 256 else c_cc t j) (c_ispeed t) (c_ospeed t).
Definition cfsetispeed (t : termios) (s : N) : termios :=
  mk_tio (c_iflag t) (c_oflag t) (c_cflag t) (c_lflag t) (c_cc t) s (c_ospeed t).
Definition cfsetospeed (t : termios) (s : N) : termios :=
  mk_tio (c_iflag t) (c_oflag t) (c_cflag t) (c_lflag t) (c_cc t) (c_ispeed t) s.

(** BaudToSpeed(), src/ssh/TerminalMode.cxx:73-118; the parameter is an int,
    so arguments of 2^31 or more become negative and reach the default label
    like other unknown ones *)
Definition BaudToSpeed (baud : N) : N :=
  match baud with
  | 0 => 0                      (* B0 *)
  | 50 => 1
  | 75 => 2
  | 110 => 3
  | 134 => 4
  | 150 => 5
  | 200 => 6
  | 300 => 7
  | 600 => 8
  | 1200 => 9
  | 1800 => 10
  | 2400 => 11
  | 4800 => 12
  | 9600 => 13
  | 19200 => 14
  | 38400 => 15
  | 57600 => 4097               (* B57600 = 010001 *)
  | 115200 => 4098
  | 230400 => 4099
  | _ => 13                     (* B9600 *)
  end.

(** The switch statement of ParseTerminalModes(),
    src/ssh/TerminalMode.cxx:142-374 *)
Definition ApplyMode (opcode arg : N) (tio : termios) : termios :=
  match opcode with
  | 1 => with_cc tio 0 arg      (* VINTR *)
  | 2 => with_cc tio 1 arg      (* VQUIT *)
  | 3 => with_cc tio 2 arg      (* VERASE *)
  | 4 => with_cc tio 3 arg      (* VKILL *)
  | 5 => with_cc tio 4 arg      (* VEOF *)
  | 6 => with_cc tio 11 arg     (* VEOL *)
  | 7 => with_cc tio 16 arg     (* VEOL2 *)
  | 8 => with_cc tio 8 arg      (* VSTART *)
  | 9 => with_cc tio 9 arg      (* VSTOP *)
  | 10 => with_cc tio 10 arg    (* VSUSP *)
  | 11 => tio                   (* VDSUSP *)
  | 12 => with_cc tio 12 arg    (* VREPRINT *)
  | 13 => with_cc tio 14 arg    (* VWERASE *)
  | 14 => with_cc tio 15 arg    (* VLNEXT *)
  | 15 => tio                   (* VFLUSH *)
  | 16 => tio                   (* VSWTCH *)
  | 17 => tio                   (* VSTATUS *)
  | 18 => with_cc tio 13 arg    (* VDISCARD *)
  | 30 => with_iflag tio 4 arg  (* IGNPAR *)
  | 31 => with_iflag tio 8 arg  (* PARMRK *)
  | 32 => with_iflag tio 16 arg (* INPCK *)
  | 33 => with_iflag tio 32 arg (* ISTRIP *)
  | 34 => with_iflag tio 64 arg (* INLCR *)
  | 35 => with_iflag tio 128 arg        (* IGNCR *)
  | 36 => with_iflag tio 256 arg        (* ICRNL *)
  | 37 => with_iflag tio 512 arg        (* IUCLC *)
  | 38 => with_iflag tio 1024 arg       (* IXON *)
  | 39 => with_iflag tio 2048 arg       (* IXANY *)
  | 40 => with_iflag tio 4096 arg       (* IXOFF *)
  | 41 => with_iflag tio 8192 arg       (* IMAXBEL *)
  | 50 => with_lflag tio 1 arg          (* ISIG *)
  | 51 => with_lflag tio 2 arg          (* ICANON *)
  | 52 => with_lflag tio 4 arg          (* XCASE *)
  | 53 => with_lflag tio 8 arg          (* ECHO *)
  | 54 => with_lflag tio 16 arg         (* ECHOE *)
  | 55 => with_lflag tio 32 arg         (* ECHOK *)
  | 56 => with_lflag tio 64 arg         (* ECHONL *)
  | 57 => with_lflag tio 128 arg        (* NOFLSH *)
  | 58 => with_lflag tio 256 arg        (* TOSTOP *)
  | 59 => with_lflag tio 32768 arg      (* IEXTEN *)
  | 60 => with_lflag tio 512 arg        (* ECHOCTL *)
  | 61 => with_lflag tio 2048 arg       (* ECHOKE *)
  | 62 => with_lflag tio 16384 arg      (* PENDIN *)
  | 70 => with_oflag tio 1 arg          (* OPOST *)
  | 71 => with_oflag tio 2 arg          (* OLCUC *)
  | 72 => with_oflag tio 4 arg          (* ONLCR *)
  | 73 => with_oflag tio 8 arg          (* OCRNL *)
  | 74 => with_oflag tio 16 arg         (* ONOCR *)
  | 75 => with_oflag tio 32 arg         (* ONLRET *)
  | 90 => with_cflag tio 32 arg         (* CS7 *)
  | 91 => with_cflag tio 48 arg         (* CS8 *)
  | 92 => with_cflag tio 256 arg        (* PARENB *)
  | 93 => with_cflag tio 512 arg        (* PARODD *)
  | 128 => cfsetispeed tio (BaudToSpeed arg)
  | 129 => cfsetospeed tio (BaudToSpeed arg)
  | _ => tio
  end.

(** ParseTerminalModes(), src/ssh/TerminalMode.cxx:130-376 *)
Fixpoint ParseTerminalModes (tio : termios) (src : bytes) : termios :=
  match src with
  | opcode :: a :: b :: c :: d :: rest =>
      if (opcode =? 0) || (160 <=? opcode) then tio
      else ParseTerminalModes (ApplyMode opcode (un_be32 a b c d) tio) rest
  | _ => tio
  end.
