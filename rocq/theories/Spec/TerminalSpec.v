(** Encoding of terminal modes, RFC 4254 section 8, and what the modes stand
    for on Linux. *)

From Coq Require Import NArith List Bool.
From Verif.Base Require Import Bytes.
Import ListNotations.
Open Scope N_scope.

(** * The encoding *)

(** An opcode and its argument. *)
Definition mode : Type := N * N.

Definition mode_ok (m : mode) : Prop := 1 <= fst m /\ fst m < 160 /\ snd m < pow32.
Definition encode_mode (m : mode) : bytes := fst m :: be32 (snd m).

(** What ends a list of modes: the opcode TTY_OP_END, an opcode of 160 or
    more, or too few bytes. *)
Definition ending (rest : bytes) : Prop :=
  len rest < 5 \/ exists opcode more, rest = opcode :: more /\ (opcode = 0 \/ 160 <= opcode).

Definition split_modes (raw : bytes) (modes : list mode) (rest : bytes) : Prop :=
  raw = List.concat (map encode_mode modes) ++ rest /\ Forall mode_ok modes /\ ending rest.

(** * The meaning *)

Inductive word := Input | Output | Control | Local.

Inductive target :=
| Char (index : N)              (* a control character *)
| Flag (w : word) (bits : list N)       (* bits of a flag word *)
| InputSpeed
| OutputSpeed.

(** Opcodes by the position of their target: control characters, in the order
    of the RFC ... *)
Definition chars : list (N * target) :=
  [ (1, Char 0)         (* VINTR *)
  ; (2, Char 1)         (* VQUIT *)
  ; (3, Char 2)         (* VERASE *)
  ; (4, Char 3)         (* VKILL *)
  ; (5, Char 4)         (* VEOF *)
  ; (6, Char 11)        (* VEOL *)
  ; (7, Char 16)        (* VEOL2 *)
  ; (8, Char 8)         (* VSTART *)
  ; (9, Char 9)         (* VSTOP *)
  ; (10, Char 10)       (* VSUSP *)
  ; (12, Char 12)       (* VREPRINT *)
  ; (13, Char 14)       (* VWERASE *)
  ; (14, Char 15)       (* VLNEXT *)
  ; (18, Char 13) ].    (* VDISCARD *)

(** ... and flags: consecutive opcodes from [op] on stand for these bits. *)
Fixpoint flags (w : word) (op : N) (bits : list (list N)) : list (N * target) :=
  match bits with
  | [] => []
  | b :: rest => (op, Flag w b) :: flags w (op + 1) rest
  end.

Definition table : list (N * target) :=
  chars ++
  (* IGNPAR PARMRK INPCK ISTRIP INLCR IGNCR ICRNL IUCLC IXON IXANY IXOFF IMAXBEL *)
  flags Input 30 [[2]; [3]; [4]; [5]; [6]; [7]; [8]; [9]; [10]; [11]; [12]; [13]] ++
  (* ISIG ICANON XCASE ECHO ECHOE ECHOK ECHONL NOFLSH TOSTOP IEXTEN ECHOCTL ECHOKE PENDIN *)
  flags Local 50 [[0]; [1]; [2]; [3]; [4]; [5]; [6]; [7]; [8]; [15]; [9]; [11]; [14]] ++
  (* OPOST OLCUC ONLCR OCRNL ONOCR ONLRET *)
  flags Output 70 [[0]; [1]; [2]; [3]; [4]; [5]] ++
  (* CS7 CS8 PARENB PARODD *)
  flags Control 90 [[5]; [4; 5]; [8]; [9]] ++
  [(128, InputSpeed); (129, OutputSpeed)].

Definition meaning (opcode : N) : option target :=
  match find (fun e => fst e =? opcode) table with Some e => Some (snd e) | None => None end.

(** The argument of the last mode whose target is one of those wanted. *)
Fixpoint last_for (wanted : target -> bool) (modes : list mode) : option N :=
  match modes with
  | [] => None
  | (opcode, arg) :: rest =>
      match last_for wanted rest with
      | Some x => Some x
      | None =>
          match meaning opcode with
          | Some t => if wanted t then Some arg else None
          | None => None
          end
      end
  end.

Definition word_eqb (a b : word) : bool :=
  match a, b with
  | Input, Input | Output, Output | Control, Control | Local, Local => true
  | _, _ => false
  end.

Definition is_char (i : N) (t : target) : bool := match t with Char j => i =? j | _ => false end.
Definition is_bit (w : word) (b : N) (t : target) : bool :=
  match t with Flag v bits => word_eqb w v && existsb (N.eqb b) bits | _ => false end.
Definition is_ispeed (t : target) : bool := match t with InputSpeed => true | _ => false end.
Definition is_ospeed (t : target) : bool := match t with OutputSpeed => true | _ => false end.

(** The numbers of the supported speeds; 9600 baud for all others. *)
Definition speed (baud : N) : N :=
  let fix position i (l : list N) :=
    match l with [] => None | b :: rest => if b =? baud then Some i else position (i + 1) rest end in
  match position 0 [0; 50; 75; 110; 134; 150; 200; 300; 600; 1200; 1800; 2400; 4800; 9600; 19200; 38400] with
  | Some i => i
  | None => match position 4097 [57600; 115200; 230400] with Some i => i | None => 13 end
  end.
