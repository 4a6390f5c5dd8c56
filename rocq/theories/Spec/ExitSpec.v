(** The end of a program, as seen by the client (C73). *)

From Coq Require Import NArith List Bool String.
From Verif.Base Require Import Bytes.
From Verif.Spec Require Import WireSpec PacketSpec FlowSpec.
From Verif.Model Require Import ChannelIO.
Import ListNotations.
Open Scope N_scope.

(** How many programs were started, and how many ends were reported? *)
Definition starts (l : list iev) : nat := List.length (filter (fun e => match e with IStarted => true | _ => false end) l).
Definition reports (l : list iev) : nat := List.length (filter (fun e => match e with ISentExit => true | _ => false end) l).

(** The order of what is sent: no data and no second end-of-file after
    end-of-file; one report for each program, after it was started; the channel
    is closed after the reports of all programs and end-of-file, and nothing
    follows. *)
Definition proper_end (l : list iev) : Prop :=
  throughout (fun e older =>
    ~ In IClosed older /\
    match e with
    | ISent _ _ | ISentEof => ~ In ISentEof older
    | ISentExit => (reports older < starts older)%nat
    | IClosed => reports older = starts older /\ In ISentEof older
    | _ => True
    end) l.

(** How a process ends, and the number which wait() returns for it (Linux) *)
Inductive ending := Exited (code : N) | Killed (signal : N) (core : bool).
Definition ending_ok (e : ending) : Prop :=
  match e with Exited c => c < 256 | Killed s _ => 1 <= s < 127 end.
Definition wait_status (e : ending) : N :=
  match e with
  | Exited c => c * 256
  | Killed s core => s + if core then 128 else 0
  end.

(** RFC 4254 6.10: the names of signals *)
Definition rfc_signals : list (N * bytes) :=
  [(6, bs "ABRT"); (14, bs "ALRM"); (8, bs "FPE"); (1, bs "HUP"); (4, bs "ILL"); (2, bs "INT"); (9, bs "KILL"); (13, bs "PIPE");
   (3, bs "QUIT"); (11, bs "SEGV"); (15, bs "TERM"); (10, bs "USR1"); (12, bs "USR2")].

(** The payload of CHANNEL_REQUEST for the end of a program; RFC 4254 6.10.
    [name]: the name of the signal *)
Definition report_fields (channel : N) (name : N -> bytes) (e : ending) : list field :=
  match e with
  | Exited c => [FU32 channel; FString (bs "exit-status"); FBool false; FU32 c]
  | Killed s core => [FU32 channel; FString (bs "exit-signal"); FBool false; FString (name s); FBool core; FString []; FString (bs "en")]
  end.
