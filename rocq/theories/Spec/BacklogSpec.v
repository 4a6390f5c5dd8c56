(** Specification of the output which waits for a client (C88). *)

From Coq Require Import NArith List Bool.
From Verif.Base Require Import Bytes.
From Verif.Model Require Import Server ChannelIO Backlog.
From Verif.Spec Require Import AuthSpec.
Import ListNotations.
Open Scope N_scope.

(** The number of bytes which the server keeps for the client. *)
Definition waiting (s : backlog) : N := bk_pushed s - bk_written s.

(** A server which is not slow: after every event, everything is encrypted,
    and if something was sent, an attempt is made to write it; the kernel
    takes [k] bytes. *)
Definition attentive (evs : list (bevent * N)) : list bevent :=
  flat_map (fun e => [fst e; BWork; BWrite (snd e)]) evs.

(** How many bytes the client, or the kernel for it, accepts at most. *)
Definition accepted (evs : list (bevent * N)) : N := fold_right (fun e n => snd e + n) 0 evs.

(** What the client has allowed the program to send: its initial window and
    all adjustments. *)
Definition granted (w : N) (evs : list bevent) : N :=
  fold_right (fun e n => match e with BSession (SAdjust k) => k + n | _ => n end) w evs.

(** Events which can make a suspended program go on: an adjustment of the
    window, the start of a program, an error message instead of it. *)
Definition resuming (e : bevent) : bool :=
  match e with BSession (SAdjust _) | BSession SSpawn | BSession (SReject _) => true | _ => false end.

Definition resumptions (evs : list bevent) : N := N.of_nat (length (filter resuming evs)).

(** A new key exchange, which also suspends and resumes programs. *)
Definition rekeys (e : bevent) : bool := match e with BSession SKexInit => true | _ => false end.

(** Payloads consist of bytes. *)
Definition well_formed (e : bevent) : Prop := match e with BServer op => op_ok op | _ => True end.
