(** Specification of data going to a destination. *)

From Coq Require Import NArith List Bool.
From Verif.Base Require Import Bytes.
From Verif.Model Require Import Buffered.
Import ListNotations.
Open Scope N_scope.

(** ** Any destination *)

(** all data received on the channel, and the number of CHANNEL_EOF packets *)
Fixpoint received {D} (ops : list (bop (D:=D))) : bytes :=
  match ops with
  | [] => []
  | BData p :: rest => p ++ received rest
  | _ :: rest => received rest
  end.
Fixpoint eof_packets {D} (ops : list (bop (D:=D))) : N :=
  match ops with
  | [] => 0
  | BEof :: rest => 1 + eof_packets rest
  | _ :: rest => eof_packets rest
  end.

(** What a destination is: it consumes a prefix of what it is offered; [got]
    is all it has consumed, [ends] counts the calls of OnBufferedEof(). *)
Record destination {D : Type} (on_data : D -> bytes -> N * D) (on_eof : D -> D) (got : D -> bytes) (ends : D -> N) : Prop := {
  dest_portion : forall d p, fst (on_data d p) <= len p;
  dest_got : forall d p, got (snd (on_data d p)) = got d ++ take (fst (on_data d p)) p;
  dest_data_ends : forall d p, ends (snd (on_data d p)) = ends d;
  dest_eof_got : forall d, got (on_eof d) = got d;
  dest_eof : forall d, ends (on_eof d) = 1 + ends d
}.

(** what else happens to it does not look like data or end of file *)
Definition harmless {D} (got : D -> bytes) (ends : D -> N) (o : bop (D:=D)) : Prop :=
  match o with BOther f => forall d, got (f d) = got d /\ ends (f d) = ends d | _ => True end.

Definition silent {D} (o : bop (D:=D)) : Prop := match o with BData _ | BEof => False | _ => True end.
(** the peer keeps to the protocol: nothing follows its CHANNEL_EOF *)
Fixpoint polite {D} (ops : list (bop (D:=D))) : Prop :=
  match ops with
  | [] => True
  | BEof :: rest => Forall silent rest
  | _ :: rest => polite rest
  end.

(** ** The program's standard input *)

Fixpoint ireceived (ops : list iop) : bytes :=
  match ops with
  | [] => []
  | InData p _ :: rest => p ++ ireceived rest
  | _ :: rest => ireceived rest
  end.

Definition fate_bytes (f : fate) : bytes := match f with Written d | Discarded d => d end.

(** what the program got *)
Fixpoint written (l : list fate) : bytes :=
  match l with
  | [] => []
  | Written d :: rest => d ++ written rest
  | Discarded _ :: rest => written rest
  end.

(** no write() fails *)
Definition no_failure (o : iop) : Prop :=
  match o with InData _ a | InReady a => ~ In Failed a | _ => True end.

(** nothing follows the CHANNEL_EOF *)
Fixpoint ipolite (ops : list iop) : Prop :=
  match ops with
  | [] => True
  | InEof :: rest => ~ In InEof rest /\ (forall p a, ~ In (InData p a) rest) /\ ipolite rest
  | _ :: rest => ipolite rest
  end.
