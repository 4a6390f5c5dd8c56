(** The version exchange, as a function of what the peer sends. *)

From Coq Require Import NArith List Bool String.
From Verif.Base Require Import Bytes.
Import ListNotations.
Open Scope N_scope.

Definition LF : N := 10.
Definition CR : N := 13.

(** The first line of a stream and what follows it. *)
Definition first_line (stream line rest : bytes) : Prop := stream = line ++ LF :: rest /\ ~ In LF line.

(** The version a line stands for: without a carriage return at the end. *)
Definition version_of (line version : bytes) : Prop :=
  line = version ++ [CR] \/ (line = version /\ forall p, line <> p ++ [CR]).

Definition is_ssh (line : bytes) : Prop := exists more, line = bs "SSH-" ++ more.
