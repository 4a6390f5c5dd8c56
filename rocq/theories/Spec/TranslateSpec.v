(** What a sequence of translation packets is: a specification for C72. *)

From Coq Require Import NArith List.
From Verif.Base Require Import Bytes.
Import ListNotations.
Open Scope N_scope.

(** a packet: its command and its payload *)
Definition tpacket := (N * bytes)%type.

Definition tpacket_ok (p : tpacket) : Prop := fst p < 65536 /\ len (snd p) < 65536 /\ bytes_ok (snd p).

(** size and command, both as 16 bit little endian, then the payload *)
Definition tpacket_bytes (p : tpacket) : bytes :=
  [len (snd p) mod 256; len (snd p) / 256; fst p mod 256; fst p / 256] ++ snd p.

Definition tpackets_bytes (ps : list tpacket) : bytes := List.concat (map tpacket_bytes ps).

(** [raw] consists of exactly these packets. *)
Definition carries (raw : bytes) (ps : list tpacket) : Prop := Forall tpacket_ok ps /\ raw = tpackets_bytes ps.

(** The response which a sequence of packets makes *)
Fixpoint builds {response} (handle : N -> bytes -> response -> option response) (ps : list tpacket) (r : response) : option response :=
  match ps with
  | [] => Some r
  | (c, p) :: ps => match handle c p r with Some r' => builds handle ps r' | None => None end
  end.

(** A complete response: packets other than END, and END. *)
Definition complete_response (end_command : N) (raw : bytes) (ps : list tpacket) : Prop :=
  (forall p, In p ps -> fst p <> end_command) /\ exists e, carries raw (ps ++ [(end_command, e)]).
