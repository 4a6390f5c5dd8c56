(** What must appear on the wire, written without reference to the model:
    the packets in the order in which they were submitted, each in plain
    text before the first cipher, later encrypted with the cipher most
    recently installed and with consecutive sequence numbers. *)

From Coq Require Import NArith List Bool.
From Verif.Base Require Import Bytes.
Import ListNotations.
Open Scope N_scope.

Section Wire.
Variable C : Type.
Variable encrypt : C -> N -> bytes -> option (C * bytes).

(** What the connection submits. *)
Inductive submitted :=
| Packet (p : bytes)
| NewCipher (c : C) (reset_seq : bool).

(** [wire cipher seq l]: the bytes for the list [l] of submitted items.  If
    encryption fails, nothing more can be sent. *)
Fixpoint wire (cipher : option C) (seq : N) (l : list submitted) : bytes :=
  match l with
  | [] => []
  | Packet p :: l =>
      match cipher with
      | None => p ++ wire None ((seq + 1) mod 2 ^ 64) l
      | Some c =>
          match encrypt c seq p with
          | Some (c, b) => b ++ wire (Some c) ((seq + 1) mod 2 ^ 64) l
          | None => []
          end
      end
  | NewCipher c reset_seq :: l => wire (Some c) (if reset_seq then 0 else seq) l
  end.

(** can all of them be encrypted? *)
Fixpoint encryptable (cipher : option C) (seq : N) (l : list submitted) : bool :=
  match l with
  | [] => true
  | Packet p :: l =>
      match cipher with
      | None => encryptable None ((seq + 1) mod 2 ^ 64) l
      | Some c =>
          match encrypt c seq p with
          | Some (c, b) => encryptable (Some c) ((seq + 1) mod 2 ^ 64) l
          | None => false
          end
      end
  | NewCipher c reset_seq :: l => encryptable (Some c) (if reset_seq then 0 else seq) l
  end.

End Wire.
Arguments Packet {C}.
Arguments NewCipher {C}.
