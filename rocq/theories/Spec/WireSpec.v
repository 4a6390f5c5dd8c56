(** Specification of the SSH wire encoding (RFC 4251 section 5), written
    without reference to the model. *)

From Coq Require Import NArith List Bool.
From Verif.Base Require Import Bytes.
Import ListNotations.
Open Scope N_scope.

(** RFC 4251: "string": uint32 length, then the bytes. *)
Definition string_enc (s : bytes) : bytes := be32 (len s) ++ s.

Definition bool_enc (b : bool) : bytes := [if b then 1 else 0].

Inductive field :=
| FByte (b : N)
| FBool (b : bool)
| FU32 (n : N)
| FString (s : bytes)
| FRaw (s : bytes).

Definition enc_field (f : field) : bytes :=
  match f with
  | FByte b => [b]
  | FBool b => bool_enc b
  | FU32 n => be32 n
  | FString s => string_enc s
  | FRaw s => s
  end.

Definition enc (fs : list field) : bytes := concat (map enc_field fs).

(** The values a field can hold. *)
Definition field_ok (f : field) : Prop :=
  match f with
  | FByte b => b < 256
  | FBool _ => True
  | FU32 n => n < pow32
  | FString s => len s < pow32
  | FRaw _ => True
  end.

(** A schema tells how to read. *)
Inductive ftype := TByte | TBool | TU32 | TString | TRaw (n : N).

Definition type_of (f : field) : ftype :=
  match f with
  | FByte _ => TByte
  | FBool _ => TBool
  | FU32 _ => TU32
  | FString _ => TString
  | FRaw s => TRaw (len s)
  end.

(** The value of a big-endian byte string. *)
Definition be_value (l : bytes) : N := fold_left (fun acc b => acc * 256 + b) l 0.

(** RFC 4251 "mpint" contents for non-negative numbers: two's complement
    big-endian, as short as possible; the most significant bit of the first
    byte is the sign. *)
Definition mpint_canonical (l : bytes) : Prop :=
  bytes_ok l /\
  match l with
  | [] => True
  | [b] => 0 < b /\ b < 128
  | b :: c :: _ => b < 128 /\ (b = 0 -> 128 <= c)
  end.
