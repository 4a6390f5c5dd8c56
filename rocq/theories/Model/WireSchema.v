(** Drivers that apply the methods of Serializer and Deserializer field by
    field.  They have no counterpart in /repo; they stand for "any caller
    that writes (reads) these fields one after another". *)

From Coq Require Import NArith List Bool.
From Verif.Base Require Import Bytes.
From Verif.Model Require Import Wire.
From Verif.Spec Require Import WireSpec.
Import ListNotations.
Open Scope N_scope.

Definition write_field (s : serializer) (f : field) : option serializer :=
  match f with
  | FByte b => WriteU8 s b
  | FBool b => WriteBool s b
  | FU32 n => WriteU32 s n
  | FString x => WriteString s x
  | FRaw x => WriteN s x
  end.

Definition read_field (t : ftype) : parser field := fun src =>
  match t with
  | TByte => let* (b, src) := ReadU8 src in Some (FByte b, src)
  | TBool => let* (b, src) := ReadBool src in Some (FBool b, src)
  | TU32 => let* (n, src) := ReadU32 src in Some (FU32 n, src)
  | TString => let* (x, src) := ReadString src in Some (FString x, src)
  | TRaw n => let* (x, src) := ReadN n src in Some (FRaw x, src)
  end.

Fixpoint write_fields (s : serializer) (fs : list field) : option serializer :=
  match fs with
  | [] => Some s
  | f :: fs => let* s := write_field s f in write_fields s fs
  end.

Fixpoint read_fields (ts : list ftype) : parser (list field) := fun src =>
  match ts with
  | [] => Some ([], src)
  | t :: ts =>
      let* (f, src) := read_field t src in
      let* (fs, src) := read_fields ts src in
      Some (f :: fs, src)
  end.
