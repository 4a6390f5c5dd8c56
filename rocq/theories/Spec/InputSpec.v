(** The reference for received packets, written without reference to the
    model: one sequential reader of the whole byte stream. *)

From Coq Require Import NArith List Bool.
From Verif.Base Require Import Bytes.
Import ListNotations.
Open Scope N_scope.

Section Reader.

Variable C : Type.
Variable auth_size : C -> N.
Variable dec_header : C -> N -> bytes -> option (C * bytes).
Variable dec_payload : C -> N -> bytes -> option (C * bytes).

Inductive decoded :=
| NeedMore
| Bad
| Got (message : bytes) (cipher : option C) (rest : bytes).

Definition be32_at (l : bytes) : N :=
  match l with a :: b :: c :: d :: _ => un_be32 a b c d | _ => 0 end.

(** the announced length must be between 2 and 35000 *)
Definition acceptable (n : N) : bool := (2 <=? n) && (n <=? 35000).

(** [body] is padding_length, message and padding; the message has at least
    one byte *)
Definition unpad (body : bytes) : option bytes :=
  match body with
  | p :: l => if p + 1 <=? len l then Some (take (len l - p) l) else None
  | [] => None
  end.

(** Decode the packet at the start of [s]: in plain text or with a cipher,
    using sequence number [seq]. *)
Definition decode (cipher : option C) (seq : N) (s : bytes) : decoded :=
  if len s <? 4 then NeedMore
  else match cipher with
  | None =>
      let n := be32_at s in
      if negb (acceptable n) then Bad
      else if len s <? 4 + n then NeedMore
      else match unpad (take n (drop 4 s)) with
           | Some m => Got m None (drop (4 + n) s)
           | None => Bad
           end
  | Some c =>
      match dec_header c seq (take 4 s) with
      | None => Bad
      | Some (c, h) =>
          let n := be32_at h in
          let total := 4 + n + auth_size c in
          if negb (acceptable n) then Bad
          else if len s <? total then NeedMore
          else match dec_payload c seq (take total s) with
               | None => Bad
               | Some (c, body) =>
                   match unpad body with
                   | Some m => Got m (Some c) (drop total s)
                   | None => Bad
                   end
               end
      end
  end.

(** The sequential reader.  After NEWKEYS (message number 21) it waits for
    a new cipher. *)
Record reader := {
  r_cipher : option C;
  r_seq : N;
  r_rest : bytes;
  r_waiting : bool
}.

Definition start (stream : bytes) : reader :=
  {| r_cipher := None; r_seq := 0; r_rest := stream; r_waiting := false |}.

Inductive revent :=
| Message (seq : N) (m : bytes)
| Cipher (c : C) (reset : bool).

(** [reads r e r']: the reader [r] produces the event [e]. *)
Inductive reads : reader -> revent -> reader -> Prop :=
| reads_message : forall r m cipher rest,
    r_waiting r = false ->
    decode (r_cipher r) (r_seq r) (r_rest r) = Got m cipher rest ->
    reads r (Message (r_seq r) m)
      {| r_cipher := cipher; r_seq := (r_seq r + 1) mod 2 ^ 64; r_rest := rest;
         r_waiting := hd 0 m =? 21 |}
| reads_cipher : forall r c reset,
    r_waiting r = true ->
    reads r (Cipher c reset)
      {| r_cipher := Some c; r_seq := if reset : bool then 0 else r_seq r; r_rest := r_rest r;
         r_waiting := false |}.

Inductive reads_all : reader -> list revent -> reader -> Prop :=
| reads_nil : forall r, reads_all r [] r
| reads_snoc : forall r l r1 e r2,
    reads_all r l r1 -> reads r1 e r2 -> reads_all r (l ++ [e]) r2.

End Reader.
Arguments Message {C}.
Arguments Cipher {C}.
