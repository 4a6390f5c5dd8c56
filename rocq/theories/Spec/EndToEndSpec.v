(** Specification for two connected endpoints, written without reference to
    the model: the receiver sees what the sender has submitted. *)

From Coq Require Import NArith List Bool.
From Verif.Base Require Import Bytes.
From Verif.Spec Require Import FrameSpec OutputSpec InputSpec.
Import ListNotations.
Open Scope N_scope.

Section EndToEnd.

(** the sender's and the receiver's cipher objects *)
Variables S R : Type.
(** [mirror c d]: [d] is the receiving end of [c] *)
Variable mirror : S -> R -> Prop.

(** [p] is a well-formed binary packet with message [m] which the receiver
    does not consider too large *)
Definition carries (p m : bytes) : Prop :=
  exists padding, framed m padding p /\ 1 <= len m /\ len padding <= 255 /\ len p <= 35004.

(** The sender submits well-formed packets, and it switches to a new cipher
    after each NEWKEYS message (21) and only then. *)
Fixpoint proper (after_newkeys : bool) (l : list (submitted S)) : Prop :=
  match l with
  | [] => True
  | Packet p :: l => after_newkeys = false /\ exists m, carries p m /\ proper (hd 0 m =? 21) l
  | NewCipher _ _ :: l => after_newkeys = true /\ proper false l
  end.

(** [same seq sub seen]: what was seen is exactly what was submitted, with
    consecutive sequence numbers from [seq] on. *)
Inductive same : N -> list (submitted S) -> list (revent R) -> Prop :=
| same_nil : forall seq, same seq [] []
| same_packet : forall seq p m sub seen,
    carries p m -> same ((seq + 1) mod 2 ^ 64) sub seen ->
    same seq (Packet p :: sub) (Message seq m :: seen)
| same_cipher : forall seq c d reset sub seen,
    mirror c d -> same (if reset : bool then 0 else seq) sub seen ->
    same seq (NewCipher c reset :: sub) (Cipher d reset :: seen).

(** Each cipher installed by the receiver is the mirror of the sender's
    cipher with the same number. *)
Definition sender_ciphers (l : list (submitted S)) : list (S * bool) :=
  flat_map (fun x => match x with NewCipher c reset => [(c, reset)] | _ => [] end) l.
Definition receiver_ciphers (l : list (revent R)) : list (R * bool) :=
  flat_map (fun x => match x with Cipher d reset => [(d, reset)] | _ => [] end) l.

Definition keys_match (sub : list (submitted S)) (seen : list (revent R)) : Prop :=
  forall i d reset,
  nth_error (receiver_ciphers seen) i = Some (d, reset) ->
  exists c, nth_error (sender_ciphers sub) i = Some (c, reset) /\ mirror c d.

(** Each packet is padded for the cipher in use (RFC 4253 6): to a multiple
    of the block size and at least 16 bytes, without the length field if
    that is not encrypted with the rest.  [sends c]: [c] is for sending. *)
Variable block_size : S -> N.
Variable excluded : S -> bool.
Variable sends : S -> Prop.

Definition padded_for (c : S) (p : bytes) : Prop :=
  let n := len p - (if excluded c then 4 else 0) in
  n mod block_size c = 0 /\ 16 <= n.

Fixpoint padded (current : option S) (l : list (submitted S)) : Prop :=
  match l with
  | [] => True
  | Packet p :: l => match current with Some c => padded_for c p | None => True end /\ padded current l
  | NewCipher c _ :: l => sends c /\ padded (Some c) l
  end.

End EndToEnd.
