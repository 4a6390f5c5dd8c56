(** Specification of what somebody in between can do to an encrypted
    connection (C101). *)

From Coq Require Import NArith List.
From Verif.Base Require Import Bytes.
From Verif.Model Require Import Ciphers.
From Verif.Spec Require Import FrameSpec CipherSpec InputSpec.
From Verif.Proofs Require Import CipherFacts.
Import ListNotations.
Open Scope N_scope.

(** The binary packets [ps] carry the messages [ms]: each with some padding,
    at least one byte long and not too long *)
Definition carried (m p : bytes) : Prop :=
  exists padding, framed m padding p /\ m <> [] /\ len padding < 256 /\ 1 + len m + len padding <= 35000.
Definition packets (ms ps : list bytes) : Prop := Forall2 carried ms ps.

(** Messages are received one after another, with sequence numbers from [n]
    on *)
Fixpoint received_from {C : Type} (n : N) (ms : list bytes) : list (revent C) :=
  match ms with
  | [] => []
  | m :: r => Message n m :: received_from ((n + 1) mod 2 ^ 64) r
  end.

Definition is_message {C : Type} (e : revent C) : Prop := exists n m, e = Message n m.

(** The MAC was forged: [stream] contains bytes [x] which the receiver's
    cipher [d] accepts as the next packet after the first genuine ones, because
    they end with the right tag for something for which the sender has never
    computed the tag. *)
Definition forged (P : crypto) (c d : running) (n : N) (ps : list bytes) (stream : bytes) : Prop :=
  exists ps1 ps2 l1 d' x d1 h d2 r u, ps = ps1 ++ ps2 /\ decrypt_all P d n l1 ps1 d' /\
  (exists front back, stream = front ++ x ++ back) /\
  DecryptHeader P d' (seq_plus n (len ps1)) (take 4 x) = COk (d1, h) /\
  DecryptPayload P d1 (seq_plus n (len ps1)) x = COk (d2, r) /\
  used d' (seq_plus n (len ps1)) (h ++ r) x = Some u /\
  tag P u = drop (len x - run_auth_size d') x /\ ~ sender_uses P c n ps u.
