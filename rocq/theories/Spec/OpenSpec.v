(** Specification of the answers to CHANNEL_OPEN (RFC 4254 5.1), in terms of
    the log of observable events (Model/Channels.v [cev]). *)

From Coq Require Import NArith List Bool.
From Verif.Base Require Import Bytes.
From Verif.Model Require Import Packets Channels.
Import ListNotations.
Open Scope N_scope.

(** how many events of this kind are in the log *)
Definition number (P : cev -> bool) (l : list cev) : nat := List.length (filter P l).

(** the peer asks for a channel which it calls [k] *)
Definition requests_open (k : N) (e : cev) : bool :=
  match e with
  | Received 90 p =>
      match ParseChannelOpen p with
      | Some q => co_peer_channel q =? k
      | None => false
      end
  | _ => false
  end.

(** the peer's channel [k] is confirmed or refused *)
Definition answers_open (k : N) (e : cev) : bool :=
  match e with
  | Sent _ _ (CConf peer _ _ _) => peer =? k
  | Sent _ _ (COpenFail peer _ _) => peer =? k
  | _ => false
  end.

(** the application is asked to open the peer's channel [k] under our number
    [n] *)
Definition offered (n k : N) (e : cev) : bool :=
  match e with Opening m peer _ _ _ => (m =? n) && (peer =? k) | _ => false end.

(** ... and the answer to the peer which follows from its decision: a
    confirmation names our number [n] *)
Definition settled (n k : N) (e : cev) : bool :=
  match e with
  | Sent m _ (CConf peer local _ _) => (m =? n) && (peer =? k) && (local =? n)
  | Sent m _ (COpenFail peer _ _) => (m =? n) && (peer =? k)
  | _ => false
  end.

(** the application has not yet decided about number [n], which is going to
    be the peer's channel [k] *)
Definition undecided (s : cstate) (k n : N) : bool :=
  match cs_slots s n with Some (SOpening peer _) => peer =? k | _ => false end.

(** how many of our 64 numbers are waiting for a decision about the peer's
    channel [k] *)
Definition waiting (s : cstate) (k : N) : nat :=
  List.length (filter (undecided s k) (map N.of_nat (seq 0 64))).
