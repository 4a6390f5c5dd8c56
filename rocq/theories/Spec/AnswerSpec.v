(** Specification of the requests on a channel and their answers, end to end:
    what the client asks in its messages, what the channel's owner is asked,
    and which answers the client hears. *)

From Coq Require Import NArith List Bool.
From Verif.Base Require Import Bytes.
From Verif.Model Require Import Packets Requests Channels.
From Verif.Spec Require Import ReturnSpec.
Import ListNotations.
Open Scope N_scope.

Record request := { q_name : bytes; q_want : bool; q_data : bytes }.

(** What the message [m] asks on channel [n] (RFC 4254 5.4): CHANNEL_REQUEST is
    byte 98, uint32 recipient channel, string request type, boolean want reply
    (every byte but 0 is "true", RFC 4251 5), and data which depend on the
    type. *)
Definition request_of (n : N) (m : bytes) : list request :=
  match m with
  | 98 :: a :: b :: c :: d :: e :: f :: g :: h :: t =>
      let k := un_be32 e f g h in
      if (un_be32 a b c d =? n) && (k <=? len t) then
        match drop k t with
        | w :: data => [{| q_name := take k t; q_want := negb (w =? 0); q_data := data |}]
        | [] => []
        end
      else []
  | _ => []
  end.
Definition requested (n : N) (ms : list bytes) : list request := flat_map (request_of n) ms.

(** What the message [m] answers to the client's channel [p]: CHANNEL_SUCCESS is
    byte 99, uint32 recipient channel; CHANNEL_FAILURE is byte 100, uint32
    recipient channel. *)
Definition answer_of (p : N) (m : bytes) : list bool :=
  match m with
  | [99; a; b; c; d] => if un_be32 a b c d =? p then [true] else []
  | [100; a; b; c; d] => if un_be32 a b c d =? p then [false] else []
  | _ => []
  end.
Definition answered (p : N) (ms : list bytes) : list bool := flat_map (answer_of p) ms.

(** The calls of OnRequest() of the channel object [u], oldest first, each with
    the identifier of this call. *)
Fixpoint told (u : N) (l : list cev) : list (N * request) :=
  match l with
  | [] => []
  | Called _ v (CbRequest id want name data) :: older =>
      if v =? u then told u older ++ [(id, {| q_name := name; q_want := want; q_data := data |})] else told u older
  | _ :: older => told u older
  end.
(** those for which an answer is wanted *)
Definition waits (x : N * request) : bool := q_want (snd x).
Definition expected (l : list (N * request)) : list (N * request) := filter waits l.

(** The client has opened the channel which it calls [p]: it has confirmed none
    of our channels with this number. *)
Definition own_number (p : N) (l : list cev) : Prop :=
  forall b c, In (Received 91 b) l -> ParseChannelOpenConfirmation b = Some c -> cc_peer_channel c <> p.
(** the numbers in its confirmations have 32 bits *)
Definition confirmed_numbers (l : list cev) : Prop :=
  forall b c, In (Received 91 b) l -> ParseChannelOpenConfirmation b = Some c -> cc_peer_channel c < 2 ^ 32.
