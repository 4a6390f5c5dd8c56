(** Specification of the connection layer (RFC 4254), in terms of the log of
    observable events (Model/Channels.v [cev]), newest event first: packets
    sent and received, calls of the application's methods.  Nothing here
    looks at the channel table. *)

From Coq Require Import NArith List Bool.
From Verif.Base Require Import Bytes.
From Verif.Model Require Import Packets Requests Channels.
Import ListNotations.
Open Scope N_scope.

(** ** One channel number, as seen on the wire *)

(** what both sides know about our channel number *)
Inductive chst :=
| Free
| Requested            (* we sent CHANNEL_OPEN, no answer yet *)
| Live (peer : N)      (* confirmed by whoever did not open it *)
| PeerClosed (peer : N)  (* the peer sent CHANNEL_CLOSE, we have not yet *)
| WeClosed (peer : N). (* we sent CHANNEL_CLOSE, the peer has not yet *)

(** the number of our channel which a received message is about *)
Definition target (msg : N) (p : bytes) : option N :=
  match msg with
  | 91 => option_map cc_local_channel (ParseChannelOpenConfirmation p)
  | 92 => option_map cf_local_channel (ParseChannelOpenFailure p)
  | 93 => option_map wa_local_channel (ParseChannelWindowAdjust p)
  | 94 => option_map cd_local_channel (ParseChannelData p)
  | 95 => option_map ce_local_channel (ParseChannelExtendedData p)
  | 96 => ParseChannelEof p
  | 97 => ParseChannelClose p
  | 98 => option_map cr_local_channel (ParseChannelRequest p)
  | 99 => ParseChannelResponse p
  | 100 => ParseChannelResponse p
  | _ => None
  end.

(** may the peer send this message in this state?  (CHANNEL_OPEN is not about
    one of our numbers.) *)
Definition admissible (msg : N) (st : chst) : bool :=
  match msg, st with
  | 91, Requested | 92, Requested => true
  | 91, _ | 92, _ => false
  | _, Live _ | _, WeClosed _ => true
  | _, _ => false
  end.

(** a message the peer sends *)
Definition on_received (n : N) (st : chst) (msg : N) (p : bytes) : chst :=
  match target msg p with
  | Some k =>
      if (k =? n) && admissible msg st then
        match msg, st with
        | 91, _ =>
            match ParseChannelOpenConfirmation p with
            | Some c => Live (cc_peer_channel c)
            | None => st
            end
        | 92, _ => Free
        | 97, Live q => PeerClosed q
        | 97, _ => Free
        | _, _ => st
        end
      else st
  | None => st
  end.

(** a message we send on our channel [n]; [None]: forbidden.  Not [strict]:
    CHANNEL_FAILURE is tolerated after our CHANNEL_CLOSE. *)
Definition on_sent (strict : bool) (n : N) (st : chst) (m : cmsg) : option chst :=
  let to p q := if p =? q then Some st else None in
  match m, st with
  | COpen _ local _ _ _, Free => if local =? n then Some Requested else None
  | CConf peer local _ _, Free => if local =? n then Some (Live peer) else None
  | COpenFail _ _ _, Free => Some Free
  | CClose p, Live q => if p =? q then Some (WeClosed q) else None
  | CClose p, PeerClosed q => if p =? q then Some Free else None
  | CAdjust p _, Live q | CData p _, Live q | CExt p _ _, Live q
  | CEof p, Live q | CRequest p _ _, Live q | CReply p _, Live q => to p q
  | CReply p false, WeClosed q => if strict then None else to p q
  | _, _ => None
  end.

Definition on_event (strict : bool) (n : N) (st : chst) (e : cev) : option chst :=
  match e with
  | Sent k _ m => if k =? n then on_sent strict n st m else Some st
  | Received msg p => Some (on_received n st msg p)
  | _ => Some st
  end.

(** the state of number [n] after these events; [None]: we broke the protocol *)
Fixpoint status (strict : bool) (n : N) (l : list cev) : option chst :=
  match l with
  | [] => Some Free
  | e :: older =>
      match status strict n older with
      | Some st => on_event strict n st e
      | None => None
      end
  end.

(** a message that tells the peer to use number [n] *)
Definition announces (n : N) (e : cev) : bool :=
  match e with
  | Sent k _ (COpen _ _ _ _ _) | Sent k _ (CConf _ _ _ _) => k =? n
  | _ => false
  end.

(** the channel object which was called on behalf of number [n] since it was
    announced *)
Fixpoint holder (n : N) (l : list cev) : option N :=
  match l with
  | [] => None
  | e :: older =>
      if announces n e then None
      else match e with
           | Called k u _ => if k =? n then Some u else holder n older
           | _ => holder n older
           end
  end.

(** ** One channel object *)

(** messages it sent, newest first *)
Fixpoint said (u : N) (l : list cev) : list cmsg :=
  match l with
  | [] => []
  | Sent _ v m :: older => if v =? u then m :: said u older else said u older
  | _ :: older => said u older
  end.

Definition is_close (m : cmsg) : bool := match m with CClose _ => true | _ => false end.

Definition sumN (l : list N) : N := fold_right N.add 0 l.

(** data bytes in a message *)
Definition data_bytes (m : cmsg) : N :=
  match m with CData _ d | CExt _ _ d => len d | _ => 0 end.
Definition adjust_bytes (m : cmsg) : N :=
  match m with CAdjust _ k => k | _ => 0 end.

(** data bytes it sent *)
Definition sent_bytes (u : N) (l : list cev) : N := sumN (map data_bytes (said u l)).

(** what the peer allowed it to send *)
Fixpoint send_credit (u : N) (l : list cev) : N :=
  match l with
  | [] => 0
  | Created _ v _ w _ :: older => if v =? u then w + send_credit u older else send_credit u older
  | Called _ v (CbAdjust k) :: older =>
      if v =? u then k + send_credit u older else send_credit u older
  | _ :: older => send_credit u older
  end.

(** the initial window it was created with *)
Fixpoint initial_window (u : N) (l : list cev) : N :=
  match l with
  | [] => 0
  | Created _ v _ _ w :: older => if v =? u then w + initial_window u older else initial_window u older
  | _ :: older => initial_window u older
  end.

(** what it allowed the peer to send: the initial window and all adjustments *)
Definition receive_credit (u : N) (l : list cev) : N :=
  initial_window u l + sumN (map adjust_bytes (said u l)).

(** bytes passed to OnData() and OnExtendedData() *)
Fixpoint delivered (u : N) (l : list cev) : N :=
  match l with
  | [] => 0
  | Called _ v (CbData d) :: older | Called _ v (CbExt _ d) :: older =>
      if v =? u then len d + delivered u older else delivered u older
  | _ :: older => delivered u older
  end.

(** bytes it declared as consumed *)
Fixpoint consumed (u : N) (l : list cev) : N :=
  match l with
  | [] => 0
  | Consumed v k :: older => if v =? u then k + consumed u older else consumed u older
  | _ :: older => consumed u older
  end.

(** ** Requests *)

(** requests handed to its OnRequest(), oldest first: number and whether a
    reply is wanted *)
Fixpoint asked (u : N) (l : list cev) : list (N * bool) :=
  match l with
  | [] => []
  | Called _ v (CbRequest id want _ _) :: older =>
      if v =? u then asked u older ++ [(id, want)] else asked u older
  | _ :: older => asked u older
  end.

(** the result of a request's handler *)
Fixpoint result (u id : N) (l : list cev) : option bool :=
  match l with
  | [] => None
  | Finished v i b :: older => if (v =? u) && (i =? id) then Some b else result u id older
  | _ :: older => result u id older
  end.

(** The replies that are due: requests are answered in order, each with its
    own result, if a reply is wanted, and as soon as it and all its
    predecessors are finished. *)
Fixpoint answers (res : N -> option bool) (reqs : list (N * bool)) : list bool :=
  match reqs with
  | [] => []
  | (id, want) :: t =>
      match res id with
      | None => []
      | Some b => if want then b :: answers res t else answers res t
      end
  end.

(** replies sent, oldest first *)
Definition replies (u : N) (l : list cev) : list bool :=
  flat_map (fun m => match m with CReply _ b => [b] | _ => [] end) (rev (said u l)).

(** ** Factories *)

(** ends of a factory's request: callbacks, or its owner's cancellation *)
Definition ends (f : N) (e : cev) : bool :=
  match e with
  | Factory g _ | Revoked g => g =? f
  | _ => false
  end.
Definition count_ends (f : N) (l : list cev) : nat := List.length (filter (ends f) l).

(** events of a connection's end *)
Definition farewell (e : cev) : bool :=
  match e with
  | Destroyed _ _ | Factory _ FCancel | Died _ => true
  | _ => false
  end.

(** ** Request handlers *)

(** A request without "want reply" is never finished synchronously, and no
    handler throws before its first suspension - unless the coroutine library
    reports a coroutine as unfinished when its constructor returns (see
    Model/Requests.v). *)
Definition considerate (E : renv) (o : cop) : Prop :=
  match o with
  | OpPacket 98 p r =>
      forall q, ParseChannelRequest p = Some q ->
      r_sync_done E = false \/ rx_request r = RAsync \/
      (cr_want_reply q = true /\ exists b, rx_request r = RSync b)
  | _ => True
  end.

(** the requests that want a reply *)
Definition wanted (reqs : list (N * bool)) : list (N * bool) := filter snd reqs.

(** [OpenChannel()] was called with this factory *)
Definition asks (f : N) (e : cev) : bool := match e with Asked g => g =? f | _ => false end.
Definition count_asked (f : N) (l : list cev) : nat := List.length (filter (asks f) l).
(** the peer rejected the factory's channel *)
Definition rejected (f : N) (e : cev) : bool :=
  match e with Factory g (FFailure _) => g =? f | _ => false end.

(** the channel object most recently created for number [n] *)
Fixpoint object (n : N) (l : list cev) : option N :=
  match l with
  | [] => None
  | Created k u _ _ _ :: older => if k =? n then Some u else object n older
  | _ :: older => object n older
  end.
