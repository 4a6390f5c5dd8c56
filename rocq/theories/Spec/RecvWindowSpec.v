(** Flow control of RFC 4254 5.2: the peer may send as much as was granted. *)

From Coq Require Import NArith List Bool.
From Verif.Base Require Import Bytes.
From Verif.Model Require Import Buffered RecvWindow.
Import ListNotations.
Open Scope N_scope.

Definition sum (l : list N) : N := fold_right N.add 0 l.

(** bytes waiting in the server *)
Definition waiting {D} (s : wst D) : N := sum (map len (bc_queue (ws_ch s))).

(** granted to the peer: with CHANNEL_OPEN_CONFIRMATION, and later *)
Definition granted {D} (s : wst D) : N := 1048576 + sum (w_adjusts (bc_dst (ws_ch s))).

(** bytes in a packet of the peer *)
Definition session_size (o : sop) : N := match o with SIn (InData p _) => len p | SExt p => len p | _ => 0 end.
Definition socket_size (o : kop) : N := match o with KData p _ => len p | KExt p => len p | _ => 0 end.
Definition session_extended (o : sop) : N := match o with SExt p => len p | _ => 0 end.
Definition socket_extended (o : kop) : N := match o with KExt p => len p | _ => 0 end.

Section Peer.
  Context {D Op : Type} (size : Op -> N) (run : list Op -> wst D).

  (** sent by the peer *)
  Definition sent (ops : list Op) : N := sum (map size ops).

  (** what the peer may still send *)
  Definition remaining (ops : list Op) : N := granted (run ops) - sent ops.

  (** each packet fits *)
  Definition obeys (ops : list Op) : Prop :=
    forall before o after, ops = before ++ o :: after -> size o <= remaining before.
End Peer.

(** the connection has been closed because of the window, or an assertion about
    the window has failed *)
Definition refused {D} (s : wst D) : bool := ws_rejected s.
Definition broken {D} (s : wst D) : bool := w_broken (bc_dst (ws_ch s)).

(** session data which was thrown away *)
Definition discarded (l : list fate) : N := sum (map (fun f => match f with Discarded d => len d | Written _ => 0 end) l).
Definition session_fate (s : wst stdin) : list fate := i_fate (w_dst (bc_dst (ws_ch s))).

(** data of a forwarded connection *)
Definition socket_received (ops : list kop) : bytes := flat_map (fun o => match o with KData p _ => p | _ => [] end) ops.
Definition socket_eofs (ops : list kop) : N := sum (map (fun o => match o with KEof => 1 | _ => 0 end) ops).
Definition socket (s : wst ksock) : ksock := w_dst (bc_dst (ws_ch s)).

(** the peer has sent data after its CHANNEL_EOF, and a debug build has stopped *)
Definition crashed {D} (s : wst D) : bool := bc_assert (ws_ch s).

Definition session_plain (o : sop) : Prop := match o with SExt _ => False | _ => True end.
Definition socket_plain (o : kop) : Prop := match o with KExt _ => False | _ => True end.
(** the connection to the local program has failed *)
Definition socket_failed (s : wst ksock) : bool := k_failed (socket s).
