(** Concrete channel histories for the examples and refutations. *)

From Coq Require Import NArith List Bool String.
From Verif.Base Require Import Bytes.
From Verif.Spec Require Import WireSpec ChannelSpec.
From Verif.Model Require Import Wire Frame Packets Requests Channels.
Import ListNotations.
Open Scope N_scope.

Definition rel : renv := {| r_dbg := false; r_sync_done := true |}.
Definition dbg : renv := {| r_dbg := true; r_sync_done := true |}.
Definition late : renv := {| r_dbg := true; r_sync_done := false |}.

Definition rx (c : create_result) : reaction := {| rx_create := c; rx_throws := false; rx_request := RAsync |}.
Definition rq (o : routcome) : reaction := {| rx_create := CrThrow; rx_throws := false; rx_request := o |}.
Definition quiet_rx : reaction := rq RAsync.

(** the peer opens a channel which it calls [peer]; we grant [w] bytes *)
Definition p_open (peer win w : N) : cop :=
  OpPacket 90 (string_enc (bs "session") ++ be32 peer ++ be32 win ++ be32 32768) (rx (CrNow w)).
Definition p_open_async (peer win : N) : cop :=
  OpPacket 90 (string_enc (bs "session") ++ be32 peer ++ be32 win ++ be32 32768) (rx CrAsync).
Definition p_open_refused (peer win : N) : cop :=
  OpPacket 90 (string_enc (bs "session") ++ be32 peer ++ be32 win ++ be32 32768)
    (rx (CrFail 1 (bs "no"))).
Definition p_conf (n peer win : N) : cop := OpPacket 91 (be32 n ++ be32 peer ++ be32 win ++ be32 32768) quiet_rx.
Definition p_fail (n code : N) : cop := OpPacket 92 (be32 n ++ be32 code ++ string_enc [] ++ string_enc []) quiet_rx.
Definition p_adjust (n k : N) : cop := OpPacket 93 (be32 n ++ be32 k) quiet_rx.
Definition p_data (n : N) (d : bytes) : cop := OpPacket 94 (be32 n ++ string_enc d) quiet_rx.
Definition p_ext (n ty : N) (d : bytes) : cop := OpPacket 95 (be32 n ++ be32 ty ++ string_enc d) quiet_rx.
Definition p_eof (n : N) : cop := OpPacket 96 (be32 n) quiet_rx.
Definition p_close (n : N) : cop := OpPacket 97 (be32 n) quiet_rx.
Definition p_request (n : N) (want : bool) (o : routcome) : cop :=
  OpPacket 98 (be32 n ++ string_enc (bs "shell") ++ [if want then 1 else 0]) (rq o).

(** two channels, traffic on both, one closed by each side *)
Definition busy : list cop :=
  [ p_open 7 100 50; p_open 8 20 60; p_data 0 [1; 2; 3]; OpConsume 0 3; OpAdjust 0 3; p_data 1 [4; 5];
    OpData 0 [9; 9; 9]; p_adjust 1 5; OpExt 1 1 (repeat 3 25); p_request 0 true RAsync; p_request 0 true (RSync false);
    OpRequestDone 0 3 (RDone true); OpEof 0; p_eof 1; p_close 1; OpClose 0; p_data 0 [7]; p_close 0;
    p_open 9 1 1; OpOpen (bs "forwarded-tcpip") 1000 [] 5; p_conf 1 77 10; OpData 1 [1] ].
