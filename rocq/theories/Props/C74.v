(** * C74: messages are built in the standard format *)

From Coq Require Import NArith List Bool Lia String.
From Verif.Base Require Import Bytes.
From Verif.Spec Require Import WireSpec PacketSpec FrameSpec MessageSpec VersionSpec.
From Verif.Model Require Import Wire Frame Packets Makers.
From Verif.Proofs Require Import WireFacts FrameFacts PacketFacts KeyFacts MakerFacts.
From Verif.Props Require Import C03.
Import ListNotations.
Open Scope N_scope.

Local Arguments bs : simpl never.
Local Arguments string_enc : simpl never.
Local Arguments be32 : simpl never.

(** RFC 4253: DISCONNECT, UNIMPLEMENTED, SERVICE_REQUEST, SERVICE_ACCEPT;
    RFC 8308: EXT_INFO *)
Theorem C74_transport : forall header, len header = 5 ->
  (forall reason text, MakeDisconnect header reason text = made header 1 [FU32 reason; FString text; FString (bs "en")]) /\
  (forall seq, MakeUnimplemented header seq = made header 3 [FU32 seq]) /\
  (forall name, MakeServiceRequest header name = made header 5 [FString name]) /\
  (forall name, MakeServiceAccept header name = made header 6 [FString name]) /\
  (forall algorithms, MakeExtInfo header algorithms =
     made header 7 [FU32 2; FString (bs "server-sig-algs"); FString algorithms; FString (bs "agent-forward"); FString (bs "0")]).
Proof.
  intros header L. repeat split.
  - intros reason text. made (fun h => MakeDisconnect h reason text).
  - intros seq. made (fun h => MakeUnimplemented h seq).
  - intros name. made (fun h => MakeServiceRequest h name).
  - intros name. made (fun h => MakeServiceAccept h name).
  - intros algorithms. made (fun h => MakeExtInfo h algorithms).
Qed.
Print Assumptions C74_transport.

(** RFC 4252: USERAUTH_FAILURE, USERAUTH_BANNER, USERAUTH_PK_OK *)
Theorem C74_userauth : forall header, len header = 5 ->
  (forall methods partial, MakeUserauthFailure header methods partial = made header 51 [FString methods; FBool partial]) /\
  (forall text, MakeUserauthBanner header text = made header 53 [FString text; FString (bs "en")]) /\
  (forall algorithm key, MakeUserauthPkOk header algorithm key = made header 60 [FString algorithm; FString key]).
Proof.
  intros header L. repeat split.
  - intros methods partial. made (fun h => MakeUserauthFailure h methods partial).
  - intros text. made (fun h => MakeUserauthBanner h text).
  - intros algorithm key. made (fun h => MakeUserauthPkOk h algorithm key).
Qed.
Print Assumptions C74_userauth.

(** RFC 4254: global requests, opening and closing channels *)
Theorem C74_connection : forall header, len header = 5 ->
  (forall name want, MakeGlobalRequest header name want = made header 80 [FString name; FBool want]) /\
  (forall ok, MakeGlobalResponse header ok = made header (if ok then 81 else 82) []) /\
  (forall address port peer_address peer_port channel window max,
     MakeChannelOpen header (bs "forwarded-tcpip") channel window max (SerializeForwarded address port peer_address peer_port) =
     made header 90 [FString (bs "forwarded-tcpip"); FU32 channel; FU32 window; FU32 max; FString address; FU32 port; FString peer_address; FU32 peer_port]) /\
  (forall channel window max,
     MakeChannelOpen header (bs "auth-agent@openssh.com") channel window max SerializeAgent =
     made header 90 [FString (bs "auth-agent@openssh.com"); FU32 channel; FU32 window; FU32 max]) /\
  (forall recipient sender window max, MakeChannelOpenConfirmation header recipient sender window max =
     made header 91 [FU32 recipient; FU32 sender; FU32 window; FU32 max]) /\
  (forall recipient reason text, MakeChannelOpenFailure header recipient reason text =
     made header 92 [FU32 recipient; FU32 reason; FString text; FString (bs "en")]) /\
  (forall recipient, MakeChannelEof header recipient = made header 96 [FU32 recipient]) /\
  (forall recipient, MakeChannelClose header recipient = made header 97 [FU32 recipient]).
Proof.
  intros header L. repeat split.
  - intros name want. made (fun h => MakeGlobalRequest h name want).
  - intros ok. made (fun h => MakeGlobalResponse h ok).
  - intros address port peer_address peer_port channel window max. made (fun h => MakeChannelOpen h (bs "forwarded-tcpip") channel window max (SerializeForwarded address port peer_address peer_port)).
  - intros channel window max. made (fun h => MakeChannelOpen h (bs "auth-agent@openssh.com") channel window max SerializeAgent).
  - intros recipient sender window max. made (fun h => MakeChannelOpenConfirmation h recipient sender window max).
  - intros recipient reason text. made (fun h => MakeChannelOpenFailure h recipient reason text).
  - intros recipient. made (fun h => MakeChannelEof h recipient).
  - intros recipient. made (fun h => MakeChannelClose h recipient).
Qed.
Print Assumptions C74_connection.

(** RFC 4254: data and requests of a channel *)
Theorem C74_channel : forall header, len header = 5 ->
  (forall recipient n, MakeChannelWindowAdjust header recipient n = made header 93 [FU32 recipient; FU32 n]) /\
  (forall recipient data, MakeChannelData header recipient data = made header 94 [FU32 recipient; FString data]) /\
  (forall recipient type data, MakeChannelExtendedData header recipient type data = made header 95 [FU32 recipient; FU32 type; FString data]) /\
  (forall recipient type want, MakeChannelReqest header recipient type want = made header 98 [FU32 recipient; FString type; FBool want]) /\
  (forall ok recipient, MakeChannelResponse header ok recipient = made header (if ok then 99 else 100) [FU32 recipient]).
Proof.
  intros header L. repeat split.
  - intros recipient n. made (fun h => MakeChannelWindowAdjust h recipient n).
  - intros recipient data. made (fun h => MakeChannelData h recipient data).
  - intros recipient type data. made (fun h => MakeChannelExtendedData h recipient type data).
  - intros recipient type want. made (fun h => MakeChannelReqest h recipient type want).
  - intros ok recipient. made (fun h => MakeChannelResponse h ok recipient).
Qed.
Print Assumptions C74_channel.

(** Such a message, once it is finished for any cipher, arrives as it is. *)
Theorem C74_arrives : forall rnd header number fields block_size without_header s frame,
  (forall n, len (rnd n) = n) -> len header = 5 -> number < 256 -> block_size = 8 \/ block_size = 16 ->
  made header number fields = Some s -> FinishPacket rnd s block_size without_header = Some frame ->
  unframe frame = Some (message number fields).
Proof.
  intros rnd header number fields block wh s frame R L NB B M F. unfold made in M.
  destruct (N.leb_spec (5 + len (message number fields)) 65536) as [S|S]; [|discriminate]. injection M as <-.
  assert (N0 : new_packet header number = Some (header ++ [number])).
  { pose proof (appends_packet number NB header ltac:(rewrite L; discriminate)) as A. rewrite A, L. reflexivity. }
  assert (W : WriteN (header ++ [number]) (enc fields) = Some (header ++ message number fields)).
  { replace (header ++ message number fields) with ((header ++ [number]) ++ enc fields) by (now rewrite <- app_assoc).
    apply WriteN_Some. rewrite len_app, L. unfold message in S. rewrite len_cons in S. change (len [number]) with 1. unfold BUFFER_SIZE. lia. }
  destruct (C03_finish_well_formed rnd header number (enc fields) block wh _ _ _ R L NB B N0 W F) as (_ & _ & _ & _ & _ & U). exact U.
Qed.
Print Assumptions C74_arrives.

(** A client which is turned away gets an identification line and then exactly
    one packet, DISCONNECT. *)
Theorem C74_early_disconnect : forall rnd header version reason text,
  (forall n, len (rnd n) = n) -> len header = 5 -> ~ In LF version -> len text <= 60000 ->
  exists line packet, SendEarlyDisconnect rnd header version reason text = Some (line ++ LF :: packet) /\
    first_line (line ++ LF :: packet) line packet /\ is_ssh line /\
    unframe packet = Some (message 1 [FU32 reason; FString text; FString (bs "en")]).
Proof.
  intros rnd header version reason text R L NV LT. unfold SendEarlyDisconnect.
  destruct (C74_transport header L) as (D & _). rewrite D. clear D.
  set (m := message 1 [FU32 reason; FString text; FString (bs "en")]).
  assert (S : len m <= 60100).
  { unfold m, message, enc. cbn [map enc_field List.concat]. rewrite len_cons, !len_app, !len_string_enc, len_be32. change (len (bs "en")) with 2. rewrite len_nil. lia. }
  assert (M : made header 1 [FU32 reason; FString text; FString (bs "en")] = Some (header ++ m)).
  { unfold made. fold m. now rewrite (proj2 (N.leb_le _ _)) by lia. }
  rewrite M. cbn [obind].
  destruct (C03_finish_total rnd header m 8 false R L (or_introl eq_refl) ltac:(lia)) as (packet & F). rewrite F. cbn [obind].
  exists (bs "SSH-2.0-Lukko_" ++ version ++ bs " CM4all" ++ [13]), packet.
  assert (E : IDENTIFICATION_STRING version ++ packet = (bs "SSH-2.0-Lukko_" ++ version ++ bs " CM4all" ++ [13]) ++ LF :: packet).
  { unfold IDENTIFICATION_STRING. rewrite <- !app_assoc. reflexivity. }
  rewrite E. repeat split.
  - intro I. repeat (apply in_app_or in I as [I|I]); [|now apply NV| |]; vm_compute in I; repeat destruct I as [I|I]; try discriminate; contradiction.
  - eexists. unfold bs. cbn. reflexivity.
  - apply (C74_arrives rnd header 1 _ 8 false (header ++ m)); auto. reflexivity.
Qed.
Print Assumptions C74_early_disconnect.

(** Two messages *)
Example C74_demo :
  MakeChannelExtendedData [0; 0; 0; 0; 0] 3 1 (bs "oops") = Some [0; 0; 0; 0; 0; 95; 0; 0; 0; 3; 0; 0; 0; 1; 0; 0; 0; 4; 111; 111; 112; 115] /\
  SendEarlyDisconnect (fun n => repeat 0 (N.to_nat n)) [0; 0; 0; 0; 0] (bs "1") 12 (bs "no") =
    Some (bs "SSH-2.0-Lukko_1 CM4all" ++ [13; 10; 0; 0; 0; 28; 10; 1; 0; 0; 0; 12; 0; 0; 0; 2; 110; 111; 0; 0; 0; 2; 101; 110; 0; 0; 0; 0; 0; 0; 0; 0; 0; 0]).
Proof. vm_compute. split; reflexivity. Qed.
