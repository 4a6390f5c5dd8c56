(** * C97: through a proxy, end to end

    A client, a proxy and a target: two connections ([connected] as in C58: both
    transports with their threads, in any interleaving, and the network), and the
    relay between them (Model/Relay.v) with its backpressure and key exchanges.
    Spec/TunnelSpec.v: [conn l] are the messages of the connection protocol in
    [l].  All theorems hold for both directions: [x] is the side from which the
    messages come.

    The parts are joined like this: the messages which the first transport
    delivers are first those before the proxy becomes a proxy ([login]), then
    those which the relay has taken, then those which it has not looked at
    because the connection has ended ([unread]); what the relay passes on is what
    the second connection sends, after what it had to send before ([first]: the
    restrictions of the login, see C48). *)

From Coq Require Import String NArith List Bool Lia.
From Verif.Base Require Import Bytes.
From Verif.Model Require Import Wire Frame Packets Makers Requests Queue Ciphers.
From Verif.Model Require Channels.
From Verif.Model Require Import Relay.
From Verif.Model Require Output Input.
From Verif.Spec Require Import WireSpec FrameSpec CipherSpec OutputSpec InputSpec EndToEndSpec PipelineSpec ReturnSpec AnswerSpec RelaySpec TunnelSpec.
From Verif.Spec Require Import ChannelSpec.
From Verif.Proofs Require Import WireFacts FrameFacts CipherFacts EndToEndFacts RelayFacts TunnelFacts ChannelToy.
From Verif.Proofs Require OutputFacts InputFacts ReturnFacts.
From Verif.Props Require C07 C58 C93 C94 C95 C96.
Import ListNotations.
Open Scope N_scope.

(** ** The relay *)

(** What the relay passes on is exactly what it has taken, without the messages
    which are not of the connection protocol. *)
Theorem C97_relay :
  forall c t ops x, passed_on x (rrun c t ops) = conn (taken x (rrun c t ops)).
Proof. exact passed_taken. Qed.
Print Assumptions C97_relay.

(** ** End to end *)

(** The messages of the connection protocol which arrive at the other end are the
    beginning of those which were sent, after [first]: none is added, lost,
    changed or reordered. *)
Theorem C97_order :
  forall P, tags_ok P ->
  forall ops s sub w ops' s' stream seen inflight,
  C58.connected C07.polite P ops s sub w ops' s' stream seen inflight ->
  forall ops2 s2 sub2 w2 ops2' s2' stream2 seen2 inflight2,
  C58.connected C07.polite P ops2 s2 sub2 w2 ops2' s2' stream2 seen2 inflight2 ->
  forall c t rops x login unread first held, let r := rrun c t rops in
  messages seen = login ++ taken x r ++ unread ->
  conveys sub2 first (passed_on x r) held ->
  exists sent, bears sub (login ++ sent) /\
  exists later, first ++ conn sent = conn (messages seen2) ++ later.
Proof.
  intros P T ops s sub w ops' s' stream seen inflight H ops2 s2 sub2 w2 ops2' s2' stream2 seen2 inflight2 H2 c t rops x login unread first held r M (all & B & F).
  destruct (C93.C93_transport P T _ _ _ _ _ _ _ _ _ H) as (later & B1). destruct (C93.C93_transport P T _ _ _ _ _ _ _ _ _ H2) as (later2 & B2).
  pose proof (C94.bears_fun _ _ B _ B2) as ->. exists (taken x r ++ unread ++ later). split; [rewrite M in B1; rewrite <- !app_assoc in B1; exact B1|].
  exists (conn later2 ++ held ++ conn (unread ++ later)). 
  assert (Q : conn (taken x r) = passed_on x r) by (symmetry; apply passed_taken).
  rewrite (conn_app (taken x r)), Q, app_assoc, <- F, (conn_app (messages seen2)), <- !app_assoc. reflexivity.
Qed.
Print Assumptions C97_order.

(** If everything has arrived on both connections, and nothing is held back, then
    all of them have arrived. *)
Theorem C97_complete :
  forall P, tags_ok P ->
  forall ops s sub w ops' s' stream seen q,
  C58.connected C07.polite P ops s sub w ops' s' stream seen [] ->
  w = wire running (out_encrypt P) None 0 sub ->
  padded running run_block_size run_header_excluded sends None sub ->
  Input.i_job running s' = Input.IInitial ->
  Input.istep running run_auth_size (in_header P) (in_payload P) s' (Input.Read running) = Input.IOk running q [] ->
  forall ops2 s2 sub2 w2 ops2' s2' stream2 seen2 q2,
  C58.connected C07.polite P ops2 s2 sub2 w2 ops2' s2' stream2 seen2 [] ->
  w2 = wire running (out_encrypt P) None 0 sub2 ->
  padded running run_block_size run_header_excluded sends None sub2 ->
  Input.i_job running s2' = Input.IInitial ->
  Input.istep running run_auth_size (in_header P) (in_payload P) s2' (Input.Read running) = Input.IOk running q2 [] ->
  forall c t rops x login first, let r := rrun c t rops in
  messages seen = login ++ taken x r ->
  conveys sub2 first (passed_on x r) [] ->
  exists sent, bears sub (login ++ sent) /\ conn (messages seen2) = first ++ conn sent.
Proof.
  intros P T ops s sub w ops' s' stream seen q H W PD J ST ops2 s2 sub2 w2 ops2' s2' stream2 seen2 q2 H2 W2 PD2 J2 ST2 c t rops x login first r M (all & B & F).
  pose proof (C58.C58_everything_arrives_partial P T _ _ _ _ _ _ _ _ _ H W PD J ST) as SM. apply C93.same_bears in SM.
  pose proof (C58.C58_everything_arrives_partial P T _ _ _ _ _ _ _ _ _ H2 W2 PD2 J2 ST2) as SM2. apply C93.same_bears in SM2.
  pose proof (C94.bears_fun _ _ B _ SM2) as ->. exists (taken x r). split; [rewrite M in SM; exact SM|].
  rewrite app_nil_r in F. rewrite F. unfold r. now rewrite passed_taken.
Qed.
Print Assumptions C97_complete.

(** ** From the client to a channel of the target *)

(** The calls of OnData() and OnEof() of a channel object on the target are what
    the client has said on this channel: the messages [ms] which follow its
    creation on the target, are, of the connection protocol, those which the
    client has sent, after the proxy's own. *)
Theorem C97_input :
  forall P, tags_ok P ->
  forall ops s sub w ops' s' stream seen inflight,
  C58.connected C07.polite P ops s sub w ops' s' stream seen inflight ->
  forall ops2 s2 sub2 w2 ops2' s2' stream2 seen2 inflight2,
  C58.connected C07.polite P ops2 s2 sub2 w2 ops2' s2' stream2 seen2 inflight2 ->
  forall c t rops login unread first held, let r := rrun c t rops in
  messages seen = login ++ taken Client r ++ unread ->
  conveys sub2 first (passed_on Client r) held ->
  forall E cops login2 unread2 n u, let log := Channels.cs_log (Channels.cruns E cops) in
  messages seen2 = login2 ++ handed cops ++ unread2 -> conn login2 = [] ->
  created n u log ->
  exists sent, bears sub (login ++ sent) /\
  exists ms0 ms rest, C93.since E cops n u ms0 ms /\
  first ++ conn sent = conn ms0 ++ conn ms ++ rest /\
  calls u log = spoken n (conn ms).
Proof.
  intros P T ops s sub w ops' s' stream seen inflight H ops2 s2 sub2 w2 ops2' s2' stream2 seen2 inflight2 H2 c t rops login unread first held r M G
    E cops login2 unread2 n u log M2 L2 CR.
  destruct (C97_order P T _ _ _ _ _ _ _ _ _ H _ _ _ _ _ _ _ _ _ H2 c t rops Client login unread first held M G) as (sent & B & later & O).
  exists sent. split; [exact B|]. destruct (C93.since_ex E cops n u CR) as (ms0 & ms & rest & S & HD & CL & _).
  exists ms0, ms, (conn rest ++ conn unread2 ++ later). split; [exact S|]. split; [|now rewrite spoken_conn].
  rewrite O, M2, HD, !conn_app, L2, <- !app_assoc. reflexivity.
Qed.
Print Assumptions C97_input.

(** ** From a program on the target to the client *)

(** What the client hears on its channel is what the object on the target which
    it knows by this number has said. *)
Theorem C97_output :
  forall P, tags_ok P ->
  forall ops s sub w ops' s' stream seen inflight,
  C58.connected C07.polite P ops s sub w ops' s' stream seen inflight ->
  forall ops2 s2 sub2 w2 ops2' s2' stream2 seen2 inflight2,
  C58.connected C07.polite P ops2 s2 sub2 w2 ops2' s2' stream2 seen2 inflight2 ->
  forall c t rops login unread held, let r := rrun c t rops in
  messages seen = login ++ taken Target r ++ unread -> conn login = [] ->
  conveys sub2 [] (passed_on Target r) held ->
  forall E cops n u p, let log := Channels.cs_log (Channels.cruns E cops) in
  gives sub log -> numbers log -> known_as n u p log ->
  (forall type d, In (HExt type d) (wrote u log) -> type < pow32) ->
  exists later, wrote u log = hears p (messages seen2) ++ later.
Proof.
  intros P T ops s sub w ops' s' stream seen inflight H ops2 s2 sub2 w2 ops2' s2' stream2 seen2 inflight2 H2 c t rops login unread held r M L0 (all2 & B2 & F2)
    E cops n u p log G NB K X.
  destruct (C94.C94_channel P T _ _ _ _ _ _ _ _ _ H E cops n u p G NB K X) as (later & L). fold log in L.
  destruct (C93.C93_transport P T _ _ _ _ _ _ _ _ _ H2) as (later2 & B2'). pose proof (C94.bears_fun _ _ B2 _ B2') as ->.
  assert (Q : conn (taken Target r) = passed_on Target r) by (symmetry; apply passed_taken). cbn [app] in F2.
  exists (hears p (conn later2 ++ held ++ conn unread) ++ later). rewrite L, app_assoc. f_equal.
  rewrite <- hears_conn, M, !conn_app, L0, Q, <- F2, conn_app. cbn [app]. rewrite <- (hears_conn p (messages seen2)).
  unfold hears. rewrite <- flat_map_app, <- !app_assoc. reflexivity.
Qed.
Print Assumptions C97_output.

(** ** A client, a proxy and a target *)

(** The client opens a channel and sends data, with a MSG_IGNORE between them;
    the proxy's connection to the target is blocked for a while.  [m_first] stands
    for the message with the restrictions of the login. *)
Definition m_first : bytes := C96.m_ask false.
Definition from_client : list bytes := [C93.m_open; [2; 0; 0; 0; 0]; C93.m_data [1; 2; 3]; C93.m_eof].
Definition to_target : list bytes := [m_first; C93.m_open; C93.m_data [1; 2; 3]; C93.m_eof].
Definition e0 : end_point := new_end false false false false false.
Definition demo_rops : list rop :=
  [RReceive Client [C93.m_open; [2; 0; 0; 0; 0]]; RWork Client; RDone Client; RWrite Target true;
   RReceive Client [C93.m_data [1; 2; 3]; C93.m_eof]; RWork Client; RDone Client; RWrite Target false; RResume Client].
Definition demo_cops : list Channels.cop :=
  [Channels.OpPacket 80 (List.tl m_first) quiet_rx; p_open 7 100 50; p_data 0 [1; 2; 3]; p_eof 0].

Example C97_from_client : C95.linked from_client.
Proof. unfold from_client, C93.m_open, C93.m_data, C93.m_eof. C95.link. Qed.
Example C97_to_target : C95.linked to_target.
Proof. unfold to_target, m_first, C96.m_ask, C93.m_open, C93.m_data, C93.m_eof. C95.link. Qed.

Lemma conveys_dec : forall ms first passed, forallb (fun m => (1 <=? len m) && (len m <=? 31)) ms = true ->
  conn ([21] :: ms) = first ++ passed -> conveys (C95.d_sub ms) first passed [].
Proof. intros ms first passed L F. exists ([21] :: ms). split; [now apply C96.pk_bears|]. now rewrite app_nil_r. Qed.

Example C97_demo_input :
  let r := rrun e0 e0 demo_rops in let log := Channels.cs_log (Channels.cruns rel demo_cops) in
  messages (C95.d_seen from_client) = [[21]] ++ taken Client r ++ [] /\
  conveys (C95.d_sub to_target) [m_first] (passed_on Client r) [] /\
  messages (C95.d_seen to_target) = [[21]] ++ handed demo_cops ++ [] /\ conn [[21]] = [] /\
  created 0 1 log /\ calls 1 log = [Data [1; 2; 3]; Eof].
Proof.
  cbv zeta. split; [vm_compute; reflexivity|]. split; [apply conveys_dec; vm_compute; reflexivity|]. split; [vm_compute; reflexivity|]. split; [reflexivity|].
  split; [|vm_compute; reflexivity]. eapply C95.known_created. apply C94.known_dec with (p := 7); vm_compute; reflexivity.
Qed.

(** The way back: the target's messages of C94 (two channels, and a MSG_IGNORE). *)
Definition back : list bytes := conn C94.demo_messages.
Definition back_rops : list rop :=
  [RReceive Target (firstn 5 C94.demo_messages); RWork Target; RDone Target; RReceive Target (skipn 5 C94.demo_messages); RWork Target; RDone Target].
Example C97_from_target : C95.linked C94.demo_messages.
Proof. unfold C94.demo_messages. C95.link. Qed.
Example C97_to_client : C95.linked back.
Proof.
  unfold back. replace (conn C94.demo_messages) with (firstn 3 C94.demo_messages ++ skipn 4 C94.demo_messages) by (vm_compute; reflexivity).
  unfold C94.demo_messages. cbn [firstn skipn app]. C95.link.
Qed.
Example C97_demo_output :
  let r := rrun e0 e0 back_rops in let log := Channels.cs_log (Channels.cruns rel C94.demo_cops) in
  messages (C95.d_seen C94.demo_messages) = [[21]] ++ taken Target r ++ [] /\ conn [[21]] = [] /\
  conveys (C95.d_sub back) [] (passed_on Target r) [] /\
  gives (C95.d_sub C94.demo_messages) log /\ numbers log /\ known_as 0 1 7 log /\
  (forall type d, In (HExt type d) (wrote 1 log) -> type < pow32) /\
  hears 7 (messages (C95.d_seen back)) = [HData [1; 2]; HData [3]; HExt 1 [9]; HEof].
Proof.
  cbv zeta. split; [vm_compute; reflexivity|]. split; [reflexivity|]. split; [apply conveys_dec; vm_compute; reflexivity|].
  split; [exact C94.demo_gives|]. split; [apply C94.demo_numbers|]. split; [apply C94.demo_numbers|]. split; [|vm_compute; reflexivity].
  replace (wrote 1 (Channels.cs_log (Channels.cruns rel C94.demo_cops))) with [HData [1; 2]; HData [3]; HExt 1 [9]; HEof] by (vm_compute; reflexivity).
  intros type d I0. repeat destruct I0 as [I0|I0]; try discriminate; [|contradiction]. injection I0 as <- _. reflexivity.
Qed.
