(** * C93: what the client sends is what the program reads

    The path of the data, end to end: the client's transport ([connected] as in
    C58: both transports with their threads, in any interleaving, and the
    network), the server's channels (Model/Channels.v), and the standard input
    of the program (Model/Buffered.v) or the socket of a forwarded connection
    (Model/RecvWindow.v).  Spec/PipelineSpec.v says what is said on a channel.

    The parts are joined where one calls the next: the messages which the
    transport delivers are those handed to the channels ([handed ops]) after
    the login, and the calls of OnData() and OnEof() of the channel object [u]
    are those which the session sees ([stdin_told], [socket_told]). *)

From Coq Require Import String NArith List Bool Lia.
From Verif.Base Require Import Bytes.
From Verif.Model Require Import Wire Frame Packets Requests Channels Queue Ciphers Buffered RecvWindow.
From Verif.Model Require Output Input.
From Verif.Spec Require Import WireSpec FrameSpec CipherSpec OutputSpec InputSpec EndToEndSpec ChannelSpec BufferedSpec RecvWindowSpec PipelineSpec.
From Verif.Proofs Require Import CipherFacts EndToEndFacts BufferedFacts PipelineFacts ChannelToy WireFacts.
From Verif.Proofs Require OutputFacts InputFacts.
From Verif.Props Require C07 C26 C58 C80.
Import ListNotations.
Local Notation same := EndToEndSpec.same.
Open Scope N_scope.

(** ** What a message says *)

(** CHANNEL_DATA and CHANNEL_EOF for channel [n] say something there and
    nothing on any other channel. *)
Theorem C93_messages :
  forall n k p, n < pow32 -> len p < pow32 ->
  item_of k (94 :: be32 n ++ be32 (len p) ++ p) = (if k =? n then [Data p] else []) /\
  item_of k (96 :: be32 n) = (if k =? n then [Eof] else []).
Proof.
  intros n k p N0 P0. rewrite read_data, read_eof. unfold ParseChannelData, ParseChannelEof.
  rewrite ReadU32_be32 by exact N0. replace (be32 n) with (be32 n ++ []) by apply app_nil_r. rewrite (ReadU32_be32 n []) by exact N0. cbn [obind ExpectEnd].
  pose proof (ReadString_enc p [] P0) as R. unfold ReadString, string_enc in R. rewrite app_nil_r in R. rewrite R. cbn [obind ExpectEnd cd_local_channel cd_data].
  rewrite (N.eqb_sym n k). auto.
Qed.
Print Assumptions C93_messages.

(** ** The channel *)

(** Every channel object is told exactly what is said on its channel number,
    from its creation until it is destroyed. *)
Theorem C93_channel :
  forall E ops n u, created n u (cs_log (cruns E ops)) ->
  exists before o during after, ops = before ++ o :: during ++ after /\
  ~ created n u (cs_log (cruns E before)) /\ created n u (cs_log (cruns E (before ++ [o]))) /\
  calls u (cs_log (cruns E ops)) = spoken n (handed during) /\
  (lives n u (cs_log (cruns E ops)) -> after = []) /\
  (forall x y, after = x :: y -> ~ lives n u (cs_log (cruns E (before ++ o :: during ++ [x])))).
Proof. exact fate. Qed.
Print Assumptions C93_channel.

(** ** The transport *)

Lemma same_bears : forall seq sub seen, same running running run_mirror seq sub seen -> bears sub (messages seen).
Proof. intros seq sub seen H. induction H; cbn; try constructor; assumption. Qed.
Lemma proper_bears : forall sub b, proper running b sub -> exists ms, bears sub ms.
Proof.
  induction sub as [|[p|c r] sub IH]; intros b H; [eexists; constructor| |].
  - destruct H as (_ & m & C & H). destruct (IH _ H) as (ms & B). exists (m :: ms). now constructor.
  - destruct H as (_ & H). destruct (IH _ H) as (ms & B). exists ms. now constructor.
Qed.
Lemma proper_suffix : forall a c b, proper running b (a ++ c) -> exists b', proper running b' c.
Proof.
  induction a as [|[p|x r] a IH]; intros c b H; [eauto| |].
  - destruct H as (_ & m & _ & H). eapply IH. exact H.
  - destruct H as (_ & H). eapply IH. exact H.
Qed.
Lemma bears_app : forall (a c : list (submitted running)) x y, bears a x -> bears c y -> bears (a ++ c) (x ++ y).
Proof. intros a c x y H K. induction H; cbn; try constructor; assumption. Qed.

(** The messages delivered are the first ones which were submitted. *)
Theorem C93_transport :
  forall P, tags_ok P ->
  forall ops s sub w ops' s' stream seen inflight,
  C58.connected C07.polite P ops s sub w ops' s' stream seen inflight ->
  exists later, bears sub (messages seen ++ later).
Proof.
  intros P T ops s sub w ops' s' stream seen inflight H.
  destruct (C58.C58_received_is_sent_partial P T _ _ _ _ _ _ _ _ _ H) as (a & b & -> & S).
  destruct (proper_suffix a b false (C58.cn_proper _ _ _ _ _ _ _ _ _ _ _ H)) as (b' & PB). destruct (proper_bears _ _ PB) as (later & B).
  exists later. apply bears_app; [now apply same_bears in S|exact B].
Qed.
Print Assumptions C93_transport.

(** ** End to end *)

(** [since E ops n u ms0 ms]: the object [u] of channel [n] was created by the
    last of the messages [ms0] (or soon after it, before the next one), and [ms]
    are all the messages which followed, until now or until it was destroyed. *)
Definition since (E : renv) (ops : list cop) (n u : N) (ms0 ms : list bytes) : Prop :=
  exists before o during after, ops = before ++ o :: during ++ after /\
  ~ created n u (cs_log (cruns E before)) /\ created n u (cs_log (cruns E (before ++ [o]))) /\
  ms0 = handed (before ++ [o]) /\ ms = handed during /\
  (lives n u (cs_log (cruns E ops)) -> after = []) /\
  (forall x y, after = x :: y -> ~ lives n u (cs_log (cruns E (before ++ o :: during ++ [x])))).

Lemma since_ex : forall E ops n u, created n u (cs_log (cruns E ops)) ->
  exists ms0 ms rest, since E ops n u ms0 ms /\ handed ops = ms0 ++ ms ++ rest /\
    calls u (cs_log (cruns E ops)) = spoken n ms /\ (lives n u (cs_log (cruns E ops)) -> rest = []).
Proof.
  intros E ops n u C. destruct (fate E ops n u C) as (b & o & d & a & E0 & A1 & A2 & A3 & A4 & A5).
  exists (handed (b ++ [o])), (handed d), (handed a). split; [exists b, o, d, a; auto 10|]. split.
  - rewrite E0. change (o :: d ++ a) with ([o] ++ d ++ a). rewrite !handed_app, <- !app_assoc. reflexivity.
  - split; [exact A3|]. intros L. now rewrite (A4 L).
Qed.

Lemma stdin_text : forall iops, ireceived iops = text (stdin_told iops).
Proof.
  induction iops as [|o t IH]; [reflexivity|]. destruct o; cbn [ireceived]; rewrite IH; reflexivity.
Qed.
Lemma told_nil : forall t, stdin_told t = [] -> ~ In InEof t /\ forall p a, ~ In (InData p a) t.
Proof.
  induction t as [|o t IH]; intros H; [split; [intros []|intros p a []]|].
  destruct o; try discriminate; destruct (IH H) as (A & B); (split; [intros [Q|Q]; [discriminate|exact (A Q)]|intros p' a' [Q|Q]; [discriminate|exact (B _ _ Q)]]).
Qed.
Lemma told_silent : forall t, stdin_told t = [] -> ipolite t.
Proof. induction t as [|o t IH]; intros H; [exact Logic.I|]. destruct o; try discriminate; cbn [ipolite]; auto. Qed.
Lemma stdin_polite : forall iops, eof_last (stdin_told iops) -> ipolite iops.
Proof.
  induction iops as [|o t IH]; intros H; [exact Logic.I|]. destruct o; cbn [ipolite]; try (apply IH; exact H).
  change (stdin_told (InEof :: t)) with (Eof :: stdin_told t) in H. cbn [eof_last] in H. destruct (told_nil t H) as (A & B). split; [exact A|]. split; [exact B|].
  now apply told_silent.
Qed.

(** The standard input of a program.  Whatever the threads, the network, the
    program and the kernel do: what was written to the program or discarded,
    followed by what is waiting, is what the client has said on this channel,
    unchanged and in order.  If no write() fails and the client sends nothing
    after its CHANNEL_EOF, nothing is discarded. *)
Theorem C93_stdin :
  forall P, tags_ok P ->
  forall ops s sub w ops' s' stream seen inflight,
  C58.connected C07.polite P ops s sub w ops' s' stream seen inflight ->
  forall E dbg cops login unread n u iops,
  messages seen = login ++ handed cops ++ unread ->
  created n u (cs_log (cruns E cops)) ->
  stdin_told iops = calls u (cs_log (cruns E cops)) ->
  exists ms0 ms rest, bears sub (login ++ ms0 ++ ms ++ rest) /\ since E cops n u ms0 ms /\
  (bc_assert (iruns dbg iops) = false ->
   concat (map fate_bytes (i_fate (bc_dst (iruns dbg iops)))) ++ concat (bc_queue (iruns dbg iops)) = text (spoken n ms)) /\
  (Forall no_failure iops -> eof_last (spoken n ms) ->
   bc_assert (iruns dbg iops) = false /\
   written (i_fate (bc_dst (iruns dbg iops))) ++ concat (bc_queue (iruns dbg iops)) = text (spoken n ms)).
Proof.
  intros P T ops s sub w ops' s' stream seen inflight H E dbg cops login unread n u iops M C I0.
  destruct (C93_transport P T _ _ _ _ _ _ _ _ _ H) as (later & B).
  destruct (since_ex E cops n u C) as (ms0 & ms & rest & S & HD & CL & _).
  exists ms0, ms, (rest ++ unread ++ later). split.
  - rewrite M, HD in B. rewrite <- !app_assoc in B. exact B.
  - split; [exact S|]. rewrite CL in I0. split.
    + intros A. rewrite <- I0, <- stdin_text. now apply C26.C26_stdin_in_order.
    + intros F EL. rewrite <- I0 in EL. rewrite <- I0, <- stdin_text. apply C26.C26_stdin_written; [exact F|now apply stdin_polite].
Qed.
Print Assumptions C93_stdin.

(** If everything has arrived and been handled, the object still exists and
    nothing is waiting, then the program has got all of it. *)
Theorem C93_complete :
  forall P, tags_ok P ->
  forall ops s sub w ops' s' stream seen s2,
  C58.connected C07.polite P ops s sub w ops' s' stream seen [] ->
  w = wire running (out_encrypt P) None 0 sub ->
  padded running run_block_size run_header_excluded sends None sub ->
  Input.i_job running s' = Input.IInitial ->
  Input.istep running run_auth_size (in_header P) (in_payload P) s' (Input.Read running) = Input.IOk running s2 [] ->
  forall E dbg cops login n u iops,
  messages seen = login ++ handed cops ->
  lives n u (cs_log (cruns E cops)) ->
  stdin_told iops = calls u (cs_log (cruns E cops)) ->
  Forall no_failure iops ->
  exists ms0 ms, bears sub (login ++ ms0 ++ ms) /\ since E cops n u ms0 ms /\
  (eof_last (spoken n ms) -> bc_queue (iruns dbg iops) = [] ->
   written (i_fate (bc_dst (iruns dbg iops))) = text (spoken n ms)).
Proof.
  intros P T ops s sub w ops' s' stream seen s2 H W PD J ST E dbg cops login n u iops M L I0 F.
  pose proof (C58.C58_everything_arrives_partial P T _ _ _ _ _ _ _ _ _ H W PD J ST) as SM. apply same_bears in SM.
  destruct (since_ex E cops n u (proj1 L)) as (ms0 & ms & rest & S & HD & CL & RE). specialize (RE L). subst rest.
  exists ms0, ms. split; [rewrite M, HD, app_nil_r in SM; exact SM|]. split; [exact S|]. intros EL Q. rewrite CL in I0. rewrite <- I0 in EL.
  destruct (C26.C26_stdin_written dbg iops F (stdin_polite iops EL)) as (_ & X). rewrite Q in X. cbn in X. rewrite app_nil_r in X.
  now rewrite X, <- I0, <- stdin_text.
Qed.
Print Assumptions C93_complete.

Lemma socket_text : forall kops, socket_received kops = text (socket_told kops).
Proof. induction kops as [|o t IH]; [reflexivity|]. destruct o; cbn; unfold socket_received in IH; rewrite IH; reflexivity. Qed.

(** The same for a forwarded connection, until an error. *)
Theorem C93_socket :
  forall P, tags_ok P ->
  forall ops s sub w ops' s' stream seen inflight,
  C58.connected C07.polite P ops s sub w ops' s' stream seen inflight ->
  forall E dbg cops login unread n u kops,
  messages seen = login ++ handed cops ++ unread ->
  created n u (cs_log (cruns E cops)) ->
  socket_told kops = calls u (cs_log (cruns E cops)) ->
  refused (kruns dbg kops) = false -> broken (kruns dbg kops) = false -> crashed (kruns dbg kops) = false ->
  socket_failed (kruns dbg kops) = false ->
  exists ms0 ms rest, bears sub (login ++ ms0 ++ ms ++ rest) /\ since E cops n u ms0 ms /\
  concat (k_written (socket (kruns dbg kops))) ++ concat (bc_queue (ws_ch (kruns dbg kops))) = text (spoken n ms).
Proof.
  intros P T ops s sub w ops' s' stream seen inflight H E dbg cops login unread n u kops M C I0 R1 R2 R3 R4.
  destruct (C93_transport P T _ _ _ _ _ _ _ _ _ H) as (later & B).
  destruct (since_ex E cops n u C) as (ms0 & ms & rest & S & HD & CL & _).
  exists ms0, ms, (rest ++ unread ++ later). split.
  - rewrite M, HD in B. rewrite <- !app_assoc in B. exact B.
  - split; [exact S|]. rewrite CL in I0. rewrite <- I0, <- socket_text. now apply C80.C80_socket_order.
Qed.
Print Assumptions C93_socket.

(** ** What is lost *)

(** RFC 4254 5.3: "It is RECOMMENDED that all data sent before this message
    [CHANNEL_CLOSE] be delivered to the actual destination, if possible."
    The object and its buffer are destroyed by CHANNEL_CLOSE. *)
Definition C93_full_statement : Prop :=
  forall E dbg cops n u iops r,
  lives n u (cs_log (cruns E cops)) -> stdin_told iops = calls u (cs_log (cruns E cops)) ->
  Forall no_failure iops -> eof_last (stdin_told iops) ->
  let closed := cruns E (cops ++ [OpPacket 97 (be32 n) r]) in
  ~ lives n u (cs_log closed) ->
  written (i_fate (bc_dst (iruns dbg iops))) = text (calls u (cs_log closed)).

Definition lost_cops : list cop := [p_open 7 100 50; p_data 0 [1; 2; 3]; p_eof 0].
Definition lost_iops : list iop := [InPipes; InEnable; InData [1; 2; 3] [Wrote 1]; InEof].

Theorem C93_refuted : ~ C93_full_statement.
Proof.
  intros H. specialize (H rel false lost_cops 0 1 lost_iops quiet_rx). vm_compute in H.
  assert (X : [1] = [1; 2; 3]); [|discriminate]. apply H.
  - split; [do 3 eexists; repeat first [left; reflexivity|right]|]. intros X. repeat destruct X as [X|X]; try discriminate. exact X.
  - reflexivity.
  - repeat constructor; intuition discriminate.
  - reflexivity.
  - intros (_ & X). apply X. left. reflexivity.
Qed.
Print Assumptions C93_refuted.

(** ** A connection with all its layers *)

Definition m_open : bytes := 90 :: string_enc (bs "session") ++ be32 7 ++ be32 100 ++ be32 32768.
Definition m_data (d : bytes) : bytes := 94 :: be32 0 ++ string_enc d.
Definition m_eof : bytes := 96 :: be32 0.

Definition demo_send : list (Output.op running) :=
  [Output.Push _ (C58.pk [21]); Output.SetCipher _ (C58.gcm true); Output.Push _ (C58.pk m_open); Output.Push _ (C58.pk (m_data [1; 2; 3]));
   Output.RunBegin _; Output.RunEncrypt _; Output.RunEncrypt _; Output.RunEnd _; Output.Wakeup _;
   Output.Push _ (C58.pk (m_data [4])); Output.Push _ (C58.pk m_eof);
   Output.RunBegin _; Output.RunEncrypt _; Output.RunEncrypt _; Output.RunEnd _; Output.Wakeup _; Output.Flush _ (Some 244)].
Definition demo_sub : list (submitted running) :=
  [Packet (C58.pk [21]); NewCipher (C58.gcm true) false; Packet (C58.pk m_open); Packet (C58.pk (m_data [1; 2; 3]));
   Packet (C58.pk (m_data [4])); Packet (C58.pk m_eof)].
Definition demo_wire : bytes := wire running (out_encrypt C58.toy) None 0 demo_sub.
Definition demo_receive : list (Input.iop running) :=
  [Input.Feed _ (take 50 demo_wire); Input.Read _; Input.SetCipher _ (C58.gcm false);
   Input.Consume _; Input.Feed _ (drop 50 demo_wire);
   Input.RunBegin _ 1000; Input.RunLoop _; Input.RunLoop _; Input.RunLoop _; Input.RunLoop _; Input.RunLoop _; Input.RunEnd _ 0; Input.Wakeup _;
   Input.Read _; Input.Consume _; Input.Read _; Input.Consume _; Input.Read _; Input.Consume _; Input.Read _; Input.Consume _].
Definition demo_seen : list (revent running) :=
  [Message 0 [21]; Cipher (C58.gcm false) false; Message 1 m_open; Message 2 (m_data [1; 2; 3]); Message 3 (m_data [4]); Message 4 m_eof].

Definition demo_cops : list cop := [p_open 7 100 50; p_data 0 [1; 2; 3]; OpConsume 0 1; p_data 0 [4]; p_eof 0].
Definition demo_iops : list iop :=
  [InPipes; InEnable; InData [1; 2; 3] [Wrote 1]; InData [4] []; InReady [Wrote 2; Wrote 1]; InEof].

Definition demo_kops : list kop := [KData [1; 2; 3] [Wrote 1]; KData [4] []; KEof; KReady [Wrote 2; Wrote 1]].

Example C93_demo :
  exists s s', C58.connected C07.polite C58.toy demo_send s demo_sub demo_wire demo_receive s' demo_wire demo_seen [] /\
  messages demo_seen = [[21]] ++ handed demo_cops ++ [] /\
  lives 0 1 (cs_log (cruns rel demo_cops)) /\
  stdin_told demo_iops = calls 1 (cs_log (cruns rel demo_cops)) /\ Forall no_failure demo_iops /\
  eof_last (calls 1 (cs_log (cruns rel demo_cops))) /\
  written (i_fate (bc_dst (iruns true demo_iops))) = [1; 2; 3; 4] /\ bc_queue (iruns true demo_iops) = [] /\
  padded running run_block_size run_header_excluded sends None demo_sub /\
  Input.i_job running s' = Input.IInitial /\
  Input.istep running run_auth_size (in_header C58.toy) (in_payload C58.toy) s' (Input.Read running) = Input.IOk running s' [].
Proof.
  do 2 eexists. split; [|split; [|split; [|split; [|split; [|split; [|split; [|split; [|split; [|split]]]]]]]]].
  - split.
    + change demo_send with ([] ++ demo_send). eapply C58.exec_runs; [apply OutputFacts.runs_nil| |].
      * vm_compute. repeat split; discriminate.
      * vm_compute. reflexivity.
    + change demo_receive with ([] ++ demo_receive). eapply C58.iexec_runs; [apply InputFacts.iruns_nil|].
      vm_compute. reflexivity.
    + rewrite app_nil_r. reflexivity.
    + cbn [demo_sub proper]. split; [reflexivity|]. exists [21]. split; [apply C58.pk_carries; vm_compute; discriminate|].
      split; [reflexivity|]. split; [reflexivity|]. exists m_open. split; [apply C58.pk_carries; vm_compute; discriminate|].
      split; [reflexivity|]. exists (m_data [1; 2; 3]). split; [apply C58.pk_carries; vm_compute; discriminate|].
      split; [reflexivity|]. exists (m_data [4]). split; [apply C58.pk_carries; vm_compute; discriminate|].
      split; [reflexivity|]. exists m_eof. split; [apply C58.pk_carries; vm_compute; discriminate|]. exact Logic.I.
    + intros [|i] d reset H; cbn in H.
      * assert (d = C58.gcm false) by congruence. assert (reset = false) by congruence. subst.
        exists (C58.gcm true). split; [reflexivity|]. repeat split; reflexivity.
      * destruct i; discriminate.
  - vm_compute. reflexivity.
  - split; [do 3 eexists; vm_compute; repeat first [left; reflexivity|right]|]. vm_compute. intros X. repeat destruct X as [X|X]; try discriminate. exact X.
  - vm_compute. reflexivity.
  - repeat constructor; vm_compute; intuition discriminate.
  - vm_compute. reflexivity.
  - vm_compute. reflexivity.
  - vm_compute. reflexivity.
  - vm_compute. repeat split; discriminate.
  - vm_compute. reflexivity.
  - vm_compute. reflexivity.
Qed.

Example C93_socket_demo :
  socket_told demo_kops = calls 1 (cs_log (cruns rel demo_cops)) /\
  refused (kruns true demo_kops) = false /\ broken (kruns true demo_kops) = false /\ crashed (kruns true demo_kops) = false /\
  socket_failed (kruns true demo_kops) = false /\ k_written (socket (kruns true demo_kops)) = [[1]; [2; 3]; [4]].
Proof. vm_compute. repeat split. Qed.
