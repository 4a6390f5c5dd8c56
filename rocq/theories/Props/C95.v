(** * C95: the client's requests and their answers, end to end

    Both directions of a connection ([connected] as in C58: both transports with
    their threads, in any interleaving, and the network), the channels
    (Model/Channels.v) and the packets which they send (Model/Emit.v).
    Spec/AnswerSpec.v says what the client asks and which answers it hears, from
    the bytes of the messages, per RFC 4254.

    The parts are joined as in C93 and C94: the messages which the client's
    transport delivers are those handed to the channels after the login, and
    what all channels have said, one packet each, is what the server's transport
    was given. *)

From Coq Require Import String NArith List Bool Lia.
From Verif.Base Require Import Bytes.
From Verif.Model Require Import Wire Frame Packets Makers Requests Channels Queue Ciphers Emit.
From Verif.Model Require Output Input.
From Verif.Spec Require Import WireSpec FrameSpec CipherSpec OutputSpec InputSpec EndToEndSpec ChannelSpec PipelineSpec ReturnSpec AnswerSpec.
From Verif.Proofs Require Import WireFacts FrameFacts CipherFacts EndToEndFacts ChannelRequests ChannelFacts ReturnFacts AnswerFacts ChannelToy.
From Verif.Proofs Require OutputFacts InputFacts.
From Verif.Props Require C07 C24 C58 C93 C94.
Import ListNotations.
Open Scope N_scope.

(** ** What a message asks *)

(** A CHANNEL_REQUEST for channel [n] asks something there and nothing on any
    other channel; CHANNEL_SUCCESS and CHANNEL_FAILURE answer only there. *)
Theorem C95_messages :
  forall (n k w : N) (name data : bytes) (b : bool), n < pow32 -> len name < pow32 ->
  request_of k (98 :: be32 n ++ string_enc name ++ w :: data) =
    (if k =? n then [{| q_name := name; q_want := negb (w =? 0); q_data := data |}] else []) /\
  answer_of k ((if b then 99 else 100) :: be32 n) = (if k =? n then [b] else []).
Proof.
  intros n k w name data b N0 L0. split.
  - rewrite read_request. unfold ParseChannelRequest. rewrite ReadU32_be32 by exact N0. cbn [obind]. rewrite ReadString_enc by exact L0.
    cbn [obind ReadBool cr_local_channel cr_request_type cr_want_reply cr_data]. now rewrite (N.eqb_sym n k).
  - destruct (be32_read n N0) as (x1 & x2 & x3 & x4 & -> & R). destruct b; cbn [answer_of]; rewrite R, (N.eqb_sym n k); reflexivity.
Qed.
Print Assumptions C95_messages.

(** ** The channel *)

(** Every channel object is asked exactly what is requested on its channel
    number, from its creation until it is destroyed. *)
Theorem C95_channel :
  forall E ops n u, created n u (cs_log (cruns E ops)) ->
  exists before o during after, ops = before ++ o :: during ++ after /\
  ~ created n u (cs_log (cruns E before)) /\ created n u (cs_log (cruns E (before ++ [o]))) /\
  map snd (told u (cs_log (cruns E ops))) = requested n (handed during) /\
  (lives n u (cs_log (cruns E ops)) -> after = []) /\
  (forall x y, after = x :: y -> ~ lives n u (cs_log (cruns E (before ++ o :: during ++ [x])))).
Proof. exact fate_asks. Qed.
Print Assumptions C95_channel.

(** ** The way back *)

(** What the client hears as answers on its channel [p] is the beginning of the
    replies of the channel object which it knows by this number: none is added,
    changed, reordered, or taken from another channel.  This holds for all
    request handlers. *)
Theorem C95_heard :
  forall P, tags_ok P ->
  forall ops s sub w ops' s' stream seen inflight,
  C58.connected C07.polite P ops s sub w ops' s' stream seen inflight ->
  forall E cops n u p, let log := cs_log (cruns E cops) in
  gives sub log -> numbers log -> confirmed_numbers log -> known_as n u p log -> own_number p log ->
  exists later, replies u log = answered p (messages seen) ++ later.
Proof.
  intros P T ops s sub w ops' s' stream seen inflight H E cops n u p log (all & B & F) NB CN K O.
  destruct (C93.C93_transport P T _ _ _ _ _ _ _ _ _ H) as (later & B').
  pose proof (C94.bears_fun _ _ B _ B') as ->. exists (answered p later).
  unfold log. rewrite <- (known_answered E cops n u p K O). unfold answered. rewrite <- flat_map_app. fold (answered p (messages seen ++ later)).
  rewrite <- answered_channel. symmetry. apply answered_emitted; [exact F|]. now apply reply_numbers.
Qed.
Print Assumptions C95_heard.

(** ** Both ways *)

Lemma told_since : forall E ops n u, created n u (cs_log (cruns E ops)) ->
  exists ms0 ms rest, C93.since E ops n u ms0 ms /\ handed ops = ms0 ++ ms ++ rest /\
    map snd (told u (cs_log (cruns E ops))) = requested n ms /\ (lives n u (cs_log (cruns E ops)) -> rest = []).
Proof.
  intros E ops n u C. destruct (fate_asks E ops n u C) as (b & o & d & a & E0 & A1 & A2 & A3 & A4 & A5).
  exists (handed (b ++ [o])), (handed d), (handed a). split; [exists b, o, d, a; auto 10|]. split.
  - rewrite E0. change (o :: d ++ a) with ([o] ++ d ++ a). rewrite !PipelineFacts.handed_app, <- !app_assoc. reflexivity.
  - split; [exact A3|]. intros L. now rewrite (A4 L).
Qed.
Lemma known_created : forall n u p l, known_as n u p l -> created n u l.
Proof. intros n u p l ((w & w' & H) & _). exists p, w, w'. exact H. Qed.

(** Whatever the threads, the networks and the programs do, and however long
    the handlers take: the [k]-th answer which the client hears on its channel
    is the result of the [k]-th of its requests there for which it wanted one.
    (If we do not close the channel, and handlers of requests without "want
    reply" do not finish synchronously: [considerate].) *)
Theorem C95_order_partial :
  forall P, tags_ok P ->
  forall ops s sub w ops' s' stream seen inflight,
  C58.connected C07.polite P ops s sub w ops' s' stream seen inflight ->
  forall rops rs rsub rw rops' rs' rstream rseen rinflight,
  C58.connected C07.polite P rops rs rsub rw rops' rs' rstream rseen rinflight ->
  forall E cops login unread n u p, let log := cs_log (cruns E cops) in
  messages seen = login ++ handed cops ++ unread ->
  gives rsub log -> numbers log -> confirmed_numbers log -> known_as n u p log -> own_number p log ->
  Forall (considerate E) cops -> ~ C24.closed u log ->
  exists ms0 ms rest, bears sub (login ++ ms0 ++ ms ++ rest) /\ C93.since E cops n u ms0 ms /\
  map snd (told u log) = requested n ms /\
  forall k b, nth_error (answered p (messages rseen)) k = Some b ->
  exists id r, nth_error (expected (told u log)) k = Some (id, r) /\ result u id log = Some b.
Proof.
  intros P T ops s sub w ops' s' stream seen inflight H rops rs rsub rw rops' rs' rstream rseen rinflight R E cops login unread n u p log M G NB CN K O C NC.
  destruct (C93.C93_transport P T _ _ _ _ _ _ _ _ _ H) as (later & B). pose proof (known_created _ _ _ _ K) as CR.
  destruct (told_since E cops n u CR) as (ms0 & ms & rest & S & HD & CL & _).
  exists ms0, ms, (rest ++ unread ++ later). split; [rewrite M, HD in B; rewrite <- !app_assoc in B; exact B|]. split; [exact S|]. split; [exact CL|].
  intros k b N0. destruct (C95_heard P T _ _ _ _ _ _ _ _ _ R E cops n u p G NB CN K O) as (l2 & L).
  assert (N1 : nth_error (replies u log) k = Some b).
  { unfold log. rewrite L, nth_error_app1; [exact N0|]. apply nth_error_Some. congruence. }
  destruct (C24.C24_order_partial E cops u C (created_positive E cops n u CR) NC k b N1) as (id & W & RS).
  rewrite <- told_asked, <- expected_wanted, nth_error_map in W. fold log in W. destruct (nth_error (expected (told u log)) k) as [(i & r)|] eqn:X; [|discriminate].
  cbn [option_map fst snd] in W. injection W as -> _. exists id, r. auto.
Qed.
Print Assumptions C95_order_partial.

Lemma answers_all : forall u l t, (forall id r, In (id, r) t -> result u id l <> None) ->
  Forall2 (fun x b => result u (fst x) l = Some b) (expected t) (answers (fun id => result u id l) (map (fun x => (fst x, q_want (snd x))) t)).
Proof.
  intros u l t. induction t as [|(id & r) t IH]; intros H; [constructor|]. cbn [map answers fst snd]. unfold expected. cbn [filter]. change (waits (id, r)) with (q_want r).
  assert (H' : forall id r, In (id, r) t -> result u id l <> None) by (intros; eapply H; right; eassumption). specialize (IH H').
  destruct (result u id l) as [b|] eqn:B; [|exfalso; eapply H; [left; reflexivity|exact B]].
  destruct (q_want r); [constructor; [exact B|exact IH]|exact IH].
Qed.

(** If everything has arrived on both ways and all handlers have finished, the
    client has an answer to each of its requests for which it wanted one. *)
Theorem C95_complete_partial :
  forall P, tags_ok P ->
  forall ops s sub w ops' s' stream seen s2,
  C58.connected C07.polite P ops s sub w ops' s' stream seen [] ->
  w = wire running (out_encrypt P) None 0 sub ->
  padded running run_block_size run_header_excluded sends None sub ->
  Input.i_job running s' = Input.IInitial ->
  Input.istep running run_auth_size (in_header P) (in_payload P) s' (Input.Read running) = Input.IOk running s2 [] ->
  forall rops rs rsub rw rops' rs' rstream rseen rs2,
  C58.connected C07.polite P rops rs rsub rw rops' rs' rstream rseen [] ->
  rw = wire running (out_encrypt P) None 0 rsub ->
  padded running run_block_size run_header_excluded sends None rsub ->
  Input.i_job running rs' = Input.IInitial ->
  Input.istep running run_auth_size (in_header P) (in_payload P) rs' (Input.Read running) = Input.IOk running rs2 [] ->
  forall E cops login n u p, let log := cs_log (cruns E cops) in
  messages seen = login ++ handed cops ->
  gives rsub log -> numbers log -> confirmed_numbers log -> known_as n u p log -> own_number p log ->
  Forall (considerate E) cops -> ~ C24.closed u log -> lives n u log ->
  (forall id r, In (id, r) (told u log) -> result u id log <> None) ->
  exists ms0 ms, bears sub (login ++ ms0 ++ ms) /\ C93.since E cops n u ms0 ms /\
  map snd (told u log) = requested n ms /\
  Forall2 (fun x b => result u (fst x) log = Some b) (expected (told u log)) (answered p (messages rseen)).
Proof.
  intros P T ops s sub w ops' s' stream seen s2 H W PD J ST rops rs rsub rw rops' rs' rstream rseen rs2 R RW RPD RJ RST
    E cops login n u p log M (all & B & F) NB CN K O C NC LV FIN.
  pose proof (C58.C58_everything_arrives_partial P T _ _ _ _ _ _ _ _ _ H W PD J ST) as SM. apply C93.same_bears in SM.
  pose proof (C58.C58_everything_arrives_partial P T _ _ _ _ _ _ _ _ _ R RW RPD RJ RST) as RM. apply C93.same_bears in RM.
  pose proof (known_created _ _ _ _ K) as CR. pose proof (created_positive E cops n u CR) as UZ.
  destruct (told_since E cops n u CR) as (ms0 & ms & rest & S & HD & CL & RE). specialize (RE LV). subst rest.
  exists ms0, ms. split; [rewrite M, HD, app_nil_r in SM; exact SM|]. split; [exact S|]. split; [exact CL|].
  pose proof (C94.bears_fun _ _ B _ RM) as ->.
  assert (RP : answered p (messages rseen) = replies u log).
  { unfold log. rewrite <- (known_answered E cops n u p K O), <- answered_channel. apply answered_emitted; [exact F|]. now apply reply_numbers. }
  rewrite RP. destruct (i3_all _ (cruns_I3 E cops C) u UZ) as (j & RR & KK).
  destruct j as [|j]; [|exfalso; apply NC; destruct (KK ltac:(discriminate)) as (a & q & m & EQ & _); exists q; unfold log; rewrite EQ; apply in_or_app; right; now left].
  cbn in RR. rewrite app_nil_r in RR. unfold log. rewrite RR. unfold due. rewrite <- told_asked. apply answers_all. exact FIN.
Qed.
Print Assumptions C95_complete_partial.

(** ** A connection with all its layers, both ways *)

(** one side sends a list of messages, and the other side receives them *)
Definition d_sub (ms : list bytes) : list (submitted running) :=
  Packet (C58.pk [21]) :: NewCipher (C58.gcm true) false :: map (fun m => Packet (C58.pk m)) ms.
Definition d_send (ms : list bytes) : list (Output.op running) :=
  [Output.Push _ (C58.pk [21]); Output.SetCipher _ (C58.gcm true)] ++ map (fun m => Output.Push _ (C58.pk m)) ms ++
  [Output.RunBegin _] ++ map (fun _ => Output.RunEncrypt _) ms ++ [Output.RunEnd _; Output.Wakeup _; Output.Flush _ (Some (36 + 52 * len ms))].
Definition d_wire (ms : list bytes) : bytes := wire running (out_encrypt C58.toy) None 0 (d_sub ms).
Definition d_receive (ms : list bytes) : list (Input.iop running) :=
  [Input.Feed _ (take 50 (d_wire ms)); Input.Read _; Input.SetCipher _ (C58.gcm false); Input.Consume _; Input.Feed _ (drop 50 (d_wire ms));
   Input.RunBegin _ 1000] ++ map (fun _ => Input.RunLoop _) (0 :: map len ms) ++ [Input.RunEnd _ 0; Input.Wakeup _] ++
  flat_map (fun _ => [Input.Read _; Input.Consume _]) ms.
Definition d_seen (ms : list bytes) : list (revent running) :=
  [Message 0 [21]; Cipher (C58.gcm false) false] ++ map (fun x => Message (fst x) (snd x)) (combine (map N.of_nat (seq 1 (List.length ms))) ms).

Ltac link :=
  do 2 eexists; split; [split;
    [match goal with |- context [d_send ?ms] => change (d_send ms) with ([] ++ d_send ms) end; eapply C58.exec_runs;
       [apply OutputFacts.runs_nil|vm_compute; repeat split; discriminate|vm_compute; reflexivity]
    |match goal with |- context [d_receive ?ms] => change (d_receive ms) with ([] ++ d_receive ms) end; eapply C58.iexec_runs;
       [apply InputFacts.iruns_nil|vm_compute; reflexivity]
    |rewrite app_nil_r; reflexivity
    |unfold d_sub; cbn [map proper]; split; [reflexivity|]; exists [21]; split; [apply C58.pk_carries; vm_compute; discriminate|];
       split; [reflexivity|]; repeat (split; [reflexivity|]; eexists; split; [apply C58.pk_carries; vm_compute; discriminate|]); exact Logic.I
    |intros [|i] d reset H; cbn in H;
       [assert (d = C58.gcm false) by congruence; assert (reset = false) by congruence; subst;
        exists (C58.gcm true); split; [reflexivity|]; repeat split; reflexivity
       |destruct i; discriminate]]
  |split; [vm_compute; repeat split; discriminate|split; vm_compute; reflexivity]].

Definition linked (ms : list bytes) : Prop :=
  exists s s', C58.connected C07.polite C58.toy (d_send ms) s (d_sub ms) (d_wire ms) (d_receive ms) s' (d_wire ms) (d_seen ms) [] /\
  padded running run_block_size run_header_excluded sends None (d_sub ms) /\
  Input.i_job running s' = Input.IInitial /\
  Input.istep running run_auth_size (in_header C58.toy) (in_payload C58.toy) s' (Input.Read running) = Input.IOk running s' [].

(** The client opens a channel, which it calls 7, and sends three requests.  The
    first one takes longer than the third. *)
Definition m_open : bytes := 90 :: string_enc (bs "session") ++ be32 7 ++ be32 100 ++ be32 32768.
Definition m_ask (want : bool) : bytes := 98 :: be32 0 ++ string_enc (bs "shell") ++ [if want then 1 else 0].
Definition asking : list bytes := [m_open; m_ask true; m_ask false; m_ask true].
Definition demo_cops : list cop := C24.three.
Definition answering : list bytes := [C94.body (CConf 7 0 50 32768); [2; 0; 0; 0; 0]; C94.body (CReply 7 true); C94.body (CReply 7 false)].

Example C95_asking : linked asking.
Proof. unfold asking, m_open, m_ask. link. Qed.
Example C95_answering : linked answering.
Proof. unfold answering. link. Qed.

Lemma own_dec : forall p l,
  forallb (fun e => match e with Received 91 b => match ParseChannelOpenConfirmation b with Some c => negb (cc_peer_channel c =? p) | None => true end | _ => true end) l = true ->
  own_number p l.
Proof.
  intros p l H b c I0 P X. rewrite forallb_forall in H. specialize (H _ I0). cbn beta iota in H. rewrite P, X, N.eqb_refl in H. discriminate.
Qed.
Lemma confirmed_dec : forall l,
  forallb (fun e => match e with Received 91 b => match ParseChannelOpenConfirmation b with Some c => cc_peer_channel c <? 2 ^ 32 | None => true end | _ => true end) l = true ->
  confirmed_numbers l.
Proof.
  intros l H b c I0 P. rewrite forallb_forall in H. specialize (H _ I0). cbn beta iota in H. rewrite P in H. now apply N.ltb_lt in H.
Qed.
Lemma lives_dec : forall n u l, existsb (fun e => match e with Created k v _ _ _ => (k =? n) && (v =? u) | _ => false end) l = true ->
  forallb (fun e => match e with Destroyed k v => negb ((k =? n) && (v =? u)) | _ => true end) l = true -> lives n u l.
Proof.
  intros n u l A B. split.
  - apply existsb_exists in A as (e & I0 & A). destruct e; try discriminate. apply andb_true_iff in A as (A1 & A2). apply N.eqb_eq in A1, A2. subst. do 3 eexists. exact I0.
  - intros I0. rewrite forallb_forall in B. specialize (B _ I0). cbn in B. now rewrite !N.eqb_refl in B.
Qed.
Lemma gives_dec : forall ms cms l, transmitted l = cms -> filter channel_message ([21] :: ms) = map C94.body cms ->
  forallb (fun m => (1 <=? len m) && (len m <=? 31)) ms = true ->
  forallb (fun m => match Emit [0; 0; 0; 0; 0] m with Some _ => true | None => false end) cms = true -> gives (d_sub ms) l.
Proof.
  intros ms cms l T F LN EM. exists ([21] :: ms). split.
  - constructor; [apply C58.pk_carries; vm_compute; discriminate|]. constructor. clear F. induction ms as [|m ms IH]; [constructor|].
    cbn [forallb] in LN. apply andb_true_iff in LN as (L1 & L2). apply andb_true_iff in L1 as (L0 & L1). apply N.leb_le in L0, L1.
    constructor; [now apply C58.pk_carries|auto].
  - rewrite T, F. clear T F. induction cms as [|m cms IH]; [constructor|]. cbn [forallb] in EM. apply andb_true_iff in EM as (E1 & E2).
    constructor; [apply C94.demo_emitted; destruct (Emit _ m); [discriminate|discriminate E1]|auto].
Qed.

Example C95_demo :
  let log := cs_log (cruns dbg demo_cops) in
  messages (d_seen asking) = [[21]] ++ handed demo_cops ++ [] /\
  gives (d_sub answering) log /\ numbers log /\ confirmed_numbers log /\ known_as 0 1 7 log /\ own_number 7 log /\
  Forall (considerate dbg) demo_cops /\ ~ C24.closed 1 log /\ lives 0 1 log /\
  (forall id r, In (id, r) (told 1 log) -> result 1 id log <> None) /\
  map (fun x => (fst x, q_want (snd x))) (told 1 log) = [(2, true); (3, false); (4, true)] /\
  answered 7 (messages (d_seen answering)) = [true; false].
Proof.
  cbv zeta. split; [vm_compute; reflexivity|]. split; [|split; [apply C94.numbers_dec; vm_compute; reflexivity|split; [apply confirmed_dec; vm_compute; reflexivity|
    split; [apply C94.known_dec; vm_compute; reflexivity|split; [apply own_dec; vm_compute; reflexivity|split; [apply C24.C24_witness|
    split; [apply C24.not_closed; vm_compute; reflexivity|split; [apply lives_dec; vm_compute; reflexivity|split; [|split; vm_compute; reflexivity]]]]]]]]].
  - apply (gives_dec answering [CConf 7 0 50 32768; CReply 7 true; CReply 7 false]); vm_compute; reflexivity.
  - assert (X : forallb (fun x => match result 1 (fst x) (cs_log (cruns dbg demo_cops)) with Some _ => true | None => false end) (told 1 (cs_log (cruns dbg demo_cops))) = true)
      by (vm_compute; reflexivity).
    rewrite forallb_forall in X. intros id r I0 Q. specialize (X _ I0). cbn [fst] in X. now rewrite Q in X.
Qed.

(** ** What goes wrong *)

(** The claim of [C95_order_partial] without the condition on handlers. *)
Definition C95_full_statement : Prop :=
  forall P, tags_ok P ->
  forall ops s sub w ops' s' stream seen inflight,
  C58.connected C07.polite P ops s sub w ops' s' stream seen inflight ->
  forall E cops n u p, let log := cs_log (cruns E cops) in
  gives sub log -> numbers log -> confirmed_numbers log -> known_as n u p log -> own_number p log ->
  ~ C24.closed u log ->
  forall k b, nth_error (answered p (messages seen)) k = Some b ->
  exists id r, nth_error (expected (told u log)) k = Some (id, r) /\ result u id log = Some b.

(** The client gets an answer to a request for which it wanted none, and takes
    it for the answer to another request. *)
Definition confused : list bytes := [C94.body (CConf 7 0 50 32768); C94.body (CReply 7 false); C94.body (CReply 7 true)].
Lemma confused_link : linked confused.
Proof. unfold confused. link. Qed.

Theorem C95_order_refuted : ~ C95_full_statement.
Proof.
  intros H. destruct confused_link as (s & s' & L & _).
  destruct (H C58.toy C58.toy_ok _ _ _ _ _ _ _ _ _ L rel C24.confusing 0 1 7) with (k := 1%nat) (b := true) as (id & r & X & _).
  - apply (gives_dec confused [CConf 7 0 50 32768; CReply 7 false; CReply 7 true]); vm_compute; reflexivity.
  - apply C94.numbers_dec; vm_compute; reflexivity.
  - apply confirmed_dec; vm_compute; reflexivity.
  - apply C94.known_dec; vm_compute; reflexivity.
  - apply own_dec; vm_compute; reflexivity.
  - apply C24.not_closed; vm_compute; reflexivity.
  - vm_compute. reflexivity.
  - assert (Z : nth_error (expected (told 1 (cs_log (cruns rel C24.confusing)))) 1 = None) by (vm_compute; reflexivity). congruence.
Qed.
Print Assumptions C95_order_refuted.
