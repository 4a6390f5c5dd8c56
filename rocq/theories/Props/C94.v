(** * C94: what the program writes is what the client receives

    The way back, end to end: the program's standard output and standard error
    or its terminal (Model/ChannelIO.v), the channel (Model/Channels.v), the
    packets (Model/Emit.v, Model/Frame.v), the server's transport with its
    threads, the network and the client's transport ([connected] as in C58).
    Spec/ReturnSpec.v says what the client hears on one of its channels, from
    the bytes of the messages it was given, per RFC 4254.

    The parts are joined where one calls the next: what the session sends is
    what its channel object [u] has said ([speaks], [wrote]), and what all
    channels have said, one packet each, is what the transport was given
    ([gives]). *)

From Coq Require Import String NArith List Bool Lia.
From Verif.Base Require Import Bytes.
From Verif.Model Require Import Wire Frame Packets Makers Requests Channels ChannelIO Queue Ciphers Emit.
From Verif.Model Require Output Input.
From Verif.Spec Require Import WireSpec FrameSpec CipherSpec OutputSpec InputSpec EndToEndSpec ChannelSpec FlowSpec ExitSpec PipelineSpec ReturnSpec.
From Verif.Proofs Require Import WireFacts FrameFacts CipherFacts EndToEndFacts FlowFacts ExitFacts ReturnFacts ChannelToy.
From Verif.Proofs Require OutputFacts InputFacts.
From Verif.Props Require C07 C22 C58 C73 C93.
Import ListNotations.
Open Scope N_scope.

(** ** The packets *)

(** Finishing a packet which was built for a message of a channel makes a
    binary packet with this message. *)
Theorem C94_packets :
  forall rnd header m s block_size without_header frame,
  (forall n, len (rnd n) = n) -> len header = 5 -> block_size = 8 \/ block_size = 16 ->
  Emit header m = Some s -> FinishPacket rnd s block_size without_header = Some frame -> len frame <= 35004 ->
  exists b, emitted m b /\ carries frame b /\ channel_message b = true.
Proof.
  intros rnd header m s block wh frame R L B E F LF. destruct (emit_number _ _ _ E) as (t & S & SZ). exists (number m :: t).
  assert (D : drop 5 s = number m :: t).
  { rewrite S, <- L. apply drop_len. }
  split; [exists header, s; auto|]. split.
  - specialize (SZ ltac:(rewrite L; discriminate)). rewrite S in F, SZ. rewrite FinishPacket_spec in F by assumption. destruct (_ <=? BUFFER_SIZE); [|discriminate]. injection F as <-.
    set (p := Padding _ _) in *. exists (rnd p). split; [unfold framed; now rewrite R|]. rewrite R.
    pose proof (Padding_correct (len (header ++ number m :: t) - (if wh then 4 else 0)) block B) as (P1 & P2 & P3 & P4). fold p in P1, P2.
    rewrite len_cons. split; [lia|]. split; [lia|exact LF].
  - unfold channel_message. destruct m; try reflexivity. destruct success; reflexivity.
Qed.
Print Assumptions C94_packets.

(** ** The channel *)

Lemma carries_fun : forall p m m', carries p m -> carries p m' -> m = m'.
Proof.
  intros p m m' (x & F & _ & X & L) (y & G & _ & Y & _).
  assert (A : unframe p = Some m).
  { apply (framed_unframe m x); [|exact F]. unfold framed in F. rewrite F in L. rewrite !len_app in L. unfold pow32. lia. }
  assert (B : unframe p = Some m').
  { apply (framed_unframe m' y); [|exact G]. unfold framed in G. rewrite G in L. rewrite !len_app in L. unfold pow32. lia. }
  congruence.
Qed.
Lemma bears_fun : forall (sub : list (submitted running)) x, bears sub x -> forall y, bears sub y -> x = y.
Proof.
  intros sub x H. induction H; intros y K; inversion K; subst; [reflexivity| |now apply IHbears].
  f_equal; [eapply carries_fun; eassumption|now apply IHbears].
Qed.

(** What the client has heard on its channel [p] is the beginning of what the
    channel object which it knows by this number has said: nothing is added,
    changed, reordered, or taken from another channel. *)
Theorem C94_channel :
  forall P, tags_ok P ->
  forall ops s sub w ops' s' stream seen inflight,
  C58.connected C07.polite P ops s sub w ops' s' stream seen inflight ->
  forall E cops n u p,
  gives sub (cs_log (cruns E cops)) -> numbers (cs_log (cruns E cops)) -> known_as n u p (cs_log (cruns E cops)) ->
  (forall type d, In (HExt type d) (wrote u (cs_log (cruns E cops))) -> type < pow32) ->
  exists later, wrote u (cs_log (cruns E cops)) = hears p (messages seen) ++ later.
Proof.
  intros P T ops s sub w ops' s' stream seen inflight H E cops n u p (all & B & F) NB K X.
  destruct (C93.C93_transport P T _ _ _ _ _ _ _ _ _ H) as (later & B').
  pose proof (bears_fun _ _ B _ B') as ->. exists (hears p later).
  rewrite <- (known_heard E cops n u p K). unfold hears. rewrite <- flat_map_app. fold (hears p (messages seen ++ later)).
  rewrite <- hears_channel. symmetry. apply hears_emitted; [exact F| |].
  - intros m q I Q. apply in_transmitted in I as (k & v & I). destruct (cruns_voiced E cops) as [V1 V2 V3].
    destruct (V2 _ _ _ _ I Q) as (w0 & w1 & C). exact (NB _ _ _ _ _ C).
  - intros t d I. apply (X t d). rewrite <- (known_heard E cops n u p K). apply in_flat_map. exists (CExt p t d). split; [exact I|].
    unfold tells. cbn [peer_of]. rewrite N.eqb_refl. left. reflexivity.
Qed.
Print Assumptions C94_channel.

(** ** Programs *)

Lemma speaks_types : forall l type d, In (HExt type d) (speaks l) -> type < pow32.
Proof.
  induction l as [|e l IH]; [intros type d []|]. intros type d H. destruct e as [|x e| | | | | | | | | |]; cbn [speaks] in H; try exact (IH _ _ H).
  - destruct x; apply in_app_or in H as [H|[H|[]]]; try exact (IH _ _ H); try discriminate. injection H as <- _. reflexivity.
  - apply in_app_or in H as [H|[H|[]]]; [exact (IH _ _ H)|discriminate].
Qed.

(** A program with pipes.  Whatever it writes to standard output and standard
    error and whatever the event loop, the windows, key exchanges, the worker
    threads and the network do: the client hears the beginning of each, and all
    of both if it hears CHANNEL_EOF.  (Unless the client closes the channel or
    output is replaced by an error message: [benign].) *)
Theorem C94_pipes :
  forall P, tags_ok P ->
  forall ops s sub w ops' s' stream seen inflight,
  C58.connected C07.polite P ops s sub w ops' s' stream seen inflight ->
  forall E cops n u p,
  gives sub (cs_log (cruns E cops)) -> numbers (cs_log (cruns E cops)) -> known_as n u p (cs_log (cruns E cops)) ->
  forall window b sops, let log := ss_log (sruns window b sops) in
  Forall benign sops -> ~ In SPty sops ->
  speaks log = wrote u (cs_log (cruns E cops)) ->
  (exists rest, produced Stdout log = on_stdout (hears p (messages seen)) ++ rest) /\
  (exists rest, produced Stderr log = on_stderr (hears p (messages seen)) ++ rest) /\
  (In HEof (hears p (messages seen)) ->
   produced Stdout log = on_stdout (hears p (messages seen)) /\ produced Stderr log = on_stderr (hears p (messages seen))).
Proof.
  intros P T ops s sub w ops' s' stream seen inflight H E cops n u p G NB K window b sops log BN NP J.
  destruct (C94_channel P T _ _ _ _ _ _ _ _ _ H E cops n u p G NB K) as (later & L).
  { rewrite <- J. apply speaks_types. }
  rewrite <- J in L. pose proof (proj2 (proj2 (sruns_unused Tty window b sops (or_intror (conj eq_refl NP))))) as S1.
  pose proof (proj2 (proj2 (sruns_unused Sock window b sops (or_introl eq_refl)))) as S2.
  pose proof (speaks_stdout _ S1 S2) as O. pose proof (speaks_stderr (ss_log (sruns window b sops))) as O'. fold log in O, O'.
  rewrite L, on_stdout_app in O. rewrite L, on_stderr_app in O'.
  split; [|split].
  - exists (on_stdout later ++ so_data (sget (sruns window b sops) Stdout)). unfold log. rewrite (C22.C22_not_truncated_partial window b sops Stdout); auto.
    fold log. now rewrite <- O, <- app_assoc.
  - exists (on_stderr later ++ so_data (sget (sruns window b sops) Stderr)). unfold log. rewrite (C22.C22_not_truncated_partial window b sops Stderr); auto.
    fold log. now rewrite <- O', <- app_assoc.
  - intros I. pose proof (C73.C73_order window b sops BN) as PE. destruct (speaks_eof _ PE _ _ L I) as (Z1 & Z2).
    assert (IE : In ISentEof log). { apply speaks_has_eof. rewrite L. apply in_or_app. now left. }
    rewrite Z1, app_nil_r in O. rewrite Z2, app_nil_r in O'. rewrite O, O'. split; apply C22.C22_complete_partial; auto; now apply eof_complete.
Qed.
Print Assumptions C94_pipes.

(** A program with a terminal, as long as nothing is lost by a hangup (C22). *)
Theorem C94_terminal_partial :
  forall P, tags_ok P ->
  forall ops s sub w ops' s' stream seen inflight,
  C58.connected C07.polite P ops s sub w ops' s' stream seen inflight ->
  forall E cops n u p,
  gives sub (cs_log (cruns E cops)) -> numbers (cs_log (cruns E cops)) -> known_as n u p (cs_log (cruns E cops)) ->
  forall window b sops, let log := ss_log (sruns window b sops) in
  Forall benign sops -> produced Stdout log = [] -> lost Tty log = false ->
  speaks log = wrote u (cs_log (cruns E cops)) ->
  exists rest, produced Tty log = on_stdout (hears p (messages seen)) ++ rest /\
  (In HEof (hears p (messages seen)) -> rest = []).
Proof.
  intros P T ops s sub w ops' s' stream seen inflight H E cops n u p G NB K window b sops log BN NP LT J.
  destruct (C94_channel P T _ _ _ _ _ _ _ _ _ H E cops n u p G NB K) as (later & L).
  { rewrite <- J. apply speaks_types. }
  rewrite <- J in L.
  pose proof (C22.C22_not_truncated_partial window b sops Stdout (or_introl eq_refl) BN) as S1. fold log in S1. rewrite NP in S1. symmetry in S1. apply app_eq_nil in S1 as (S1 & _).
  pose proof (proj2 (proj2 (sruns_unused Sock window b sops (or_introl eq_refl)))) as S2.
  pose proof (speaks_tty _ S1 S2) as O. rewrite L, on_stdout_app in O.
  destruct (sruns_K window b sops Tty ltac:(discriminate)) as (K0 & K1). specialize (K0 LT). fold log in K0.
  exists (on_stdout later ++ so_data (sget (sruns window b sops) Tty)). split; [rewrite K0, <- O; now rewrite <- app_assoc|].
  intros I. pose proof (C73.C73_order window b sops BN) as PE. destruct (speaks_eof _ PE _ _ L I) as (Z1 & _). rewrite Z1.
  apply K1. apply eof_complete; [exact BN|]. apply speaks_has_eof. fold log. rewrite L. apply in_or_app. now left.
Qed.
Print Assumptions C94_terminal_partial.

(** A forwarded connection. *)
Lemma socket_source : forall dbg w b ops x, x <> Sock -> sent x (sk_log (kruns dbg w b ops)) = [].
Proof.
  intros dbg w b ops x X. induction ops as [|o t IH] using rev_ind; [reflexivity|]. rewrite kruns_snoc. set (k := kruns dbg w b t) in *. clearbody k.
  assert (CL : forall c k, sent x (sk_log k) = [] -> sent x (sk_log (k_close c k)) = []).
  { clear. intros c k0 IH. unfold k_close. destruct (so_data (sk_sock k0)); exact IH. }
  assert (NS : src_eqb Sock x = false) by (apply src_eqb_neq; congruence).
  unfold kstep. destruct (sk_closed k); [exact IH|]. destruct o.
  - destruct (so_eof _); exact IH.
  - exact IH.
  - destruct (so_reg _); [|exact IH]. unfold k_ready. destruct (_ && _); [|exact IH]. destruct (_ && _); [exact IH|]. destruct (take _ _); [now apply CL|]. cbv zeta.
    set (k3 := if _ =? 0 then _ else _). assert (H3 : sent x (sk_log k3) = []).
    { unfold k3. destruct (_ =? 0); cbn [kset klog kswin sk_log sent]; rewrite NS; exact IH. }
    destruct (_ && _); [now apply CL|exact H3].
  - destruct (k0 =? 0); [exact IH|]. cbv zeta. destruct (_ =? 0); exact IH.
  - destruct (b_rekey _); [exact IH|]. cbn [b_kexinit]. rewrite ktell_log. exact IH.
  - destruct (b_rekey _); [|exact IH]. cbn [b_newkeys]. rewrite ktell_log. exact IH.
  - cbn [b_flush]. rewrite ktell_log. exact IH.
  - now apply CL.
Qed.

Theorem C94_socket :
  forall P, tags_ok P ->
  forall ops s sub w ops' s' stream seen inflight,
  C58.connected C07.polite P ops s sub w ops' s' stream seen inflight ->
  forall E cops n u p,
  gives sub (cs_log (cruns E cops)) -> numbers (cs_log (cruns E cops)) -> known_as n u p (cs_log (cruns E cops)) ->
  forall dbg window b kops, let log := sk_log (kruns dbg window b kops) in
  0 < window -> credit window log < pow64 -> ~ In KPeerClose kops ->
  speaks log = wrote u (cs_log (cruns E cops)) ->
  exists rest, produced Sock log = on_stdout (hears p (messages seen)) ++ rest.
Proof.
  intros P T ops s sub w ops' s' stream seen inflight H E cops n u p G NB K dbg window b kops log W0 CR NC J.
  destruct (C94_channel P T _ _ _ _ _ _ _ _ _ H E cops n u p G NB K) as (later & L).
  { rewrite <- J. apply speaks_types. }
  rewrite <- J in L. pose proof (speaks_sock log (socket_source dbg window b kops Stdout ltac:(discriminate)) (socket_source dbg window b kops Tty ltac:(discriminate))) as O.
  rewrite L, on_stdout_app in O. exists (on_stdout later ++ so_data (sk_sock (kruns dbg window b kops))).
  unfold log. rewrite C22.C22_socket_not_truncated_partial by assumption. fold log. now rewrite <- O, <- app_assoc.
Qed.
Print Assumptions C94_socket.

(** If everything has arrived, the client has heard everything. *)
Theorem C94_complete :
  forall P, tags_ok P ->
  forall ops s sub w ops' s' stream seen s2,
  C58.connected C07.polite P ops s sub w ops' s' stream seen [] ->
  w = wire running (out_encrypt P) None 0 sub ->
  padded running run_block_size run_header_excluded sends None sub ->
  Input.i_job running s' = Input.IInitial ->
  Input.istep running run_auth_size (in_header P) (in_payload P) s' (Input.Read running) = Input.IOk running s2 [] ->
  forall E cops n u p,
  gives sub (cs_log (cruns E cops)) -> numbers (cs_log (cruns E cops)) -> known_as n u p (cs_log (cruns E cops)) ->
  (forall type d, In (HExt type d) (wrote u (cs_log (cruns E cops))) -> type < pow32) ->
  wrote u (cs_log (cruns E cops)) = hears p (messages seen).
Proof.
  intros P T ops s sub w ops' s' stream seen s2 H W PD J ST E cops n u p (all & B & F) NB K X.
  pose proof (C58.C58_everything_arrives_partial P T _ _ _ _ _ _ _ _ _ H W PD J ST) as SM. apply C93.same_bears in SM.
  pose proof (bears_fun _ _ B _ SM) as ->.
  rewrite <- (known_heard E cops n u p K), <- hears_channel. symmetry. apply hears_emitted; [exact F| |].
  - intros m q I Q. apply in_transmitted in I as (k & v & I). destruct (cruns_voiced E cops) as [V1 V2 V3].
    destruct (V2 _ _ _ _ I Q) as (w0 & w1 & C). exact (NB _ _ _ _ _ C).
  - intros t d I. apply (X t d). rewrite <- (known_heard E cops n u p K). apply in_flat_map. exists (CExt p t d). split; [exact I|].
    unfold tells. cbn [peer_of]. rewrite N.eqb_refl. left. reflexivity.
Qed.
Print Assumptions C94_complete.

(** ** What is lost *)

(** The claim of [C94_pipes] about CHANNEL_EOF for a program with a terminal. *)
Definition C94_full_statement : Prop :=
  forall window b sops, let log := ss_log (sruns window b sops) in
  Forall benign sops -> credit window log < pow64 -> produced Stdout log = [] ->
  In HEof (speaks log) -> on_stdout (speaks log) = produced Tty log.

(** The program writes more than the window and exits: the rest of its output
    is discarded, and CHANNEL_EOF is sent as if it were complete. *)
Theorem C94_refuted : ~ C94_full_statement.
Proof.
  intros H. specialize (H 2 C22.idle [SPty; SSpawn; SProduce Tty [1; 2; 3]; SReady Tty; SFinish Tty; SReady Tty]). vm_compute in H.
  assert (X : [1; 2] = [1; 2; 3]); [|discriminate]. apply H; [repeat constructor|reflexivity|reflexivity|right; left; reflexivity].
Qed.
Print Assumptions C94_refuted.

(** ** A connection with all its layers *)

(** Two channels, which the client calls 7 and 8. *)
Definition demo_cops : list cop :=
  [p_open 7 2 50; OpData 0 [1; 2]; p_open 8 100 50; OpData 1 [77]; p_adjust 0 10; OpData 0 [3]; OpExt 0 1 [9]; OpEof 0].
Definition demo_sops : list sop :=
  [SSpawn; SProduce Stdout [1; 2; 3]; SProduce Stderr [9]; SReady Stdout; SAdjust 10; SReady Stdout;
   SReady Stderr; SFinish Stdout; SFinish Stderr; SReady Stdout; SReady Stderr].

(** the messages, with a MSG_IGNORE between them *)
Definition body (m : cmsg) : bytes := match Emit [0; 0; 0; 0; 0] m with Some s => drop 5 s | None => [] end.
Definition demo_messages : list bytes :=
  [body (CConf 7 0 50 32768); body (CData 7 [1; 2]); body (CConf 8 1 50 32768); [2; 0; 0; 0; 0]; body (CData 8 [77]); body (CData 7 [3]);
   body (CExt 7 1 [9]); body (CEof 7)].
Definition demo_sub : list (submitted running) :=
  Packet (C58.pk [21]) :: NewCipher (C58.gcm true) false :: map (fun m => Packet (C58.pk m)) demo_messages.
Definition demo_send : list (Output.op running) :=
  [Output.Push _ (C58.pk [21]); Output.SetCipher _ (C58.gcm true)] ++ map (fun m => Output.Push _ (C58.pk m)) demo_messages ++
  [Output.RunBegin _] ++ map (fun _ => Output.RunEncrypt _) demo_messages ++ [Output.RunEnd _; Output.Wakeup _; Output.Flush _ (Some 452)].
Definition demo_wire : bytes := wire running (out_encrypt C58.toy) None 0 demo_sub.
Definition demo_receive : list (Input.iop running) :=
  [Input.Feed _ (take 50 demo_wire); Input.Read _; Input.SetCipher _ (C58.gcm false); Input.Consume _; Input.Feed _ (drop 50 demo_wire);
   Input.RunBegin _ 1000] ++ map (fun _ => Input.RunLoop _) (0 :: map len demo_messages) ++ [Input.RunEnd _ 0; Input.Wakeup _] ++
  flat_map (fun _ => [Input.Read _; Input.Consume _]) demo_messages.
Definition demo_seen : list (revent running) :=
  [Message 0 [21]; Cipher (C58.gcm false) false] ++ map (fun x => Message (fst x) (snd x)) (combine [1; 2; 3; 4; 5; 6; 7; 8] demo_messages).

Lemma demo_emitted : forall m, Emit [0; 0; 0; 0; 0] m <> None -> emitted m (body m).
Proof. intros m H. unfold body. destruct (Emit _ m) as [s|] eqn:E; [|congruence]. exists [0; 0; 0; 0; 0], s. auto. Qed.

Lemma demo_proper : proper running false demo_sub.
Proof.
  unfold demo_sub, demo_messages. cbn [map proper]. split; [reflexivity|]. exists [21]. split; [apply C58.pk_carries; vm_compute; discriminate|].
  split; [reflexivity|].
  repeat (split; [reflexivity|]; eexists; split; [apply C58.pk_carries; vm_compute; discriminate|]). exact Logic.I.
Qed.
Lemma demo_gives : gives demo_sub (cs_log (cruns rel demo_cops)).
Proof.
  exists ([21] :: demo_messages). split.
  - unfold demo_sub. constructor; [apply C58.pk_carries; vm_compute; discriminate|]. constructor. unfold demo_messages. cbn [map].
    repeat (constructor; [apply C58.pk_carries; vm_compute; discriminate|]). constructor.
  - replace (transmitted (cs_log (cruns rel demo_cops))) with
      [CConf 7 0 50 32768; CData 7 [1; 2]; CConf 8 1 50 32768; CData 8 [77]; CData 7 [3]; CExt 7 1 [9]; CEof 7] by (vm_compute; reflexivity).
    replace (filter channel_message ([21] :: demo_messages)) with
      [body (CConf 7 0 50 32768); body (CData 7 [1; 2]); body (CConf 8 1 50 32768); body (CData 8 [77]); body (CData 7 [3]); body (CExt 7 1 [9]); body (CEof 7)]
      by (vm_compute; reflexivity).
    repeat (constructor; [apply demo_emitted; vm_compute; discriminate|]). constructor.
Qed.
Lemma numbers_dec : forall l, forallb (fun e => match e with Created _ _ q _ _ => q <? 2 ^ 32 | _ => true end) l = true -> numbers l.
Proof. intros l H k v q w w' I. rewrite forallb_forall in H. specialize (H _ I). now apply N.ltb_lt in H. Qed.
Lemma known_dec : forall n u p l, existsb (fun e => match e with Created k v q _ _ => (k =? n) && (v =? u) && (q =? p) | _ => false end) l = true ->
  forallb (fun e => match e with Created _ v q _ _ => negb (q =? p) || (v =? u) | _ => true end) l = true -> known_as n u p l.
Proof.
  intros n u p l A B. split.
  - apply existsb_exists in A as (e & I & A). destruct e; try discriminate. apply andb_true_iff in A as (A & A3). apply andb_true_iff in A as (A1 & A2).
    apply N.eqb_eq in A1, A2, A3. subst. eauto.
  - intros k v w w' I. rewrite forallb_forall in B. specialize (B _ I). cbn in B. rewrite N.eqb_refl in B. now apply N.eqb_eq in B.
Qed.
Lemma demo_numbers : numbers (cs_log (cruns rel demo_cops)) /\ known_as 0 1 7 (cs_log (cruns rel demo_cops)).
Proof. split; [apply numbers_dec|apply known_dec]; vm_compute; reflexivity. Qed.

Example C94_demo :
  exists s s', C58.connected C07.polite C58.toy demo_send s demo_sub demo_wire demo_receive s' demo_wire demo_seen [] /\
  gives demo_sub (cs_log (cruns rel demo_cops)) /\ numbers (cs_log (cruns rel demo_cops)) /\ known_as 0 1 7 (cs_log (cruns rel demo_cops)) /\
  Forall benign demo_sops /\ ~ In SPty demo_sops /\
  speaks (ss_log (sruns 2 C22.idle demo_sops)) = wrote 1 (cs_log (cruns rel demo_cops)) /\
  hears 7 (messages demo_seen) = [HData [1; 2]; HData [3]; HExt 1 [9]; HEof] /\
  padded running run_block_size run_header_excluded sends None demo_sub /\
  Input.i_job running s' = Input.IInitial /\
  Input.istep running run_auth_size (in_header C58.toy) (in_payload C58.toy) s' (Input.Read running) = Input.IOk running s' [].
Proof.
  do 2 eexists. split; [|split; [exact demo_gives|split; [exact (proj1 demo_numbers)|split; [exact (proj2 demo_numbers)|split; [|split; [|split; [|split; [|split; [|split]]]]]]]]].
  - split.
    + change demo_send with ([] ++ demo_send). eapply C58.exec_runs; [apply OutputFacts.runs_nil| |].
      * vm_compute. repeat split; discriminate.
      * vm_compute. reflexivity.
    + change demo_receive with ([] ++ demo_receive). eapply C58.iexec_runs; [apply InputFacts.iruns_nil|].
      vm_compute. reflexivity.
    + rewrite app_nil_r. reflexivity.
    + exact demo_proper.
    + intros [|i] d reset H; cbn in H.
      * assert (d = C58.gcm false) by congruence. assert (reset = false) by congruence. subst.
        exists (C58.gcm true). split; [reflexivity|]. repeat split; reflexivity.
      * destruct i; discriminate.
  - repeat constructor.
  - vm_compute. intros X. repeat destruct X as [X|X]; try discriminate. exact X.
  - vm_compute. reflexivity.
  - vm_compute. reflexivity.
  - vm_compute. repeat split; discriminate.
  - vm_compute. reflexivity.
  - vm_compute. reflexivity.
Qed.

(** a terminal, and a forwarded connection *)
Definition tty_sops : list sop := [SPty; SSpawn; SProduce Tty [1; 2; 3]; SReady Tty; SAdjust 10; SReady Tty; SFinish Tty; SReady Tty].
Definition tty_cops : list cop := [p_open 7 2 50; OpData 0 [1; 2]; p_adjust 0 10; OpData 0 [3]; OpEof 0].
Definition socket_kops : list kop := [KProduce [1; 2; 3]; KReady; KAdjust 10; KReady].
Definition socket_cops : list cop := [p_open 7 2 50; OpData 0 [1; 2]; p_adjust 0 10; OpData 0 [3]].

Example C94_other_demo :
  (let log := ss_log (sruns 2 C22.idle tty_sops) in
   Forall benign tty_sops /\ produced Stdout log = [] /\ lost Tty log = false /\ produced Tty log = [1; 2; 3] /\
   speaks log = wrote 1 (cs_log (cruns rel tty_cops)) /\ speaks log = [HData [1; 2]; HData [3]; HEof]) /\
  (let log := sk_log (kruns true 2 C22.idle socket_kops) in
   credit 2 log < pow64 /\ ~ In KPeerClose socket_kops /\ speaks log = wrote 1 (cs_log (cruns rel socket_cops)) /\ speaks log = [HData [1; 2]; HData [3]]).
Proof.
  split; vm_compute.
  - repeat split; try discriminate; repeat constructor.
  - split; [reflexivity|]. split; [|split; reflexivity]. intros X. repeat destruct X as [X|X]; try discriminate. exact X.
Qed.

(** a finished packet *)
Example C94_packet_demo :
  exists s frame, Emit [0; 0; 0; 0; 0] (CData 7 [1; 2]) = Some s /\ FinishPacket (fun n => repeat 5 (N.to_nat n)) s 16 true = Some frame /\ len frame <= 35004.
Proof. do 2 eexists. split; [reflexivity|]. split; [reflexivity|]. vm_compute. discriminate. Qed.
