(** * C18: strict key exchange rejects injected messages

    [initial log] is what happened before the peer's packets were encrypted,
    [received] the packets in it, [announced_strict role p guessed] that the
    KEXINIT packet [20 :: p] contains the peer's marker for strict key
    exchange; [guessed] is its field first_kex_packet_follows
    (Spec/KexSpec.v). *)

From Coq Require Import NArith List Bool Lia String.
From Verif.Base Require Import Bytes.
From Verif.Spec Require Import WireSpec PacketSpec NamesSpec KexSpec.
From Verif.Model Require Import Wire Frame Packets StringList Negotiate KexKeys KexMachine.
From Verif.Proofs Require Import WireFacts PacketFacts NamesFacts KexKeysFacts KexFacts KexFrame KexStrict KexLog KexAuth KexToy.
From Verif.Proofs Require InputFacts OutputFacts.
From Verif.Model Require Input Output.
From Verif.Spec Require OutputSpec.
Import ListNotations.
Open Scope N_scope.

(** If the peer has announced strict key exchange and has not sent a guess:
    as long as the connection runs, KEXINIT was the very first packet, it was
    followed by key exchange messages only, and both pipelines were told to
    restart their sequence numbers. *)
Theorem C18_strict_partial :
  forall E role u ops s, kruns E role u ops s -> Forall op_ok ops -> k_status s = Running ->
  forall p guessed, In (ERx (20 :: p)) (initial (k_log s)) -> announced_strict role p guessed ->
  (guessed = false \/ role = CLIENT) ->
  strictly_initial role p (k_log s).
Proof.
  intros E role u ops s H Ho Hr. exact (J_SI role s (kruns_J E role u ops s H Ho Hr)).
Qed.
Print Assumptions C18_strict_partial.

(** The full statement has no exception for guesses. *)
Definition C18_full_statement : Prop :=
  forall E role u ops s, kruns E role u ops s -> Forall op_ok ops -> k_status s = Running ->
  forall p guessed, In (ERx (20 :: p)) (initial (k_log s)) -> announced_strict role p guessed ->
  strictly_initial role p (k_log s).

(** It is false for a server whose client announces a wrong guess: the next
    message is accepted without the strict check, here IGNORE. *)
Definition guess_kexinit : bytes :=
  20 :: repeat 3 16 ++ string_enc (bs "ecdh-sha2-nistp521,curve25519-sha256,kex-strict-c-v00@openssh.com")
     ++ string_enc (bs "ssh-ed25519")
     ++ string_enc (bs "aes256-ctr") ++ string_enc (bs "aes256-ctr")
     ++ string_enc (bs "hmac-sha2-256") ++ string_enc (bs "hmac-sha2-256")
     ++ string_enc (bs "none") ++ string_enc (bs "none")
     ++ string_enc [] ++ string_enc [] ++ [1] ++ be32 0.

Definition guess_ops : list kop :=
  [OpVersion (bs "SSH-2.0-toy") (rnd 5); pkt guess_kexinit; pkt [2; 0; 0; 0; 0]; pkt client_init; pkt [21]].

Theorem C18_strict_refuted : ~ C18_full_statement.
Proof.
  intro H.
  destruct (krun SERVER guess_ops) as [s|] eqn:E1; [|vm_compute in E1; discriminate].
  assert (L : k_status s = Running /\ received (initial (k_log s)) =
              [guess_kexinit; [2; 0; 0; 0; 0]; client_init; [21]] /\
              k_in_encrypted s = true /\ In (ERx guess_kexinit) (initial (k_log s))).
  { clear H. vm_compute in E1. injection E1 as <-. vm_compute. repeat split. right. now left. }
  destruct L as (L1 & L2 & _ & L3).
  destruct (H toy SERVER false guess_ops s (krun_runs _ _ _ E1) ltac:(okops) L1 (tl guess_kexinit) true L3) as (rest & R1 & R2 & _).
  - assert (Hb : bytes_ok (tl guess_kexinit)) by (apply Forall_forall; intros x Hx;
      assert (F : forallb (fun b => b <? 256) (tl guess_kexinit) = true) by (vm_compute; reflexivity);
      rewrite forallb_forall in F; apply N.ltb_lt, (F x Hx)).
    do 6 eexists. exists [bs "ecdh-sha2-nistp521"; bs "curve25519-sha256"; bs "kex-strict-c-v00@openssh.com"].
    split; [apply (ParseKexInit_exact _ _ _ _ _ _ _ _ Hb); vm_compute; reflexivity|].
    split; [|right; right; now left].
    split; [discriminate|]. split; [|vm_compute; reflexivity].
    repeat constructor; vm_compute; intuition discriminate.
  - rewrite L2 in R1. injection R1 as <-. apply Forall_inv in R2. destruct R2 as (m & r & E & [M|M]); congruence.
Qed.
Print Assumptions C18_strict_refuted.

(** A message which is not part of the key exchange disconnects: the
    contrapositive, for one packet. *)
Theorem C18_other_message_disconnects :
  forall E role u ops s, kruns E role u ops s -> Forall op_ok ops ->
  k_in_encrypted s = false ->
  forall p guessed, In (ERx (20 :: p)) (k_log s) -> announced_strict role p guessed ->
  (guessed = false \/ role = CLIENT) ->
  forall m q seq r h s', op_ok (OpPacket (m :: q) seq r h) ->
  kstep E role (OpPacket (m :: q) seq r h) s = Some s' -> k_status s' = Running ->
  kex_message role (m :: q).
Proof.
  intros E role u ops s H Ho Hi p g Hin Hst Hg m q seq r h s' Hop Hs Hr.
  pose proof (kruns_snoc _ _ _ _ _ _ _ H Hs) as H'.
  assert (Ho' : Forall op_ok (ops ++ [OpPacket (m :: q) seq r h])).
  { apply Forall_app. split; [exact Ho|]. apply Forall_cons; [exact Hop|apply Forall_nil]. }
  assert (Hrs : k_status s = Running).
  { unfold kstep in Hs. destruct (k_status s); [reflexivity|discriminate|discriminate]. }
  destruct (kruns_flags E role u ops s H) as (_ & Fi & _). rewrite Hi in Fi.
  assert (Hin0 : In (ERx (20 :: p)) (initial (k_log s))) by (rewrite initial_none; [exact Hin|now symmetry]).
  destruct (C18_strict_partial E role u ops s H Ho Hrs p g Hin0 Hst Hg) as (rest & R1 & _).
  rewrite initial_none in R1; [|now symmetry].
  assert (X : exists e l, k_log s' = k_log s ++ e :: l /\ received [e] = [m :: q] /\ is_in e = false /\ existsb is_rx l = false).
  { unfold kstep in Hs. rewrite Hrs in Hs. destruct (k_version_exchanged s); [|discriminate].
    injection Hs as <-. destruct (finish_running _ Hr) as (t & Ht & ->). unfold HandleRawPacket in Ht.
    destruct (HandlePacket E role m q seq r h s) as [t'|[] t'] eqn:EH; try discriminate. injection Ht as ->.
    assert (Q : forall t0, k_log t0 = k_log s -> go E role m q seq r h t0 = Ret t ->
      exists e l, k_log t = k_log s ++ e :: l /\ received [e] = [m :: q] /\ is_in e = false /\ existsb is_rx l = false).
    { intros t0 Hl Eg. pose proof (go_G E role m q seq r h t0) as G. rewrite Eg in G. destruct G as ((l & L & R & _) & _).
      exists (ERx (m :: q)), l. split; [|auto]. rewrite L. cbn [emit upd_self upd k_log]. rewrite Hl, <- app_assoc. reflexivity. }
    rewrite HandlePacket_go in EH.
    destruct (negb _); [|now apply (Q s)].
    destruct (negb _); [apply (Q (if m =? MSG_KEXINIT then s else set_first false s)); [destruct (m =? _); reflexivity|exact EH]|].
    destruct (k_ignore_next s).
    - cbv zeta in EH. destruct (IsKex m); [|apply (Q (set_ignore_next false s)); [reflexivity|exact EH]].
      injection EH as <-. exists (EIgnored (m :: q)), []. repeat split.
    - destruct (_ && _); [discriminate|now apply (Q s)]. }
  destruct X as (e & l & L & Re & Ie & Rl).
  assert (Hin1 : In (ERx (20 :: p)) (initial (k_log s'))).
  { rewrite L, initial_app_no; [|now symmetry]. apply in_or_app. now left. }
  destruct (C18_strict_partial E role u _ s' H' Ho' Hr p g Hin1 Hst Hg) as (rest' & R2 & F2 & _).
  rewrite L, initial_app_no in R2; [|now symmetry].
  assert (Ei : initial (e :: l) = e :: initial l) by (destruct e; try reflexivity; discriminate).
  rewrite Ei in R2. change (e :: initial l) with ([e] ++ initial l) in R2.
  rewrite !received_app, R1, Re in R2. cbn [app] in R2. injection R2 as R2. rewrite <- R2 in F2.
  apply Forall_app in F2 as [_ F2]. now apply Forall_inv in F2.
Qed.
Print Assumptions C18_other_message_disconnects.

(** What is dropped unseen because of a wrong guess is a message of the key
    exchange method (RFC 4250 4.1.2: 30 to 49), before any key is in use. *)
Definition is_ignored (e : kevent) : bool := match e with EIgnored _ => true | _ => false end.
Definition Adds (s s' : kstate) : Prop := exists l, k_log s' = k_log s ++ l /\ existsb is_ignored l = false.
Definition AddsR (s : kstate) (r : res) : Prop := match r with Ret t | Throw _ t => Adds s t end.

Lemma Adds_refl : forall s, Adds s s.
Proof. intro s. exists []. now rewrite app_nil_r. Qed.
Lemma Adds_trans : forall a b c, Adds a b -> Adds b c -> Adds a c.
Proof.
  intros a b c (l & L & H) (l' & L' & H'). exists (l ++ l'). now rewrite L', L, app_assoc, existsb_app, H, H'.
Qed.
Lemma Adds_emit : forall s e, is_ignored e = false -> Adds s (emit e s).
Proof. intros s e H. exists [e]. cbn [existsb]. now rewrite H. Qed.
Lemma Adds_G : forall s s', FrameG s s' -> Adds s s'.
Proof.
  intros s s' ((l & L & R & _) & _). exists l. split; [exact L|]. clear L.
  induction l as [|e l IH]; [reflexivity|]. cbn [existsb] in *. apply orb_false_iff in R as [R1 R2].
  rewrite (IH R2). destruct e; try reflexivity; discriminate.
Qed.
Lemma AddsR_G : forall s t r, Adds s t -> GR t r -> AddsR s r.
Proof.
  intros s t r H G. destruct r as [t'|e t']; cbn [GR AddsR] in *; (eapply Adds_trans; [exact H|apply Adds_G; exact G]).
Qed.
Lemma Adds_DoDisconnect : forall s r m, Adds s (DoDisconnect r m s).
Proof.
  intros s r m. unfold DoDisconnect. destruct (k_status s); try apply Adds_refl. now apply (Adds_emit s (ETx _)).
Qed.
Lemma Adds_finish : forall s r, AddsR s r -> Adds s (finish r).
Proof.
  intros s [t|e t] H; cbn [finish AddsR] in *; [exact H|].
  assert (C : Adds s (set_status Dead (emit EClosed t))) by (eapply Adds_trans; [exact H|now apply (Adds_emit t EClosed)]).
  destruct e; try exact C; [|exact H]. eapply Adds_trans; [exact H|]. apply Adds_DoDisconnect.
Qed.

Lemma kstep_ignores : forall E role op s s', kstep E role op s = Some s' ->
  Adds s s' \/
  exists m q, k_log s' = k_log s ++ [EIgnored (m :: q)] /\ 30 <= m < 50 /\ k_in_encrypted s = false.
Proof.
  intros E role op s s' H. unfold kstep in H. destruct (k_status s); try discriminate.
  destruct op as [v rnd|p seq rnd h|rnd|p| |r m|].
  - left. destruct (k_version_exchanged s); [discriminate|]. injection H as <-. apply Adds_finish.
    assert (V : Adds s (emit (EVersion v) (set_version v s))) by (now apply (Adds_emit (set_version v s))).
    destruct (is_server role); [exact V|].
    eapply AddsR_G; [exact V|apply FrR_GR, SendKexInit_Fr].
  - destruct (k_version_exchanged s); [|discriminate]. injection H as <-. unfold HandleRawPacket.
    destruct p as [|m q]; [left; apply (Adds_finish s (Throw XError s)), Adds_refl|].
    assert (W : forall r, AddsR s r -> Adds s (finish (match r with
      | Ret t => Ret t
      | Throw (XDisconnect a b) t => Throw (XDisconnect a b) t
      | Throw XDestroyed t => Throw XDestroyed t
      | Throw XMalformed t => Throw (XDisconnect PROTOCOL_ERROR (bs "Malformed packet")) t
      | Throw XError t => Throw XError t
      | Throw XAssert t => Throw XAssert t end))).
    { intros [t|[] t] A; apply Adds_finish; exact A. }
    assert (G : forall t, Adds s t -> AddsR s (go E role m q seq rnd h t)).
    { intros t A. eapply AddsR_G; [|apply go_G]. eapply Adds_trans; [exact A|now apply Adds_emit]. }
    rewrite HandlePacket_go.
    destruct (k_in_encrypted s) eqn:EI; cbn [negb]; [left; apply W, G, Adds_refl|].
    destruct (negb _); [left; apply W, G; destruct (m =? _); apply (Adds_refl s)|].
    destruct (k_ignore_next s).
    + cbv zeta. destruct (IsKex m) eqn:EK; [|left; apply W, G, (Adds_refl s)].
      right. exists m, q. split; [reflexivity|]. split; [|reflexivity].
      unfold IsKex in EK. apply andb_true_iff in EK as [K1 K2]. apply N.leb_le in K1. apply N.ltb_lt in K2. lia.
    + left. apply W. destruct (_ && _); [|apply G, Adds_refl]. now apply (Adds_emit s (ERx _)).
  - left. destruct (k_timer s); [|discriminate]. injection H as <-. apply Adds_finish.
    unfold check. destruct (_ && _); cbn [bind]; [|apply (Adds_refl s)].
    destruct (IsIdle _); [|apply (Adds_refl s)].
    eapply (AddsR_G s (set_timer false s)); [apply (Adds_refl s)|apply FrR_GR, SendKexInit_Fr].
  - left. injection H as <-. now apply (Adds_emit s (ETx p)).
  - left. injection H as <-. apply Adds_finish. eapply (AddsR_G s s); [apply Adds_refl|apply FrR_GR, SetAuthenticated_Fr].
  - left. injection H as <-. apply Adds_DoDisconnect.
  - left. injection H as <-. now apply (Adds_emit s EClosed).
Qed.

Lemma in_noignored : forall l p, existsb is_ignored l = false -> ~ In (EIgnored p) l.
Proof.
  intros l p H I. assert (X : existsb is_ignored l = true) by (apply existsb_exists; exists (EIgnored p); auto). congruence.
Qed.

Theorem C18_only_guesses_are_dropped :
  forall E role u ops s, kruns E role u ops s ->
  forall before dropped after, k_log s = before ++ EIgnored dropped :: after ->
  (exists m q, dropped = m :: q /\ 30 <= m <= 49) /\ initial before = before.
Proof.
  intros E role u ops s H. induction H as [|ops s op s' H IH Hs]; intros b d a L.
  - destruct b; discriminate L.
  - destruct (kstep_ignores E role op s s' Hs) as [(l & L' & N)|(m & q & L' & M & EI)].
    + rewrite L' in L. destruct (kruns_flags E role u ops s H) as (_ & Fi & _).
      assert (X : exists a', k_log s = b ++ EIgnored d :: a').
      { clear - L N. revert b L. induction (k_log s) as [|e t IH]; intros b L; cbn [app] in L.
        - exfalso. apply (in_noignored l d N). rewrite L. apply in_elt.
        - destruct b as [|x b]; cbn [app] in L; [injection L as <- <-; now exists t|].
          injection L as <- L. destruct (IH b L) as (a' & ->). now exists a'. }
      destruct X as (a' & X). exact (IH b d a' X).
    + rewrite L' in L. destruct (kruns_flags E role u ops s H) as (_ & Fi & _).
      destruct a as [|x a] using rev_ind.
      * apply app_inj_tail in L as [<- L]. injection L as <-. split; [exists m, q; split; [reflexivity|lia]|].
        apply initial_none. congruence.
      * clear IHa. rewrite app_comm_cons, app_assoc in L. apply app_inj_tail in L as [L _]. exact (IH b d a L).
Qed.
Print Assumptions C18_only_guesses_are_dropped.

(** It happens: the wrong guess is followed by the message which the client
    sent for it. *)
Example C18_dropped_demo :
  match krun SERVER [OpVersion (bs "SSH-2.0-toy") (rnd 5); pkt guess_kexinit; pkt [30; 9; 9]; pkt client_init; pkt [21]] with
  | Some s => In (EIgnored [30; 9; 9]) (k_log s) /\ k_status s = Running /\ k_in_encrypted s = true
  | None => False
  end.
Proof. vm_compute. intuition. Qed.

(** ** Sequence numbers

    After the restart was requested, every cipher is put into use with
    sequence number zero, in both pipelines and for every schedule of the
    worker threads ([NewCipher c true] is the event which makes the
    specifications of C05 and C07 restart at zero). *)
Theorem C18_input_restarts :
  forall (C : Type) auth_size dec_header dec_payload ops s stream trace,
  InputFacts.iruns C auth_size dec_header dec_payload ops s stream trace ->
  In (Input.AutoResetSeq C) ops ->
  forall c s' e, Input.istep C auth_size dec_header dec_payload s (Input.SetCipher C c) = Input.IOk C s' e ->
  e = [Input.NewCipher C c true] /\ Input.i_decrypt_seq C s' = 0.
Proof.
  intros C a dh dp ops s stream trace H Hin.
  assert (R : Input.i_auto_reset_seq C s = true).
  { revert Hin. induction H as [|ops s stream trace o s' e H IH Hs]; [intros []|]. intro Hin.
    assert (M : Input.i_auto_reset_seq C s = true \/ o = Input.AutoResetSeq C -> Input.i_auto_reset_seq C s' = true).
    { clear - Hs. intro R. unfold Input.istep in Hs.
      destruct R as [R| ->]; [|destruct (Input.i_closed C s); [discriminate|]; injection Hs as <- _; reflexivity].
      destruct o; try (destruct (Input.i_closed C s); [discriminate|]); revert Hs;
      [unfold Input.do_Feed|unfold Input.do_Read|unfold Input.do_SetCipher|unfold Input.do_AutoResetSeq
      |unfold Input.do_Consume|unfold Input.do_RunBegin|unfold Input.do_RunLoop|unfold Input.do_RunEnd|unfold Input.do_Wakeup].
      all: unfold Input.read_body, Input.close, Input.run_payload, Input.run_error, Input.run_stop.
      all: repeat match goal with
             | |- Input.IOk _ _ _ = _ -> _ => let H := fresh in intro H; injection H as <- _; first [reflexivity|exact R]
             | |- Input.IDisabled _ = _ -> _ => discriminate
             | |- Input.IRace _ = _ -> _ => discriminate
             | |- Input.IAssert _ = _ -> _ => discriminate
             | |- context [match ?x with _ => _ end] => destruct x
             end. }
    apply in_app_or in Hin as [Hin|[Hin|[]]]; apply M; [left; exact (IH Hin)|now right]. }
  intros c s' e Hs. unfold Input.istep in Hs. destruct (Input.i_closed C s); [discriminate|].
  unfold Input.do_SetCipher in Hs. rewrite R in Hs.
  destruct (Input.i_cur C s); [|discriminate]. destruct (negb _ || _); [discriminate|].
  destruct (Input.busy _); [discriminate|]. destruct (negb _); [discriminate|]. destruct (negb _); [discriminate|].
  destruct (Input.add_job _ _). injection Hs as <- <-. split; reflexivity.
Qed.
Print Assumptions C18_input_restarts.

Theorem C18_output_restarts :
  forall (C : Type) encrypt allowed ops s sub w,
  OutputFacts.runs C encrypt allowed ops s sub w -> In (Output.AutoResetSeq C) ops ->
  forall c, OutputFacts.submits C s (Output.SetCipher C c) = [OutputSpec.NewCipher c true].
Proof.
  intros C en al ops s sub w H Hin c. unfold OutputFacts.submits. do 2 f_equal.
  revert Hin. induction H as [|ops s sub w o s' b H IH Ha Hs]; [intros []|]. intro Hin.
  assert (M : Output.o_auto_reset_seq C s = true \/ o = Output.AutoResetSeq C -> Output.o_auto_reset_seq C s' = true).
  { clear - Hs. intro R. destruct R as [R| ->]; [|injection Hs as <- _; reflexivity].
    destruct o; revert Hs; unfold Output.step;
    [unfold Output.do_SetCipher|unfold Output.do_AutoResetSeq|unfold Output.do_Push|unfold Output.do_Flush
    |unfold Output.do_RunBegin|unfold Output.do_RunEncrypt|unfold Output.do_RunEnd|unfold Output.do_Wakeup];
    cbv zeta;
    repeat match goal with
      | |- Output.Ok _ _ _ = _ -> _ => let H := fresh in intro H; injection H as <- _; first [reflexivity|exact R]
      | |- Output.Disabled _ = _ -> _ => discriminate
      | |- Output.Thrown _ = _ -> _ => discriminate
      | |- Output.AssertFailed _ = _ -> _ => discriminate
      | |- context [match ?x with _ => _ end] => destruct x
      end. }
  apply in_app_or in Hin as [Hin|[Hin|[]]]; apply M; [left; exact (IH Hin)|now right].
Qed.
Print Assumptions C18_output_restarts.

(** Witness: a strict client; the handshake completes. *)
Definition strict_kexinit : bytes :=
  20 :: repeat 3 16 ++ string_enc (bs "curve25519-sha256,kex-strict-c-v00@openssh.com")
     ++ string_enc (bs "ssh-ed25519")
     ++ string_enc (bs "aes256-ctr") ++ string_enc (bs "aes256-ctr")
     ++ string_enc (bs "hmac-sha2-256") ++ string_enc (bs "hmac-sha2-256")
     ++ string_enc (bs "none") ++ string_enc (bs "none")
     ++ string_enc [] ++ string_enc [] ++ [0] ++ be32 0.

Example C18_witness :
  match krun SERVER [OpVersion (bs "SSH-2.0-toy") (rnd 5); pkt strict_kexinit; pkt client_init; pkt [21]] with
  | Some s => k_status s = Running /\ k_in_encrypted s = true /\
              In EOutReset (k_log s) /\ In EInReset (k_log s) /\
              received (initial (k_log s)) = [strict_kexinit; client_init; [21]]
  | None => False
  end /\
  match krun SERVER [OpVersion (bs "SSH-2.0-toy") (rnd 5); pkt strict_kexinit; pkt [2; 0; 0; 0; 0]] with
  | Some s => k_status s = Dead
  | None => False
  end.
Proof. vm_compute. intuition. Qed.
