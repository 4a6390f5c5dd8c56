(** Facts about proxy mode in the server connection (Model/Server.v). *)

From Coq Require Import NArith List Bool Lia String.
From Verif.Base Require Import Bytes.
From Verif.Spec Require Import WireSpec PacketSpec KeySpec AuthSpec SessionSpec RelaySpec.
From Verif.Model Require Import Wire Packets StringList KeyOptions Auth Session Server.
From Verif.Proofs Require Import WireFacts PacketFacts KeyFacts AuthFacts ServerFacts StepFacts RelayFacts.
Import ListNotations.
Open Scope N_scope.

Local Arguments bs : simpl never.

Definition is_options (e : vevent) : bool := match e with VOptions _ => true | _ => false end.
Definition is_forward (e : vevent) : bool := match e with VForward _ => true | _ => false end.
(** neither of them *)
Definition unrelated (e : vevent) : Prop := is_options e = false /\ is_forward e = false.

(** Proxy mode is on iff the options have been sent; then no other handler
    is left. *)
Record relaying (s : server) : Prop := {
  re_connecting : forall a, sv_busy s = Connecting a -> sv_channels s = false /\ ac_authenticated (sv_account s) = true;
  re_outgoing : sv_outgoing s = true -> sv_user_auth s = false /\ sv_channels s = false /\ sv_busy s = Idle /\ ac_authenticated (sv_account s) = true;
  re_proxy : sv_proxy s = true -> sv_outgoing s = true;
  re_options : sv_proxy s = existsb is_options (sv_log s)
}.

(** A step which has nothing to do with it. *)
Definition aside (s s' : server) : Prop :=
  sv_alive s' = true ->
  sv_user_auth s' = sv_user_auth s /\ sv_channels s' = sv_channels s /\ sv_outgoing s' = sv_outgoing s /\ sv_proxy s' = sv_proxy s /\
  sv_busy s' = sv_busy s /\ ac_authenticated (sv_account s') = ac_authenticated (sv_account s).

Lemma relaying_aside : forall s s' l, aside s s' -> sv_alive s' = true -> sv_log s' = sv_log s ++ l -> Forall unrelated l ->
  relaying s -> relaying s'.
Proof.
  intros s s' l A AL L F [R1 R2 R3 R4]. destruct (A AL) as (A1 & A2 & A3 & A4 & A5 & A6).
  constructor; rewrite ?A1, ?A2, ?A3, ?A4, ?A5, ?A6; auto.
  rewrite L, existsb_app, R4. replace (existsb is_options l) with false; [now rewrite orb_false_r|].
  symmetry. clear -F. induction F as [|e l [E _] F IH]; [reflexivity|]. cbn. now rewrite E, IH.
Qed.

Lemma existsb_unrelated : forall l, Forall unrelated l -> existsb is_options l = false.
Proof. intros l F. induction F as [|e l [E _] F IH]; [reflexivity|]. cbn. now rewrite E, IH. Qed.
Lemma filter_unrelated : forall l, Forall unrelated l -> filter is_forward l = [].
Proof. intros l F. induction F as [|e l [_ E] F IH]; [reflexivity|]. cbn. now rewrite E, IH. Qed.

(** [s'] is [s] with more events. *)
Definition logs (s s' : server) : Prop := exists l, sv_log s' = sv_log s ++ l /\ Forall unrelated l.
Lemma logs_refl : forall s, logs s s.
Proof. intro s. exists []. rewrite app_nil_r. auto. Qed.
Lemma logs_emit : forall l s s', logs s s' -> Forall unrelated l -> logs s (emit l s').
Proof. intros l s s' (k & E & F) G. exists (k ++ l). cbn. rewrite E, <- app_assoc. split; [reflexivity|]. apply Forall_app. auto. Qed.
Lemma logs_die : forall s s', logs s s' -> logs s (die s').
Proof. intros s s' (k & E & F). exists (k ++ [VDead]). cbn. rewrite E, <- app_assoc. split; [reflexivity|]. apply Forall_app. repeat constructor. exact F. Qed.
Lemma logs_eq : forall s s0 s', logs s s0 -> sv_log s' = sv_log s0 -> logs s s'.
Proof. intros s s0 s' (k & E & F) H. exists k. now rewrite H. Qed.

Ltac unrel := repeat constructor.

Lemma session_aside : forall cfg n op s, aside s (session_step cfg n op s) /\ logs s (session_step cfg n op s).
Proof.
  intros cfg n op s. unfold session_step. destruct (find_session n (sv_sessions s)) as [x|]; [|split; [unfold aside; auto 10|apply logs_refl]].
  destruct (sstep cfg (sv_account s) op x) as [x' l]. cbv zeta.
  assert (G : logs s (emit (map (VSess n) l) (with_sessions (set_session n x' (sv_sessions s)) s))).
  { apply logs_emit; [eapply logs_eq; [apply logs_refl|reflexivity]|]. apply Forall_map. apply Forall_forall. intros e _. unrel. }
  destruct (existsb _ l).
  - split; [intro A; discriminate|now apply logs_die].
  - split; [unfold aside; cbn; auto 10|exact G].
Qed.

Lemma CreateChannel_aside : forall t p env s, aside s (CreateChannel t p env s) /\ logs s (CreateChannel t p env s).
Proof.
  intros t p env s. unfold CreateChannel.
  assert (D : aside s (die s) /\ logs s (die s)) by (split; [intro A; discriminate|apply logs_die, logs_refl]).
  assert (E : forall e, unrelated e -> aside s (emit [e] s) /\ logs s (emit [e] s)).
  { intros e U. split; [unfold aside; cbn; auto 10|apply logs_emit; [apply logs_refl|repeat constructor; apply U]]. }
  destruct (bytes_eqb t (bs "session")).
  { destruct (sv_no_more_sessions s); [exact D|]. destruct (find_session _ _); [exact D|].
    split; [unfold aside; cbn; auto 10|]. apply logs_emit; [eapply logs_eq; [apply logs_refl|reflexivity]|unrel]. }
  destruct (bytes_eqb t (bs "direct-tcpip")).
  { destruct (negb _); [apply E; unrel|]. destruct (parse_direct_tcpip p) as [[host port]|]; [apply E; unrel|exact D]. }
  destruct (bytes_eqb t (bs "direct-streamlocal@openssh.com")); [|apply E; unrel].
  destruct (negb _); [apply E; unrel|]. destruct (ReadString p) as [[path rest]|]; [apply E; unrel|exact D].
Qed.

Lemma HandleGlobalRequest_aside : forall n d s, aside s (HandleGlobalRequest n d s) /\ logs s (HandleGlobalRequest n d s).
Proof.
  intros n d s. unfold HandleGlobalRequest. set (s0 := emit [VGlobal n d] s).
  assert (G0 : logs s s0) by (apply logs_emit; [apply logs_refl|unrel]).
  assert (D : aside s (die s0) /\ logs s (die s0)) by (split; [intro A; discriminate|now apply logs_die]).
  assert (E : forall b, aside s (emit [VGlobalAnswer b] s0) /\ logs s (emit [VGlobalAnswer b] s0)).
  { intros b. split; [unfold aside; cbn; auto 10|apply logs_emit; [exact G0|unrel]]. }
  destruct (bytes_eqb n (bs "tcpip-forward")).
  { destruct (negb _); [apply E|]. destruct (parse_bind d) as [[address port]|]; [|exact D].
    split; [unfold aside; cbn; auto 10|]. apply logs_emit; [eapply logs_eq; [exact G0|reflexivity]|unrel]. }
  destruct (bytes_eqb n (bs "cancel-tcpip-forward")).
  { destruct (parse_bind d) as [x|]; [|exact D].
    split; [unfold aside; cbn; auto 10|]. apply logs_emit; [eapply logs_eq; [exact G0|reflexivity]|unrel]. }
  destruct (bytes_eqb n (bs "no-more-sessions@openssh.com")).
  { split; [unfold aside; cbn; auto 10|]. apply logs_emit; [eapply logs_eq; [exact G0|reflexivity]|unrel]. }
  destruct (bytes_eqb n AUTHORIZED_KEY_OPTIONS_REQUEST); [|apply E].
  destruct (negb _); [apply E|]. destruct (DeserializeAuthorizedKeyOptions d) as [o|]; [|exact D].
  destruct (Restrict (ac_options (sv_account s)) o) as [o' ok].
  split; [unfold aside; cbn; auto 10|]. apply logs_emit; [eapply logs_eq; [exact G0|reflexivity]|unrel].
Qed.

(** What a packet of the client does in a state of [relaying]. *)
Lemma packet_relayed : forall cfg msg payload env s, relaying s -> sv_proxy s = true -> ShouldProxy msg = true ->
  Packet cfg msg payload env s = emit [VForward (msg :: payload)] s.
Proof.
  intros cfg msg payload env s R P M. destruct (re_outgoing s R (re_proxy s R P)) as (U & C & _).
  unfold Packet. rewrite U, C, P, M. reflexivity.
Qed.

(** Packet() in two parts. *)
Definition rest (cfg : config) (msg : N) (payload : bytes) (env : packet_env) (s : server) : server :=
  let base (s : server) :=
    if msg =? MSG_DISCONNECT then die s
    else if existsb (N.eqb msg) [MSG_IGNORE; MSG_UNIMPLEMENTED; MSG_KEXINIT; MSG_NEWKEYS; MSG_ECDH_KEX_INIT; MSG_ECDH_KEX_INIT_REPLY]
    then s
    else emit [VSend [MSG_UNIMPLEMENTED]] s in
  let proxy (s : server) :=
    if sv_proxy s && ShouldProxy msg then emit [VForward (msg :: payload)] s else base s in
  if sv_channels s && ac_authenticated (sv_account s) then
    if msg =? MSG_GLOBAL_REQUEST then
      match ParseGlobalRequest payload with
      | None => die s
      | Some g => HandleGlobalRequest (gr_request_name g) (gr_data g) s
      end
    else if msg =? MSG_CHANNEL_OPEN then
      match ParseChannelOpen payload with
      | None => die s
      | Some c => CreateChannel (co_channel_type c) (co_data c) env s
      end
    else if msg =? MSG_CHANNEL_REQUEST then
      match ParseChannelRequest payload with
      | None => die s
      | Some c => session_step cfg (cr_local_channel c) (ORequest (cr_request_type c) (cr_data c) (pe_pty env)) s
      end
    else if ShouldProxy msg then s
    else proxy s
  else proxy s.
Lemma Packet_alt : forall cfg msg payload env s, Packet cfg msg payload env s =
  if sv_user_auth s then
    match UserAuthPacket msg payload s with
    | (s, true) => s
    | (s, false) => rest cfg msg payload env s
    end
  else rest cfg msg payload env s.
Proof. reflexivity. Qed.

Lemma packet_otherwise : forall cfg msg payload env s, relaying s -> sv_proxy s && ShouldProxy msg = false ->
  logs s (Packet cfg msg payload env s) /\ (sv_alive (Packet cfg msg payload env s) = true -> relaying (Packet cfg msg payload env s)).
Proof.
  intros cfg msg payload env s R N.
  assert (KEEP : forall s', aside s s' -> logs s s' -> logs s s' /\ (sv_alive s' = true -> relaying s')).
  { intros s' A G. split; [exact G|]. intro AL. destruct G as (l & L & F). eapply relaying_aside; eauto. }
  assert (D : logs s (die s) /\ (sv_alive (die s) = true -> relaying (die s))) by (split; [apply logs_die, logs_refl|discriminate]).
  assert (I : logs s s /\ (sv_alive s = true -> relaying s)) by (split; [apply logs_refl|auto]).
  assert (C : logs s (rest cfg msg payload env s) /\ (sv_alive (rest cfg msg payload env s) = true -> relaying (rest cfg msg payload env s))).
  { unfold rest. cbv zeta. rewrite N.
    set (base := if msg =? MSG_DISCONNECT then die s else _).
    assert (B : logs s base /\ (sv_alive base = true -> relaying base)).
    { unfold base. destruct (msg =? MSG_DISCONNECT); [exact D|]. destruct (existsb _ _); [exact I|].
      apply KEEP; [unfold aside; cbn; auto 10|apply logs_emit; [apply logs_refl|unrel]]. }
    clearbody base. destruct (sv_channels s && _); [|exact B].
    destruct (msg =? MSG_GLOBAL_REQUEST).
    { destruct (ParseGlobalRequest payload); [|exact D]. destruct (HandleGlobalRequest_aside (gr_request_name g) (gr_data g) s). auto. }
    destruct (msg =? MSG_CHANNEL_OPEN).
    { destruct (ParseChannelOpen payload); [|exact D]. destruct (CreateChannel_aside (co_channel_type c) (co_data c) env s). auto. }
    destruct (msg =? MSG_CHANNEL_REQUEST).
    { destruct (ParseChannelRequest payload); [|exact D].
      destruct (session_aside cfg (cr_local_channel c) (ORequest (cr_request_type c) (cr_data c) (pe_pty env)) s). auto. }
    destruct (ShouldProxy msg); auto. }
  rewrite Packet_alt. destruct (sv_user_auth s) eqn:U; [|exact C]. unfold UserAuthPacket.
  destruct (busy_now s && _) eqn:BN; [exact D|].
  destruct (msg =? MSG_SERVICE_REQUEST).
  { destruct (ParseServiceRequest payload); [|exact D]. destruct (bytes_eqb _ _); [|exact D].
    apply KEEP; [unfold aside; cbn; rewrite U; auto 10|].
    apply logs_emit; [eapply logs_eq; [apply logs_refl|reflexivity]|unrel]. }
  destruct (msg =? MSG_USERAUTH_REQUEST); [|exact C].
  destruct (ac_authenticated (sv_account s)); [exact I|]. destruct (negb (sv_service s)); [exact D|].
  split; [eapply logs_eq; [apply logs_refl|reflexivity]|]. intros AL. destruct R as [R1 R2 R3 R4]. constructor; cbn.
  - discriminate.
  - intro O. destruct (R2 O) as (X & _). congruence.
  - exact R3.
  - exact R4.
Qed.

(** The events which concern proxy mode, per step. *)
Lemma step_relaying : forall cfg sid op s, good cfg s -> sv_alive s = true -> relaying s ->
  (sv_alive (vstep cfg sid op s) = true -> relaying (vstep cfg sid op s)) /\
  match op with
  | OPacket msg payload env =>
      if sv_proxy s && ShouldProxy msg then vstep cfg sid op s = emit [VForward (msg :: payload)] s
      else logs s (vstep cfg sid op s)
  | OOutgoingSuccess =>
      if sv_outgoing s && negb (sv_proxy s) then
        sv_log (vstep cfg sid op s) = sv_log s ++ [VOptions (ac_options (sv_account s)); VSend userauth_success]
      else vstep cfg sid op s = s
  | OOutgoingPacket msg payload =>
      vstep cfg sid op s = if sv_proxy s && ShouldProxy msg then emit [VSend (msg :: payload)] s else s
  | _ => logs s (vstep cfg sid op s)
  end.
Proof.
  intros cfg sid op s G AL R.
  assert (KEEP : forall s', aside s s' -> logs s s' -> (sv_alive s' = true -> relaying s') /\ logs s s').
  { intros s' A H. split; [|exact H]. intro AL'. destruct H as (l & L & F). eapply relaying_aside; eauto. }
  assert (D : (sv_alive (die s) = true -> relaying (die s)) /\ logs s (die s)) by (split; [discriminate|apply logs_die, logs_refl]).
  assert (I : (sv_alive s = true -> relaying s) /\ logs s s) by (split; [auto|apply logs_refl]).
  destruct op.
  - unfold vstep. rewrite AL. cbn [negb]. destruct (sv_user_auth s || _) eqn:E; [exact I|]. apply orb_false_iff in E as [E1 E2].
    split; [|eapply logs_eq; [apply logs_refl|reflexivity]]. intros _. destruct R as [R1 R2 R3 R4]. constructor; cbn; auto.
    intro O. destruct (R2 O) as (_ & _ & _ & X). congruence.
  - unfold vstep. rewrite AL. cbn [negb]. destruct (sv_proxy s && ShouldProxy msg) eqn:E.
    + apply andb_true_iff in E as [E1 E2]. rewrite (packet_relayed cfg msg payload env s R E1 E2). split; [|reflexivity].
      intros _. destruct R as [R1 R2 R3 R4]. constructor; cbn; auto. rewrite existsb_app, R4. cbn. now rewrite orb_false_r.
    + destruct (packet_otherwise cfg msg payload env s R E) as [X Y]. auto.
  - destruct (sv_busy s) as [|payload|addr] eqn:B.
    + rewrite oauth_idle by congruence. exact I.
    + destruct (oauth_cases cfg sid w s payload G AL B) as (a & out & _ & ACC & H).
      pose proof (proj2 G AL) as LV. destruct LV as [LB LBE _]. rewrite B in LB. destruct LB as [_ NA]. destruct (LBE NA) as (_ & _ & (NC & NO & NP & _) & _).
      destruct out as [m|alg blob| |p].
      * destruct H as (A' & BU & (C' & O' & P' & _) & L). split.
        -- intros _. constructor; rewrite ?O', ?BU; try congruence.
           rewrite L, existsb_app. cbn. rewrite orb_false_r, <- (re_options s R). congruence.
        -- exists [VSend (userauth_failure m)]. split; [exact L|unrel].
      * destruct H as (A' & BU & (C' & O' & P' & _) & L). split.
        -- intros _. constructor; rewrite ?O', ?BU; try congruence.
           rewrite L, existsb_app. cbn. rewrite orb_false_r, <- (re_options s R). congruence.
        -- exists [VSend (userauth_pk_ok alg blob)]. split; [exact L|unrel].
      * destruct H as (A' & L). split; [congruence|]. exists [VDead]. split; [exact L|unrel].
      * destruct H as (A' & L & BU & O' & P' & _ & _ & _ & C'). split.
        -- intros _. constructor; rewrite ?O', ?BU; try congruence.
           ++ intros x E. destruct p; [|discriminate]. split; [exact C'|].
              destruct (ac_authenticated (sv_account (vstep cfg sid (OAuth w) s))) eqn:NA'; [reflexivity|exfalso].
              pose proof (good_auth cfg sid w s AL G) as [_ LV']. specialize (LV' A'). destruct LV' as [LB' LBE' _].
              rewrite BU in LB'. congruence.
           ++ rewrite P', L, existsb_app. destruct p; cbn; rewrite orb_false_r, <- (re_options s R); congruence.
        -- eexists. split; [exact L|]. destruct p; unrel.
    + rewrite oauth_idle by congruence. exact I.
  - unfold vstep. rewrite AL. cbn [negb]. destruct (sv_busy s) as [|p|addr] eqn:B; [exact I|exact I|].
    destruct ok; [|exact D]. split; [|eapply logs_eq; [apply logs_refl|reflexivity]].
    intros _. destruct R as [R1 R2 R3 R4]. destruct (R1 _ B) as [X Y]. constructor; cbn; auto.
  - unfold vstep. rewrite AL. cbn [negb]. destruct (_ && _); [|exact I].
    apply KEEP; [unfold aside; cbn; auto 10|apply logs_emit; [apply logs_refl|unrel]].
  - unfold vstep. rewrite AL. cbn [negb]. destruct (sv_outgoing s && negb (sv_proxy s)) eqn:E; [|split; [auto|reflexivity]].
    apply andb_true_iff in E as [E1 E2]. split.
    + intros _. destruct R as [R1 R2 R3 R4]. constructor; cbn; auto. now rewrite !existsb_app, orb_true_r.
    + cbn. now rewrite <- app_assoc.
  - unfold vstep. rewrite AL. cbn [negb]. split; [|reflexivity].
    destruct (_ && _); [|auto]. intros _. destruct R as [R1 R2 R3 R4]. constructor; cbn; auto. rewrite existsb_app, R4. cbn. now rewrite orb_false_r.
  - unfold vstep. rewrite AL. cbn [negb]. destruct (sv_outgoing s); [exact D|exact I].
  - unfold vstep. rewrite AL. cbn [negb]. destruct (sv_timeout s); [exact D|exact I].
  - unfold vstep. rewrite AL. exact D.
  - unfold vstep. rewrite AL. cbn [negb]. destruct (existsb _ _); [|exact I].
    destruct ok; (apply KEEP; [unfold aside; cbn; auto 10|apply logs_emit; [eapply logs_eq; [apply logs_refl|reflexivity]|unrel]]).
  - unfold vstep. rewrite AL. cbn [negb]. destruct (existsb _ _); [|exact I].
    apply KEEP; [unfold aside; cbn; auto 10|apply logs_emit; [apply logs_refl|unrel]].
  - unfold vstep. rewrite AL. cbn [negb]. destruct (session_aside cfg n op s) as [X Y]. destruct op; auto.
  - unfold vstep. rewrite AL. cbn [negb]. apply KEEP; [unfold aside; cbn; auto 10|eapply logs_eq; [apply logs_refl|reflexivity]].
Qed.

Lemma vrun_relaying : forall cfg sid peer ops, Forall op_ok ops -> sv_alive (vrun cfg sid peer ops) = true -> relaying (vrun cfg sid peer ops).
Proof.
  intros cfg sid peer ops. induction ops as [|op ops IH] using rev_ind; intros F A.
  - constructor; cbn; congruence.
  - apply Forall_app in F as [F1 F2]. rewrite vrun_snoc in *.
    destruct (sv_alive (vrun cfg sid peer ops)) eqn:AL; [|rewrite vstep_dead in A by exact AL; congruence].
    apply (step_relaying cfg sid op (vrun cfg sid peer ops)); auto. now apply vrun_good.
Qed.

(** ** The streams *)

Lemma on_proxy : forall s o, relaying s -> In (VOptions o) (sv_log s) -> sv_proxy s = true.
Proof. intros s o R I. rewrite (re_options s R). apply existsb_exists. exists (VOptions o). auto. Qed.

Lemma flat_unrelated : forall l, Forall unrelated l -> flat_map to_target l = [].
Proof. intros l F. induction F as [|e l [_ E] F IH]; [reflexivity|]. cbn. rewrite IH. destruct e; try reflexivity. discriminate. Qed.

Lemma step_to_target : forall cfg sid op s o, good cfg s -> sv_alive s = true -> relaying s -> In (VOptions o) (sv_log s) ->
  flat_map to_target (sv_log (vstep cfg sid op s)) = flat_map to_target (sv_log s) ++ from_client op.
Proof.
  intros cfg sid op s o G AL R I. pose proof (on_proxy s o R I) as P.
  destruct (step_relaying cfg sid op s G AL R) as [_ H].
  assert (U : logs s (vstep cfg sid op s) -> flat_map to_target (sv_log (vstep cfg sid op s)) = flat_map to_target (sv_log s) ++ []).
  { intros (l & L & F). rewrite L, flat_map_app, (flat_unrelated l F). reflexivity. }
  destruct op; cbn [from_client]; auto.
  - rewrite <- ShouldProxy_layer. rewrite P in H. cbn [andb] in H. destruct (ShouldProxy msg); [|auto].
    rewrite H. cbn [emit sv_log mk_server]. now rewrite flat_map_app.
  - rewrite P, andb_false_r in H. rewrite H. now rewrite app_nil_r.
  - rewrite H. destruct (_ && _); cbn [emit sv_log mk_server]; rewrite ?flat_map_app; cbn; now rewrite ?app_nil_r.
Qed.

(** In proxy mode nothing else is said to the client in this layer. *)
Lemma step_to_client : forall cfg sid op s o, good cfg s -> sv_alive s = true -> relaying s -> In (VOptions o) (sv_log s) ->
  flat_map to_client (sv_log (vstep cfg sid op s)) = flat_map to_client (sv_log s) ++ from_target op.
Proof.
  intros cfg sid op s o G AL R I. pose proof (on_proxy s o R I) as P.
  pose proof (re_proxy s R P) as O. destruct (re_outgoing s R O) as (U & C & B & _).
  assert (N : forall l, flat_map to_client (sv_log s ++ l) = flat_map to_client (sv_log s) ++ flat_map to_client l) by (intro; apply flat_map_app).
  assert (SS : forall n op', flat_map to_client (sv_log (session_step cfg n op' s)) = flat_map to_client (sv_log s)).
  { intros n op'. unfold session_step. destruct (find_session _ _) as [x|]; [|reflexivity]. destruct (sstep _ _ _ _) as [x' l].
    assert (Z : flat_map to_client (map (VSess n) l) = []) by (clear; induction l; auto).
    cbv zeta. destruct (existsb _ _); cbn; rewrite ?flat_map_app, Z; cbn; now rewrite ?app_nil_r. }
  destruct op; unfold vstep; rewrite AL; cbn [negb from_target].
  - destruct (_ || _); cbn; now rewrite app_nil_r.
  - rewrite Packet_alt. unfold rest. rewrite U, C, P. cbn [andb]. cbv zeta.
    destruct (ShouldProxy msg) eqn:M; [cbn; rewrite N; reflexivity|].
    destruct (msg =? MSG_DISCONNECT); [cbn; rewrite N; reflexivity|].
    destruct (existsb _ _); [now rewrite app_nil_r|]. cbn. rewrite N. reflexivity.
  - rewrite B. now rewrite app_nil_r.
  - rewrite B. now rewrite app_nil_r.
  - rewrite P, andb_false_r. now rewrite app_nil_r.
  - rewrite P, andb_false_r. now rewrite app_nil_r.
  - rewrite P, <- ShouldProxy_layer. cbn [andb]. destruct (ShouldProxy msg) eqn:M; [|now rewrite app_nil_r].
    cbn [emit sv_log mk_server]. rewrite N. cbn [flat_map to_client is_relayed]. rewrite <- ShouldProxy_layer, M. now rewrite app_nil_r.
  - rewrite O. cbn. rewrite N. reflexivity.
  - destruct (sv_timeout s); [cbn; rewrite N; reflexivity|now rewrite app_nil_r].
  - cbn. rewrite N. reflexivity.
  - destruct (existsb _ _); [|now rewrite app_nil_r]. destruct ok; cbn; rewrite N; reflexivity.
  - destruct (existsb _ _); [|now rewrite app_nil_r]. cbn. rewrite N. reflexivity.
  - rewrite app_nil_r. destruct op; auto.
  - cbn. now rewrite app_nil_r.
Qed.

Lemma log_kept : forall cfg sid peer ops op e, Forall op_ok ops ->
  In e (sv_log (vrun cfg sid peer ops)) -> In e (sv_log (vstep cfg sid op (vrun cfg sid peer ops))).
Proof.
  intros cfg sid peer ops op e F I. destruct (step_log cfg sid op _ (vrun_good cfg sid peer ops F)) as (l & L & _). rewrite L. apply in_or_app. auto.
Qed.

Lemma alive_back : forall cfg sid op s, sv_alive (vstep cfg sid op s) = true -> sv_alive s = true.
Proof. intros cfg sid op s A. destruct (sv_alive s) eqn:E; [reflexivity|]. rewrite vstep_dead in A by exact E. congruence. Qed.
Lemma vrun_alive_prefix : forall cfg sid peer a b, sv_alive (vrun cfg sid peer (a ++ b)) = true -> sv_alive (vrun cfg sid peer a) = true.
Proof.
  intros cfg sid peer a b. induction b as [|op b IH] using rev_ind; [now rewrite app_nil_r|].
  rewrite app_assoc, vrun_snoc. intro A. apply alive_back in A. auto.
Qed.

Lemma streams : forall cfg sid peer before o after, Forall op_ok (before ++ after) ->
  In (VOptions o) (sv_log (vrun cfg sid peer before)) -> sv_alive (vrun cfg sid peer (before ++ after)) = true ->
  let log := sv_log (vrun cfg sid peer before) in
  let log' := sv_log (vrun cfg sid peer (before ++ after)) in
  In (VOptions o) log' /\
  flat_map to_target log' = flat_map to_target log ++ flat_map from_client after /\
  flat_map to_client log' = flat_map to_client log ++ flat_map from_target after.
Proof.
  intros cfg sid peer before o after. induction after as [|op t IH] using rev_ind; intros F I A log log'; subst log log'.
  - rewrite app_nil_r. cbn. rewrite !app_nil_r. auto.
  - rewrite app_assoc in *. apply Forall_app in F as [F _]. rewrite vrun_snoc in *. pose proof (alive_back _ _ _ _ A) as A'.
    destruct (IH F I A') as (X & Y & Z). pose proof (vrun_relaying cfg sid peer _ F A') as R. pose proof (vrun_good cfg sid peer _ F) as G.
    split; [now apply log_kept|]. rewrite !flat_map_app. cbn [flat_map]. rewrite !app_nil_r.
    rewrite (step_to_target cfg sid op _ o G A' R X), (step_to_client cfg sid op _ o G A' R X), Y, Z. split; symmetry; apply app_assoc.
Qed.

(** Before that, nothing is sent to the target in this layer. *)
Lemma forward_after_options : forall cfg sid peer ops, Forall op_ok ops ->
  forall a p b, sv_log (vrun cfg sid peer ops) = a ++ VForward p :: b -> exists o, In (VOptions o) a.
Proof.
  intros cfg sid peer ops. induction ops as [|op t IH] using rev_ind; intros F a p b L; [destruct a; discriminate|].
  apply Forall_app in F as [F _]. rewrite vrun_snoc in L. specialize (IH F).
  destruct (sv_alive (vrun cfg sid peer t)) eqn:AL; [|rewrite vstep_dead in L by exact AL; eauto].
  pose proof (vrun_good cfg sid peer t F) as G. pose proof (vrun_relaying cfg sid peer t F AL) as R.
  destruct (step_relaying cfg sid op _ G AL R) as [_ H].
  set (s := vrun cfg sid peer t) in *.
  assert (NEW : forall l, sv_log (vstep cfg sid op s) = sv_log s ++ l -> (In (VForward p) l -> exists o, In (VOptions o) (sv_log s)) -> exists o, In (VOptions o) a).
  { intros l L' N. rewrite L' in L. symmetry in L. apply app_eq_app in L as (m & [[-> E]|[E1 E2]]).
    - destruct m as [|x m].
      + cbn in E. rewrite app_nil_r. destruct N as (o & J); [rewrite E; now left|]. exists o. exact J.
      + destruct N as (o & J); [rewrite E; apply in_or_app; right; now left|]. exists o. apply in_or_app. auto.
    - destruct m as [|x m].
      + rewrite app_nil_r in E1. cbn in E2. destruct N as (o & J); [rewrite <- E2; now left|]. exists o. now rewrite <- E1.
      + injection E2 as <- E2. exact (IH a p m E1). }
  assert (U : logs s (vstep cfg sid op s) -> exists o, In (VOptions o) a).
  { intros (l & L' & FU). apply (NEW l L'). intro I. rewrite Forall_forall in FU. destruct (FU _ I). discriminate. }
  destruct op; auto.
  - destruct (sv_proxy s && ShouldProxy msg) eqn:E; [|auto]. apply andb_true_iff in E as [E _].
    apply (NEW [VForward (msg :: payload)]); [now rewrite H|]. intros _.
    rewrite (re_options s R) in E. apply existsb_exists in E as (e & I & E). destruct e; try discriminate. eauto.
  - destruct (sv_outgoing s && negb (sv_proxy s)).
    + eapply NEW; [exact H|]. intros [I|[I|[]]]; discriminate.
    + apply U. rewrite H. apply logs_refl.
  - apply U. rewrite H. destruct (_ && _); [|apply logs_refl]. apply logs_emit; [apply logs_refl|unrel].
Qed.
