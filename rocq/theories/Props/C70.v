(** * C70: forwarded connections are made as the user, and to what was asked for *)

From Coq Require Import NArith List Bool Lia String.
From Verif.Base Require Import Bytes.
From Verif.Spec Require Import WireSpec PacketSpec KeySpec AuthSpec SessionSpec AuthDemo NetworkSpec.
From Verif.Model Require Import Wire Packets StringList KeyOptions Auth Session Server Network.
From Verif.Proofs Require Import WireFacts PacketFacts KeyFacts AuthFacts ServerFacts SessionFacts RestrictFacts StepFacts NetworkFacts.
Import ListNotations.
Open Scope N_scope.

Local Arguments bs : simpl never.

(** What is known about a call: the account at that time, which is the one of
    the login. *)
Lemma call_account : forall cfg sid peer ops c, Forall op_ok ops -> In c (snd (nrun cfg sid peer ops)) ->
  exists before op after e, ops = before ++ op :: after /\ op_ok op /\ caused op e /\
    netcall_of (sv_account (vrun cfg sid peer before)) e = Some c /\
    needs cfg (vrun cfg sid peer before) e /\
    ac_authenticated (sv_account (vrun cfg sid peer before)) = true /\
    (exists o, sv_account (vrun cfg sid peer ops) = set_options o (sv_account (vrun cfg sid peer before))) /\
    exists b w payload user k src after, logged cfg sid peer before b w payload user k src after.
Proof.
  intros cfg sid peer ops c F I. destruct (call_origin _ _ _ _ _ F I) as (t & op & rest & events & e & O & L & I' & N).
  assert (FT : Forall op_ok t /\ op_ok op) by (rewrite O in F; apply Forall_app in F as [F1 F2]; inversion F2; auto). destruct FT as [FT OK].
  destruct (netcall_privileged _ _ _ N) as [P NP].
  destruct (privileged_step cfg sid peer t op e events FT L I' P NP) as (_ & A & ND).
  exists t, op, rest, e. do 2 (split; [assumption|]). split; [eapply connect_step; eauto using vrun_good|]. do 3 (split; [assumption|]).
  split.
  - clear -O F A. rewrite O in *. revert F. generalize (op :: rest) as post. intro post. induction post as [|q post IH] using rev_ind; intro F.
    + rewrite app_nil_r. exists (ac_options (sv_account (vrun cfg sid peer t))). now rewrite set_options_id.
    + rewrite app_assoc in *. apply Forall_app in F as [F _]. destruct (IH F) as (o & E). rewrite vrun_snoc.
      assert (AU : ac_authenticated (sv_account (vrun cfg sid peer (t ++ post))) = true) by (rewrite E; exact A).
      destruct (after_login cfg sid q (vrun cfg sid peer (t ++ post)) (vrun_good _ _ _ _ F) AU) as (o' & E'). rewrite E', E. exists o'. reflexivity.
  - exact (login_origin cfg sid peer t FT A).
Qed.

(** With a translation server, every connection and every listener is made by
    a process with the ids and namespaces which it has sent for the user who
    logged in: never by the SSH server itself.  If these ask for an isolated
    network, no TCP connection and no listener is made. *)
Theorem C70_identity :
  forall cfg session_id peer_address ops c, Forall op_ok ops -> cf_translation_server cfg = true ->
  In c (snd (nrun cfg session_id peer_address ops)) ->
  let a := sv_account (vrun cfg session_id peer_address ops) in
  exists password r eo, In (ATranslate (ac_username a) password (Some r)) (ac_log a) /\
    tr_status_ok r = true /\ tr_execute_options r = Some eo /\
    eo_uid eo <> None /\ eo_gid eo <> None /\ eo_home eo <> None /\
    runs_as c (AsOptions eo) /\ (tcp_call c -> eo_enable_network eo = false).
Proof.
  intros cfg sid peer ops c F TS I a.
  destruct (call_account _ _ _ _ _ F I) as (t & op & rest & e & O & OK & CA & N & ND & A & (o & E) & (b & w & payload & user & k & src & after & LO)).
  subst a. set (a' := sv_account (vrun cfg sid peer t)) in *.
  pose proof (lo_login _ _ _ _ _ _ _ _ _ _ _ LO) as LG. destruct (lo_fixed _ _ _ _ _ _ _ _ _ _ _ LO) as (o' & X). fold a' in X.
  pose proof (lg_name _ _ _ _ _ _ _ _ LG) as NM. pose proof (lg_source _ _ _ _ _ _ _ _ LG) as SO. pose proof (lg_asked _ _ _ _ _ _ _ _ LG) as AK.
  pose proof (lg_complete _ _ _ _ _ _ _ _ LG) as CP. pose proof (lg_passwd _ _ _ _ _ _ _ _ LG) as PW. pose proof (lg_status _ _ _ _ _ _ _ _ LG) as ST.
  pose proof (lg_exec_translation _ _ _ _ _ _ _ _ LG) as EX.
  destruct src as [r|pw]; [|specialize (PW pw eq_refl); congruence].
  destruct SO as [T _]. destruct AK as (password & AK & _). destruct (EX r eq_refl) as (EX1 & _).
  assert (T' : ac_translation a' = Some (user, r)) by (rewrite X; exact T).
  assert (EXA : ac_allow_exec a' = ac_allow_exec (sv_account (vrun cfg sid peer (b ++ [OAuth w])))) by (rewrite X; reflexivity).
  assert (NM' : ac_username a' = user) by (rewrite X; exact NM).
  assert (AK' : In (ATranslate user password (Some r)) (ac_log a')) by (rewrite X; exact AK).
  rewrite E. change (ac_username (set_options o a')) with (ac_username a'). change (ac_log (set_options o a')) with (ac_log a').
  assert (R : response_of a' = Some r) by (unfold response_of; now rewrite T').
  assert (EO : exists eo, tr_execute_options r = Some eo).
  { destruct (tr_execute_options r) as [eo|] eqn:EO; [eauto|]. exfalso. specialize (EX1 eq_refl). rewrite <- EXA in EX1.
    destruct e; try discriminate N; cbn [needs] in ND; destruct ND as (_ & _ & ND); unfold IsForwardingAllowed, IsLocalForwardingAllowed in ND;
      fold a' in ND; rewrite EX1 in ND; [destruct (ko_no_port_forwarding _); discriminate|discriminate|destruct (ko_no_port_forwarding _); discriminate]. }
  destruct EO as (eo & EO). exists password, r, eo. rewrite NM'. destruct (CP r eq_refl eo EO) as (C1 & C2 & C3).
  split; [exact AK'|]. split; [apply (ST r eq_refl)|]. split; [exact EO|]. do 3 (split; [assumption|]).
  assert (NET : IsForwardingAllowed a' = true -> eo_enable_network eo = false).
  { unfold IsForwardingAllowed. rewrite R, EO. destruct (ko_no_port_forwarding _), (ac_allow_exec a'); cbn; try discriminate.
    destruct (eo_enable_network eo); [discriminate|reflexivity]. }
  assert (G : GetNetworkChildOptions a' = Some eo) by (unfold GetNetworkChildOptions; now rewrite R).
  assert (SH : ShellIdentity a' = Some (AsOptions eo)) by (unfold ShellIdentity; now rewrite R, EO).
  destruct e; try discriminate N; cbn [needs netcall_of] in N, ND; fold a' in ND; destruct ND as (_ & _ & ND).
  - unfold ResolveConnectTCP in N. rewrite G in N. destruct (helper_host host) as [h|]; [|discriminate].
    assert (C : NHelperConnect (AsOptions eo) h port = c) by congruence. subst c. split; [reflexivity|auto].
  - unfold DelegateLocalConnect in N. rewrite SH in N. destruct (ReceivePath path) as [h|]; [|discriminate].
    assert (C : NHelperLocal (AsOptions eo) h = c) by congruence. subst c. split; [reflexivity|intros []].
  - unfold ResolveBindTCP in N. rewrite G in N. destruct (helper_host address) as [h|]; [|discriminate].
    assert (C : NHelperBind (AsOptions eo) (ResolveBind h) port = c) by congruence. subst c. split; [reflexivity|auto].
Qed.
Print Assumptions C70_identity.

(** Without one, connections to local sockets are made by a process with the
    ids of the user who logged in. *)
Theorem C70_local_identity :
  forall cfg session_id peer_address ops i path, Forall op_ok ops -> cf_translation_server cfg = false ->
  In (NHelperLocal i path) (snd (nrun cfg session_id peer_address ops)) ->
  let a := sv_account (vrun cfg session_id peer_address ops) in
  exists p, In (AGetpwnam (ac_username a) (Some p)) (ac_log a) /\ i = AsPasswd p.
Proof.
  intros cfg sid peer ops i path F TS I a.
  destruct (call_account _ _ _ _ _ F I) as (t & op & rest & e & O & OK & CA & N & ND & A & (o & E) & (b & w & payload & user & k & src & after & LO)).
  subst a. set (a' := sv_account (vrun cfg sid peer t)) in *.
  pose proof (lo_login _ _ _ _ _ _ _ _ _ _ _ LO) as LG. destruct (lo_fixed _ _ _ _ _ _ _ _ _ _ _ LO) as (o' & X). fold a' in X.
  pose proof (lg_name _ _ _ _ _ _ _ _ LG) as NM. pose proof (lg_source _ _ _ _ _ _ _ _ LG) as SO. pose proof (lg_asked _ _ _ _ _ _ _ _ LG) as AK.
  pose proof (lg_status _ _ _ _ _ _ _ _ LG) as ST.
  destruct src as [r|pw]; [destruct (ST r eq_refl); congruence|]. destruct SO as [T P].
  exists pw. rewrite E. change (ac_username (set_options o a')) with (ac_username a'). change (ac_log (set_options o a')) with (ac_log a').
  rewrite X. split; [cbn; rewrite NM; exact AK|].
  destruct e; try discriminate N; cbn [netcall_of] in N.
  - unfold ResolveConnectTCP in N. destruct (GetNetworkChildOptions a'); [destruct (helper_host _); discriminate|]. destruct (ac_translation a'); discriminate.
  - unfold DelegateLocalConnect, ShellIdentity in N. assert (R : response_of a' = None) by (unfold response_of; rewrite X; cbn; now rewrite T). rewrite R in N.
    assert (P' : ac_passwd a' = Some pw) by (rewrite X; exact P). rewrite P' in N. cbn [option_map] in N. destruct (ReceivePath _); congruence.
  - unfold ResolveBindTCP in N. destruct (GetNetworkChildOptions a'); [destruct (helper_host _); discriminate|]. destruct (ac_translation a'); discriminate.
Qed.
Print Assumptions C70_local_identity.

(** Every call is made for a packet of the client which asks for exactly this
    target. *)
Definition C70_target_full_statement : Prop :=
  forall cfg session_id peer_address ops c, Forall op_ok ops -> In c (snd (nrun cfg session_id peer_address ops)) ->
  exists op, In op ops /\ serves op c.

(** It is false: what follows a null byte is ignored by the helper process. *)
Definition null_host : bytes := bs "db" ++ [0] ++ bs ".example.com".
Definition null_ops : list vop := demo_start ++ demo_attempt (demo_key_request (bs "alice") (bs "PLAIN")) ++
  [demo_open (bs "direct-tcpip") (enc [FString null_host; FU32 80; FString (bs "me"); FU32 1]) 0].

Theorem C70_target_refuted : ~ C70_target_full_statement.
Proof.
  intro H. set (x := snd (nrun (demo_config true) demo_session_id (bs "192.0.2.1") null_ops)).
  assert (I : In (NHelperConnect (AsOptions demo_eo) (bs "db") 80) x) by (vm_compute; auto).
  assert (OK : Forall op_ok null_ops) by (apply ok_ops; vm_compute; reflexivity).
  destruct (H (demo_config true) demo_session_id (bs "192.0.2.1") null_ops _ OK I) as (op & J & S). clear OK.
  destruct S as (env & peer & window & max & o & q & ->). clear I x H.
  assert (K : forall raw e, In (OPacket 90 raw e) null_ops -> take 23 (drop 28 raw) = be32 15 ++ null_host ++ be32 80 /\ 0 < len (drop 28 raw)).
  { intros raw e I. unfold null_ops in I. repeat (destruct I as [I|I]; [try discriminate I; injection I as <- <-; vm_compute; auto|]). destruct I. }
  apply K in J as [J _].
  assert (L : drop 28 (enc [FString (bs "direct-tcpip"); FU32 peer; FU32 window; FU32 max; FString (bs "db"); FU32 80; FString o; FU32 q]) =
    enc [FString (bs "db"); FU32 80; FString o; FU32 q]).
  { change (enc [FString (bs "direct-tcpip"); FU32 peer; FU32 window; FU32 max; FString (bs "db"); FU32 80; FString o; FU32 q]) with
      (enc ([FString (bs "direct-tcpip"); FU32 peer; FU32 window; FU32 max] ++ [FString (bs "db"); FU32 80; FString o; FU32 q])).
    rewrite enc_app2. reflexivity. }
  rewrite L in J. clear L. apply (f_equal (fun l => nth 3 l 0)) in J. vm_compute in J. discriminate.
Qed.
Print Assumptions C70_target_refuted.

(** What holds: the helper process gets what was asked for up to the first
    null byte; so exactly what was asked for if there is none. *)
Lemma target : forall cfg sid peer ops c, Forall op_ok ops -> In c (snd (nrun cfg sid peer ops)) ->
  exists op, In op ops /\ serves_cut op c.
Proof.
  intros cfg sid peer ops c F I.
  destruct (call_account _ _ _ _ _ F I) as (t & op & rest & e & O & OK & CA & N & _).
  exists op. split; [rewrite O; apply in_or_app; right; now left|]. apply caused_asks in CA; [|exact OK].
  destruct e; try discriminate N; cbn [netcall_of] in N.
  - unfold ResolveConnectTCP in N. destruct (GetNetworkChildOptions _) as [eo|].
    + destruct (helper_host host) as [h|] eqn:H; [|discriminate]. apply helper_host_cut in H as [H _]. injection N as <-. cbn. eauto.
    + destruct (ac_translation _); [discriminate|]. injection N as <-. exact CA.
  - unfold DelegateLocalConnect in N. destruct (ShellIdentity _); [|discriminate].
    destruct (ReceivePath path) as [h|] eqn:H; [|discriminate]. apply ReceivePath_cut in H as [H _]. injection N as <-. cbn. eauto.
  - unfold ResolveBindTCP in N. destruct (GetNetworkChildOptions _) as [eo|].
    + destruct (helper_host address) as [h|] eqn:H; [|discriminate]. apply helper_host_cut in H as [H _]. injection N as <-. cbn.
      exists address, h. auto using ResolveBind_means.
    + destruct (ac_translation _); [discriminate|]. injection N as <-. exists address. auto using ResolveBind_means.
Qed.

Theorem C70_target_cut_partial :
  forall cfg session_id peer_address ops c, Forall op_ok ops -> In c (snd (nrun cfg session_id peer_address ops)) ->
  exists op, In op ops /\ serves_cut op c.
Proof. exact target. Qed.
Print Assumptions C70_target_cut_partial.

Theorem C70_target_partial :
  forall cfg session_id peer_address ops c, Forall op_ok ops ->
  (forall op, In op ops -> ~ mentions_null op) ->
  In c (snd (nrun cfg session_id peer_address ops)) ->
  exists op, In op ops /\ serves op c.
Proof.
  intros cfg sid peer ops c F M I. destruct (target cfg sid peer ops c F I) as (op & J & S). exists op. split; [exact J|].
  specialize (M op J). unfold mentions_null in M. destruct c; cbn in *; try assumption.
  - destruct S as (whole & S & U). rewrite (until_null_whole _ _ U); [exact S|]. intro Z. apply M. exists whole, port. auto.
  - destruct S as (whole & ad & S & U & B). exists whole. split; [exact S|]. rewrite <- (until_null_whole _ _ U); [exact B|]. intro Z. apply M. exists whole, port. auto.
  - destruct S as (whole & S & U). rewrite (until_null_whole _ _ U); [exact S|]. intro Z. apply M. exists whole, 0. auto.
Qed.
Print Assumptions C70_target_partial.

Lemma no_options : forall cfg sid peer ops, Forall op_ok ops ->
  let a := sv_account (vrun cfg sid peer ops) in
  ac_authenticated a = true -> ac_allow_exec a = true -> GetNetworkChildOptions a = None -> ac_translation a = None.
Proof.
  intros cfg sid paddr ops F a AU FA G. destruct (ac_translation a) as [[u r]|] eqn:T; [|reflexivity].
  exfalso. destruct (login_origin cfg sid paddr ops F AU) as (b & w & payload & user & k & src & after & LO).
  pose proof (lo_login _ _ _ _ _ _ _ _ _ _ _ LO) as LG. destruct (lo_fixed _ _ _ _ _ _ _ _ _ _ _ LO) as (o' & X). fold a in X.
  pose proof (lg_source _ _ _ _ _ _ _ _ LG) as SO. pose proof (lg_exec_translation _ _ _ _ _ _ _ _ LG) as EX.
  clearbody a. subst a. cbn [ac_translation set_options mk_account ac_allow_exec] in T, FA. unfold GetNetworkChildOptions, response_of in G.
  cbn [ac_translation set_options mk_account] in G.
  destruct src as [r'|pw]; destruct SO as [T' _]; rewrite T' in T, G; [|discriminate].
  injection T as -> ->. destruct (EX r eq_refl) as (EX1 & _). specialize (EX1 G). congruence.
Qed.

Lemma forwarding_exec : forall a, IsForwardingAllowed a = true -> ac_allow_exec a = true.
Proof. intros a. unfold IsForwardingAllowed. destruct (ko_no_port_forwarding _), (ac_allow_exec a); cbn; intro; congruence. Qed.

Lemma channels_auth : forall cfg sid peer ops, Forall op_ok ops -> sv_alive (vrun cfg sid peer ops) = true ->
  sv_channels (vrun cfg sid peer ops) = true -> ac_authenticated (sv_account (vrun cfg sid peer ops)) = true.
Proof.
  intros cfg sid peer ops F AL CH. destruct (ac_authenticated _) eqn:X; [reflexivity|]. exfalso.
  destruct (proj2 (vrun_good cfg sid peer ops F) AL) as [_ LBE _]. destruct (LBE X) as (_ & _ & (Y & _) & _). congruence.
Qed.

Lemma identity_known : forall cfg sid peer ops, Forall op_ok ops ->
  let a := sv_account (vrun cfg sid peer ops) in
  ac_authenticated a = true -> ac_allow_exec a = true -> ShellIdentity a <> None.
Proof.
  intros cfg sid peer ops F a AU EX. unfold ShellIdentity.
  destruct (login_origin cfg sid peer ops F AU) as (b & w & payload & user & k & src & after & LO).
  pose proof (lo_login _ _ _ _ _ _ _ _ _ _ _ LO) as LG. destruct (lo_fixed _ _ _ _ _ _ _ _ _ _ _ LO) as (o' & X). fold a in X.
  pose proof (lg_source _ _ _ _ _ _ _ _ LG) as SO. pose proof (lg_exec_translation _ _ _ _ _ _ _ _ LG) as ET.
  unfold response_of. destruct src as [r|pw]; destruct SO as [T P].
  - destruct (ET r eq_refl) as (E1 & _).
    assert (T' : ac_translation a = Some (user, r)) by (rewrite X; exact T). rewrite T'. cbn [option_map snd].
    destruct (tr_execute_options r) as [eo|]; [discriminate|]. specialize (E1 eq_refl).
    assert (ac_allow_exec a = false) by (rewrite X; exact E1). congruence.
  - assert (T' : ac_translation a = None) by (rewrite X; exact T). rewrite T'. cbn [option_map snd].
    assert (P' : ac_passwd a = Some pw) by (rewrite X; exact P). rewrite P'. discriminate.
Qed.

(** Conversely, what an account may ask for is attempted: the call is made in
    the same step. *)
Theorem C70_connect_made :
  forall cfg session_id peer_address ops env peer window max host port originator oport, Forall op_ok ops ->
  let op := OPacket 90 (enc [FString (bs "direct-tcpip"); FU32 peer; FU32 window; FU32 max;
    FString host; FU32 port; FString originator; FU32 oport]) env in
  let s := vrun cfg session_id peer_address ops in
  Forall field_ok [FU32 peer; FU32 window; FU32 max; FString host; FU32 port; FString originator; FU32 oport] ->
  ~ In 0 host -> len host < 1024 ->
  sv_alive s = true -> sv_channels s = true -> sv_user_auth s = false -> IsForwardingAllowed (sv_account s) = true ->
  exists c, snd (nrun cfg session_id peer_address (ops ++ [op])) = snd (nrun cfg session_id peer_address ops) ++ [c] /\
    tcp_call c /\ serves op c.
Proof.
  intros cfg sid paddr ops env peer window max host port orig oport F op s FO NZ L AL CH UA FA.
  assert (AU : ac_authenticated (sv_account s) = true).
  { exact (channels_auth cfg sid paddr ops F AL CH). }
  assert (E : vstep cfg sid op s = emit [VConnectTcp host port] s).
  { unfold vstep. rewrite AL. cbn [negb op]. unfold Packet. rewrite UA. cbv zeta. rewrite CH, AU. cbn [andb].
    change (90 =? MSG_GLOBAL_REQUEST) with false. change (90 =? MSG_CHANNEL_OPEN) with true. cbv iota.
    inversion FO as [|? ? H1 FO1]; subst. inversion FO1 as [|? ? H2 FO2]; subst. inversion FO2 as [|? ? H3 FO3]; subst. inversion FO3 as [|? ? H4 FO4]; subst.
    inversion FO4 as [|? ? H5 FO5]; subst. inversion FO5 as [|? ? H6 FO6]; subst. inversion FO6 as [|? ? H7 _]; subst. cbn [field_ok] in *.
    change (enc [FString (bs "direct-tcpip"); FU32 peer; FU32 window; FU32 max; FString host; FU32 port; FString orig; FU32 oport]) with
      (enc ([FString (bs "direct-tcpip"); FU32 peer; FU32 window; FU32 max] ++ [FString host; FU32 port; FString orig; FU32 oport])).
    assert (P : ParseChannelOpen (enc ([FString (bs "direct-tcpip"); FU32 peer; FU32 window; FU32 max] ++ [FString host; FU32 port; FString orig; FU32 oport])) =
      Some {| co_channel_type := bs "direct-tcpip"; co_peer_channel := peer; co_initial_window_size := window; co_maximum_packet_size := max;
        co_data := enc [FString host; FU32 port; FString orig; FU32 oport] |}).
    { rewrite enc_app2. generalize (enc [FString host; FU32 port; FString orig; FU32 oport]) as data. intro data. unfold ParseChannelOpen, enc.
      cbn [map List.concat enc_field]. rewrite app_nil_r, <- !app_assoc.
      rewrite ReadString_enc by (vm_compute; reflexivity). cbn [obind]. rewrite ReadU32_be32 by assumption. cbn [obind].
      rewrite ReadU32_be32 by assumption. cbn [obind]. rewrite ReadU32_be32 by assumption. reflexivity. }
    rewrite P. cbn [co_channel_type co_data]. unfold CreateChannel.
    assert (N1 : bytes_eqb (bs "direct-tcpip") (bs "session") = false) by reflexivity.
    assert (N2 : bytes_eqb (bs "direct-tcpip") (bs "direct-tcpip") = true) by reflexivity. rewrite N1, N2, FA. cbn [negb].
    assert (D : parse_direct_tcpip (enc [FString host; FU32 port; FString orig; FU32 oport]) = Some (host, port)).
    { unfold parse_direct_tcpip, enc. cbn [map List.concat enc_field]. rewrite app_nil_r.
      rewrite ReadString_enc by apply H4. cbn [obind]. rewrite ReadU32_be32 by assumption. cbn [obind].
      rewrite ReadString_enc by apply H6. cbn [obind]. rewrite ReadU32_be32_end by assumption. reflexivity. }
    rewrite D. reflexivity. }
  assert (C : exists c, netcall_of (sv_account s) (VConnectTcp host port) = Some c /\ tcp_call c /\ serves op c).
  { assert (AS : asks_connect op host port) by (exists env, peer, window, max, orig, oport; reflexivity).
    cbn [netcall_of]. unfold ResolveConnectTCP. destruct (GetNetworkChildOptions (sv_account s)) as [eo|] eqn:G.
    - rewrite helper_host_short by assumption. eexists. split; [reflexivity|]. split; [exact Logic.I|exact AS].
    - pose proof (no_options cfg sid paddr ops F AU (forwarding_exec _ FA) G) as NO. fold s in NO. rewrite NO. eexists. split; [reflexivity|]. split; [exact Logic.I|exact AS]. }
  destruct C as (c & N & TC & SV). exists c. split; [|auto]. rewrite nrun_snoc. unfold nstep.
  pose proof (nrun_server cfg sid paddr ops) as NS. destruct (nrun cfg sid paddr ops) as [s' calls]. cbn [fst snd] in *. subst s'. fold s.
  rewrite E. cbn [sv_log emit mk_server]. rewrite skipn_own. cbn [netcalls_of]. now rewrite N.
Qed.
Print Assumptions C70_connect_made.

Theorem C70_local_made :
  forall cfg session_id peer_address ops env peer window max path reserved, Forall op_ok ops ->
  let op := OPacket 90 (enc [FString (bs "direct-streamlocal@openssh.com"); FU32 peer; FU32 window; FU32 max;
    FString path; FRaw reserved]) env in
  let s := vrun cfg session_id peer_address ops in
  Forall field_ok [FU32 peer; FU32 window; FU32 max; FString path] ->
  ~ In 0 path -> 0 < len path < 4096 ->
  sv_alive s = true -> sv_channels s = true -> sv_user_auth s = false -> IsLocalForwardingAllowed (sv_account s) = true ->
  exists i, snd (nrun cfg session_id peer_address (ops ++ [op])) = snd (nrun cfg session_id peer_address ops) ++ [NHelperLocal i path].
Proof.
  intros cfg sid paddr ops env peer window max path res F op s FO NZ L AL CH UA FA.
  assert (AU : ac_authenticated (sv_account s) = true) by exact (channels_auth cfg sid paddr ops F AL CH).
  assert (E : vstep cfg sid op s = emit [VConnectLocal path] s).
  { unfold vstep. rewrite AL. cbn [negb op]. unfold Packet. rewrite UA. cbv zeta. rewrite CH, AU. cbn [andb].
    change (90 =? MSG_GLOBAL_REQUEST) with false. change (90 =? MSG_CHANNEL_OPEN) with true. cbv iota.
    inversion FO as [|? ? H1 FO1]; subst. inversion FO1 as [|? ? H2 FO2]; subst. inversion FO2 as [|? ? H3 FO3]; subst. inversion FO3 as [|? ? H4 _]; subst.
    cbn [field_ok] in *.
    change (enc [FString (bs "direct-streamlocal@openssh.com"); FU32 peer; FU32 window; FU32 max; FString path; FRaw res]) with
      (enc ([FString (bs "direct-streamlocal@openssh.com"); FU32 peer; FU32 window; FU32 max] ++ [FString path; FRaw res])).
    assert (P : ParseChannelOpen (enc ([FString (bs "direct-streamlocal@openssh.com"); FU32 peer; FU32 window; FU32 max] ++ [FString path; FRaw res])) =
      Some {| co_channel_type := bs "direct-streamlocal@openssh.com"; co_peer_channel := peer; co_initial_window_size := window; co_maximum_packet_size := max;
        co_data := enc [FString path; FRaw res] |}).
    { rewrite enc_app2. generalize (enc [FString path; FRaw res]) as data. intro data. unfold ParseChannelOpen, enc.
      cbn [map List.concat enc_field]. rewrite app_nil_r, <- !app_assoc.
      rewrite ReadString_enc by (vm_compute; reflexivity). cbn [obind]. rewrite ReadU32_be32 by assumption. cbn [obind].
      rewrite ReadU32_be32 by assumption. cbn [obind]. rewrite ReadU32_be32 by assumption. reflexivity. }
    rewrite P. cbn [co_channel_type co_data]. unfold CreateChannel.
    assert (N1 : bytes_eqb (bs "direct-streamlocal@openssh.com") (bs "session") = false) by reflexivity.
    assert (N2 : bytes_eqb (bs "direct-streamlocal@openssh.com") (bs "direct-tcpip") = false) by reflexivity.
    rewrite N1, N2, bytes_eqb_refl, FA. cbn [negb].
    assert (D : ReadString (enc [FString path; FRaw res]) = Some (path, res)).
    { unfold enc. cbn [map List.concat enc_field]. rewrite app_nil_r. apply ReadString_enc. apply H4. }
    rewrite D. reflexivity. }
  pose proof (identity_known cfg sid paddr ops F AU FA) as ID. fold s in ID. destruct (ShellIdentity (sv_account s)) as [i|] eqn:SI; [|congruence].
  exists i. rewrite nrun_snoc. unfold nstep.
  pose proof (nrun_server cfg sid paddr ops) as NS. destruct (nrun cfg sid paddr ops) as [s' calls]. cbn [fst snd] in *. subst s'. fold s.
  rewrite E. cbn [sv_log emit mk_server]. rewrite skipn_own. cbn [netcalls_of netcall_of]. unfold DelegateLocalConnect. rewrite SI.
  now rewrite ReceivePath_short.
Qed.
Print Assumptions C70_local_made.

Theorem C70_bind_made :
  forall cfg session_id peer_address ops env want address port, Forall op_ok ops ->
  let op := OPacket 80 (enc [FString (bs "tcpip-forward"); FByte want; FString address; FU32 port]) env in
  let s := vrun cfg session_id peer_address ops in
  Forall field_ok [FString address; FU32 port] ->
  ~ In 0 address -> len address < 1024 ->
  sv_alive s = true -> sv_channels s = true -> sv_user_auth s = false -> IsForwardingAllowed (sv_account s) = true ->
  exists c, snd (nrun cfg session_id peer_address (ops ++ [op])) = snd (nrun cfg session_id peer_address ops) ++ [c] /\
    tcp_call c /\ serves op c.
Proof.
  intros cfg sid paddr ops env want address port F op s FO NZ L AL CH UA FA.
  assert (AU : ac_authenticated (sv_account s) = true) by exact (channels_auth cfg sid paddr ops F AL CH).
  assert (E : sv_log (vstep cfg sid op s) = sv_log s ++ [VGlobal (bs "tcpip-forward") (enc [FString address; FU32 port]); VBind address port]).
  { unfold vstep. rewrite AL. cbn [negb op]. unfold Packet. rewrite UA. cbv zeta. rewrite CH, AU. cbn [andb].
    change (80 =? MSG_GLOBAL_REQUEST) with true. cbv iota.
    inversion FO as [|? ? H1 FO1]; subst. inversion FO1 as [|? ? H2 _]; subst. cbn [field_ok] in *.
    change (enc [FString (bs "tcpip-forward"); FByte want; FString address; FU32 port]) with
      (enc ([FString (bs "tcpip-forward"); FByte want] ++ [FString address; FU32 port])).
    assert (P : ParseGlobalRequest (enc ([FString (bs "tcpip-forward"); FByte want] ++ [FString address; FU32 port])) =
      Some {| gr_request_name := bs "tcpip-forward"; gr_want_reply := negb (want =? 0); gr_data := enc [FString address; FU32 port] |}).
    { rewrite enc_app2. generalize (enc [FString address; FU32 port]) as data. intro data. unfold ParseGlobalRequest, enc.
      cbn [map List.concat enc_field]. rewrite app_nil_r, <- !app_assoc.
      rewrite ReadString_enc by (vm_compute; reflexivity). reflexivity. }
    rewrite P. cbn [gr_request_name gr_data]. unfold HandleGlobalRequest. cbv zeta. rewrite bytes_eqb_refl, FA. cbn [negb].
    assert (D : parse_bind (enc [FString address; FU32 port]) = Some (address, port)).
    { unfold parse_bind, enc. cbn [map List.concat enc_field]. rewrite app_nil_r.
      rewrite ReadString_enc by apply H1. cbn [obind]. rewrite ReadU32_be32_end by assumption. reflexivity. }
    rewrite D. cbn [sv_log emit mk_server with_listeners]. rewrite <- app_assoc. reflexivity. }
  assert (C : exists c, netcall_of (sv_account s) (VBind address port) = Some c /\ tcp_call c /\ serves op c).
  { assert (AS : asks_bind op address port) by (exists env, want; reflexivity).
    cbn [netcall_of]. unfold ResolveBindTCP. destruct (GetNetworkChildOptions (sv_account s)) as [eo|] eqn:G.
    - rewrite helper_host_short by assumption. eexists. split; [reflexivity|]. split; [exact Logic.I|exists address; auto using ResolveBind_means].
    - pose proof (no_options cfg sid paddr ops F AU (forwarding_exec _ FA) G) as NO. fold s in NO. rewrite NO. eexists. split; [reflexivity|]. split; [exact Logic.I|exists address; auto using ResolveBind_means]. }
  destruct C as (c & N & TC & SV). exists c. split; [|auto]. rewrite nrun_snoc. unfold nstep.
  pose proof (nrun_server cfg sid paddr ops) as NS. destruct (nrun cfg sid paddr ops) as [s' calls]. cbn [fst snd] in *. subst s'. fold s.
  rewrite E, skipn_own. cbn [netcalls_of]. now rewrite N.
Qed.
Print Assumptions C70_bind_made.

(** alice forwards through her account, dave (passwd) through the server. *)
Definition network_demo : list vop :=
  [demo_open (bs "direct-tcpip") (enc [FString (bs "host"); FU32 80; FString (bs "me"); FU32 1]) 0;
   demo_global (bs "tcpip-forward") (enc [FString (bs "localhost"); FU32 8080]);
   demo_global (bs "tcpip-forward") (enc [FString []; FU32 8081]);
   demo_open (bs "direct-streamlocal@openssh.com") (enc [FString (bs "/run/x"); FString []; FU32 0]) 0].
Example C70_demo :
  snd (nrun (demo_config true) demo_session_id (bs "192.0.2.1")
    (demo_start ++ demo_attempt (demo_key_request (bs "alice") (bs "PLAIN")) ++ network_demo)) =
    [NHelperConnect (AsOptions demo_eo) (bs "host") 80; NHelperBind (AsOptions demo_eo) BLoopback 8080;
     NHelperBind (AsOptions demo_eo) BAll 8081; NHelperLocal (AsOptions demo_eo) (bs "/run/x")] /\
  snd (nrun (demo_config false) demo_session_id (bs "192.0.2.1")
    (demo_start ++ demo_attempt (demo_key_request (bs "dave") (bs "PLAIN")) ++ network_demo)) =
    [NOwnConnect (bs "host") 80; NOwnBind BLoopback 8080; NOwnBind BAll 8081; NHelperLocal (AsPasswd demo_passwd) (bs "/run/x")] /\
  snd (nrun (demo_config true) demo_session_id (bs "192.0.2.1")
    (demo_start ++ demo_attempt (demo_key_request (bs "alice") (bs "KEY")) ++ network_demo)) =
    [NHelperLocal (AsOptions demo_eo) (bs "/run/x")] /\
  (let s := demo_run true (demo_attempt (demo_key_request (bs "alice") (bs "PLAIN"))) in
   sv_alive s = true /\ sv_channels s = true /\ sv_user_auth s = false /\ IsForwardingAllowed (sv_account s) = true).
Proof. vm_compute. repeat split. Qed.
