(** Facts about Model/Server.v: the server connection over its whole life. *)

From Coq Require Import NArith List Bool Lia String.
From Verif.Base Require Import Bytes.
From Verif.Spec Require Import WireSpec KeySpec AuthSpec.
From Verif.Model Require Import Wire Frame Packets StringList KeyOptions Auth Session Server.
From Verif.Proofs Require Import WireFacts KeyFacts AuthFacts.
Import ListNotations.
Open Scope N_scope.

Local Arguments bs : simpl never.

Lemma vrun_snoc : forall cfg sid peer ops op,
  vrun cfg sid peer (ops ++ [op]) = vstep cfg sid op (vrun cfg sid peer ops).
Proof. intros. unfold vrun. now rewrite fold_left_app. Qed.

(** ** What one event can do, other than running an authentication request *)

(** What an event of the log needs. *)
Definition needs (cfg : config) (s : server) (e : vevent) : Prop :=
  let a := sv_account s in
  match e with
  | VSend _ | VDead => True
  | VAuthenticated _ | VConnectProxy _ => False
  | VSession n => sv_channels s = true /\ ac_authenticated a = true /\ sv_no_more_sessions s = false /\
      find_session n (sv_sessions s) = None
  | VSess n e => exists x op x' l, find_session n (sv_sessions s) = Some x /\ sstep cfg a op x = (x', l) /\ In e l
  | VConnectTcp _ _ => sv_channels s = true /\ ac_authenticated a = true /\ IsForwardingAllowed a = true
  | VConnectLocal _ => sv_channels s = true /\ ac_authenticated a = true /\ IsLocalForwardingAllowed a = true
  | VBind _ _ => sv_channels s = true /\ ac_authenticated a = true /\ IsForwardingAllowed a = true
  | VForwarded address port => In (address, port) (sv_listeners s)
  | VOpenFailure | VGlobal _ _ => sv_channels s = true /\ ac_authenticated a = true
  | VGlobalAnswer _ => (sv_channels s = true /\ ac_authenticated a = true) \/ sv_binds s <> []
  | VHostbased user => sv_outgoing s = true /\ sv_proxy s = false /\ user = ac_username a
  | VOptions o => sv_outgoing s = true /\ sv_proxy s = false /\ o = ac_options a
  | VForward _ => sv_proxy s = true
  end.

(** How the state changes, other than by running an authentication request. *)
Record quiet (cfg : config) (new : bytes -> Prop) (s s' : server) : Prop := {
  q_log : exists l, sv_log s' = sv_log s ++ l /\ Forall (needs cfg s) l;
  q_account : sv_account s' = sv_account s \/
    (sv_channels s = true /\ ac_authenticated (sv_account s) = true /\ ac_hostbased (sv_account s) = true /\
     exists o, sv_account s' = set_options (fst (Restrict (ac_options (sv_account s)) o)) (sv_account s));
  q_alive : sv_alive s' = true -> sv_alive s = true;
  q_channels : sv_channels s' = true -> sv_channels s = true;
  q_outgoing : sv_outgoing s' = true -> sv_outgoing s = true \/ exists x, sv_busy s = Connecting x;
  q_proxy : sv_proxy s' = true -> sv_proxy s = true \/ sv_outgoing s = true;
  q_nms : sv_no_more_sessions s = true -> sv_no_more_sessions s' = true;
  q_busy : sv_busy s' = sv_busy s \/ sv_busy s' = Idle \/
    (sv_busy s = Idle /\ ac_authenticated (sv_account s) = false /\ sv_service s = true /\ sv_user_auth s = true /\
     exists p, sv_busy s' = Checking p /\ new p);
  q_binds : sv_binds s' <> [] -> sv_binds s <> [] \/ (sv_channels s = true /\ ac_authenticated (sv_account s) = true /\ IsForwardingAllowed (sv_account s) = true);
  q_listeners : forall x, In x (sv_listeners s') -> In x (sv_listeners s) \/ sv_binds s <> [];
  q_sessions : sv_sessions s' <> [] -> sv_sessions s <> [] \/ (sv_channels s = true /\ ac_authenticated (sv_account s) = true);
  q_session : forall n x', In (n, x') (sv_sessions s') -> In (n, x') (sv_sessions s) \/ x' = new_session \/
    exists x op l, find_session n (sv_sessions s) = Some x /\ sstep cfg (sv_account s) op x = (x', l)
}.

Lemma quiet_refl : forall cfg new s, quiet cfg new s s.
Proof.
  intros cfg new s. constructor; auto.
  exists []. rewrite app_nil_r. auto.
Qed.

Lemma quiet_die : forall cfg new s, quiet cfg new s (die s).
Proof.
  intros cfg new s. constructor; cbn; auto; try discriminate; try contradiction; try (now intros H; destruct H).
  exists [VDead]. repeat constructor.
Qed.

(** the log grows by events which are allowed, then the connection dies *)
Lemma quiet_emit_die : forall cfg new s l, Forall (needs cfg s) l -> quiet cfg new s (die (emit l s)).
Proof.
  intros cfg new s l F. constructor; cbn; auto; try discriminate; try contradiction; try (now intros H; destruct H).
  exists (l ++ [VDead]). rewrite app_assoc. split; [reflexivity|]. apply Forall_app. split; [exact F|]. repeat constructor.
Qed.

Lemma quiet_emit : forall cfg new s l, Forall (needs cfg s) l -> quiet cfg new s (emit l s).
Proof.
  intros cfg new s l F. constructor; cbn; auto. exists l. auto.
Qed.

Lemma same_address_eq : forall x y, same_address x y = true -> x = y.
Proof.
  intros [a p] [b q] H. unfold same_address in H. cbn in H. apply andb_true_iff in H as [H1 H2].
  apply bytes_eqb_eq in H1. apply N.eqb_eq in H2. congruence.
Qed.

Lemma CreateChannel_quiet : forall cfg new t p env s, sv_channels s = true -> ac_authenticated (sv_account s) = true ->
  quiet cfg new s (CreateChannel t p env s).
Proof.
  intros cfg new t p env s C A. unfold CreateChannel.
  assert (E1 : forall e, needs cfg s e -> quiet cfg new s (emit [e] s)) by (intros e N; apply quiet_emit; constructor; [exact N|constructor]).
  destruct (bytes_eqb t (bs "session")).
  - destruct (sv_no_more_sessions s) eqn:NM; [apply quiet_die|].
    destruct (find_session (pe_channel env) (sv_sessions s)) eqn:F; [apply quiet_die|].
    constructor; cbn; auto.
    + exists [VSession (pe_channel env)]. split; [reflexivity|]. constructor; [cbn; auto|constructor].
    + intros n x' I. apply in_app_or in I as [I|[I|[]]]; [auto|right; left; congruence].
  - destruct (bytes_eqb t (bs "direct-tcpip")).
    + destruct (IsForwardingAllowed (sv_account s)) eqn:FA; cbn [negb]; [|apply E1; cbn; auto].
      destruct (parse_direct_tcpip p) as [[h q]|]; [apply E1; cbn; auto|apply quiet_die].
    + destruct (bytes_eqb t (bs "direct-streamlocal@openssh.com")); [|apply E1; cbn; auto].
      destruct (IsLocalForwardingAllowed (sv_account s)) eqn:FA; cbn [negb]; [|apply E1; cbn; auto].
      destruct (ReadString p) as [[h q]|]; [apply E1; cbn; auto|apply quiet_die].
Qed.

Lemma HandleGlobalRequest_quiet : forall cfg new n d s, sv_channels s = true -> ac_authenticated (sv_account s) = true ->
  quiet cfg new s (HandleGlobalRequest n d s).
Proof.
  intros cfg new n d s C A. unfold HandleGlobalRequest.
  assert (G : needs cfg s (VGlobal n d)) by (cbn; auto).
  assert (GA : forall b, needs cfg s (VGlobalAnswer b)) by (cbn; auto).
  assert (DIE : quiet cfg new s (die (emit [VGlobal n d] s))) by (apply quiet_emit_die; constructor; [exact G|constructor]).
  assert (LOG : forall e, needs cfg s e -> exists l, ((sv_log s ++ [VGlobal n d]) ++ [e]) = sv_log s ++ l /\ Forall (needs cfg s) l).
  { intros e N. exists [VGlobal n d; e]. rewrite <- app_assoc. split; [reflexivity|]. constructor; [exact G|constructor; [exact N|constructor]]. }
  assert (ANS : forall b, quiet cfg new s (emit [VGlobalAnswer b] (emit [VGlobal n d] s))).
  { intro b. constructor; cbn; auto. }
  destruct (bytes_eqb n (bs "tcpip-forward")).
  { destruct (IsForwardingAllowed (sv_account s)) eqn:FA; cbn [negb]; [|apply ANS].
    destruct (parse_bind d) as [[x y]|]; [|apply DIE].
    constructor; cbn; auto. apply LOG. cbn. auto. }
  destruct (bytes_eqb n (bs "cancel-tcpip-forward")).
  { destruct (parse_bind d) as [x|]; [|apply DIE].
    constructor; cbn; auto. intros y H. apply filter_In in H as [H _]. auto. }
  destruct (bytes_eqb n (bs "no-more-sessions@openssh.com")).
  { constructor; cbn; auto. }
  destruct (bytes_eqb n AUTHORIZED_KEY_OPTIONS_REQUEST); [|apply ANS].
  destruct (ac_hostbased (sv_account s)) eqn:HB; cbn [negb]; [|apply ANS].
  destruct (DeserializeAuthorizedKeyOptions d) as [o|]; [|apply DIE].
  destruct (Restrict (ac_options (sv_account s)) o) as [o' ok] eqn:R.
  constructor; cbn; auto. right. repeat (split; [assumption|]). exists o. rewrite R. reflexivity.
Qed.

Lemma set_session_nil : forall n x l, set_session n x l <> [] -> l <> [].
Proof. intros n x [|[k y] r] H; [now apply H|discriminate]. Qed.

Lemma set_session_In : forall n x' l k y, In (k, y) (set_session n x' l) -> In (k, y) l \/ (k = n /\ y = x').
Proof.
  induction l as [|[k0 y0] r IH]; intros k y I; [destruct I|]. cbn [set_session] in I. destruct (k0 =? n) eqn:E.
  - apply N.eqb_eq in E. destruct I as [I|I]; [right; split; congruence|left; now right].
  - destruct I as [I|I]; [left; now left|]. destruct (IH _ _ I) as [J|J]; [left; now right|auto].
Qed.

Lemma session_step_quiet : forall cfg new n op s, quiet cfg new s (session_step cfg n op s).
Proof.
  intros cfg new n op s. unfold session_step. destruct (find_session n (sv_sessions s)) as [x|] eqn:F; [|apply quiet_refl].
  destruct (sstep cfg (sv_account s) op x) as [x' l] eqn:S.
  assert (L : Forall (needs cfg s) (map (VSess n) l)).
  { apply Forall_forall. intros e H. apply in_map_iff in H as (e' & <- & I). cbn. eauto 10. }
  destruct (existsb _ l).
  - constructor; cbn; auto; try discriminate; try contradiction; try (now intros H; destruct H).
    exists (map (VSess n) l ++ [VDead]). rewrite app_assoc. split; [reflexivity|].
    apply Forall_app. split; [exact L|]. repeat constructor.
  - constructor; cbn; eauto using set_session_nil.
    intros k y I. apply set_session_In in I as [I|[-> ->]]; [auto|]. right. right. eauto.
Qed.

Lemma Packet_quiet : forall cfg msg payload env s, quiet cfg (fun p => msg = MSG_USERAUTH_REQUEST /\ p = payload) s (Packet cfg msg payload env s).
Proof.
  intros cfg msg payload env s. set (new := fun p => msg = MSG_USERAUTH_REQUEST /\ p = payload).
  assert (SEND : forall p, quiet cfg new s (emit [VSend p] s)) by (intro p; apply quiet_emit; repeat constructor).
  assert (BASE : quiet cfg new s (if msg =? MSG_DISCONNECT then die s
    else if existsb (N.eqb msg) [MSG_IGNORE; MSG_UNIMPLEMENTED; MSG_KEXINIT; MSG_NEWKEYS; MSG_ECDH_KEX_INIT; MSG_ECDH_KEX_INIT_REPLY]
    then s else emit [VSend [MSG_UNIMPLEMENTED]] s)).
  { destruct (msg =? MSG_DISCONNECT); [apply quiet_die|]. destruct (existsb _ _); [apply quiet_refl|apply SEND]. }
  unfold Packet.
  assert (PROXY : forall b, quiet cfg new s b -> quiet cfg new s (if sv_proxy s && ShouldProxy msg then emit [VForward (msg :: payload)] s else b)).
  { intros b B. destruct (sv_proxy s) eqn:P; cbn [andb]; [|exact B]. destruct (ShouldProxy msg); [|exact B].
    apply quiet_emit. constructor; [exact P|constructor]. }
  match goal with |- quiet cfg new s (if sv_user_auth s then _ else ?c) => set (CH := c) end.
  assert (CHANNELS : quiet cfg new s CH).
  { subst CH. destruct (sv_channels s) eqn:C; cbn [andb]; [|apply PROXY, BASE].
    destruct (ac_authenticated (sv_account s)) eqn:A; [|apply PROXY, BASE].
    destruct (msg =? MSG_GLOBAL_REQUEST).
    { destruct (ParseGlobalRequest payload); [now apply HandleGlobalRequest_quiet|apply quiet_die]. }
    destruct (msg =? MSG_CHANNEL_OPEN).
    { destruct (ParseChannelOpen payload); [now apply CreateChannel_quiet|apply quiet_die]. }
    destruct (msg =? MSG_CHANNEL_REQUEST).
    { destruct (ParseChannelRequest payload); [apply session_step_quiet|apply quiet_die]. }
    destruct (ShouldProxy msg); [apply quiet_refl|apply PROXY, BASE]. }
  destruct (sv_user_auth s) eqn:UA; [|exact CHANNELS].
  unfold UserAuthPacket.
  destruct (busy_now s && negb (IsAllowedWhileOccupied msg)) eqn:BN; [apply quiet_die|].
  destruct (msg =? MSG_SERVICE_REQUEST).
  { destruct (ParseServiceRequest payload) as [name|]; [|apply quiet_die].
    destruct (bytes_eqb name (bs "ssh-userauth")); [|apply quiet_die].
    constructor; cbn; auto. exists [VSend (service_accept name)]. split; [reflexivity|]. repeat constructor. }
  destruct (msg =? MSG_USERAUTH_REQUEST) eqn:UR.
  { destruct (ac_authenticated (sv_account s)) eqn:A; [apply quiet_refl|].
    destruct (sv_service s) eqn:SV; cbn [negb]; [|apply quiet_die].
    constructor; cbn; auto.
    - exists []. rewrite app_nil_r. auto.
    - right. right. apply N.eqb_eq in UR. subst msg.
      unfold busy_now in BN. destruct (sv_busy s); [|discriminate|discriminate]. repeat (split; [auto|]).
      exists payload. split; [reflexivity|split; reflexivity]. }
  exact CHANNELS.
Qed.

Lemma vstep_quiet : forall cfg sid op s, (forall w, op <> OAuth w) ->
  quiet cfg (fun p => exists env, op = OPacket MSG_USERAUTH_REQUEST p env) s (vstep cfg sid op s).
Proof.
  intros cfg sid op s NA. set (new := fun p => exists env, op = OPacket MSG_USERAUTH_REQUEST p env). unfold vstep.
  destruct (sv_alive s) eqn:AL; cbn [negb]; [|apply quiet_refl].
  destruct op; try apply quiet_refl.
  - destruct (sv_user_auth s || _); [apply quiet_refl|]. constructor; cbn; auto. exists []. rewrite app_nil_r. auto.
  - pose proof (Packet_quiet cfg msg payload env s) as [Q1 Q2 Q3 Q4 Q5 Q6 Q7 Q8 Q9 Q10 Q11 Q12]. constructor; auto.
    destruct Q8 as [Q8|[Q8|(A & B & C & D & p & E & -> & ->)]]; auto. right. right. repeat (split; [assumption|]).
    exists payload. split; [exact E|]. exists env. reflexivity.
  - exfalso. now apply (NA w).
  - destruct (sv_busy s) eqn:B; try apply quiet_refl. destruct ok; [|apply quiet_die].
    constructor; cbn; eauto. exists []. rewrite app_nil_r. auto.
  - destruct (sv_outgoing s) eqn:O; cbn [andb]; [|apply quiet_refl]. destruct (sv_proxy s) eqn:P; cbn [negb]; [apply quiet_refl|].
    apply quiet_emit. constructor; [cbn; auto|constructor].
  - destruct (sv_outgoing s) eqn:O; cbn [andb]; [|apply quiet_refl]. destruct (sv_proxy s) eqn:P; cbn [negb]; [apply quiet_refl|].
    constructor; cbn; auto. exists [VOptions (ac_options (sv_account s)); VSend userauth_success]. rewrite <- app_assoc.
    split; [reflexivity|]. constructor; [cbn; auto|]. repeat constructor.
  - destruct (sv_proxy s && ShouldProxy msg); [apply quiet_emit; repeat constructor|apply quiet_refl].
  - destruct (sv_outgoing s); [apply quiet_die|apply quiet_refl].
  - destruct (sv_timeout s); [apply quiet_die|apply quiet_refl].
  - apply quiet_die.
  - destruct (existsb (same_address x) (sv_binds s)) eqn:EX; [|apply quiet_refl].
    assert (NB : sv_binds s <> []) by (intro Z; rewrite Z in EX; discriminate).
    assert (GA : forall b, needs cfg s (VGlobalAnswer b)) by (cbn; auto).
    destruct ok; (constructor; cbn; auto; eexists; (split; [reflexivity|]); constructor; [apply GA|constructor]).
  - destruct (existsb (same_address x) (sv_listeners s)) eqn:EX; [|apply quiet_refl].
    apply quiet_emit. constructor; [|constructor]. cbn. apply existsb_exists in EX as (y & I & E).
    apply same_address_eq in E. subst y. now destruct x.
  - destruct op; try apply quiet_refl; apply session_step_quiet.
  - constructor; cbn; auto.
    + exists []. rewrite app_nil_r. auto.
    + intro H. left. intros Z. rewrite Z in H. now apply H.
    + intros k y I. apply filter_In in I as [I _]. auto.
Qed.

(** ** Invariant *)

(** Events which are possible before authentication. *)
Definition plain (e : vevent) : Prop := match e with VSend _ | VDead => True | _ => False end.
Definition not_auth (e : vevent) : Prop := match e with VAuthenticated _ => False | _ => True end.

Definition log_ok (log : list vevent) : Prop :=
  Forall plain log \/
  exists l1 user l2, log = l1 ++ VAuthenticated user :: l2 /\ Forall plain l1 /\ Forall not_auth l2.

Definition nothing_open (s : server) : Prop :=
  sv_channels s = false /\ sv_outgoing s = false /\ sv_proxy s = false /\
  sv_binds s = [] /\ sv_listeners s = [] /\ sv_sessions s = [].

(** What is known about the account of a client who has logged in. *)
Definition known (cfg : config) (a : account) : Prop :=
  exists src, source_of src (ac_username a) a /\
  match src with
  | FromTranslation r => cf_translation_server cfg = true /\ tr_status_ok r = true /\
      (exists password, In (ATranslate (ac_username a) password (Some r)) (ac_log a)) /\
      (tr_execute_options r = None -> ac_allow_exec a = false) /\
      (tr_token r = Some (bs "sftp-only") -> ac_allow_exec a = false) /\
      (tr_execute_options r = None -> ac_allow_sftp a = true -> GetService r SFTP <> None)
  | FromPasswd p => cf_translation_server cfg = false /\ In (AGetpwnam (ac_username a) (Some p)) (ac_log a)
  end.

Record live (cfg : config) (s : server) : Prop := {
  lv_busy : match sv_busy s with
    | Idle => True
    | Checking payload => bytes_ok payload /\ ac_authenticated (sv_account s) = false
    | Connecting _ => ac_authenticated (sv_account s) = true
    end;
  lv_before : ac_authenticated (sv_account s) = false ->
    before_login cfg (sv_account s) /\ ac_hostbased (sv_account s) = false /\ nothing_open s /\ Forall plain (sv_log s);
  lv_after : ac_authenticated (sv_account s) = true ->
    valid_name (ac_username (sv_account s)) /\ known cfg (sv_account s) /\
    exists l1 l2, sv_log s = l1 ++ VAuthenticated (ac_username (sv_account s)) :: l2 /\ Forall plain l1 /\ Forall not_auth l2
}.

Definition good (cfg : config) (s : server) : Prop :=
  log_ok (sv_log s) /\ (sv_alive s = true -> live cfg s).

Lemma known_options : forall cfg o a, known cfg a -> known cfg (set_options o a).
Proof.
  intros cfg o a (src & S & H). exists src. split; [destruct src; exact S|exact H].
Qed.

Lemma needs_not_auth : forall cfg s l, Forall (needs cfg s) l -> Forall not_auth l.
Proof.
  intros cfg s l F. eapply Forall_impl; [|exact F]. intros e H. destruct e; cbn in *; auto.
Qed.

Lemma needs_plain : forall cfg s l, nothing_open s -> Forall (needs cfg s) l -> Forall plain l.
Proof.
  intros cfg s l (C & O & P & B & L & S) F. eapply Forall_impl; [|exact F]. intros e H.
  destruct e; cbn in *; auto; try congruence;
    try (destruct H as (H & _); congruence).
  - destruct H as (x & op & x' & l' & H & _). rewrite S in H. discriminate.
  - rewrite L in H. destruct H.
  - destruct H as [(H & _)|H]; congruence.
Qed.

Lemma log_ok_app : forall log l, log_ok log -> Forall not_auth l -> (Forall plain log -> Forall plain l) -> log_ok (log ++ l).
Proof.
  intros log l [P|(l1 & u & l2 & -> & P1 & P2)] N PL.
  - left. apply Forall_app. auto.
  - right. exists l1, u, (l2 ++ l). split; [rewrite <- app_assoc; reflexivity|]. split; [exact P1|]. apply Forall_app. auto.
Qed.

Lemma plain_no_auth : forall u l, Forall plain l -> ~ In (VAuthenticated u) l.
Proof. intros u l F I. rewrite Forall_forall in F. exact (F _ I). Qed.

Lemma good_new : forall cfg peer, good cfg (new_server peer).
Proof.
  intros cfg peer. split; [left; constructor|]. intros _. constructor; cbn; auto; [|discriminate].
  intros _. split; [|split; [reflexivity|split; [|constructor]]].
  - split; [auto|]. split; [auto|]. intros u r H. discriminate.
  - unfold nothing_open. cbn. auto 10.
Qed.

Lemma list_nil_dec : forall {A} (l : list A), l = [] \/ l <> [].
Proof. intros A [|x l]; [now left|right; discriminate]. Qed.

Lemma good_quiet : forall cfg (new : bytes -> Prop) s s', (forall p, new p -> bytes_ok p) ->
  sv_alive s = true -> good cfg s -> quiet cfg new s s' -> good cfg s'.
Proof.
  intros cfg new s s' NB AL [LO LV] Q. specialize (LV AL). destruct LV as [LB LBE LAF].
  destruct (q_log _ _ _ _ Q) as (l & L & F).
  pose proof (needs_not_auth _ _ _ F) as NA.
  assert (AUTH : ac_authenticated (sv_account s') = ac_authenticated (sv_account s)).
  { destruct (q_account _ _ _ _ Q) as [->|(_ & _ & _ & o & ->)]; reflexivity. }
  assert (NAME : ac_username (sv_account s') = ac_username (sv_account s)).
  { destruct (q_account _ _ _ _ Q) as [->|(_ & _ & _ & o & ->)]; reflexivity. }
  split.
  - rewrite L. apply log_ok_app; auto. intro P.
    destruct (ac_authenticated (sv_account s)) eqn:A.
    + destruct (LAF eq_refl) as (_ & _ & l1 & l2 & E & _). exfalso. eapply plain_no_auth; [exact P|]. rewrite E. apply in_or_app. right. left. reflexivity.
    + destruct (LBE eq_refl) as (_ & _ & NO & _). eapply needs_plain; eauto.
  - intro AL'. constructor.
    + destruct (q_busy _ _ _ _ Q) as [->|[->|(B & A & _ & _ & p & -> & P)]]; [rewrite AUTH; exact LB|exact I|].
      rewrite AUTH. auto.
    + rewrite AUTH. intro A. destruct (LBE A) as (BL & HB & NO & PL).
      assert (ACC : sv_account s' = sv_account s).
      { destruct (q_account _ _ _ _ Q) as [X|(_ & X & _)]; [exact X|congruence]. }
      rewrite ACC. split; [exact BL|]. split; [exact HB|].
      pose proof NO as (C & O & P & B & LI & S).
      split; [|rewrite L; apply Forall_app; split; [exact PL|eapply needs_plain; eauto]].
      unfold nothing_open.
      split; [destruct (sv_channels s') eqn:X; [|reflexivity]; pose proof (q_channels _ _ _ _ Q X); congruence|].
      split.
      { destruct (sv_outgoing s') eqn:X; [|reflexivity]. destruct (q_outgoing _ _ _ _ Q X) as [Y|[x Y]]; [congruence|].
        rewrite Y in LB. congruence. }
      split; [destruct (sv_proxy s') eqn:X; [|reflexivity]; destruct (q_proxy _ _ _ _ Q X); congruence|].
      split; [destruct (list_nil_dec (sv_binds s')) as [X|X]; [exact X|]; destruct (q_binds _ _ _ _ Q X) as [Y|(Y & _)]; congruence|].
      split.
      { destruct (sv_listeners s') as [|x r] eqn:X; [reflexivity|]. exfalso.
        assert (I : In x (sv_listeners s')) by (rewrite X; now left).
        destruct (q_listeners _ _ _ _ Q x I) as [Y|Y]; [rewrite LI in Y; destruct Y|congruence]. }
      destruct (list_nil_dec (sv_sessions s')) as [X|X]; [exact X|]. destruct (q_sessions _ _ _ _ Q X) as [Y|(Y & _)]; congruence.
    + rewrite AUTH, NAME. intro A. destruct (LAF A) as (V & K & l1 & l2 & E & P1 & P2). split; [exact V|]. split.
      { destruct (q_account _ _ _ _ Q) as [->|(_ & _ & _ & o & ->)]; [exact K|now apply known_options]. }
      exists l1, (l2 ++ l). split; [rewrite L, E, <- app_assoc; reflexivity|]. split; [exact P1|]. apply Forall_app. auto.
Qed.

Lemma login_known : forall cfg w payload a user c src b, login cfg w payload a user c src b -> known cfg b.
Proof.
  intros cfg w payload a user c src b LG. exists src. rewrite (lg_name _ _ _ _ _ _ _ _ LG). split; [exact (lg_source _ _ _ _ _ _ _ _ LG)|].
  pose proof (lg_asked _ _ _ _ _ _ _ _ LG) as A. destruct src as [r|p].
  - destruct (lg_status _ _ _ _ _ _ _ _ LG r eq_refl) as [X Y]. split; [exact X|]. split; [exact Y|].
    destruct A as (pw & A & _). split; [eauto|].
    destruct (lg_exec_translation _ _ _ _ _ _ _ _ LG r eq_refl) as (X1 & X2 & _ & X3). auto.
  - split; [exact (lg_passwd _ _ _ _ _ _ _ _ LG p eq_refl)|exact A].
Qed.

(** the state after an authentication request *)
Lemma oauth_cases : forall cfg sid w s payload, good cfg s -> sv_alive s = true -> sv_busy s = Checking payload ->
  let s' := vstep cfg sid (OAuth w) s in
  exists a out, OnUserAuthRequest cfg w sid payload (sv_account s) = (a, out) /\
  sv_account s' = a /\
  match out with
  | Die => sv_alive s' = false /\ sv_log s' = sv_log s ++ [VDead]
  | Failure m => sv_alive s' = true /\ sv_busy s' = Idle /\ nothing_open s' /\ sv_log s' = sv_log s ++ [VSend (userauth_failure m)]
  | PkOk alg blob => sv_alive s' = true /\ sv_busy s' = Idle /\ nothing_open s' /\ sv_log s' = sv_log s ++ [VSend (userauth_pk_ok alg blob)]
  | Accepted p => sv_alive s' = true /\ sv_log s' = sv_log s ++ VAuthenticated (ac_username a) ::
      match p with None => [VSend userauth_success] | Some address => [VConnectProxy address] end /\
      sv_busy s' = match p with None => Idle | Some address => Connecting address end /\
      sv_outgoing s' = false /\ sv_proxy s' = false /\ sv_binds s' = [] /\ sv_listeners s' = [] /\ sv_sessions s' = [] /\
      sv_channels s' = match p with None => true | Some _ => false end
  end.
Proof.
  intros cfg sid w s payload [_ LV] AL B s'. specialize (LV AL). destruct LV as [LB LBE _]. rewrite B in LB. destruct LB as [_ A].
  destruct (LBE A) as (_ & _ & NO & _). subst s'. unfold vstep. rewrite AL, B. cbn [negb].
  destruct (OnUserAuthRequest cfg w sid payload (sv_account s)) as [a out] eqn:E. exists a, out. split; [reflexivity|].
  destruct NO as (C & O & P & Bi & LI & S).
  destruct out as [m|alg blob| |p].
  - cbn. unfold nothing_open. cbn. auto 10.
  - cbn. unfold nothing_open. cbn. auto 10.
  - cbn. auto.
  - destruct p as [address|]; cbn; auto 15.
Qed.

Lemma good_auth : forall cfg sid w s, sv_alive s = true -> good cfg s -> good cfg (vstep cfg sid (OAuth w) s).
Proof.
  intros cfg sid w s AL G. destruct (sv_busy s) as [|payload|addr] eqn:B.
  - unfold vstep. rewrite AL, B. exact G.
  - pose proof (oauth_cases cfg sid w s payload G AL B) as (a & out & E & ACC & H).
    destruct G as [LO LV]. specialize (LV AL). destruct LV as [LB LBE LAF]. rewrite B in LB. destruct LB as [OK A].
    destruct (LBE A) as (BL & HB & NO & PL).
    assert (FAIL : ~ accepted out -> out <> Die -> before_login cfg a /\ ac_authenticated a = false /\ ac_hostbased a = false).
    { intros N D. destruct (failed_request _ _ _ _ _ _ _ BL OK E N D) as (X1 & X2 & _ & X3 & _). split; [exact X1|]. split; congruence. }
    set (s' := vstep cfg sid (OAuth w) s) in *.
    assert (SIMPLE : forall e, plain e -> sv_log s' = sv_log s ++ [e] -> log_ok (sv_log s') /\ Forall plain (sv_log s')).
    { intros e P L. assert (Forall plain (sv_log s')) by (rewrite L; apply Forall_app; split; [exact PL|constructor; [exact P|constructor]]).
      split; [now left|assumption]. }
    destruct out as [m|alg blob| |p].
    + destruct H as (AL' & B' & NO' & L). destruct (SIMPLE (VSend (userauth_failure m)) I L) as [S1 S2].
      destruct FAIL as (F1 & F2 & F3); [auto|discriminate|]. split; [exact S1|]. intros _. constructor; rewrite ?ACC, ?B'; auto; try congruence.
    + destruct H as (AL' & B' & NO' & L). destruct (SIMPLE (VSend (userauth_pk_ok alg blob)) I L) as [S1 S2].
      destruct FAIL as (F1 & F2 & F3); [auto|discriminate|]. split; [exact S1|]. intros _. constructor; rewrite ?ACC, ?B'; auto; try congruence.
    + destruct H as (AL' & L). destruct (SIMPLE VDead I L) as [S1 S2]. split; [exact S1|]. congruence.
    + destruct H as (AL' & L & B' & _).
      destruct (accepted_proves _ _ _ _ _ _ _ BL OK E) as (user & c & src & V & PR & LG).
      pose proof (lg_auth _ _ _ _ _ _ _ _ LG) as AU. pose proof (lg_name _ _ _ _ _ _ _ _ LG) as NM.
      assert (NA : Forall not_auth match p with None => [VSend userauth_success] | Some address => [VConnectProxy address] end)
        by (destruct p; repeat constructor).
      split.
      * right. eexists. eexists. eexists. split; [exact L|]. split; [exact PL|exact NA].
      * intros _. constructor; rewrite ?ACC.
        -- rewrite B'. destruct p; auto.
        -- congruence.
        -- intros _. rewrite NM in *. split; [exact V|]. split; [eapply login_known; eauto|].
           eexists. eexists. split; [exact L|]. split; [exact PL|exact NA].
  - unfold vstep. rewrite AL, B. exact G.
Qed.

Lemma good_step : forall cfg sid op s, op_ok op -> good cfg s -> good cfg (vstep cfg sid op s).
Proof.
  intros cfg sid op s OK G. destruct (sv_alive s) eqn:AL.
  - destruct op; try (eapply good_quiet; [|exact AL|exact G|apply vstep_quiet; discriminate];
      intros p [env' E]; try discriminate; injection E as -> -> ->; exact OK).
    now apply good_auth.
  - unfold vstep. rewrite AL. exact G.
Qed.

Lemma vrun_good : forall cfg sid peer ops, Forall op_ok ops -> good cfg (vrun cfg sid peer ops).
Proof.
  intros cfg sid peer ops. induction ops as [|op t IH] using rev_ind; intro F; [apply good_new|].
  apply Forall_app in F as [F1 F2]. rewrite vrun_snoc. inversion F2. now apply good_step; [|apply IH].
Qed.

(** ** Consequences *)

Lemma vstep_dead : forall cfg sid op s, sv_alive s = false -> vstep cfg sid op s = s.
Proof. intros cfg sid op s H. unfold vstep. now rewrite H. Qed.

Lemma is_oauth : forall op, (exists w, op = OAuth w) \/ (forall w, op <> OAuth w).
Proof. intros op. destruct op; eauto; right; discriminate. Qed.

Lemma oauth_idle : forall cfg sid w s, (forall p, sv_busy s <> Checking p) -> vstep cfg sid (OAuth w) s = s.
Proof.
  intros cfg sid w s H. unfold vstep. destruct (negb (sv_alive s)); [reflexivity|].
  destruct (sv_busy s) as [|p|] eqn:B; [reflexivity|exfalso; now apply (H p)|reflexivity].
Qed.

Lemma checking_received : forall cfg sid peer ops payload, Forall op_ok ops ->
  sv_busy (vrun cfg sid peer ops) = Checking payload -> received ops payload.
Proof.
  intros cfg sid peer ops. induction ops as [|op t IH] using rev_ind; intros payload F B; [discriminate|].
  apply Forall_app in F as [F1 F2]. rewrite vrun_snoc in B.
  assert (UP : received t payload -> received (t ++ [op]) payload).
  { intros [env I]. exists env. apply in_or_app. now left. }
  set (s := vrun cfg sid peer t) in *.
  destruct (is_oauth op) as [[w ->]|NA].
  - destruct (sv_alive s) eqn:AL; [|rewrite vstep_dead in B by exact AL; auto].
    destruct (sv_busy s) as [|p|addr] eqn:SB;
      [rewrite oauth_idle in B by (intros; congruence); congruence| |rewrite oauth_idle in B by (intros; congruence); congruence].
    pose proof (oauth_cases cfg sid w s p (vrun_good cfg sid peer t F1) AL SB) as (a & out & E & ACC & H).
    destruct out as [m|alg blob| |pr].
    + destruct H as (_ & X & _). congruence.
    + destruct H as (_ & X & _). congruence.
    + unfold vstep in B. rewrite AL, SB, E in B. discriminate.
    + destruct H as (_ & _ & X & _). destruct pr; congruence.
  - destruct (q_busy _ _ _ _ (vstep_quiet cfg sid op s NA)) as [X|[X|(_ & _ & _ & _ & p & X & env & ->)]].
    + rewrite X in B. auto.
    + congruence.
    + assert (p = payload) by congruence. subst p. exists env. apply in_or_app. right. now left.
Qed.

(** The events of a step. *)
Lemma step_log : forall cfg sid op s, good cfg s ->
  exists l, sv_log (vstep cfg sid op s) = sv_log s ++ l /\
  (Forall (needs cfg s) l \/
   exists w payload, op = OAuth w /\ sv_alive s = true /\ sv_busy s = Checking payload).
Proof.
  intros cfg sid op s G. destruct (is_oauth op) as [[w ->]|NA].
  - destruct (sv_alive s) eqn:AL; [|rewrite vstep_dead by exact AL; exists []; rewrite app_nil_r; auto].
    destruct (sv_busy s) as [|p|addr] eqn:SB;
      [rewrite oauth_idle by (intros; congruence); exists []; rewrite app_nil_r; auto| |rewrite oauth_idle by (intros; congruence); exists []; rewrite app_nil_r; auto].
    pose proof (oauth_cases cfg sid w s p G AL SB) as (a & out & E & ACC & H).
    assert (L : exists l, sv_log (vstep cfg sid (OAuth w) s) = sv_log s ++ l).
    { destruct out; [destruct H as (_ & _ & _ & L)|destruct H as (_ & _ & _ & L)|destruct H as (_ & L)|destruct H as (_ & L & _)]; eauto. }
    destruct L as [l L]. exists l. split; [exact L|]. right. exists w, p. auto.
  - destruct (q_log _ _ _ _ (vstep_quiet cfg sid op s NA)) as (l & L & F). exists l. auto.
Qed.

(** ** The login of a connection *)

Lemma set_options_id : forall a, set_options (ac_options a) a = a.
Proof. now destruct a. Qed.

Lemma set_options_twice : forall o o' a, set_options o (set_options o' a) = set_options o a.
Proof. reflexivity. Qed.

(** The step which has logged in the client of a connection. *)
Record logged (cfg : config) (sid peer : bytes) (ops before : list vop) (w : world) (payload user : bytes) (c : credential)
  (src : source) (after : list vop) : Prop := {
  lo_ops : ops = before ++ OAuth w :: after;
  lo_alive : sv_alive (vrun cfg sid peer before) = true;
  lo_busy : sv_busy (vrun cfg sid peer before) = Checking payload;
  lo_ok : bytes_ok payload;
  lo_valid : valid_name user;
  lo_proves : proves cfg sid w (ac_log (sv_account (vrun cfg sid peer (before ++ [OAuth w])))) payload user c;
  lo_login : login cfg w payload (sv_account (vrun cfg sid peer before)) user c src
    (sv_account (vrun cfg sid peer (before ++ [OAuth w])));
  lo_before : ac_authenticated (sv_account (vrun cfg sid peer before)) = false;
  lo_event : In (VAuthenticated user) (sv_log (vrun cfg sid peer (before ++ [OAuth w])));
  lo_fixed : exists o, sv_account (vrun cfg sid peer ops) = set_options o (sv_account (vrun cfg sid peer (before ++ [OAuth w])))
}.

Lemma after_login : forall cfg sid op s, good cfg s -> ac_authenticated (sv_account s) = true ->
  exists o, sv_account (vstep cfg sid op s) = set_options o (sv_account s).
Proof.
  intros cfg sid op s G A.
  assert (SAME : forall s', sv_account s' = sv_account s -> exists o, sv_account s' = set_options o (sv_account s)).
  { intros s' ->. exists (ac_options (sv_account s)). now rewrite set_options_id. }
  destruct (is_oauth op) as [[w ->]|NA].
  - apply SAME. destruct (sv_alive s) eqn:AL; [|now rewrite vstep_dead].
    rewrite oauth_idle; [reflexivity|]. intros p B. destruct G as [_ LV]. specialize (LV AL). destruct LV as [LB _ _].
    rewrite B in LB. destruct LB. congruence.
  - destruct (q_account _ _ _ _ (vstep_quiet cfg sid op s NA)) as [X|(_ & _ & _ & o & X)]; [now apply SAME|]. rewrite X. eauto.
Qed.

Lemma login_origin : forall cfg sid peer ops, Forall op_ok ops ->
  ac_authenticated (sv_account (vrun cfg sid peer ops)) = true ->
  exists before w payload user c src after, logged cfg sid peer ops before w payload user c src after.
Proof.
  intros cfg sid peer ops. induction ops as [|op t IH] using rev_ind; intros F A; [discriminate|].
  apply Forall_app in F as [F F2]. pose proof (vrun_good cfg sid peer t F) as G.
  destruct (ac_authenticated (sv_account (vrun cfg sid peer t))) eqn:A0.
  - destruct (IH F eq_refl) as (before & w & payload & user & c & src & after & LO).
    exists before, w, payload, user, c, src, (after ++ [op]). destruct LO as [O AL B OK V P L BE EV FX]. constructor; try assumption.
    + rewrite O, <- app_assoc. reflexivity.
    + rewrite vrun_snoc. destruct (after_login cfg sid op _ G A0) as (o & X). destruct FX as (o' & Y). rewrite X, Y. exists o. reflexivity.
  - rewrite vrun_snoc in A.
    destruct (is_oauth op) as [[w ->]|NA].
    + destruct (sv_alive (vrun cfg sid peer t)) eqn:AL; [|rewrite vstep_dead in A by exact AL; congruence].
      destruct (sv_busy (vrun cfg sid peer t)) as [|payload|addr] eqn:B;
        [rewrite oauth_idle in A by (intros; congruence); congruence| |rewrite oauth_idle in A by (intros; congruence); congruence].
      pose proof (oauth_cases cfg sid w _ payload G AL B) as (a & out & E & ACC & H).
      pose proof (proj2 G AL) as [LB LBE _]. rewrite B in LB. destruct LB as [OK _]. destruct (LBE A0) as (BL & _).
      destruct out as [m|alg blob| |p].
      * destruct (failed_request _ _ _ _ _ _ _ BL OK E) as (_ & X & _); [auto|discriminate|]. congruence.
      * destruct (failed_request _ _ _ _ _ _ _ BL OK E) as (_ & X & _); [auto|discriminate|]. congruence.
      * exfalso. rewrite ACC in A.
        destruct (OnUserAuthRequest_cases _ _ _ _ _ _ _ BL OK E) as [(-> & _)|(user & method & d & _ & _ & _ & [N|MS])]; [congruence| |].
        -- destruct N as (X & _). congruence.
        -- destruct MS as (src & pa & methods & arch & sticky & a1 & d' & MS & _ & _ & AM).
           apply AuthMethod_failed in AM as (X & _); [|auto]. rewrite X, (ms_auth _ _ _ _ _ _ _ _ MS) in A. congruence.
      * destruct (accepted_proves _ _ _ _ _ _ _ BL OK E) as (u & c & src & V & PR & LG).
        exists t, w, payload, u, c, src, []. destruct H as (_ & L & _).
        constructor; rewrite ?vrun_snoc, ?ACC; try assumption; try reflexivity.
        -- rewrite L, <- (lg_name _ _ _ _ _ _ _ _ LG). apply in_or_app. right. now left.
        -- exists (ac_options a). now rewrite set_options_id.
    + exfalso. destruct (q_account _ _ _ _ (vstep_quiet cfg sid op (vrun cfg sid peer t) NA)) as [X|(_ & X & _)]; [rewrite X in A; congruence|congruence].
Qed.

(** Events stay in the log. *)
Lemma log_grows : forall cfg sid peer a b, Forall op_ok (a ++ b) ->
  exists l, sv_log (vrun cfg sid peer (a ++ b)) = sv_log (vrun cfg sid peer a) ++ l.
Proof.
  intros cfg sid peer a b. induction b as [|op b IH] using rev_ind; intro F.
  - exists []. now rewrite !app_nil_r.
  - rewrite app_assoc in *. apply Forall_app in F as [F _]. destruct (IH F) as (l & L).
    rewrite vrun_snoc. destruct (step_log cfg sid op _ (vrun_good cfg sid peer _ F)) as (l' & L' & _).
    exists (l ++ l'). rewrite L', L, app_assoc. reflexivity.
Qed.

(** Every event was caused by one step. *)
Lemma event_origin : forall cfg sid peer ops e, Forall op_ok ops -> In e (sv_log (vrun cfg sid peer ops)) ->
  exists before op after events, ops = before ++ op :: after /\
    sv_log (vstep cfg sid op (vrun cfg sid peer before)) = sv_log (vrun cfg sid peer before) ++ events /\ In e events.
Proof.
  intros cfg sid peer ops e. induction ops as [|op t IH] using rev_ind; intros F I; [destruct I|].
  apply Forall_app in F as [F _]. rewrite vrun_snoc in I.
  destruct (step_log cfg sid op _ (vrun_good cfg sid peer t F)) as (l & L & _). rewrite L in I.
  apply in_app_or in I as [I|I].
  - destruct (IH F I) as (before & o & after & events & E & X & Y). exists before, o, (after ++ [op]), events.
    split; [rewrite E, <- app_assoc; reflexivity|auto].
  - exists t, op, [], l. auto.
Qed.

Lemma login_request_of : forall cfg sid peer ops before w payload user c src after, Forall op_ok ops ->
  logged cfg sid peer ops before w payload user c src after ->
  login_request cfg sid peer ops before w payload user c src.
Proof.
  intros cfg sid peer ops before w payload user c src after F LO. split; [exists after; exact (lo_ops _ _ _ _ _ _ _ _ _ _ _ LO)|].
  split; [exact (lo_busy _ _ _ _ _ _ _ _ _ _ _ LO)|]. split.
  - eapply checking_received; [|exact (lo_busy _ _ _ _ _ _ _ _ _ _ _ LO)].
    rewrite (lo_ops _ _ _ _ _ _ _ _ _ _ _ LO) in F. apply Forall_app in F. apply F.
  - split; [exact (lo_proves _ _ _ _ _ _ _ _ _ _ _ LO)|]. exact (lg_answer _ _ _ _ _ _ _ _ (lo_login _ _ _ _ _ _ _ _ _ _ _ LO)).
Qed.

(** ** Options *)

Lemma request_options : forall cfg w sid payload a b out,
  before_login cfg a -> bytes_ok payload -> OnUserAuthRequest cfg w sid payload a = (b, out) ->
  out <> Die -> ~ key_method payload -> ac_options b = ac_options a.
Proof.
  intros cfg w sid payload a b out BL OK H ND NK.
  destruct (OnUserAuthRequest_cases _ _ _ _ _ _ _ BL OK H) as [(-> & _)|(user & method & d & PL & _ & _ & [N|MS])]; [reflexivity| |].
  - destruct N as (_ & _ & _ & [X|(_ & _ & _ & X & _)]); [contradiction|exact X].
  - destruct MS as (src & pa & methods & arch & sticky & a1 & d' & MS & _ & _ & AM).
    assert (NM : forall m, In m [PUBLICKEY; HOSTBASED] -> bytes_eqb method m = false).
    { intros m I. apply bytes_eqb_neq. intros ->. apply NK. exists user, CONNECTION, m, d. split; [exact I|].
      rewrite PL. unfold enc. cbn [map List.concat enc_field]. now rewrite app_nil_r. }
    unfold AuthMethod in AM. change (bs "publickey") with PUBLICKEY in AM. change (bs "hostbased") with HOSTBASED in AM.
    rewrite (NM PUBLICKEY), (NM HOSTBASED) in AM by (cbn; auto).
    destruct pa; unfold Login in AM; injection AM as <- _; cbn; exact (ms_options _ _ _ _ _ _ _ _ MS).
Qed.

Lemma options_before : forall cfg sid peer ops, Forall op_ok ops -> (forall p, received ops p -> ~ key_method p) ->
  sv_alive (vrun cfg sid peer ops) = true -> ac_authenticated (sv_account (vrun cfg sid peer ops)) = false ->
  ac_options (sv_account (vrun cfg sid peer ops)) = ko_default.
Proof.
  intros cfg sid peer ops. induction ops as [|op t IH] using rev_ind; intros F NK AL A; [reflexivity|].
  apply Forall_app in F as [F F2]. pose proof (vrun_good cfg sid peer t F) as G. rewrite vrun_snoc in *.
  assert (NK' : forall p, received t p -> ~ key_method p).
  { intros p (env & R). apply NK. exists env. apply in_or_app. auto. }
  destruct (sv_alive (vrun cfg sid peer t)) eqn:AL0; [|rewrite vstep_dead in AL by exact AL0; congruence].
  assert (A0 : ac_authenticated (sv_account (vrun cfg sid peer t)) = false).
  { destruct (ac_authenticated (sv_account (vrun cfg sid peer t))) eqn:E; [|reflexivity].
    destruct (after_login cfg sid op _ G E) as (o & X). rewrite X in A. cbn in A. congruence. }
  destruct (is_oauth op) as [[w ->]|NA].
  - destruct (sv_busy (vrun cfg sid peer t)) as [|payload|addr] eqn:B;
      [rewrite oauth_idle by (intros; congruence); auto| |rewrite oauth_idle by (intros; congruence); auto].
    pose proof (oauth_cases cfg sid w _ payload G AL0 B) as (a & out & E & ACC & H). rewrite ACC.
    pose proof (proj2 G AL0) as [LB LBE _]. rewrite B in LB. destruct LB as [OK _]. destruct (LBE A0) as (BL & _).
    rewrite (request_options _ _ _ _ _ _ _ BL OK E); [auto| |].
    + intros ->. destruct H as [H _]. congruence.
    + apply NK'. eapply checking_received; eauto.
  - destruct (q_account _ _ _ _ (vstep_quiet cfg sid op (vrun cfg sid peer t) NA)) as [X|(_ & X & _)]; [rewrite X; auto|congruence].
Qed.

(** After login, options can only become stricter, and only if the client is
    a host. *)
Lemma options_after : forall cfg sid op s, good cfg s -> ac_authenticated (sv_account s) = true ->
  at_least (ac_options (sv_account (vstep cfg sid op s))) (ac_options (sv_account s)) /\
  (ac_hostbased (sv_account s) = false -> ac_options (sv_account (vstep cfg sid op s)) = ac_options (sv_account s)) /\
  ac_hostbased (sv_account (vstep cfg sid op s)) = ac_hostbased (sv_account s).
Proof.
  intros cfg sid op s G A.
  assert (SAME : forall s', sv_account s' = sv_account s ->
    at_least (ac_options (sv_account s')) (ac_options (sv_account s)) /\
    (ac_hostbased (sv_account s) = false -> ac_options (sv_account s') = ac_options (sv_account s)) /\
    ac_hostbased (sv_account s') = ac_hostbased (sv_account s)).
  { intros s' ->. split; [apply at_least_refl|auto]. }
  destruct (is_oauth op) as [[w ->]|NA].
  - apply SAME. destruct (sv_alive s) eqn:AL; [|now rewrite vstep_dead].
    rewrite oauth_idle; [reflexivity|]. intros p B. destruct (proj2 G AL) as [LB _ _]. rewrite B in LB. destruct LB. congruence.
  - destruct (q_account _ _ _ _ (vstep_quiet cfg sid op s NA)) as [X|(_ & _ & HB & o & X)]; [now apply SAME|]. rewrite X.
    split; [apply Restrict_at_least|]. split; [congruence|reflexivity].
Qed.

Lemma options_later : forall cfg sid peer before w after, Forall op_ok (before ++ OAuth w :: after) ->
  ac_authenticated (sv_account (vrun cfg sid peer (before ++ [OAuth w]))) = true ->
  let a := sv_account (vrun cfg sid peer (before ++ [OAuth w])) in
  let b := sv_account (vrun cfg sid peer (before ++ OAuth w :: after)) in
  at_least (ac_options b) (ac_options a) /\ (ac_hostbased a = false -> ac_options b = ac_options a) /\
  ac_hostbased b = ac_hostbased a /\ ac_authenticated b = true.
Proof.
  intros cfg sid peer before w after. cbv zeta. change (OAuth w :: after) with ([OAuth w] ++ after). rewrite app_assoc.
  generalize (before ++ [OAuth w]) as t. clear before. intro t.
  induction after as [|op after IH] using rev_ind; intros F A.
  - rewrite app_nil_r. split; [apply at_least_refl|auto].
  - rewrite app_assoc in *. apply Forall_app in F as [F _]. destruct (IH F A) as (X1 & X2 & X3 & X4).
    pose proof (vrun_good cfg sid peer _ F) as G. rewrite vrun_snoc.
    destruct (options_after cfg sid op _ G X4) as (Y1 & Y2 & Y3).
    split; [eapply at_least_trans; eauto|]. split.
    + intro H. rewrite Y2, X2; [reflexivity|exact H|congruence].
    + split; [congruence|]. destruct (after_login cfg sid op _ G X4) as (o & ->). exact X4.
Qed.

Lemma logged_hostbased : forall cfg sid peer ops before w payload user c src after, Forall op_ok ops ->
  logged cfg sid peer ops before w payload user c src after ->
  ac_hostbased (sv_account (vrun cfg sid peer (before ++ [OAuth w]))) = match c with CHost _ _ => true | _ => false end.
Proof.
  intros cfg sid peer ops before w payload user c src after F LO.
  rewrite (lg_hostbased _ _ _ _ _ _ _ _ (lo_login _ _ _ _ _ _ _ _ _ _ _ LO)).
  rewrite (lo_ops _ _ _ _ _ _ _ _ _ _ _ LO) in F. apply Forall_app in F as [F _].
  destruct (proj2 (vrun_good cfg sid peer before F) (lo_alive _ _ _ _ _ _ _ _ _ _ _ LO)) as [_ LB _].
  destruct (LB (lo_before _ _ _ _ _ _ _ _ _ _ _ LO)) as (_ & -> & _). now destruct c.
Qed.
