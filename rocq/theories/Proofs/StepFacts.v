(** What one event can do to the server (C37, C39 to C44, C48, C52). *)

From Coq Require Import NArith PeanoNat List Bool Lia String.
From Verif.Base Require Import Bytes.
From Verif.Spec Require Import WireSpec KeySpec AuthSpec SessionSpec.
From Verif.Model Require Import Wire Frame Packets StringList KeyOptions Auth Session Server.
From Verif.Proofs Require Import WireFacts KeyFacts AuthFacts ServerFacts SessionFacts RestrictFacts.
Import ListNotations.
Open Scope N_scope.

Local Arguments bs : simpl never.

(** Events which are neither a request of the client for the server itself
    nor the login. *)
Definition passive (e : vevent) : Prop :=
  match e with
  | VSend _ | VForwarded _ _ | VGlobalAnswer _ | VHostbased _ | VOptions _ | VForward _ | VDead => True
  | _ => False
  end.

(** Nothing changes but messages, listeners and what ends. *)
Record idles (s s' : server) : Prop := {
  id_account : sv_account s' = sv_account s;
  id_nms : sv_no_more_sessions s' = sv_no_more_sessions s;
  id_sessions : forall x, In x (sv_sessions s') -> In x (sv_sessions s);
  id_find : forall n x, find_session n (sv_sessions s') = Some x -> find_session n (sv_sessions s) = Some x;
  id_channels : sv_alive s' = true -> sv_channels s' = sv_channels s;
  id_log : exists l, sv_log s' = sv_log s ++ l /\ Forall passive l
}.

Lemma idles_refl : forall s, idles s s.
Proof. intro s. constructor; auto. exists []. rewrite app_nil_r. auto. Qed.
Lemma idles_die : forall s, idles s (die s).
Proof.
  intro s. constructor; auto.
  - cbn. contradiction.
  - cbn. discriminate.
  - cbn. discriminate.
  - exists [VDead]. split; [reflexivity|]. constructor; [exact Logic.I|constructor].
Qed.
Lemma idles_emit : forall l s s', Forall passive l -> idles s s' -> idles s (emit l s').
Proof.
  intros l s s' F [A B C C' C2 (l' & D & D')]. constructor; auto. exists (l' ++ l). cbn. rewrite D, app_assoc. split; [reflexivity|].
  now apply Forall_app.
Qed.

Lemma find_filter : forall n k l x, find_session n (filter (fun y : N * session => negb (fst y =? k)) l) = Some x -> find_session n l = Some x.
Proof.
  intros n k l x. induction l as [|[j y] l IH]; [auto|]. cbn [filter fst find_session]. destruct (N.eqb_spec j k) as [->|E]; cbn [negb find_session].
  - intro H. destruct (N.eqb_spec k n) as [->|E2]; [|exact (IH H)]. exfalso. clear IH. revert H.
    induction l as [|[m z] l IH]; cbn [filter fst find_session]; [discriminate|].
    destruct (N.eqb_spec m n) as [->|E2]; cbn [negb find_session]; [exact IH|].
    destruct (N.eqb_spec m n); [contradiction|exact IH].
  - destruct (j =? n); [auto|exact IH].
Qed.

(** The cases of a step which is not the answer to an authentication
    request. *)
Inductive stepped (cfg : config) (s : server) : vop -> server -> Prop :=
| ST_global : forall payload env g,
    sv_channels s = true -> ac_authenticated (sv_account s) = true ->
    ParseGlobalRequest payload = Some g ->
    stepped cfg s (OPacket MSG_GLOBAL_REQUEST payload env) (HandleGlobalRequest (gr_request_name g) (gr_data g) s)
| ST_channel : forall payload env c,
    sv_channels s = true -> ac_authenticated (sv_account s) = true ->
    ParseChannelOpen payload = Some c ->
    stepped cfg s (OPacket MSG_CHANNEL_OPEN payload env) (CreateChannel (co_channel_type c) (co_data c) env s)
| ST_request : forall payload env c,
    sv_channels s = true -> ac_authenticated (sv_account s) = true ->
    ParseChannelRequest payload = Some c ->
    stepped cfg s (OPacket MSG_CHANNEL_REQUEST payload env)
      (session_step cfg (cr_local_channel c) (ORequest (cr_request_type c) (cr_data c) (pe_pty env)) s)
| ST_session : forall n op, (forall t d p, op <> ORequest t d p) ->
    stepped cfg s (OSession n op) (session_step cfg n op s)
| ST_idle : forall op s', idles s s' -> stepped cfg s op s'.

Lemma Packet_stepped : forall cfg msg payload env s, stepped cfg s (OPacket msg payload env) (Packet cfg msg payload env s).
Proof.
  intros cfg msg payload env s.
  assert (BASE : idles s (if msg =? MSG_DISCONNECT then die s
    else if existsb (N.eqb msg) [MSG_IGNORE; MSG_UNIMPLEMENTED; MSG_KEXINIT; MSG_NEWKEYS; MSG_ECDH_KEX_INIT; MSG_ECDH_KEX_INIT_REPLY]
    then s else emit [VSend [MSG_UNIMPLEMENTED]] s)).
  { destruct (msg =? MSG_DISCONNECT); [apply idles_die|]. destruct (existsb _ _); [apply idles_refl|].
    apply idles_emit; [constructor; [exact Logic.I|constructor]|apply idles_refl]. }
  assert (PROXY : idles s (if sv_proxy s && ShouldProxy msg then emit [VForward (msg :: payload)] s else
    if msg =? MSG_DISCONNECT then die s
    else if existsb (N.eqb msg) [MSG_IGNORE; MSG_UNIMPLEMENTED; MSG_KEXINIT; MSG_NEWKEYS; MSG_ECDH_KEX_INIT; MSG_ECDH_KEX_INIT_REPLY]
    then s else emit [VSend [MSG_UNIMPLEMENTED]] s)).
  { destruct (sv_proxy s && ShouldProxy msg); [|exact BASE].
    apply idles_emit; [constructor; [exact Logic.I|constructor]|apply idles_refl]. }
  unfold Packet. cbv zeta.
  match goal with |- stepped _ _ _ (if _ then match _ with _ => _ end else ?t) => assert (CH : stepped cfg s (OPacket msg payload env) t) end.
  { destruct (sv_channels s && ac_authenticated (sv_account s)) eqn:C; [|apply ST_idle; exact PROXY].
    apply andb_true_iff in C as [C A].
    destruct (N.eqb_spec msg MSG_GLOBAL_REQUEST) as [->|_].
    { destruct (ParseGlobalRequest payload) as [g|] eqn:P; [now apply ST_global|apply ST_idle, idles_die]. }
    destruct (N.eqb_spec msg MSG_CHANNEL_OPEN) as [->|_].
    { destruct (ParseChannelOpen payload) as [g|] eqn:P; [now apply ST_channel|apply ST_idle, idles_die]. }
    destruct (N.eqb_spec msg MSG_CHANNEL_REQUEST) as [->|_].
    { destruct (ParseChannelRequest payload) as [g|] eqn:P; [now apply ST_request|apply ST_idle, idles_die]. }
    apply ST_idle. destruct (ShouldProxy msg); [apply idles_refl|]. revert PROXY. now rewrite andb_false_r. }
  destruct (sv_user_auth s); [|exact CH]. unfold UserAuthPacket.
  destruct (busy_now s && negb (IsAllowedWhileOccupied msg)); [apply ST_idle, idles_die|].
  destruct (msg =? MSG_SERVICE_REQUEST).
  { apply ST_idle. destruct (ParseServiceRequest payload) as [name|]; [|apply idles_die].
    destruct (bytes_eqb name (bs "ssh-userauth")); [|apply idles_die].
    apply idles_emit; [constructor; [exact Logic.I|constructor]|]. constructor; auto. exists []. rewrite app_nil_r. auto. }
  destruct (msg =? MSG_USERAUTH_REQUEST); [|exact CH]. apply ST_idle.
  destruct (ac_authenticated (sv_account s)); [apply idles_refl|]. destruct (negb (sv_service s)); [apply idles_die|].
  constructor; auto. exists []. rewrite app_nil_r. auto.
Qed.

Ltac idle_same := constructor; auto; exists []; rewrite app_nil_r; auto.
Ltac one_passive := constructor; [exact Logic.I|constructor].

Lemma vstep_stepped : forall cfg sid op s, (forall w, op <> OAuth w) -> stepped cfg s op (vstep cfg sid op s).
Proof.
  intros cfg sid op s NA. unfold vstep. destruct (negb (sv_alive s)); [apply ST_idle, idles_refl|].
  destruct op as [|msg payload env|w|ok| | |msg payload| | | |x ok|x|n op|n]; try (exfalso; eapply NA; reflexivity).
  - apply ST_idle. destruct (sv_user_auth s || _); [apply idles_refl|idle_same].
  - apply Packet_stepped.
  - apply ST_idle. destruct (sv_busy s); try apply idles_refl. destruct ok; [idle_same|apply idles_die].
  - apply ST_idle. destruct (sv_outgoing s && _); [|apply idles_refl]. apply idles_emit; [one_passive|apply idles_refl].
  - apply ST_idle. destruct (sv_outgoing s && _); [|apply idles_refl]. apply idles_emit; [one_passive|].
    constructor; auto. exists [VOptions (ac_options (sv_account s))]. split; [reflexivity|one_passive].
  - apply ST_idle. destruct (sv_proxy s && _); [|apply idles_refl]. apply idles_emit; [one_passive|apply idles_refl].
  - apply ST_idle. destruct (sv_outgoing s); [apply idles_die|apply idles_refl].
  - apply ST_idle. destruct (sv_timeout s); [apply idles_die|apply idles_refl].
  - apply ST_idle, idles_die.
  - apply ST_idle. destruct (existsb _ _); [|apply idles_refl]. destruct ok; (apply idles_emit; [one_passive|idle_same]).
  - apply ST_idle. destruct (existsb _ _); [|apply idles_refl]. apply idles_emit; [one_passive|apply idles_refl].
  - destruct op as [t d p|k a| |code|]; try (now apply ST_session; intros). apply ST_idle, idles_refl.
  - apply ST_idle. constructor; auto.
    + cbn. intros x X. apply filter_In in X. apply X.
    + cbn. intros k x X. eapply find_filter; exact X.
    + exists []. rewrite app_nil_r. auto.
Qed.

(** The log of a step. *)
Lemma log_suffix : forall s s' l events, sv_log s' = sv_log s ++ l -> sv_log s' = sv_log s ++ events -> l = events.
Proof. intros s s' l events A B. rewrite A in B. now apply app_inv_head in B. Qed.

Lemma session_step_log : forall cfg n op s, exists l, sv_log (session_step cfg n op s) = sv_log s ++ l /\
  Forall (fun e => e = VDead \/ exists x, e = VSess n x) l.
Proof.
  intros cfg n op s. unfold session_step. destruct (find_session n (sv_sessions s)) as [x|].
  2:{ exists []. rewrite app_nil_r. auto. }
  destruct (sstep cfg (sv_account s) op x) as [x' l].
  assert (M : Forall (fun e => e = VDead \/ exists x, e = VSess n x) (map (VSess n) l)).
  { apply Forall_forall. intros e I. apply in_map_iff in I as (y & <- & _). eauto. }
  destruct (existsb _ l).
  - exists (map (VSess n) l ++ [VDead]). cbn. rewrite app_assoc. split; [reflexivity|]. apply Forall_app. split; [exact M|]. constructor; auto.
  - exists (map (VSess n) l). auto.
Qed.

Lemma CreateChannel_log : forall t p env s, exists l, sv_log (CreateChannel t p env s) = sv_log s ++ l /\
  Forall (fun e => match e with VDead | VOpenFailure | VSession _ | VConnectTcp _ _ | VConnectLocal _ => True | _ => False end) l.
Proof.
  intros t p env s. unfold CreateChannel. destruct (bytes_eqb t (bs "session")).
  - destruct (sv_no_more_sessions s); [exists [VDead]; split; [reflexivity|one_passive]|].
    destruct (find_session _ _); eexists; (split; [reflexivity|one_passive]).
  - destruct (bytes_eqb t (bs "direct-tcpip")).
    + destruct (negb _); [eexists; split; [reflexivity|one_passive]|].
      destruct (parse_direct_tcpip p) as [[h q]|]; eexists; (split; [reflexivity|one_passive]).
    + destruct (bytes_eqb t _); [|eexists; split; [reflexivity|one_passive]].
      destruct (negb _); [eexists; split; [reflexivity|one_passive]|].
      destruct (ReadString p) as [[h q]|]; eexists; (split; [reflexivity|one_passive]).
Qed.

Lemma HandleGlobalRequest_log : forall n d s, exists l, sv_log (HandleGlobalRequest n d s) = sv_log s ++ VGlobal n d :: l /\
  Forall (fun e => match e with VDead | VGlobalAnswer _ | VBind _ _ => True | _ => False end) l.
Proof.
  intros n d s. unfold HandleGlobalRequest. cbv zeta.
  assert (X : forall t l, Forall (fun e => match e with VDead | VGlobalAnswer _ | VBind _ _ => True | _ => False end) l ->
    sv_log t = sv_log s ++ [VGlobal n d] ++ l ->
    exists l, sv_log t = sv_log s ++ VGlobal n d :: l /\
     Forall (fun e => match e with VDead | VGlobalAnswer _ | VBind _ _ => True | _ => False end) l) by (intros t l F E; exists l; auto).
  destruct (bytes_eqb n (bs "tcpip-forward")).
  { destruct (negb _); [eapply X; [|cbn; rewrite <- app_assoc; reflexivity]; one_passive|].
    destruct (parse_bind d) as [[h q]|]; (eapply X; [|cbn; rewrite <- app_assoc; reflexivity]); one_passive. }
  destruct (bytes_eqb n (bs "cancel-tcpip-forward")).
  { destruct (parse_bind d) as [h|]; (eapply X; [|cbn; rewrite <- app_assoc; reflexivity]); one_passive. }
  destruct (bytes_eqb n (bs "no-more-sessions@openssh.com")); [eapply X; [|cbn; rewrite <- app_assoc; reflexivity]; one_passive|].
  destruct (bytes_eqb n _); [|eapply X; [|cbn; rewrite <- app_assoc; reflexivity]; one_passive].
  destruct (negb _); [eapply X; [|cbn; rewrite <- app_assoc; reflexivity]; one_passive|].
  destruct (DeserializeAuthorizedKeyOptions d) as [o|]; [|eapply X; [|cbn; rewrite <- app_assoc; reflexivity]; one_passive].
  destruct (Restrict _ o) as [o' ok]. eapply X; [|cbn; rewrite <- app_assoc; reflexivity]; one_passive.
Qed.

(** The authentication answer never is a request. *)
Lemma oauth_log : forall cfg sid w s, good cfg s -> exists l, sv_log (vstep cfg sid (OAuth w) s) = sv_log s ++ l /\
  Forall (fun e => match e with VSend _ | VDead | VAuthenticated _ | VConnectProxy _ => True | _ => False end) l.
Proof.
  intros cfg sid w s G. destruct (sv_alive s) eqn:AL.
  2:{ rewrite vstep_dead by exact AL. exists []. rewrite app_nil_r. auto. }
  destruct (sv_busy s) as [|payload|addr] eqn:B;
    [rewrite oauth_idle by (intros; congruence); exists []; rewrite app_nil_r; auto| |rewrite oauth_idle by (intros; congruence); exists []; rewrite app_nil_r; auto].
  pose proof (oauth_cases cfg sid w s payload G AL B) as (a & out & _ & _ & H).
  destruct out as [m|alg blob| |p].
  1-2: destruct H as (_ & _ & _ & H). 3: destruct H as (_ & H). 4: destruct H as (_ & H & _).
  all: eexists; (split; [exact H|]).
  1-3: one_passive. destruct p; repeat (constructor; [exact Logic.I|]); constructor.
Qed.

(** A step which executes a global request, creates a channel, or does
    something on a session channel. *)
Lemma global_step : forall cfg sid op s events n d, good cfg s ->
  sv_log (vstep cfg sid op s) = sv_log s ++ events -> In (VGlobal n d) events ->
  exists payload env g, op = OPacket MSG_GLOBAL_REQUEST payload env /\ ParseGlobalRequest payload = Some g /\
    n = gr_request_name g /\ d = gr_data g /\ sv_channels s = true /\ ac_authenticated (sv_account s) = true /\
    vstep cfg sid op s = HandleGlobalRequest n d s.
Proof.
  intros cfg sid op s events n d G L I. destruct (is_oauth op) as [[w ->]|NA].
  { destruct (oauth_log cfg sid w s G) as (l & L' & F). rewrite (log_suffix _ _ _ _ L' L) in F.
    rewrite Forall_forall in F. destruct (F _ I). }
  pose proof (vstep_stepped cfg sid op s NA) as ST. remember (vstep cfg sid op s) as s' eqn:E'.
  destruct ST as [payload env g C A P|payload env c C A P|payload env c C A P|k o _|op s' [_ _ _ _ _ (l & L' & F)]].
  - destruct (HandleGlobalRequest_log (gr_request_name g) (gr_data g) s) as (l & L' & F).
    rewrite <- (log_suffix _ _ _ _ L' L) in I. destruct I as [I|I].
    + injection I as <- <-. exists payload, env, g. auto 10.
    + rewrite Forall_forall in F. destruct (F _ I).
  - destruct (CreateChannel_log (co_channel_type c) (co_data c) env s) as (l & L' & F).
    rewrite (log_suffix _ _ _ _ L' L) in F. rewrite Forall_forall in F. destruct (F _ I).
  - destruct (session_step_log cfg (cr_local_channel c) (ORequest (cr_request_type c) (cr_data c) (pe_pty env)) s) as (l & L' & F).
    rewrite (log_suffix _ _ _ _ L' L) in F. rewrite Forall_forall in F. destruct (F _ I) as [X|(x & X)]; discriminate.
  - destruct (session_step_log cfg k o s) as (l & L' & F).
    rewrite (log_suffix _ _ _ _ L' L) in F. rewrite Forall_forall in F. destruct (F _ I) as [X|(x & X)]; discriminate.
  - rewrite (log_suffix _ _ _ _ L' L) in F. rewrite Forall_forall in F. destruct (F _ I).
Qed.

(** The account of an authenticated connection changes only by a request. *)
Lemma options_step : forall cfg sid op s, good cfg s -> ac_authenticated (sv_account s) = true ->
  sv_account (vstep cfg sid op s) = sv_account s \/
  exists payload env g o, op = OPacket MSG_GLOBAL_REQUEST payload env /\ ParseGlobalRequest payload = Some g /\
    gr_request_name g = AUTHORIZED_KEY_OPTIONS_REQUEST /\ DeserializeAuthorizedKeyOptions (gr_data g) = Some o /\
    ac_hostbased (sv_account s) = true /\
    sv_account (vstep cfg sid op s) = set_options (fst (Restrict (ac_options (sv_account s)) o)) (sv_account s).
Proof.
  intros cfg sid op s G AU. destruct (is_oauth op) as [[w ->]|NA].
  { left. destruct (sv_alive s) eqn:AL; [|now rewrite vstep_dead by exact AL].
    rewrite oauth_idle; [reflexivity|]. intros p B. destruct (proj2 G AL) as [LB _ _]. rewrite B in LB. destruct LB. congruence. }
  pose proof (vstep_stepped cfg sid op s NA) as ST. remember (vstep cfg sid op s) as s' eqn:E'.
  destruct ST as [payload env g C A P|payload env c C A P|payload env c C A P|k o _|op s' [X _ _ _ _ _]]; [| | | |auto].
  - unfold HandleGlobalRequest. cbv zeta. destruct (bytes_eqb (gr_request_name g) (bs "tcpip-forward")).
    { left. destruct (negb _); [reflexivity|]. destruct (parse_bind _) as [[h q]|]; reflexivity. }
    destruct (bytes_eqb _ _). { left. destruct (parse_bind _) as [[h q]|]; reflexivity. }
    destruct (bytes_eqb _ (bs "no-more-sessions@openssh.com")); [left; reflexivity|].
    destruct (bytes_eqb _ _) eqn:E; [|left; reflexivity]. apply bytes_eqb_eq in E.
    destruct (ac_hostbased (sv_account s)) eqn:H; cbn [negb]; [|left; reflexivity].
    destruct (DeserializeAuthorizedKeyOptions (gr_data g)) as [o|] eqn:D; [|left; reflexivity].
    right. exists payload, env, g, o. rewrite <- H. destruct (Restrict _ o) as [o' ok]. cbn [fst]. auto 10.
  - left. unfold CreateChannel. destruct (bytes_eqb _ _).
    + destruct (sv_no_more_sessions s); [reflexivity|]. destruct (find_session _ _); reflexivity.
    + destruct (bytes_eqb _ _).
      * destruct (negb _); [reflexivity|]. destruct (parse_direct_tcpip _) as [[h q]|]; reflexivity.
      * destruct (bytes_eqb _ _); [|reflexivity]. destruct (negb _); [reflexivity|]. destruct (ReadString _) as [[h q]|]; reflexivity.
  - left. unfold session_step. destruct (find_session _ _); [|reflexivity]. destruct (sstep _ _ _ _) as [x l]. destruct (existsb _ l); reflexivity.
  - left. unfold session_step. destruct (find_session _ _); [|reflexivity]. destruct (sstep _ _ _ _) as [x l]. destruct (existsb _ l); reflexivity.
Qed.

(** ** The login comes before everything else *)
Lemma app_prefix : forall (A : Type) (a b c d : list A), a ++ b = c ++ d ->
  (exists u, a = c ++ u) \/ (exists x u, c = a ++ x :: u /\ b = x :: u ++ d).
Proof.
  induction a as [|x a IH]; intros b c d E.
  - destruct c as [|y c]; [left; now exists []|]. right. exists y, c. cbn in E. auto.
  - destruct c as [|y c]; [left; now exists (x :: a)|]. cbn in E. injection E as <- E. destruct (IH b c d E) as [(u & ->)|(z & u & -> & ->)].
    + left. now exists u.
    + right. exists z, u. auto.
Qed.

Lemma login_prefix : forall cfg sid peer ops before w payload user c src after t op rest, Forall op_ok ops ->
  logged cfg sid peer ops before w payload user c src after -> ops = t ++ op :: rest ->
  ac_authenticated (sv_account (vrun cfg sid peer t)) = true ->
  exists mid, t = before ++ OAuth w :: mid.
Proof.
  intros cfg sid peer ops before w payload user c src after t op rest F LO O A'.
  pose proof (lo_ops _ _ _ _ _ _ _ _ _ _ _ LO) as OP. rewrite O in OP.
  destruct (app_prefix _ t (op :: rest) before (OAuth w :: after) OP) as [(u & ->)|(x & u & -> & E)].
  - destruct u as [|x u].
    + exfalso. rewrite app_nil_r in A'. rewrite (lo_before _ _ _ _ _ _ _ _ _ _ _ LO) in A'. discriminate.
    + exists u. rewrite <- app_assoc in OP. apply app_inv_head in OP. cbn in OP. injection OP as E _. now subst x.
  - exfalso. pose proof (lo_before _ _ _ _ _ _ _ _ _ _ _ LO) as BF.
    assert (FU : Forall op_ok (t ++ x :: u)).
    { rewrite O, E in F. change (x :: u ++ OAuth w :: after) with ((x :: u) ++ OAuth w :: after) in F. rewrite app_assoc in F. apply Forall_app in F. apply F. }
    destruct (fixed_later cfg sid peer t (x :: u) FU A') as (o' & X). rewrite X in BF. cbn in BF. congruence.
Qed.

(** ** Once the server handles channels it keeps doing so *)
Lemma channels_stay : forall cfg sid op s, good cfg s -> sv_channels s = true ->
  sv_alive (vstep cfg sid op s) = true -> sv_channels (vstep cfg sid op s) = true.
Proof.
  intros cfg sid op s G CH AL'. destruct (is_oauth op) as [[w ->]|NA].
  { destruct (sv_alive s) eqn:AL; [|rewrite vstep_dead in AL' by exact AL; congruence].
    rewrite oauth_idle; [exact CH|]. intros p B. destruct (proj2 G AL) as [LB LBE _]. rewrite B in LB. destruct LB as [_ A].
    destruct (LBE A) as (_ & _ & (X & _) & _). congruence. }
  pose proof (vstep_stepped cfg sid op s NA) as ST. remember (vstep cfg sid op s) as s' eqn:E'. clear E'. revert AL'.
  destruct ST as [payload env g C A P|payload env c C A P|payload env c C A P|k o _|op s' ID].
  - unfold HandleGlobalRequest. cbv zeta.
    repeat (match goal with |- context [if ?b then _ else _] => destruct b
      | |- context [match parse_bind ?d with _ => _ end] => destruct (parse_bind d) as [[? ?]|]
      | |- context [match DeserializeAuthorizedKeyOptions ?d with _ => _ end] => destruct (DeserializeAuthorizedKeyOptions d)
      | |- context [let '(_, _) := Restrict ?a ?b in _] => destruct (Restrict a b)
      end); auto; discriminate.
  - unfold CreateChannel. cbv zeta.
    repeat (match goal with |- context [if ?b then _ else _] => destruct b
      | |- context [match find_session ?a ?b with _ => _ end] => destruct (find_session a b)
      | |- context [match parse_direct_tcpip ?d with _ => _ end] => destruct (parse_direct_tcpip d) as [[? ?]|]
      | |- context [match ReadString ?d with _ => _ end] => destruct (ReadString d) as [[? ?]|]
      end); auto; discriminate.
  - unfold session_step. destruct (find_session _ _); [|auto]. destruct (sstep _ _ _ _). destruct (existsb _ _); [discriminate|auto].
  - unfold session_step. destruct (find_session _ _); [|auto]. destruct (sstep _ _ _ _). destruct (existsb _ _); [discriminate|auto].
  - intro AL'. rewrite (id_channels _ _ ID AL'). exact CH.
Qed.
