(** Facts about Model/Timed.v (C69). *)

From Coq Require Import NArith List Bool Lia String.
From Verif.Base Require Import Bytes.
From Verif.Spec Require Import WireSpec KeySpec AuthSpec.
From Verif.Model Require Import Wire Frame Packets StringList KeyOptions Auth Session Server Timed.
From Verif.Proofs Require Import WireFacts KeyFacts AuthFacts ServerFacts.
Import ListNotations.
Open Scope N_scope.

Local Arguments bs : simpl never.
Local Arguments N.mul : simpl never.

Lemma trun_snoc : forall cfg sid peer slack t0 ops x,
  trun cfg sid peer slack t0 (ops ++ [x]) = tstep cfg sid slack x (trun cfg sid peer slack t0 ops).
Proof. intros. unfold trun. now rewrite fold_left_app. Qed.

(** What an event does to the timer of a connection which stays alive. *)
Definition clock_kept (op : vop) (s s' : server) : Prop :=
  sv_alive s' = true -> sv_timeout s' = sv_timeout s /\
  (sv_got_request s' = sv_got_request s \/ (sv_got_request s' = true /\ exists p env, op = OPacket MSG_USERAUTH_REQUEST p env)).

Lemma kept_refl : forall op s, clock_kept op s s.
Proof. intros op s _. auto. Qed.
Lemma kept_die : forall op s t, clock_kept op s (die t).
Proof. intros op s t H. discriminate. Qed.

Lemma session_step_kept : forall cfg n o op s, clock_kept op s (session_step cfg n o s).
Proof.
  intros cfg n o op s. unfold session_step. destruct (find_session n (sv_sessions s)); [|apply kept_refl].
  destruct (sstep cfg (sv_account s) o s0) as [x l]. destruct (existsb _ l); [apply kept_die|]. intros _. auto.
Qed.

Lemma vstep_kept : forall cfg sid op s, (forall w, op <> OAuth w) -> clock_kept op s (vstep cfg sid op s).
Proof.
  intros cfg sid op s NA. unfold vstep. destruct (negb (sv_alive s)); [apply kept_refl|].
  destruct op as [|msg payload env|w|ok| | |msg payload| | | |x ok|x|n op|n]; try (exfalso; eapply NA; reflexivity).
  - destruct (_ || _); [apply kept_refl|]. intros _. auto.
  - assert (CR : forall ct p, clock_kept (OPacket msg payload env) s (CreateChannel ct p env s)).
    { intros ct p. unfold CreateChannel. repeat (destruct (bytes_eqb _ _)).
      - destruct (sv_no_more_sessions s); [apply kept_die|]. destruct (find_session _ _); [apply kept_die|]. intros _. auto.
      - destruct (negb _); [intros _; auto|]. destruct (parse_direct_tcpip p) as [[h q]|]; [intros _; auto|apply kept_die].
      - destruct (negb _); [intros _; auto|]. destruct (ReadString p) as [[h q]|]; [intros _; auto|apply kept_die].
      - intros _. auto. }
    assert (GR : forall nm d, clock_kept (OPacket msg payload env) s (HandleGlobalRequest nm d s)).
    { intros nm d. unfold HandleGlobalRequest. repeat (destruct (bytes_eqb _ _)).
      - destruct (negb _); [intros _; auto|]. destruct (parse_bind d) as [[h q]|]; [intros _; auto|apply kept_die].
      - destruct (parse_bind d) as [[h q]|]; [intros _; auto|apply kept_die].
      - intros _. auto.
      - destruct (negb _); [intros _; auto|]. destruct (DeserializeAuthorizedKeyOptions d); [|apply kept_die].
        destruct (Restrict _ _). intros _. auto.
      - intros _. auto. }
    assert (BASE : clock_kept (OPacket msg payload env) s (if msg =? MSG_DISCONNECT then die s
      else if existsb (N.eqb msg) [MSG_IGNORE; MSG_UNIMPLEMENTED; MSG_KEXINIT; MSG_NEWKEYS; MSG_ECDH_KEX_INIT; MSG_ECDH_KEX_INIT_REPLY]
      then s else emit [VSend [MSG_UNIMPLEMENTED]] s)).
    { destruct (_ =? _); [apply kept_die|]. destruct (existsb _ _); intros _; auto. }
    unfold Packet. cbv zeta.
    assert (PROXY : clock_kept (OPacket msg payload env) s (if sv_proxy s && ShouldProxy msg then emit [VForward (msg :: payload)] s else
      if msg =? MSG_DISCONNECT then die s
      else if existsb (N.eqb msg) [MSG_IGNORE; MSG_UNIMPLEMENTED; MSG_KEXINIT; MSG_NEWKEYS; MSG_ECDH_KEX_INIT; MSG_ECDH_KEX_INIT_REPLY]
      then s else emit [VSend [MSG_UNIMPLEMENTED]] s)).
    { destruct (sv_proxy s && ShouldProxy msg); [intros _; auto|exact BASE]. }
    match goal with |- clock_kept _ _ (if _ then match _ with _ => _ end else ?t) => assert (CH : clock_kept (OPacket msg payload env) s t) end.
    { destruct (sv_channels s && ac_authenticated (sv_account s)); [|exact PROXY].
      destruct (msg =? MSG_GLOBAL_REQUEST); [destruct (ParseGlobalRequest payload); [apply GR|apply kept_die]|].
      destruct (msg =? MSG_CHANNEL_OPEN); [destruct (ParseChannelOpen payload); [apply CR|apply kept_die]|].
      destruct (msg =? MSG_CHANNEL_REQUEST); [destruct (ParseChannelRequest payload); [apply session_step_kept|apply kept_die]|].
      destruct (ShouldProxy msg); [apply kept_refl|]. revert PROXY. now rewrite andb_false_r. }
    destruct (sv_user_auth s); [|exact CH]. unfold UserAuthPacket.
    destruct (busy_now s && negb (IsAllowedWhileOccupied msg)); [apply kept_die|].
    destruct (msg =? MSG_SERVICE_REQUEST).
    { destruct (ParseServiceRequest payload); [|apply kept_die]. destruct (bytes_eqb _ _); [|apply kept_die]. intros _. auto. }
    destruct (N.eqb_spec msg MSG_USERAUTH_REQUEST) as [->|_]; [|exact CH].
    destruct (ac_authenticated _); [apply kept_refl|]. destruct (negb _); [apply kept_die|].
    intros _. split; [reflexivity|]. right. split; [reflexivity|]. eauto.
  - destruct (sv_busy s); try apply kept_refl. destruct ok; [intros _; auto|apply kept_die].
  - destruct (_ && _); [intros _; auto|apply kept_refl].
  - destruct (_ && _); [intros _; auto|apply kept_refl].
  - destruct (_ && _); [intros _; auto|apply kept_refl].
  - destruct (sv_outgoing s); [apply kept_die|apply kept_refl].
  - destruct (sv_timeout s); [apply kept_die|apply kept_refl].
  - apply kept_die.
  - destruct (existsb _ _); [|apply kept_refl]. destruct ok; intros _; auto.
  - destruct (existsb _ _); [intros _; auto|apply kept_refl].
  - destruct op; try apply session_step_kept. apply kept_refl.
  - intros _. auto.
Qed.

Definition is_auth (s : server) : bool := ac_authenticated (sv_account s).

(** the same for the end of a request *)
Lemma oauth_kept : forall cfg sid w s, good cfg s -> let s' := vstep cfg sid (OAuth w) s in
  sv_alive s' = true -> (is_auth s' = true \/ sv_timeout s' = sv_timeout s) /\ sv_got_request s' = sv_got_request s.
Proof.
  intros cfg sid w s G s' AL'. destruct (sv_alive s) eqn:AL; [|subst s'; rewrite vstep_dead by exact AL; auto].
  destruct (sv_busy s) as [|payload|x] eqn:B; try (subst s'; rewrite oauth_idle by (intros; rewrite B; discriminate); auto).
  pose proof (oauth_cases cfg sid w s payload G AL B) as (a & out & E & ACC & H). fold s' in ACC, H.
  destruct G as [_ LV]. specialize (LV AL). destruct LV as [LB LBE _]. rewrite B in LB. destruct LB as [OK A]. destruct (LBE A) as (BL & _).
  unfold is_auth. rewrite ACC. revert ACC H AL'. subst s'. unfold vstep. rewrite AL, B, E. cbn [negb]. intros ACC H AL'.
  destruct out as [m|alg blob| |p]; cbn [sv_timeout sv_got_request].
  - auto.
  - auto.
  - discriminate.
  - destruct (accepted_proves _ _ _ _ _ _ _ BL OK E) as (user & c & src & _ & _ & LG). pose proof (lg_auth _ _ _ _ _ _ _ _ LG) as AU.
    rewrite AU. destruct p; cbn; auto.
Qed.

Lemma alive_before : forall cfg sid op s, sv_alive (vstep cfg sid op s) = true -> sv_alive s = true.
Proof. intros cfg sid op s H. destruct (sv_alive s) eqn:A; [reflexivity|]. now rewrite vstep_dead, A in H. Qed.

Lemma auth_stays : forall cfg sid op s, good cfg s -> is_auth s = true -> is_auth (vstep cfg sid op s) = true.
Proof. intros cfg sid op s G A. unfold is_auth in *. destruct (after_login cfg sid op s G A) as (o & ->). exact A. Qed.

(** The invariant of a connection. *)
Record in_time (cfg : config) (slack t0 : N) (ops : list (N * vop)) (s : timed) : Prop := {
  it_good : good cfg (tm_server s);
  it_open : sv_alive (tm_server s) = true -> is_auth (tm_server s) = false -> sv_timeout (tm_server s) = true;
  it_due : sv_alive (tm_server s) = true -> is_auth (tm_server s) = false ->
    if sv_got_request (tm_server s) then tm_due s < t0 + AUTH_TIMEOUT_CONNECT + AUTH_TIMEOUT_REQUEST + slack
    else tm_due s <= t0 + AUTH_TIMEOUT_CONNECT;
  it_first : sv_alive (tm_server s) = true ->
    if sv_got_request (tm_server s)
    then exists t1 p env, In (t1, OPacket MSG_USERAUTH_REQUEST p env) ops /\ tm_due s = t1 + AUTH_TIMEOUT_REQUEST
    else tm_due s = t0 + AUTH_TIMEOUT_CONNECT;
  it_fired : forall t, In t (tm_fired s) -> sv_alive (tm_server s) = false /\
    if sv_got_request (tm_server s)
    then exists t1 p env, In (t1, OPacket MSG_USERAUTH_REQUEST p env) ops /\ t1 + AUTH_TIMEOUT_REQUEST <= t
    else t0 + AUTH_TIMEOUT_CONNECT <= t
}.

Lemma timeout_dies : forall cfg sid s, sv_alive s = true -> sv_timeout s = true -> vstep cfg sid OTimeout s = die s.
Proof. intros cfg sid s A T. unfold vstep. now rewrite A, T. Qed.

Lemma in_time_fire : forall cfg sid slack t0 ops t s, in_time cfg slack t0 ops s -> in_time cfg slack t0 ops (fire cfg sid t s).
Proof.
  intros cfg sid slack t0 ops t s I. pose proof I as [G O D F FI]. unfold fire.
  destruct (sv_alive (tm_server s)) eqn:A; [|exact I].
  destruct (sv_timeout (tm_server s)) eqn:T; [|exact I]. destruct (N.leb_spec (tm_due s) t) as [L|L]; [|exact I]. cbn [andb].
  rewrite timeout_dies by assumption. constructor; cbn [tm_server tm_due tm_fired]; try discriminate.
  - rewrite <- (timeout_dies cfg sid _ A T). apply good_step; [exact Logic.I|exact G].
  - intros x X. split; [reflexivity|]. apply in_app_iff in X as [X|[<-|[]]]; [destruct (FI x X); congruence|].
    specialize (F eq_refl). cbn [die mk_server sv_got_request]. destruct (sv_got_request (tm_server s)).
    + destruct F as (t1 & p & env & F1 & F2). exists t1, p, env. split; [exact F1|lia].
    + lia.
Qed.

Lemma in_time_more : forall cfg slack t0 ops x s, in_time cfg slack t0 ops s -> in_time cfg slack t0 (ops ++ [x]) s.
Proof.
  intros cfg slack t0 ops x s [G O D F FI]. constructor; auto.
  - intro A. specialize (F A). destruct (sv_got_request _); [|exact F]. destruct F as (t1 & p & env & F1 & F2).
    exists t1, p, env. split; [apply in_app_iff; now left|exact F2].
  - intros t X. destruct (FI t X) as [A B]. split; [exact A|]. destruct (sv_got_request _); [|exact B]. destruct B as (t1 & p & env & F1 & F2).
    exists t1, p, env. split; [apply in_app_iff; now left|exact F2].
Qed.

(** an overdue timer has been run *)
Lemma fired_late : forall cfg sid slack t0 ops t s, in_time cfg slack t0 ops s ->
  let s' := if tm_due s + slack <=? t then fire cfg sid t s else s in
  sv_alive (tm_server s') = true -> is_auth (tm_server s') = false -> t < tm_due s' + slack.
Proof.
  intros cfg sid slack t0 ops t s [G O D F FI] s' A U. subst s'. destruct (N.leb_spec (tm_due s + slack) t) as [L|L]; [|exact L].
  exfalso. unfold fire in A, U. destruct (sv_alive (tm_server s)) eqn:A1; [|cbn [andb] in A; congruence]. cbn [andb] in A, U.
  destruct (sv_timeout (tm_server s)) eqn:T.
  - replace (tm_due s <=? t) with true in * by (symmetry; apply N.leb_le; lia). cbn [andb tm_server] in *.
    rewrite timeout_dies in A by assumption. discriminate.
  - cbn [andb] in *. specialize (O eq_refl U). congruence.
Qed.

Lemma in_time_event : forall cfg sid slack t0 ops t op s, in_time cfg slack t0 ops s -> op_ok op ->
  (sv_alive (tm_server s) = true -> is_auth (tm_server s) = false -> t < tm_due s + slack) ->
  in_time cfg slack t0 (ops ++ [(t, op)])
    {| tm_server := vstep cfg sid op (tm_server s);
       tm_due := if negb (sv_got_request (tm_server s)) && sv_got_request (vstep cfg sid op (tm_server s)) then t + AUTH_TIMEOUT_REQUEST else tm_due s;
       tm_fired := tm_fired s |}.
Proof.
  intros cfg sid slack t0 ops t op s I OK LT. pose proof (in_time_more _ _ _ _ (t, op) _ I) as [G O D F FI].
  set (v := vstep cfg sid op (tm_server s)).
  assert (FACT : sv_alive v = true -> (is_auth v = false -> is_auth (tm_server s) = false /\ sv_timeout v = sv_timeout (tm_server s)) /\
    (sv_got_request v = sv_got_request (tm_server s) \/ (sv_got_request v = true /\ exists p env, op = OPacket MSG_USERAUTH_REQUEST p env))).
  { intro A. assert (AS := alive_before _ _ _ _ A).
    assert (AU : is_auth (tm_server s) = true -> is_auth v = true).
    { intro X. now apply auth_stays. }
    destruct (is_oauth op) as [[w ->]|NO].
    - destruct (oauth_kept cfg sid w (tm_server s) G A) as [X Y]. fold v in X, Y. split; [|left; exact Y].
      intro N. destruct X as [X|X]; [congruence|]. split; [|exact X]. destruct (is_auth (tm_server s)); [|reflexivity]. rewrite AU in N; auto.
    - destruct (vstep_kept cfg sid op (tm_server s) NO A) as [X Y]. fold v in X, Y. split; [|exact Y]. intro N. split; [|exact X].
      destruct (is_auth (tm_server s)); [|reflexivity]. rewrite AU in N; auto. }
  constructor; cbn [tm_server tm_due tm_fired].
  - apply good_step; assumption.
  - intros A N. destruct (FACT A) as [X _]. destruct (X N) as [X1 X2]. fold v. rewrite X2. apply O; [exact (alive_before _ _ _ _ A)|exact X1].
  - intros A N. fold v in A, N |- *. destruct (FACT A) as [X Y]. destruct (X N) as [X1 X2]. pose proof (alive_before _ _ _ _ A) as AS.
    specialize (D AS X1). specialize (LT AS X1). destruct (sv_got_request (tm_server s)) eqn:GR; cbn [negb andb].
    + destruct Y as [Y|[Y _]]; rewrite Y; exact D.
    + destruct (sv_got_request v); [lia|exact D].
  - intros A. fold v in A |- *. destruct (FACT A) as [_ Y]. pose proof (alive_before _ _ _ _ A) as AS. specialize (F AS).
    destruct (sv_got_request (tm_server s)) eqn:GR; cbn [negb andb].
    + destruct Y as [Y|[Y _]]; rewrite Y; exact F.
    + destruct (sv_got_request v) eqn:GV; [|exact F]. destruct Y as [Y|[_ (p & env & ->)]]; [congruence|].
      exists t, p, env. split; [apply in_app_iff; right; now left|reflexivity].
  - intros x X. destruct (FI x X) as [A B]. fold v. unfold v. rewrite vstep_dead by exact A. split; [exact A|exact B].
Qed.

Lemma tstep_in_time : forall cfg sid slack t0 ops x s, in_time cfg slack t0 ops s -> op_ok (snd x) ->
  in_time cfg slack t0 (ops ++ [x]) (tstep cfg sid slack x s).
Proof.
  intros cfg sid slack t0 ops [t op] s I OK. cbn [snd] in OK. unfold tstep.
  pose proof (fired_late cfg sid slack t0 ops t s I) as LT.
  set (s1 := if tm_due s + slack <=? t then fire cfg sid t s else s) in *.
  assert (I1 : in_time cfg slack t0 ops s1) by (unfold s1; destruct (_ <=? t); [now apply in_time_fire|exact I]).
  clearbody s1. cbv zeta in LT |- *.
  destruct op; try (apply in_time_event; assumption). apply in_time_more. now apply in_time_fire.
Qed.

Lemma trun_in_time : forall cfg sid peer slack t0 ops, Forall (fun x => op_ok (snd x)) ops ->
  in_time cfg slack t0 ops (trun cfg sid peer slack t0 ops).
Proof.
  intros cfg sid peer slack t0 ops. induction ops as [|x ops IH] using rev_ind; intro F.
  - constructor; cbn; auto; try lia; try contradiction. apply good_new.
  - apply Forall_app in F as [F1 F2]. rewrite trun_snoc. apply tstep_in_time; [auto|now inversion F2].
Qed.

Lemma trun_late : forall cfg sid peer slack t0 ops t op, Forall (fun x => op_ok (snd x)) (ops ++ [(t, op)]) ->
  t0 + AUTH_TIMEOUT_CONNECT + AUTH_TIMEOUT_REQUEST + 2 * slack <= t ->
  let s := trun cfg sid peer slack t0 (ops ++ [(t, op)]) in
  sv_alive (tm_server s) = true -> is_auth (tm_server s) = true.
Proof.
  intros cfg sid peer slack t0 ops t op F L s A. apply Forall_app in F as [F1 F2]. inversion F2 as [|? ? OK _]; subst. cbn [snd] in OK.
  pose proof (trun_in_time cfg sid peer slack t0 ops F1) as I.
  destruct (is_auth (tm_server s)) eqn:U; [reflexivity|exfalso].
  subst s. rewrite trun_snoc in A, U. unfold tstep in A, U.
  pose proof (fired_late cfg sid slack t0 ops t _ I) as LT. cbv zeta in LT.
  set (s1 := if tm_due _ + slack <=? t then fire cfg sid t _ else _) in *.
  assert (I1 : in_time cfg slack t0 ops s1) by (unfold s1; destruct (_ <=? t); [now apply in_time_fire|exact I]).
  clearbody s1. clear I.
  assert (D1 : sv_alive (tm_server s1) = true -> is_auth (tm_server s1) = false -> False).
  { intros A1 U1. specialize (LT A1 U1). pose proof (it_due _ _ _ _ _ I1 A1 U1) as D. unfold AUTH_TIMEOUT_REQUEST, AUTH_TIMEOUT_CONNECT in *.
    destruct (sv_got_request (tm_server s1)); lia. }
  assert (ST : forall o, sv_alive (vstep cfg sid o (tm_server s1)) = true -> is_auth (vstep cfg sid o (tm_server s1)) = false -> False).
  { intros o A1 U1. pose proof (alive_before _ _ _ _ A1) as A0. apply D1; [exact A0|].
    destruct (is_auth (tm_server s1)) eqn:X; [|reflexivity].
    rewrite (auth_stays cfg sid o _ (it_good _ _ _ _ _ I1) X) in U1. discriminate. }
  destruct op; cbn [tm_server] in A, U; try exact (ST _ A U).
  unfold fire in A, U. destruct (_ && _ && _); cbn [tm_server] in A, U; [exact (ST _ A U)|exact (D1 A U)].
Qed.

(** the timer of a client which has logged in is cancelled *)
Lemma trun_auth_timer : forall cfg sid peer slack t0 ops, Forall (fun x => op_ok (snd x)) ops ->
  let s := trun cfg sid peer slack t0 ops in
  sv_alive (tm_server s) = true -> is_auth (tm_server s) = true -> sv_timeout (tm_server s) = false.
Proof.
  intros cfg sid peer slack t0 ops. induction ops as [|[t op] ops IH] using rev_ind; intros F s A U; [discriminate|].
  apply Forall_app in F as [F1 F2]. inversion F2 as [|? ? OK _]; subst. cbn [snd] in OK.
  pose proof (trun_in_time cfg sid peer slack t0 ops F1) as I. specialize (IH F1). subst s. rewrite trun_snoc in A, U |- *.
  set (s0 := trun cfg sid peer slack t0 ops) in *. clearbody s0. cbv zeta in IH. unfold tstep in *.
  assert (FI : forall s, (sv_alive (tm_server s) = true -> is_auth (tm_server s) = true -> sv_timeout (tm_server s) = false) ->
    sv_alive (tm_server (fire cfg sid t s)) = true -> is_auth (tm_server (fire cfg sid t s)) = true -> sv_timeout (tm_server (fire cfg sid t s)) = false).
  { intros s H. unfold fire. destruct (sv_alive (tm_server s) && sv_timeout (tm_server s) && (tm_due s <=? t)) eqn:C; [|exact H].
    apply andb_prop in C as [C _]. apply andb_prop in C as [C1 C2]. cbn [tm_server]. rewrite timeout_dies by assumption. discriminate. }
  set (s1 := if tm_due s0 + slack <=? t then fire cfg sid t s0 else s0) in *.
  assert (I1 : in_time cfg slack t0 ops s1) by (unfold s1; destruct (_ <=? t); [now apply in_time_fire|exact I]).
  assert (H1 : sv_alive (tm_server s1) = true -> is_auth (tm_server s1) = true -> sv_timeout (tm_server s1) = false)
    by (unfold s1; destruct (_ <=? t); [now apply FI|exact IH]).
  clearbody s1. clear IH I.
  assert (ST : forall o, op_ok o -> sv_alive (vstep cfg sid o (tm_server s1)) = true -> is_auth (vstep cfg sid o (tm_server s1)) = true ->
    sv_timeout (vstep cfg sid o (tm_server s1)) = false).
  { intros o OKo A1 U1. pose proof (alive_before _ _ _ _ A1) as A0. pose proof (it_good _ _ _ _ _ I1) as G.
    destruct (is_oauth o) as [[w ->]|NO].
    - destruct (is_auth (tm_server s1)) eqn:X.
      + rewrite oauth_idle; [auto|]. intros p B. destruct G as [_ LV]. specialize (LV A0). destruct LV as [LB _ _].
        rewrite B in LB. destruct LB. unfold is_auth in X. congruence.
      + destruct (sv_busy (tm_server s1)) as [|payload|x] eqn:B.
        1,3: rewrite oauth_idle in U1 by (intros; rewrite B; discriminate); congruence.
        pose proof (oauth_cases cfg sid w _ payload G A0 B) as (a & out & E & ACC & H).
        destruct G as [_ LV]. specialize (LV A0). destruct LV as [LB LBE _]. rewrite B in LB. destruct LB as [OKp A2]. destruct (LBE A2) as (BL & _).
        unfold is_auth in U1. rewrite ACC in U1.
        destruct out as [m|alg blob| |p].
        * exfalso. destruct (failed_request _ _ _ _ _ _ _ BL OKp E) as (_ & Z & _); [auto|discriminate|congruence].
        * exfalso. destruct (failed_request _ _ _ _ _ _ _ BL OKp E) as (_ & Z & _); [auto|discriminate|congruence].
        * destruct H. congruence.
        * unfold vstep. rewrite A0, B, E. cbn [negb]. destruct p; reflexivity.
    - destruct (vstep_kept cfg sid o (tm_server s1) NO A1) as [X _]. rewrite X. apply H1; [exact A0|].
      unfold is_auth in *. destruct (q_account _ _ _ _ (vstep_quiet cfg sid o (tm_server s1) NO)) as [Y|(_ & Y & _)]; [congruence|exact Y]. }
  destruct op; cbn [tm_server] in A, U |- *; try (apply ST; assumption). now apply FI.
Qed.
