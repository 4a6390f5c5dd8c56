(** C86: after DISCONNECT nothing is sent on a connection, and everything
    the connection was doing has been stopped. *)

From Coq Require Import NArith List Bool Lia.
From Verif.Base Require Import Bytes.
From Verif.Model Require Import Dying.
From Verif.Spec Require Import DyingSpec.
From Verif.Proofs Require Import DyingFacts.
Import ListNotations.
Open Scope N_scope.

Definition C86_full_statement : Prop :=
  forall dbg evs, let s := run dbg start evs in
    aborted s = false /\ last_word (sent s) /\ last_word (out_sent s).

(** a client is logged in through a proxy *)
Definition proxied : list event :=
  [InAnswered 20; InEncrypted; InAuth; AuthProxy; AuthConnected; OutEncrypted 5].

(** the client's connection is disconnected while the backend checks the
    user; then the backend accepts *)
Definition late_success : list event := proxied ++ [OutService true 50; InBad; OutSuccess 80 52].

(** the backend sends nonsense, and the client goes on *)
Definition late_packet : list event := proxied ++ [OutService true 50; OutSuccess 80 52; OutBad; InProxied 90].

Theorem C86_client_refuted :
  aborted (run true start late_success) = true /\
  sent (run false start late_success) = [Msg 20; Farewell; Msg 52] /\
  ~ C86_full_statement.
Proof.
  split; [reflexivity|]. split; [reflexivity|]. intros F.
  destruct (F true late_success) as [X _]. change (true = false) in X. discriminate X.
Qed.
Print Assumptions C86_client_refuted.

Theorem C86_backend_refuted :
  aborted (run true start late_packet) = true /\
  out_sent (run false start late_packet) = [Msg 5; Msg 50; Msg 80; Farewell; Msg 90] /\
  ~ C86_full_statement.
Proof.
  split; [reflexivity|]. split; [reflexivity|]. intros F.
  destruct (F true late_packet) as [X _]. change (true = false) in X. discriminate X.
Qed.
Print Assumptions C86_backend_refuted.

(** Only these two races break it: in all other histories of both
    connections, DISCONNECT is the last packet of each, and no assertion
    fails. *)
Theorem C86_last_partial : forall dbg evs, no_crossing dbg evs ->
  let s := run dbg start evs in
  aborted s = false /\ last_word (sent s) /\ last_word (out_sent s).
Proof.
  intros dbg evs H s. assert (C : clean s); [|destruct C; auto].
  subst s. revert H. induction evs as [|e t IH] using rev_ind; intros H; [apply clean_start|].
  rewrite run_app. cbn [run fold_left]. fold (run dbg start t).
  assert (C : clean (run dbg start t)).
  { apply IH. intros before e0 after E. apply (H before e0 (after ++ [e])). rewrite E, <- app_assoc. reflexivity. }
  destruct (H t e [] eq_refl) as [H1 H2]. set (s := run dbg start t) in *.
  unfold step. destruct (disposed s) eqn:D; [exact C|]. rewrite (c_fine s C). cbn [orb].
  apply handle_clean; auto.
  - apply run_always; [exact D|apply C].
  - destruct e; cbn; auto.
    + intros c g O. destruct (s_dead c) eqn:Dc; [|reflexivity]. exfalso. apply (H2 n eq_refl). exists c, g. auto.
    + destruct (s_dead (client s)) eqn:Dc; [|reflexivity]. exfalso. apply (H1 n m eq_refl). split; [exact Dc|exact D].
Qed.
Print Assumptions C86_last_partial.

(** In particular, for every client which is not proxied: whatever was going
    on (programs, channels being opened, listeners, timers), nothing comes
    after DISCONNECT. *)
Theorem C86_local : forall dbg evs, ~ In AuthConnected evs ->
  let s := run dbg start evs in
  aborted s = false /\ last_word (sent s) /\ last_word (out_sent s).
Proof.
  intros dbg evs. induction evs as [|e t IH] using rev_ind; intros N.
  { apply C86_last_partial. intros before e after E. destruct before; discriminate. }
  assert (N1 : ~ In AuthConnected t) by (intros X; apply N, in_or_app; left; exact X).
  specialize (IH N1). cbv zeta in *. rewrite run_app. cbn [run fold_left]. fold (run dbg start t).
  assert (O := harmless_local dbg t N1). assert (A := run_always dbg t).
  set (s := run dbg start t) in *. unfold step.
  destruct (disposed s) eqn:D; [exact IH|]. rewrite (proj1 IH). cbn [orb].
  destruct IH as (I1 & I2 & I3). specialize (O eq_refl I1).
  assert (IV : inv s) by (apply A; assumption).
  assert (C : clean s).
  { constructor; auto. intros _ P. destruct (i_proxy s IV P) as (c & E). congruence. }
  destruct (match e with OutSuccess _ _ => true | _ => false end) eqn:Es.
  - destruct e; try discriminate Es. cbn [handle]. unfold out_input. rewrite O. auto.
  - assert (C' : clean (handle dbg s e)); [|destruct C'; auto].
    apply handle_clean; auto. destruct e; cbn; auto; [intros; congruence|discriminate Es].
Qed.
Print Assumptions C86_local.

(** a program is running, a port is forwarded, a packet of the client is
    bad: the program's later output and the new connection are not sent *)
Example C86_local_demo :
  let evs := [InAnswered 20; InEncrypted; InAuth; AuthLocal; InStart 1; InListen 2; Output 1 94; Accept 2 90;
              InBad; Output 1 94; Accept 2 90; RekeyTimer 20; InAnswered 3; Terminate] in
  ~ In AuthConnected evs /\
  sent (run true start evs) = [Msg 20; Msg 52; Msg 94; Msg 90; Farewell] /\
  disposed (run true start evs) = false /\
  disposed (run true start (evs ++ [Flushed 5])) = true.
Proof. split; [intros H; cbn in H; repeat (destruct H as [H|H]; [discriminate H|]); exact H|]. auto. Qed.

(** both connections of a proxy are ended, without the races *)
Example C86_last_demo :
  let evs := proxied ++ [OutService true 50; OutSuccess 80 52; InProxied 90; OutProxied 91; OutBad; OutFlushed 5; Terminate] in
  no_crossing true evs /\
  sent (run true start evs) = [Msg 20; Msg 52; Msg 91; Farewell] /\
  out_sent (run true start evs) = [Msg 5; Msg 50; Msg 80; Msg 90; Farewell].
Proof.
  split; [|auto]. intros before e after E.
  cbn in E.
  do 13 (destruct before as [|? before];
    [cbn in E; injection E as <- E; clear E; split; intros;
      first [discriminate
            |intros [X _]; change (false = true) in X; discriminate X
            |intros (c & g & X & Y); cbv in X; injection X as <- <-; discriminate Y]
    |cbn in E; injection E as <- E]).
  destruct before; discriminate E.
Qed.

(** At most one DISCONNECT is sent on each connection, in all histories. *)
Theorem C86_once : forall dbg evs,
  (farewells (sent (run dbg start evs)) <= 1)%nat /\ (farewells (out_sent (run dbg start evs)) <= 1)%nat.
Proof. intros dbg evs. destruct (run_always dbg evs) as (A & B & _). auto. Qed.
Print Assumptions C86_once.

Example C86_once_demo :
  farewells (sent (run true start [InAnswered 20; InEncrypted; InBad; Terminate; AuthTimeout])) = 1%nat /\
  farewells (out_sent (run false start late_packet)) = 1%nat.
Proof. split; reflexivity. Qed.

(** While DISCONNECT is being sent, nothing else is going on: no
    authentication, no timer, no channel, no listener; only the output is
    waited for, and the connection is gone as soon as it has been written. *)
Theorem C86_stopped : forall dbg evs, let s := run dbg start evs in
  dying s -> aborted s = false ->
  user_auth s = None /\ auth_timer s = false /\ s_rekey (client s) = false /\ pending s = [] /\ listeners s = [] /\
  0 < s_waiting (client s) /\
  disposed (run dbg s [Flushed (s_waiting (client s))]) = true /\
  (forall k, k < s_waiting (client s) -> disposed (run dbg s [Flushed k]) = false) /\
  (forall blocked, disposed (run dbg s [Hangup blocked]) = true).
Proof.
  intros dbg evs s [D Ds] Ab. assert (I : inv s) by (apply run_always; assumption).
  destruct (i_dead s I D) as (_ & H1 & H2 & H3 & H4 & H5 & H6 & _).
  repeat (split; [assumption|]). split; [|split].
  - cbn [run fold_left]. unfold step. rewrite Ds, Ab. cbn [orb handle]. cbv zeta.
    rewrite N.ltb_irrefl, N.sub_diag, D. reflexivity.
  - intros k K. cbn [run fold_left]. unfold step. rewrite Ds, Ab. cbn [orb handle]. cbv zeta.
    assert (E : (s_waiting (client s) <? k) = false) by (apply N.ltb_ge; lia). rewrite E.
    assert (E2 : (s_waiting (client s) - k =? 0) = false) by (apply N.eqb_neq; lia). rewrite E2, andb_false_r. exact Ds.
  - intros blocked. cbn [run fold_left]. unfold step. rewrite Ds, Ab. cbn [orb handle]. rewrite D. reflexivity.
Qed.
Print Assumptions C86_stopped.

(** ... and nothing the client sends has any effect. *)
Theorem C86_deaf : forall dbg evs e, let s := run dbg start evs in
  dying s -> from_client e -> run dbg s [e] = s.
Proof.
  intros dbg evs e s [D _] F. cbn [run fold_left]. unfold step. destruct (disposed s || aborted s); [reflexivity|].
  destruct e; try contradiction F; cbn [handle]; unfold input; rewrite D; reflexivity.
Qed.
Print Assumptions C86_deaf.

Example C86_stopped_demo :
  let s := run true start [InAnswered 20; InEncrypted; InAuth; AuthLocal; InStart 1; InListen 2; Terminate] in
  dying s /\ aborted s = false /\ s_waiting (client s) = 3 /\ from_client (InStart 7).
Proof. split; [split; reflexivity|]. split; [reflexivity|]. split; [reflexivity|exact Logic.I]. Qed.

(** A connection in use is ended by nothing but the causes listed in the
    specification... *)
Theorem C86_causes : forall dbg evs e, let s := run dbg start evs in
  living s -> ~ fatal s e ->
  s_dead (client (run dbg s [e])) = false /\ disposed (run dbg s [e]) = false.
Proof.
  intros dbg evs e s (D & Ds & Ab) F. assert (I : inv s) by (apply run_always; assumption).
  assert (T : timer_inv s) by (apply run_timer; assumption). specialize (T Ds D).
  clearbody s. cbn [run fold_left]. unfold step. rewrite Ds, Ab. cbn [orb].
  assert (SI : forall m x, disposed (SendPacket dbg m x) = disposed x /\ s_dead (client (SendPacket dbg m x)) = s_dead (client x)).
  { intros m x. destruct (send_timer dbg m x) as (A & B & _). auto. }
  assert (OI : forall m x, disposed (SendOut dbg m x) = disposed x /\ s_dead (client (SendOut dbg m x)) = s_dead (client x)).
  { intros m x. destruct (sendout_timer dbg m x) as (A & B & _). auto. }
  destruct e; cbn [fatal] in F; try (exfalso; apply F; exact Logic.I); cbn [handle]; unfold input, out_input; cbv zeta;
    try match goal with |- context [match outgoing s with _ => _ end] => destruct (outgoing s) as [[c0 g0]|] eqn:O; [|auto] end;
    rewrite ?D;
    repeat match goal with
    | |- context [match user_auth ?x with _ => _ end] => destruct (user_auth x) as [[]|] eqn:?
    | |- context [if ?b then _ else _] => destruct b eqn:?
    | |- context [match ?g with Handshake => _ | Authenticating => _ | Accepted => _ end] => destruct g
    end; setters; rewrite ?(proj1 (SI _ _)), ?(proj2 (SI _ _)), ?(proj1 (OI _ _)), ?(proj2 (OI _ _)); setters;
    rewrite ?(proj1 (OI _ _)), ?(proj2 (OI _ _)); setters; auto.
  - exfalso. apply F. destruct (authenticated s); [discriminate T|reflexivity].
  - exfalso. apply F. cbn [orb] in *. congruence.
  - exfalso. apply F. reflexivity.
  - exfalso. apply F. exists c0, g0. split; [assumption|]. match goal with H : s_dead c0 && _ = true |- _ => apply andb_prop in H as [H _]; exact H end.
Qed.
Print Assumptions C86_causes.

(** ... and when it is ended by a broken packet, by the administrator or
    because the client has not logged in in time, the client is told. *)
Theorem C86_told : forall dbg evs, let s := run dbg start evs in
  living s ->
  told s (run dbg s [InBad]) /\ told s (run dbg s [Terminate]) /\
  (authenticated s = false -> told s (run dbg s [AuthTimeout])).
Proof.
  intros dbg evs s L. assert (L' := L). destruct L' as (D & Ds & Ab). assert (T : timer_inv s) by (apply run_timer; assumption). specialize (T Ds D).
  clearbody s. cbn [run fold_left]. unfold step. rewrite Ds, Ab. cbn [orb handle]. unfold input. rewrite D.
  split; [apply disconnect_ends; exact L|]. split; [apply disconnect_ends; exact L|].
  intros A. rewrite T, A. cbn [negb].
  change (told (set_auth (user_auth s) false false s) (DoDisconnect dbg (set_auth (user_auth s) false false s))).
  apply disconnect_ends. exact L.
Qed.
Print Assumptions C86_told.

(** ... and the same when the connection to the backend is lost. *)
Theorem C86_backend_told : forall dbg evs e, let s := run dbg start evs in
  living s -> outgoing s <> None -> e = OutWriteError \/ e = OutClosed -> told s (run dbg s [e]) /\ outgoing (run dbg s [e]) = None.
Proof.
  intros dbg evs e s L O E. assert (L' := L). destruct L' as (D & Ds & Ab). clearbody s.
  assert (G : told s (OutgoingGone dbg s) /\ outgoing (OutgoingGone dbg s) = None).
  { split; [exact (disconnect_ends dbg (set_proxy None false s) L)|]. unfold OutgoingGone, DoDisconnect, SendPacket, OnDisconnecting.
    cbv zeta. setters. rewrite D. cbn [andb]. setters. destruct (s_encrypted _); reflexivity. }
  cbn [run fold_left]. unfold step. rewrite Ds, Ab. cbn [orb].
  destruct E as [-> | ->]; cbn [handle]; destruct (outgoing s) as [[]|]; try congruence; exact G.
Qed.
Print Assumptions C86_backend_told.

(** Nothing of the client reaches a backend which has not accepted it. *)
Theorem C86_not_before : forall dbg evs n, let s := run dbg start evs in
  disposed s = false -> aborted s = false -> waits_for_backend s -> out_sent (run dbg s [InProxied n]) = out_sent s.
Proof.
  intros dbg evs n s Ds Ab (c & g & O & G). assert (I : inv s) by (apply run_always; assumption). clearbody s.
  cbn [run fold_left]. unfold step. rewrite Ds, Ab. cbn [orb handle]. unfold input.
  destruct (s_dead (client s)); [reflexivity|]. destruct (proxy_handlers s) eqn:P.
  - destruct (i_proxy s I P) as (c' & E). congruence.
  - apply send_keeps.
Qed.
Print Assumptions C86_not_before.

Example C86_causes_demo :
  let s := run true start [InAnswered 20; InEncrypted; InAuth; AuthRefused] in
  living s /\ authenticated s = false /\ ~ fatal s (Flushed 2) /\ fatal s AuthTimeout /\
  let s' := run true start [InAnswered 20; InEncrypted; InAuth; AuthLocal; InStart 1] in
  living s' /\ ~ fatal s' AuthTimeout /\ ~ fatal s' (Output 1 94) /\
  let s'' := run true start proxied in
  living s'' /\ waits_for_backend s''.
Proof.
  split; [repeat split|]. split; [reflexivity|]. split; [exact (fun x => x)|]. split; [reflexivity|].
  split; [repeat split|]. split; [intros X; change (true = false) in X; discriminate X|]. split; [exact (fun x => x)|].
  split; [repeat split|]. eexists. eexists. split; [reflexivity|discriminate].
Qed.

(** The connection to the backend is never lost silently: when it is gone,
    the client's connection is dying or gone, too. *)
Theorem C86_both : forall dbg evs e,
  outgoing (run dbg start evs) <> None -> outgoing (run dbg start (evs ++ [e])) = None ->
  disposed (run dbg start (evs ++ [e])) = true \/ dying (run dbg start (evs ++ [e])).
Proof.
  intros dbg evs e H H'. unfold dying. rewrite run_app in *. set (s := run dbg start evs) in *. cbn [run fold_left] in *.
  unfold step in *. destruct (disposed s || aborted s); [congruence|].
  destruct (disposed (handle dbg s e)) eqn:D; [left; reflexivity|]. right. split; [|reflexivity].
  destruct (handle_both dbg s e H H'); congruence.
Qed.
Print Assumptions C86_both.

(** ... and it goes with the client's connection. *)
Theorem C86_gone : forall dbg evs, let s := run dbg start evs in
  disposed s = true -> outgoing s = None /\ user_auth s = None /\ pending s = [] /\ listeners s = [].
Proof.
  intros dbg evs s. subst s. induction evs as [|e t IH] using rev_ind; [discriminate|].
  rewrite run_app. cbn [run fold_left]. fold (run dbg start t). set (s := run dbg start t) in *. clearbody s.
  unfold step. destruct (disposed s) eqn:D; [cbn [orb]; intros _; auto|]. clear IH.
  destruct (aborted s); [cbn [orb]; congruence|]. cbn [orb].
  assert (Sd : forall m s, disposed (SendPacket dbg m s) = disposed s) by (intros; apply send_keeps).
  assert (So : forall m s, disposed (SendOut dbg m s) = disposed s).
  { intros m x. unfold SendOut. destruct (outgoing x) as [[]|]; [|reflexivity]. destruct (_ && _); reflexivity. }
  assert (Dd : forall s, disposed s = false -> disposed (DoDisconnect dbg s) = true ->
    outgoing (DoDisconnect dbg s) = None /\ user_auth (DoDisconnect dbg s) = None /\
    pending (DoDisconnect dbg s) = [] /\ listeners (DoDisconnect dbg s) = []).
  { intros x Dx. unfold DoDisconnect. destruct (s_dead (client x)); [congruence|]. cbv zeta.
    destruct (s_encrypted _); [|intros _; auto]. cbn [set_client disposed]. rewrite Sd. cbn. congruence. }
  assert (Go : disposed (OutgoingGone dbg s) = true ->
    outgoing (OutgoingGone dbg s) = None /\ user_auth (OutgoingGone dbg s) = None /\
    pending (OutgoingGone dbg s) = [] /\ listeners (OutgoingGone dbg s) = []) by (apply Dd; exact D).
  destruct e; cbn [handle]; unfold input, out_input; cbv zeta;
    try (destruct (outgoing s) as [[c0 g0]|] eqn:O; [|intros; congruence]);
    repeat match goal with
    | |- context [match user_auth ?x with _ => _ end] => destruct (user_auth x) as [[]|]
    | |- context [if ?b then _ else _] => destruct b eqn:?
    | |- context [match ?g with Handshake => _ | Authenticating => _ | Accepted => _ end] => destruct g
    end; setters; rewrite ?Sd, ?So; setters; rewrite ?So; setters; try congruence; try (intros _; auto; fail); try (apply Dd; exact D); try exact Go.
  all: try (apply Dd; exact D).
  - unfold OutDoDisconnect. rewrite O, Heqb. cbv zeta. destruct (s_encrypted c0).
    + destruct (outgoing (SendOut dbg Farewell s)) as [[c g]|] eqn:E; setters; rewrite So; congruence.
    + apply Dd. cbn [set_proxy disposed]. rewrite So. exact D.
Qed.
Print Assumptions C86_gone.

Example C86_both_demo :
  let evs := proxied ++ [OutService true 50; OutSuccess 80 52] in
  outgoing (run true start evs) <> None /\
  outgoing (run true start (evs ++ [OutClosed])) = None /\
  dying (run true start (evs ++ [OutClosed])) /\
  disposed (run true start (evs ++ [Closed])) = true.
Proof.
  split; [intros X; assert (Y : match outgoing (run true start (proxied ++ [OutService true 50; OutSuccess 80 52])) with Some _ => true | None => false end = true) by reflexivity;
    rewrite X in Y; discriminate Y|].
  split; [reflexivity|]. split; [split; reflexivity|reflexivity].
Qed.
