(** Invariants of Model/Dying.v. *)

From Coq Require Import NArith List Bool Lia.
From Verif.Base Require Import Bytes.
From Verif.Model Require Import Dying.
From Verif.Spec Require Import DyingSpec.
Import ListNotations.
Open Scope N_scope.

Lemma farewells_app : forall a b, farewells (a ++ b) = (farewells a + farewells b)%nat.
Proof. intros a b. unfold farewells. rewrite filter_app, app_length. reflexivity. Qed.

Lemma farewells_msg : forall l n, farewells (l ++ [Msg n]) = farewells l.
Proof. intros l n. rewrite farewells_app. cbn. lia. Qed.

Lemma farewells_farewell : forall l, farewells (l ++ [Farewell]) = S (farewells l).
Proof. intros l. rewrite farewells_app. cbn. lia. Qed.

Lemma last_word_snoc : forall l m, farewells l = 0%nat -> last_word (l ++ [m]).
Proof.
  intros l m H before after E. destruct after as [|x after] using rev_ind; [reflexivity|]. exfalso. clear IHafter.
  change (before ++ Farewell :: after ++ [x]) with (before ++ (Farewell :: after) ++ [x]) in E.
  rewrite app_assoc in E. apply app_inj_tail in E as [-> _].
  rewrite farewells_app in H. unfold farewells in H at 2. cbn [filter List.length] in H. lia.
Qed.

Lemma last_word_none : forall l, farewells l = 0%nat -> last_word l.
Proof.
  intros l H before after E. subst l. rewrite farewells_app in H. unfold farewells in H at 2. cbn [filter List.length] in H. lia.
Qed.

(** ** The invariant *)

Record inv (s : state) : Prop := {
  i_alive : s_dead (client s) = false -> farewells (sent s) = 0%nat;
  i_dead : s_dead (client s) = true ->
    farewells (sent s) = 1%nat /\ user_auth s = None /\ auth_timer s = false /\ pending s = [] /\ listeners s = [] /\
    s_rekey (client s) = false /\ 0 < s_waiting (client s) /\ s_encrypted (client s) = true;
  i_proxy : proxy_handlers s = true -> exists c, outgoing s = Some (c, Accepted);
  i_out : forall c g, outgoing s = Some (c, g) ->
    (s_dead c = false -> farewells (out_sent s) = 0%nat) /\
    (s_dead c = true -> farewells (out_sent s) = 1%nat /\ 0 < s_waiting c /\ s_rekey c = false) /\
    (s_encrypted c = false -> g = Handshake);
  i_fresh : s_encrypted (client s) = false \/ user_auth s <> None -> outgoing s = None /\ out_sent s = [];
  i_serves : services s = true -> outgoing s = None /\ user_auth s = None /\ s_encrypted (client s) = true;
  i_after : user_auth s <> None -> s_encrypted (client s) = true;
  i_out_once : (farewells (out_sent s) <= 1)%nat
}.

(** what holds even after the end *)
Definition always (s : state) : Prop :=
  (farewells (sent s) <= 1)%nat /\ (farewells (out_sent s) <= 1)%nat /\
  (disposed s = false -> aborted s = false -> inv s).

Lemma inv_always : forall s, inv s -> always s.
Proof.
  intros s I. split; [|split; [apply I|auto]].
  destruct (s_dead (client s)) eqn:D; [rewrite (proj1 (i_dead s I D))|rewrite (i_alive s I D)]; lia.
Qed.

Lemma inv_start : inv start.
Proof.
  constructor; cbn; try discriminate; auto.
Qed.

Lemma abort_always : forall s, always s -> always (abort s).
Proof. intros s (A & B & C). split; [exact A|]. split; [exact B|]. intros _ X. discriminate X. Qed.

Lemma dispose_always : forall s, (farewells (sent s) <= 1)%nat -> (farewells (out_sent s) <= 1)%nat -> always (Dispose s).
Proof. intros s A B. split; [exact A|]. split; [exact B|]. intros X. discriminate X. Qed.

Ltac setters := cbn [client disposed aborted user_auth auth_timer authenticated services pending listeners outgoing proxy_handlers
  sent out_sent set_side set_client set_sent set_auth set_services set_proxy abort Dispose s_encrypted s_dead s_waiting s_rekey] in *.

Lemma send_inv : forall dbg n s, inv s -> aborted s = false -> inv (SendPacket dbg (Msg n) s) \/ SendPacket dbg (Msg n) s = abort s.
Proof.
  intros dbg n s I Ab. unfold SendPacket. cbv zeta. destruct (s_dead (client s) && dbg); [right; reflexivity|]. left.
  destruct I. constructor; setters; auto.
  - intros D. rewrite farewells_msg. auto.
  - intros D. rewrite farewells_msg. destruct (i_dead0 D) as (? & ? & ? & ? & ? & ? & ? & ?).
    repeat split; auto; lia.
Qed.

Lemma sendout_inv : forall dbg n s, inv s -> aborted s = false -> inv (SendOut dbg (Msg n) s) \/ SendOut dbg (Msg n) s = abort s.
Proof.
  intros dbg n s I Ab. unfold SendOut. destruct (outgoing s) as [[c g]|] eqn:O; [|left; exact I].
  destruct (s_dead c && dbg); [right; reflexivity|]. left.
  destruct I. destruct (i_out0 c g O) as (X1 & X2 & X3).
  constructor; setters; auto.
  - intros P. destruct (i_proxy0 P) as (c' & E). rewrite O in E. injection E as -> ->. eexists. reflexivity.
  - intros c' g' E. injection E as <- <-. setters. rewrite farewells_msg. split; [exact X1|]. split; [|exact X3].
    intros D. destruct (X2 D) as (? & ? & ?). repeat split; auto. lia.
  - intros H. destruct (i_fresh0 H) as [E _]. congruence.
  - intros H. destruct (i_serves0 H) as [E _]. congruence.
  - rewrite farewells_msg. exact i_out_once0.
Qed.

Lemma send_keeps : forall dbg m s, outgoing (SendPacket dbg m s) = outgoing s /\ out_sent (SendPacket dbg m s) = out_sent s /\
  disposed (SendPacket dbg m s) = disposed s /\ services (SendPacket dbg m s) = services s /\
  user_auth (SendPacket dbg m s) = user_auth s /\ proxy_handlers (SendPacket dbg m s) = proxy_handlers s.
Proof. intros dbg m s. unfold SendPacket. cbv zeta. destruct (_ && _); setters; auto 8. Qed.

Lemma disconnect_always : forall dbg s, inv s -> disposed s = false -> aborted s = false ->
  always (DoDisconnect dbg s) /\
  (aborted (DoDisconnect dbg s) = false) /\
  (disposed (DoDisconnect dbg s) = true \/ s_dead (client (DoDisconnect dbg s)) = true).
Proof.
  intros dbg s I Ds Ab. unfold DoDisconnect. destruct (s_dead (client s)) eqn:D.
  { split; [apply inv_always; exact I|]. auto. }
  unfold SendPacket, OnDisconnecting. cbv zeta. setters. rewrite D. cbn [andb]. setters.
  destruct (s_encrypted (client s)) eqn:En; setters.
  2:{ split; [|auto]. destruct (inv_always s I) as (A & B & C). split; [|split]; setters; auto; [|discriminate].
      rewrite farewells_farewell, (i_alive s I D). lia. }
  split; [|split; [exact Ab|right; reflexivity]].
  destruct I. apply inv_always. constructor; setters; auto; try congruence.
  - intros _. rewrite farewells_farewell, (i_alive0 D). repeat split; auto; lia.
  - intros [X|X]; [rewrite En in X; discriminate|congruence].
  - intros X. destruct (i_serves0 X) as (? & ? & ?). auto.
Qed.

Lemma gone_inv : forall s, inv s -> inv (set_proxy None false s).
Proof.
  intros s I. destruct I. constructor; setters; auto; try discriminate.
  - intros X. destruct (i_fresh0 X). auto.
  - intros X. destruct (i_serves0 X) as (? & ? & ?). auto.
Qed.

Lemma outgone_always : forall dbg s, inv s -> disposed s = false -> aborted s = false ->
  always (OutgoingGone dbg s) /\ aborted (OutgoingGone dbg s) = false /\
  (disposed (OutgoingGone dbg s) = true \/ s_dead (client (OutgoingGone dbg s)) = true).
Proof. intros dbg s I Ds Ab. unfold OutgoingGone. apply disconnect_always; [apply gone_inv; exact I|exact Ds|exact Ab]. Qed.

(** between DISCONNECT and OutgoingGone() the invariant is broken, so look
    at the whole function *)
Lemma outdisconnect_always : forall dbg s, inv s -> disposed s = false -> aborted s = false ->
  always (OutDoDisconnect dbg s) /\ aborted (OutDoDisconnect dbg s) = false.
Proof.
  intros dbg s I Ds Ab. unfold OutDoDisconnect. destruct (outgoing s) as [[c g]|] eqn:O; [|split; [apply inv_always; exact I|exact Ab]].
  destruct (s_dead c) eqn:D; [split; [apply inv_always; exact I|exact Ab]|].
  destruct (i_out s I c g O) as (X1 & X2 & X3).
  unfold SendOut. rewrite O, D. cbn [andb]. setters.
  destruct (s_encrypted c) eqn:En.
  - split; [|exact Ab]. destruct I. apply inv_always. constructor; setters; auto.
    + intros P. destruct (i_proxy0 P) as (c' & E). rewrite O in E. injection E as -> ->. eexists. reflexivity.
    + intros c' g' E. injection E as <- <-. setters. split; [discriminate|]. split; [|congruence].
      intros _. rewrite farewells_farewell, (X1 D). repeat split; lia.
    + intros H. destruct (i_fresh0 H) as [E _]. congruence.
    + intros H. destruct (i_serves0 H) as [E _]. congruence.
    + rewrite farewells_farewell, (X1 D). lia.
  - set (s2 := set_proxy _ _ _).
    assert (I2 : inv (set_proxy None false s2)).
    { destruct I. constructor; subst s2; setters; auto; try discriminate.
      - intros H. destruct (i_fresh0 H) as [E _]. congruence.
      - intros H. destruct (i_serves0 H) as (E & _). congruence.
      - rewrite farewells_farewell, (X1 D). lia. }
    unfold OutgoingGone. destruct (disconnect_always dbg _ I2) as (A & B & _); [exact Ds|exact Ab|auto].
Qed.

Lemma or_always : forall s s', always s -> aborted s = false -> inv s' \/ s' = abort s -> always s'.
Proof. intros s s' A Ab [I| ->]; [apply inv_always; exact I|apply abort_always; exact A]. Qed.

Lemma alive_auth : forall s, inv s -> user_auth s <> None -> s_dead (client s) = false.
Proof.
  intros s I U. destruct (s_dead (client s)) eqn:D; [|reflexivity]. destruct (i_dead s I D) as (_ & X & _). congruence.
Qed.

Lemma handle_always : forall dbg s e, inv s -> disposed s = false -> aborted s = false -> always (handle dbg s e).
Proof.
  intros dbg s e I Ds Ab. assert (AI := inv_always s I).
  assert (SI : forall n, always (SendPacket dbg (Msg n) s)) by (intros n; eapply or_always; [exact AI|exact Ab|apply send_inv; assumption]).
  assert (OI : forall n, always (SendOut dbg (Msg n) s)) by (intros n; eapply or_always; [exact AI|exact Ab|apply sendout_inv; assumption]).
  assert (DI : always (DoDisconnect dbg s)) by (apply disconnect_always; assumption).
  assert (GI : always (OutgoingGone dbg s)) by (apply outgone_always; assumption).
  assert (PI : always (Dispose s)) by (destruct AI as (? & ? & ?); apply dispose_always; assumption).
  assert (AA := alive_auth s I).
  destruct e; cbn [handle]; unfold input, out_input; cbv zeta;
    try (destruct (outgoing s) as [[c0 g0]|] eqn:O; [|assumption]);
    try (destruct (s_dead c0) eqn:D0; [assumption|]);
    try (destruct (s_dead (client s)) eqn:D; [assumption|]);
    try (apply OI); try (apply SI); try assumption.
  - (* InEncrypted *)
    cbv zeta. destruct (s_encrypted (client s)) eqn:En; [assumption|]. destruct I. apply inv_always.
    destruct (i_fresh0 (or_introl En)) as [F1 F2].
    constructor; setters; auto; try congruence.
    intros X. destruct (i_serves0 X) as (_ & _ & ?). congruence.
  - (* InAuth *)
    destruct (user_auth s) as [[]|] eqn:U; try assumption. destruct (authenticated s); [assumption|].
    destruct I. apply inv_always. constructor; setters; auto; try congruence.
    + intros _. apply i_fresh0. right. congruence.
    + intros X. destruct (i_serves0 X) as (_ & ? & _). congruence.
    + intros _. apply i_after0. congruence.
  - (* InStart *)
    destruct (services s) eqn:Se; [|assumption]. destruct I. apply inv_always. constructor; setters; auto; congruence.
  - destruct (services s) eqn:Se; [|assumption]. destruct I. apply inv_always. constructor; setters; auto; congruence.
  - (* InProxied *) destruct (proxy_handlers s); auto.
  - (* AuthRefused *)
    destruct (user_auth s) as [[]|] eqn:U; try assumption. destruct (authenticated s) eqn:Au; [assumption|].
    assert (D : s_dead (client s) = false) by (apply AA; congruence).
    unfold SendPacket. cbv zeta. rewrite D. cbn [andb]. destruct I. apply inv_always. constructor; setters; auto; try congruence.
    + intros _. rewrite farewells_msg. auto.
    + intros _. apply i_fresh0. right. congruence.
    + intros X. destruct (i_serves0 X) as (_ & ? & _). congruence.
    + intros _. apply i_after0. congruence.
  - (* AuthLocal *)
    destruct (user_auth s) as [[]|] eqn:U; try assumption. destruct (authenticated s) eqn:Au; [assumption|].
    assert (D : s_dead (client s) = false) by (apply AA; congruence).
    unfold SendPacket. cbv zeta. rewrite D. cbn [andb]. destruct I.
    assert (Un : user_auth s <> None) by congruence. destruct (i_fresh0 (or_intror Un)) as [F1 F2].
    assert (En : s_encrypted (client s) = true) by (apply i_after0; congruence).
    apply inv_always. constructor; setters; auto; try congruence.
    intros _. rewrite farewells_msg. auto.
  - (* AuthProxy *)
    destruct (user_auth s) as [[]|] eqn:U; try assumption. destruct (authenticated s) eqn:Au; [assumption|].
    assert (D : s_dead (client s) = false) by (apply AA; congruence).
    destruct I. apply inv_always. constructor; setters; auto; try congruence.
    + intros _. apply i_fresh0. right. congruence.
    + intros X. destruct (i_serves0 X) as (_ & ? & _). congruence.
    + intros _. apply i_after0. congruence.
  - (* AuthConnected *)
    destruct (user_auth s) as [[]|] eqn:U; try assumption. destruct (authenticated s) eqn:Au; [|assumption].
    assert (D : s_dead (client s) = false) by (apply AA; congruence).
    destruct I. assert (Un : user_auth s <> None) by congruence. destruct (i_fresh0 (or_intror Un)) as [F1 F2].
    assert (En : s_encrypted (client s) = true) by (apply i_after0; congruence).
    apply inv_always. constructor; setters; auto; try congruence.
    + intros c g E. injection E as <- <-. rewrite F2. cbn. repeat split; auto; discriminate.
    + intros [X|X]; congruence.
    + intros X. destruct (i_serves0 X) as (_ & ? & _). congruence.
  - destruct (user_auth s) as [[]|] eqn:U; assumption.
  - destruct (user_auth s) as [[]|] eqn:U; assumption.
  - (* Output *) destruct (has _ _); auto.
  - (* Finished *)
    destruct I. apply inv_always. constructor; setters; auto.
    intros D. destruct (i_dead0 D) as (? & ? & ? & E & ? & ? & ? & ?). rewrite E. auto 10.
  - destruct (has _ _); auto.
  - destruct (has _ _); auto.
  - (* AuthTimeout *)
    destruct (auth_timer s) eqn:T; [|assumption].
    assert (I' : inv (set_auth (user_auth s) false (authenticated s) s)).
    { destruct I. constructor; setters; auto. intros D. destruct (i_dead0 D) as (? & ? & ? & ? & ? & ? & ? & ?). congruence. }
    apply disconnect_always; assumption.
  - destruct (s_rekey _); auto.
  - (* Flushed *)
    destruct (s_waiting (client s) <? k) eqn:K; [assumption|]. apply N.ltb_ge in K.
    destruct (s_dead (client s)) eqn:D; cbn [andb].
    + destruct (s_waiting (client s) - k =? 0) eqn:Z.
      * destruct AI as (? & ? & ?). apply dispose_always; assumption.
      * apply N.eqb_neq in Z. destruct I. apply inv_always. constructor; setters; auto; try congruence.
        intros _. destruct (i_dead0 D) as (? & ? & ? & ? & ? & ? & ? & ?). repeat split; auto. lia.
    + destruct I. apply inv_always. constructor; setters; auto; congruence.
  - destruct blocked; assumption.
  - (* OutEncrypted *)
    destruct (s_encrypted c0) eqn:E0; [assumption|].
    set (s1 := set_proxy _ _ _). assert (I1 : inv s1).
    { destruct (i_out s I c0 g0 O) as (X1 & X2 & X3). destruct I. constructor; subst s1; setters; auto.
      - intros P. destruct (i_proxy0 P) as (c' & E). rewrite O in E. injection E as -> ->. specialize (X3 E0). discriminate.
      - intros c g E. injection E as <- <-. setters. repeat split; auto; discriminate.
      - intros H. destruct (i_fresh0 H) as [E _]. congruence.
      - intros H. destruct (i_serves0 H) as [E _]. congruence. }
    eapply or_always; [apply inv_always; exact I1|exact Ab|]. apply sendout_inv; [exact I1|exact Ab].
  - (* OutService *) destruct g0; try assumption. destruct host_key; auto.
  - (* OutSuccess *)
    destruct g0; try assumption.
    destruct (i_out s I c0 _ O) as (X1 & X2 & X3).
    unfold SendOut. setters. cbn [andb].
    set (s1 := set_proxy _ _ _). assert (I1 : inv s1).
    { destruct I. constructor; subst s1; setters; auto.
      - intros P. destruct (i_proxy0 P) as (c' & E). rewrite O in E. discriminate.
      - intros c g E. injection E as <- <-. setters. rewrite farewells_msg. split; [auto|]. split; [discriminate|].
        intros E. specialize (X3 E). discriminate.
      - intros H. destruct (i_fresh0 H) as [E _]. congruence.
      - intros H. destruct (i_serves0 H) as [E _]. congruence.
      - rewrite farewells_msg. auto. }
    destruct (s_dead (client s1) && dbg); [apply abort_always, inv_always, I1|].
    assert (I2 : inv (set_proxy (outgoing s1) true s1)).
    { destruct I1. constructor; subst s1; setters; auto. intros _. eexists. reflexivity. }
    eapply or_always; [apply inv_always; exact I2|exact Ab|]. apply send_inv; [exact I2|exact Ab].
  - (* OutFailure *) destruct g0; assumption.
  - (* OutProxied *) destruct (proxy_handlers s); auto.
  - (* OutBad *) apply outdisconnect_always; assumption.
  - (* OutRekeyTimer *) destruct (s_rekey c0); auto.
  - (* OutFlushed *)
    destruct (s_waiting c0 <? k) eqn:K; [assumption|]. apply N.ltb_ge in K.
    destruct (i_out s I c0 _ O) as (X1 & X2 & X3).
    destruct (s_dead c0 && (s_waiting c0 - k =? 0)) eqn:Z.
    + unfold OutgoingGone. apply disconnect_always; [|exact Ds|exact Ab]. apply (gone_inv s I).
    + destruct I. apply inv_always. constructor; setters; auto.
      * intros P. destruct (i_proxy0 P) as (c' & E). rewrite O in E. injection E as -> ->. eexists. reflexivity.
      * intros c g E. injection E as <- <-. setters. split; [exact X1|]. split; [|exact X3].
        intros D. destruct (X2 D) as (? & ? & ?). rewrite D in Z. cbn [andb] in Z. apply N.eqb_neq in Z.
        repeat split; auto. lia.
      * intros H. destruct (i_fresh0 H) as [E _]. congruence.
      * intros H. destruct (i_serves0 H) as [E _]. congruence.
  - destruct blocked; assumption.
Qed.

Lemma step_always : forall dbg s e, always s -> always (step dbg s e).
Proof.
  intros dbg s e A. unfold step. destruct (disposed s || aborted s) eqn:E; [exact A|].
  apply orb_false_elim in E as [E1 E2]. apply handle_always; auto. apply A; assumption.
Qed.

Lemma run_app : forall dbg s a b, run dbg s (a ++ b) = run dbg (run dbg s a) b.
Proof. intros dbg s a b. unfold run. apply fold_left_app. Qed.

Lemma run_always : forall dbg evs, always (run dbg start evs).
Proof.
  intros dbg evs. induction evs as [|e t IH] using rev_ind; [apply inv_always, inv_start|].
  rewrite run_app. apply step_always. exact IH.
Qed.

(** ** Without the two bad events *)

(** the two events after which something is sent on a dying connection *)
Definition harmless (s : state) (e : event) : Prop :=
  match e with
  | OutSuccess _ _ => s_dead (client s) = false
  | InProxied _ => forall c g, outgoing s = Some (c, g) -> s_dead c = false
  | _ => True
  end.

Record clean (s : state) : Prop := {
  c_fine : aborted s = false;
  c_sent : last_word (sent s);
  c_out_sent : last_word (out_sent s);
  c_proxy : disposed s = false -> proxy_handlers s = true -> s_dead (client s) = false
}.

Lemma clean_start : clean start.
Proof. constructor; cbn; auto; apply last_word_none; reflexivity. Qed.

Lemma dispose_clean : forall s, clean s -> clean (Dispose s).
Proof. intros s C. destruct C. constructor; setters; auto; discriminate. Qed.

Lemma send_clean : forall dbg m s, inv s -> clean s -> s_dead (client s) = false -> clean (SendPacket dbg m s).
Proof.
  intros dbg m s I C D. unfold SendPacket. cbv zeta. rewrite D. cbn [andb]. destruct C. constructor; setters; auto.
  apply last_word_snoc. apply I. exact D.
Qed.

Lemma sendout_clean : forall dbg m s, inv s -> clean s -> (forall c g, outgoing s = Some (c, g) -> s_dead c = false) ->
  clean (SendOut dbg m s).
Proof.
  intros dbg m s I C D. unfold SendOut. destruct (outgoing s) as [[c g]|] eqn:O; [|exact C].
  rewrite (D c g eq_refl). cbn [andb]. destruct C. constructor; setters; auto.
  apply last_word_snoc. apply (proj1 (i_out s I c g O)). eapply D. reflexivity.
Qed.

Lemma disconnect_clean : forall dbg s, inv s -> clean s -> clean (DoDisconnect dbg s).
Proof.
  intros dbg s I C. unfold DoDisconnect. destruct (s_dead (client s)) eqn:D; [exact C|].
  unfold SendPacket, OnDisconnecting. cbv zeta. setters. rewrite D. cbn [andb]. setters.
  destruct C. destruct (s_encrypted (client s)); constructor; setters; auto; try discriminate;
    apply last_word_snoc; apply I; exact D.
Qed.

Lemma outgone_clean : forall dbg s, inv s -> clean s -> clean (OutgoingGone dbg s).
Proof.
  intros dbg s I C. unfold OutgoingGone. apply disconnect_clean; [apply gone_inv; exact I|].
  destruct C. constructor; setters; auto. discriminate.
Qed.

Lemma outdisconnect_clean : forall dbg s, inv s -> clean s -> clean (OutDoDisconnect dbg s).
Proof.
  intros dbg s I C. unfold OutDoDisconnect. destruct (outgoing s) as [[c g]|] eqn:O; [|exact C].
  destruct (s_dead c) eqn:D; [exact C|].
  destruct (i_out s I c g O) as (X1 & X2 & X3).
  unfold SendOut. rewrite O, D. cbn [andb]. setters. assert (L := last_word_snoc (out_sent s) Farewell (X1 D)).
  destruct (s_encrypted c) eqn:En.
  - destruct C. constructor; setters; auto.
  - unfold OutgoingGone. apply disconnect_clean.
    + destruct I. constructor; setters; auto; try discriminate.
      * intros H. destruct (i_fresh0 H) as [E _]. congruence.
      * intros H. destruct (i_serves0 H) as (E & _). congruence.
      * rewrite farewells_farewell, (X1 D). lia.
    + destruct C. constructor; setters; auto. discriminate.
Qed.

Lemma handle_clean : forall dbg s e, inv s -> disposed s = false -> harmless s e -> clean s -> clean (handle dbg s e).
Proof.
  intros dbg s e I Ds H C.
  assert (AA := alive_auth s I).
  assert (SI : forall n, s_dead (client s) = false -> clean (SendPacket dbg (Msg n) s)) by (intros n; apply send_clean; assumption).
  assert (OI : forall n, (forall c g, outgoing s = Some (c, g) -> s_dead c = false) -> clean (SendOut dbg (Msg n) s))
    by (intros n; apply sendout_clean; assumption).
  assert (DI : clean (DoDisconnect dbg s)) by (apply disconnect_clean; assumption).
  assert (GI : clean (OutgoingGone dbg s)) by (apply outgone_clean; assumption).
  assert (PI : clean (Dispose s)) by (apply dispose_clean; assumption).
  destruct e; cbn [handle harmless] in *; unfold input, out_input; cbv zeta;
    try (destruct (outgoing s) as [[c0 g0]|] eqn:O; [|assumption]);
    try (destruct (s_dead c0) eqn:D0; [assumption|]);
    try (destruct (s_dead (client s)) eqn:D; [assumption|]);
    try assumption.
  - destruct (s_encrypted (client s)); [assumption|]. destruct C. constructor; setters; auto.
  - apply SI. reflexivity.
  - destruct (user_auth s) as [[]|]; try assumption. destruct (authenticated s); [assumption|].
    destruct C. constructor; setters; auto.
  - destruct (services s); [|assumption]. destruct C. constructor; setters; auto.
  - destruct (services s); [|assumption]. destruct C. constructor; setters; auto.
  - destruct (proxy_handlers s); auto.
  - destruct (user_auth s) as [[]|] eqn:U; try assumption. destruct (authenticated s); [assumption|].
    assert (D : s_dead (client s) = false) by (apply AA; congruence).
    destruct (SI 51 D). constructor; setters; auto.
  - destruct (user_auth s) as [[]|] eqn:U; try assumption. destruct (authenticated s); [assumption|].
    assert (D : s_dead (client s) = false) by (apply AA; congruence).
    destruct (SI 52 D). constructor; setters; auto.
  - destruct (user_auth s) as [[]|] eqn:U; try assumption. destruct (authenticated s); [assumption|].
    destruct C. constructor; setters; auto.
  - destruct (user_auth s) as [[]|] eqn:U; try assumption. destruct (authenticated s); [|assumption].
    destruct C. constructor; setters; auto. discriminate.
  - destruct (user_auth s) as [[]|] eqn:U; assumption.
  - destruct (user_auth s) as [[]|] eqn:U; assumption.
  - destruct (has id (pending s)) eqn:Hs; [|assumption]. apply SI.
    destruct (s_dead (client s)) eqn:D; [|reflexivity]. destruct (i_dead s I D) as (_ & _ & _ & E & _). rewrite E in Hs. discriminate Hs.
  - destruct C. constructor; setters; auto.
  - destruct (has id (pending s)); assumption.
  - destruct (has id (listeners s)) eqn:Hs; [|assumption]. apply SI.
    destruct (s_dead (client s)) eqn:D; [|reflexivity]. destruct (i_dead s I D) as (_ & _ & _ & _ & E & _). rewrite E in Hs. discriminate Hs.
  - destruct (auth_timer s) eqn:T; [|assumption]. apply disconnect_clean.
    + destruct I. constructor; setters; auto. intros D. destruct (i_dead0 D) as (? & ? & ? & ? & ? & ? & ? & ?). congruence.
    + destruct C. constructor; setters; auto.
  - destruct (s_rekey (client s)) eqn:R; [|assumption]. apply SI.
    destruct (s_dead (client s)) eqn:D; [|reflexivity]. destruct (i_dead s I D) as (_ & _ & _ & _ & _ & E & _). congruence.
  - destruct (s_waiting (client s) <? k); [assumption|].
    destruct (s_dead (client s) && _); [apply dispose_clean|]; destruct C; constructor; setters; auto.
  - destruct blocked; assumption.
  - (* OutEncrypted *)
    destruct (s_encrypted c0) eqn:E0; [assumption|].
    destruct (i_out s I c0 g0 O) as (X1 & X2 & X3).
    unfold SendOut. setters. cbn [andb]. destruct C. constructor; setters; auto. apply last_word_snoc. auto.
  - destruct g0; try assumption. destruct host_key; [|assumption]. apply OI. intros c g E. congruence.
  - (* OutSuccess *)
    destruct g0; try assumption. destruct (i_out s I c0 _ O) as (X1 & X2 & X3).
    unfold SendOut, SendPacket. setters. cbv zeta. cbn [andb]. setters. rewrite H. cbn [andb].
    destruct C. constructor; setters; auto; apply last_word_snoc; auto. apply I. exact H.
  - destruct g0; assumption.
  - apply OI. intros c g E. congruence.
  - destruct (proxy_handlers s) eqn:P; [apply SI; apply C; assumption|]. apply OI. intros c g E. congruence.
  - apply outdisconnect_clean; assumption.
  - destruct (s_rekey c0) eqn:R; [|assumption]. apply OI. intros c g E. injection E as <- <-.
    destruct (i_out s I c0 _ O) as (X1 & X2 & X3). destruct (s_dead c0) eqn:D; [|reflexivity].
    destruct (X2 eq_refl) as (_ & _ & ?). congruence.
  - destruct (s_waiting c0 <? k); [assumption|].
    destruct (s_dead c0 && _).
    + unfold OutgoingGone. apply disconnect_clean; [apply (gone_inv s I)|]. destruct C. constructor; setters; auto. discriminate.
    + destruct C. constructor; setters; auto.
  - destruct blocked; assumption.
Qed.

(** ** Both ends *)

Lemma disconnect_end : forall dbg s, disposed (DoDisconnect dbg s) = true \/ s_dead (client (DoDisconnect dbg s)) = true.
Proof.
  intros dbg s. unfold DoDisconnect. destruct (s_dead (client s)) eqn:D; [auto|].
  cbv zeta. destruct (s_encrypted _); [right|left]; reflexivity.
Qed.

Lemma disconnect_outgoing : forall dbg s, disposed (DoDisconnect dbg s) = true \/ outgoing (DoDisconnect dbg s) = outgoing s.
Proof.
  intros dbg s. unfold DoDisconnect. destruct (s_dead (client s)) eqn:D; [auto|]. cbv zeta.
  destruct (s_encrypted _); [right|left; reflexivity]. cbn [set_client outgoing].
  rewrite (proj1 (send_keeps dbg Farewell (OnDisconnecting s))). reflexivity.
Qed.

Lemma sendout_some : forall dbg m s, outgoing s <> None -> outgoing (SendOut dbg m s) <> None.
Proof.
  intros dbg m s H. unfold SendOut. destruct (outgoing s) as [[c g]|] eqn:O; [|congruence].
  destruct (_ && _); setters; [rewrite O|]; discriminate.
Qed.

Lemma handle_both : forall dbg s e, outgoing s <> None -> outgoing (handle dbg s e) = None ->
  disposed (handle dbg s e) = true \/ s_dead (client (handle dbg s e)) = true.
Proof.
  intros dbg s e H H'.
  assert (DO := disconnect_outgoing dbg). assert (DE := disconnect_end dbg).
  assert (SK : forall m s, outgoing (SendPacket dbg m s) = outgoing s) by (intros; apply send_keeps).
  assert (SO := sendout_some dbg).
  destruct e; cbn [handle] in *; unfold input, out_input in *; cbv zeta in *;
    try (destruct (outgoing s) as [[c0 g0]|] eqn:O; [|exfalso; congruence]);
    try (apply DE);
    try (destruct (s_dead (client s)) eqn:D; [congruence|]);
    try (left; reflexivity);
    try (apply DE);
    repeat match goal with
    | |- context [match user_auth ?x with _ => _ end] => destruct (user_auth x) as [[]|]
    | |- context [if ?b then _ else _] => destruct b eqn:?
    | |- context [match ?g with Handshake => _ | Authenticating => _ | Accepted => _ end] => destruct g
    end; setters; try rewrite SK in *; setters; try congruence; try (left; reflexivity); try (apply DE);
    try (exfalso; eapply SO; [|exact H']; setters; congruence).
  unfold OutDoDisconnect in *. rewrite O, Heqb in *. cbv zeta in *.
  destruct (s_encrypted c0); [|apply DE]. exfalso.
  destruct (outgoing (SendOut dbg Farewell s)) as [[c g]|] eqn:E; [discriminate H'|].
  apply (SO Farewell s); [congruence|exact E].
Qed.

Lemma harmless_local : forall dbg evs, ~ In AuthConnected evs ->
  disposed (run dbg start evs) = false -> aborted (run dbg start evs) = false -> outgoing (run dbg start evs) = None.
Proof.
  intros dbg evs. induction evs as [|e t IH] using rev_ind; [reflexivity|]. intros N.
  rewrite run_app. cbn [run fold_left]. set (s := run dbg start t) in *. unfold step.
  assert (N1 : ~ In AuthConnected t) by (intros X; apply N, in_or_app; left; exact X).
  assert (N2 : e <> AuthConnected) by (intros X; apply N, in_or_app; right; left; exact X).
  specialize (IH N1). clearbody s. destruct (disposed s) eqn:D; [cbn [orb]; intros; congruence|].
  destruct (aborted s) eqn:A; [cbn [orb]; intros; congruence|]. specialize (IH eq_refl eq_refl). cbn [orb].
  assert (DO := disconnect_outgoing dbg).
  assert (SK : forall m s, outgoing (SendPacket dbg m s) = outgoing s) by (intros; apply send_keeps).
  destruct e; cbn [handle]; unfold input, out_input; cbv zeta; rewrite ?IH; try congruence;
    repeat match goal with
    | |- context [match user_auth ?x with _ => _ end] => destruct (user_auth x) as [[]|]
    | |- context [if ?b then _ else _] => destruct b eqn:?
    end; setters; rewrite ?SK; setters; try congruence.
  - unfold SendOut. rewrite IH. congruence.
  - intros X _. destruct (DO s) as [Y|Y]; congruence.
  - intros X _. destruct (DO s) as [Y|Y]; congruence.
  - intros X _. destruct (DO (set_auth (user_auth s) false (authenticated s) s)) as [Y|Y]; [congruence|]. rewrite Y. exact IH.
  - intros X _. destruct (DO s) as [Y|Y]; congruence.
Qed.

(** ** The causes *)

Definition timer_inv (s : state) : Prop := disposed s = false -> s_dead (client s) = false -> auth_timer s = negb (authenticated s).

Lemma disconnect_ends : forall dbg s, living s -> told s (DoDisconnect dbg s).
Proof.
  intros dbg s (D & Ds & A). unfold told, dying, DoDisconnect. rewrite D. unfold SendPacket, OnDisconnecting. cbv zeta. setters.
  rewrite D. cbn [andb]. setters. destruct (s_encrypted (client s)); setters; auto.
Qed.

Lemma outgone_ends : forall dbg s, disposed (OutgoingGone dbg s) = true \/ s_dead (client (OutgoingGone dbg s)) = true.
Proof. intros dbg s. apply disconnect_end. Qed.

Lemma timer_disconnect : forall dbg s, timer_inv (DoDisconnect dbg s) \/ DoDisconnect dbg s = s.
Proof.
  intros dbg s. destruct (s_dead (client s)) eqn:D; [right; unfold DoDisconnect; rewrite D; reflexivity|].
  left. unfold timer_inv. destruct (disconnect_end dbg s); congruence.
Qed.

Lemma timer_same : forall s s', disposed s' = disposed s -> s_dead (client s') = s_dead (client s) ->
  auth_timer s' = auth_timer s -> authenticated s' = authenticated s -> timer_inv s -> timer_inv s'.
Proof. unfold timer_inv. intros s s' A B C D H. rewrite A, B, C, D. exact H. Qed.

Lemma send_timer : forall dbg m s, disposed (SendPacket dbg m s) = disposed s /\ s_dead (client (SendPacket dbg m s)) = s_dead (client s) /\
  auth_timer (SendPacket dbg m s) = auth_timer s /\ authenticated (SendPacket dbg m s) = authenticated s.
Proof. intros dbg m s. unfold SendPacket. cbv zeta. destruct (_ && _); setters; auto. Qed.

Lemma sendout_timer : forall dbg m s, disposed (SendOut dbg m s) = disposed s /\ s_dead (client (SendOut dbg m s)) = s_dead (client s) /\
  auth_timer (SendOut dbg m s) = auth_timer s /\ authenticated (SendOut dbg m s) = authenticated s.
Proof. intros dbg m s. unfold SendOut. destruct (outgoing s) as [[]|]; [|auto]. destruct (_ && _); setters; auto. Qed.

Ltac split_event := repeat match goal with
    | |- context [match user_auth ?x with _ => _ end] => destruct (user_auth x) as [[]|] eqn:?
    | |- context [if ?b then _ else _] => destruct b eqn:?
    | |- context [match ?g with Handshake => _ | Authenticating => _ | Accepted => _ end] => destruct g
    end.

Lemma handle_timer : forall dbg s e, inv s -> timer_inv s -> timer_inv (handle dbg s e).
Proof.
  intros dbg s e I T.
  assert (SI : forall m x, timer_inv x -> timer_inv (SendPacket dbg m x)) by (intros m x; apply timer_same; apply send_timer).
  assert (OI : forall m x, timer_inv x -> timer_inv (SendOut dbg m x)) by (intros m x; apply timer_same; apply sendout_timer).
  assert (DI : forall x, timer_inv x -> timer_inv (DoDisconnect dbg x)).
  { intros x X. destruct (timer_disconnect dbg x) as [Y| ->]; assumption. }
  assert (GI : forall x, timer_inv x -> timer_inv (OutgoingGone dbg x)).
  { intros x X. unfold OutgoingGone. apply DI. exact X. }
  assert (PI : forall x, timer_inv (Dispose x)) by (intros x Y; discriminate Y).
  destruct e; cbn [handle]; unfold input, out_input; cbv zeta;
    try (destruct (outgoing s) as [[c0 g0]|] eqn:O; [|assumption]);
    split_event; auto; try (apply SI; exact T); try (apply OI; exact T).
  - (* InEncrypted *) intros X _. exact (T X Heqb).
  - (* InAuth *)
    intros X Y. setters. rewrite (T X Y). match goal with H : authenticated s = false |- _ => rewrite H end. reflexivity.
  - (* AuthRefused *)
    destruct (send_timer dbg (Msg 51) s) as (A & B & C & D). intros X Y. setters. rewrite A in X. rewrite B in Y.
    rewrite (T X Y). match goal with H : authenticated s = _ |- _ => rewrite H end. reflexivity.
  - intros X Y. setters. reflexivity.
  - intros X Y. setters. reflexivity.
  - intros X Y. setters. reflexivity.
  - (* AuthTimeout *)
    intros X Y. destruct (disconnect_end dbg (set_auth (user_auth s) false (authenticated s) s)); congruence.
  - (* OutBad *) unfold OutDoDisconnect. rewrite O, Heqb. cbv zeta. destruct (s_encrypted c0); [|apply GI, OI, T].
    destruct (outgoing (SendOut dbg Farewell s)) as [[]|]; [|apply OI, T].
    apply (timer_same (SendOut dbg Farewell s)); auto.
Qed.

Lemma run_timer : forall dbg evs, aborted (run dbg start evs) = false -> timer_inv (run dbg start evs).
Proof.
  intros dbg evs. induction evs as [|e t IH] using rev_ind; [intros _ _ _; reflexivity|].
  assert (A := run_always dbg t). rewrite run_app. cbn [run fold_left]. fold (run dbg start t).
  set (s := run dbg start t) in *. clearbody s. unfold step. destruct (disposed s) eqn:D; [intros _ X; cbn in X; congruence|].
  destruct (aborted s) eqn:Ab; [cbn [orb]; congruence|]. intros _. cbn [orb]. apply handle_timer; auto. apply A; auto.
Qed.
