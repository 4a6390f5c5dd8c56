(** Session identifier, encryption state and strict key exchange over whole
    runs. *)

From Coq Require Import NArith List Bool Lia String.
From Verif.Base Require Import Bytes.
From Verif.Spec Require Import WireSpec PacketSpec NamesSpec KexSpec.
From Verif.Model Require Import Wire WireSchema Frame Packets StringList Negotiate KexKeys KexMachine.
From Verif.Proofs Require Import WireFacts PacketFacts NamesFacts KexFrame.
Import ListNotations.
Open Scope N_scope.

(** ** Any step *)

Definition Step (s s' : kstate) : Prop :=
  (exists l, k_log s' = k_log s ++ l /\
     k_out_encrypted s' = k_out_encrypted s || existsb is_out l /\
     k_in_encrypted s' = k_in_encrypted s || existsb is_in l /\
     k_authenticated s' = k_authenticated s || existsb is_auth l) /\
  (k_session_id s <> [] -> k_session_id s' = k_session_id s).

Lemma Step_trans : forall a b c, Step a b -> Step b c -> Step a c.
Proof.
  intros a b c ((l1 & L1 & O1 & I1 & A1) & S1) ((l2 & L2 & O2 & I2 & A2) & S2).
  split; [exists (l1 ++ l2); rewrite !existsb_app|].
  - rewrite L2, L1, O2, O1, I2, I1, A2, A1, !app_assoc, !orb_assoc. repeat split.
  - intro H. rewrite S2, S1; [reflexivity|assumption|rewrite S1; assumption].
Qed.

Lemma Step_refl : forall s, Step s s.
Proof.
  intro s. split; [|reflexivity]. exists []. rewrite app_nil_r. cbn [existsb]. rewrite !orb_false_r. repeat split.
Qed.

Lemma FrameG_Step : forall s s', FrameG s s' -> Step s s'.
Proof. intros s s' ((l & L & R & O & I & A) & S & F). split; [exists l; auto|exact S]. Qed.

Lemma Step_emit : forall s t e, Step s t -> is_out e = false -> is_in e = false -> is_auth e = false ->
  Step s (emit e t).
Proof.
  intros s t e ((l & L & O & I & A) & S) H2 H3 H4. split; [|exact S].
  exists (l ++ [e]). cbn [emit upd_self upd k_log k_out_encrypted k_in_encrypted k_authenticated].
  rewrite !existsb_app, L, O, I, A, app_assoc. cbn [existsb]. rewrite H2, H3, H4.
  rewrite !orb_false_r. repeat split.
Qed.

Definition StepR (s : kstate) (r : res) : Prop := match r with Ret s' | Throw _ s' => Step s s' end.

Lemma GR_StepR : forall s t r, Step s t -> GR t r -> StepR s r.
Proof.
  intros s t [u|e u] H G; cbn [GR StepR] in *; (eapply Step_trans; [exact H|now apply FrameG_Step]).
Qed.

Section H.
Variable E : kenv.
Variable role : Role.

Lemma HandleCore_G : forall msg p seq rnd s, GR s (HandleCore E role msg p seq rnd s).
Proof.
  intros msg p seq rnd s. unfold HandleCore, HandleDisconnect.
  destruct (msg =? _); [destruct (ParseDisconnect p); apply (FrameG_refl s)|].
  destruct (_ || _); [apply (FrameG_refl s)|].
  destruct (msg =? _); [apply HandleKexInit_G|].
  destruct (msg =? _); [apply FrR_GR, HandleNewKeys_Fr|].
  destruct (msg =? _); [apply FrR_GR, HandleECDHKexInit_Fr|].
  destruct (msg =? _); [apply FrR_GR, HandleECDHKexInitReply_Fr|].
  cbn [GR]. apply (Fr_send s s _ (Fr_refl s)).
Qed.

Definition go (msg : N) (p : bytes) (seq : N) (rnd : random) (h : handler_answer) (s : kstate) : res :=
  let s := emit (ERx (msg :: p)) s in
  if IsEncrypted s && negb (core_message msg) then
    match h with
    | HPass => HandleCore E role msg p seq rnd s
    | HDone actions => run_actions actions s
    | HThrow e => Throw e s
    end
  else HandleCore E role msg p seq rnd s.

Lemma go_G : forall msg p seq rnd h s, GR (emit (ERx (msg :: p)) s) (go msg p seq rnd h s).
Proof.
  intros msg p seq rnd h s. unfold go. destruct (_ && _); [|apply HandleCore_G].
  destruct h; [apply HandleCore_G|apply FrR_GR, run_actions_Fr|apply FrameG_refl].
Qed.

Lemma HandlePacket_go : forall msg p seq rnd h s,
  HandlePacket E role msg p seq rnd h s =
  if negb (k_in_encrypted s) then
    if negb (kexinit_received (k_flags s)) then
      go msg p seq rnd h (if msg =? MSG_KEXINIT then s else set_first false s)
    else if k_ignore_next s then
      let s := set_ignore_next false s in
      if IsKex msg then Ret (emit (EIgnored (msg :: p)) s)
      else go msg p seq rnd h s
    else if k_strict s && negb (IsAllowedKexMessage role msg) then
      Throw (XDisconnect KEY_EXCHANGE_FAILED (bs "Unexpected KEX packet"))
            (emit (ERx (msg :: p)) s)
    else go msg p seq rnd h s
  else go msg p seq rnd h s.
Proof. reflexivity. Qed.

Lemma HandlePacket_Step : forall msg p seq rnd h s, StepR s (HandlePacket E role msg p seq rnd h s).
Proof.
  intros msg p seq rnd h s. rewrite HandlePacket_go.
  assert (G : forall t, Step s t -> StepR s (go msg p seq rnd h t)).
  { intros t Ht. eapply GR_StepR; [|apply go_G]. now apply Step_emit. }
  destruct (negb _); [|apply G, Step_refl].
  destruct (negb _); [apply G; destruct (msg =? _); apply (Step_refl s)|].
  destruct (k_ignore_next s).
  - cbv zeta. destruct (IsKex msg); [|apply G, (Step_refl s)].
    cbn [StepR]. apply Step_emit; try reflexivity. apply (Step_refl s).
  - destruct (_ && _); [|apply G, Step_refl]. cbn [StepR]. apply Step_emit; try reflexivity. apply Step_refl.
Qed.

Lemma HandleRawPacket_Step : forall p seq rnd h s, StepR s (HandleRawPacket E role p seq rnd h s).
Proof.
  intros p seq rnd h s. unfold HandleRawPacket. destruct p as [|m p]; [apply Step_refl|].
  pose proof (HandlePacket_Step m p seq rnd h s) as Q.
  destruct (HandlePacket E role m p seq rnd h s) as [t|[] t]; exact Q.
Qed.

Lemma DoDisconnect_Step : forall s r m, Step s (DoDisconnect r m s).
Proof.
  intros s r m. unfold DoDisconnect. destruct (k_status s); try apply Step_refl.
  apply (Step_emit s s (ETx _) (Step_refl s)); reflexivity.
Qed.

Lemma finish_Step : forall s r, StepR s r -> Step s (finish r).
Proof.
  intros s [t|e t] H; cbn [finish StepR] in *; [exact H|].
  assert (C : Step s (set_status Dead (emit EClosed t))) by (apply (Step_emit s t EClosed H); reflexivity).
  destruct e; try exact C.
  - eapply Step_trans; [exact H|]. apply DoDisconnect_Step.
  - exact H.
Qed.

Lemma kstep_Step : forall op s s', kstep E role op s = Some s' -> Step s s'.
Proof.
  intros op s s' H. unfold kstep in H. destruct (k_status s); try discriminate.
  destruct op as [v rnd|p seq rnd h|rnd|p| |r m|].
  - destruct (k_version_exchanged s); [discriminate|]. injection H as <-. apply finish_Step.
    assert (V : Step s (emit (EVersion v) (set_version v s))).
    { apply (Step_emit s (set_version v s)); try reflexivity. apply (Step_refl s). }
    destruct (is_server role); [exact V|].
    eapply GR_StepR; [exact V|apply FrR_GR, SendKexInit_Fr].
  - destruct (k_version_exchanged s); [|discriminate]. injection H as <-. apply finish_Step, HandleRawPacket_Step.
  - destruct (k_timer s); [|discriminate]. injection H as <-. apply finish_Step.
    unfold check. destruct (_ && _); cbn [bind]; [|apply (Step_refl s)].
    destruct (IsIdle _); [|apply (Step_refl s)].
    eapply (GR_StepR s (set_timer false s)); [apply (Step_refl s)|apply FrR_GR, SendKexInit_Fr].
  - injection H as <-. apply (Step_emit s s (ETx p) (Step_refl s)); reflexivity.
  - injection H as <-. apply finish_Step. eapply (GR_StepR s s); [apply Step_refl|apply FrR_GR, SetAuthenticated_Fr].
  - injection H as <-. apply DoDisconnect_Step.
  - injection H as <-. apply (Step_emit s s EClosed (Step_refl s)); reflexivity.
Qed.

Lemma kruns_flags : forall u ops s, kruns E role u ops s ->
  k_out_encrypted s = existsb is_out (k_log s) /\
  k_in_encrypted s = existsb is_in (k_log s) /\
  k_authenticated s = existsb is_auth (k_log s).
Proof.
  intros u ops s H. induction H as [|ops s op s' H (I1 & I2 & I3) Hs]; [repeat split|].
  apply kstep_Step in Hs as ((l & L & O & I & A) & _).
  rewrite L, O, I, A, I1, I2, I3, !existsb_app. repeat split.
Qed.

(** ** Strict key exchange *)

Lemma received_app : forall a b, received (a ++ b) = received a ++ received b.
Proof. induction a as [|e a IH]; intro b; [reflexivity|]. destruct e; cbn [app received]; rewrite ?IH; reflexivity. Qed.

Lemma received_none : forall l, existsb is_rx l = false -> received l = [].
Proof.
  induction l as [|e l IH]; intro H; [reflexivity|]. cbn [existsb] in H. apply orb_false_iff in H as [H1 H2].
  destruct e; cbn [received]; try discriminate; now apply IH.
Qed.

Lemma initial_app_in : forall a b, existsb is_in a = true -> initial (a ++ b) = initial a.
Proof.
  induction a as [|e a IH]; intros b H; [discriminate|].
  destruct e; cbn [app initial] in *; try reflexivity; f_equal; now apply IH.
Qed.

Lemma initial_app_no : forall a b, existsb is_in a = false -> initial (a ++ b) = a ++ initial b.
Proof.
  induction a as [|e a IH]; intros b H; [reflexivity|].
  destruct e; cbn [app initial] in *; try discriminate; f_equal; now apply IH.
Qed.

Lemma initial_none : forall a, existsb is_in a = false -> initial a = a.
Proof. intros a H. rewrite <- (app_nil_r a) at 1. rewrite initial_app_no by assumption. apply app_nil_r. Qed.

Lemma initial_incl : forall l e, In e (initial l) -> In e l.
Proof.
  induction l as [|f l IH]; intros e H; [exact H|].
  destruct f; cbn [initial] in H; try (destruct H as [H|H]; [now left|right; now apply IH]). destruct H.
Qed.

Lemma initial_norx : forall l, existsb is_rx l = false -> existsb is_rx (initial l) = false.
Proof.
  induction l as [|e l IH]; intro H; [reflexivity|]. cbn [existsb] in H. apply orb_false_iff in H as [H1 H2].
  destruct e; cbn [initial existsb is_rx] in *; try discriminate; try reflexivity; now apply IH.
Qed.

Lemma in_norx : forall l p, existsb is_rx l = false -> ~ In (ERx p) l.
Proof.
  intros l p H Hin. assert (X : existsb is_rx l = true) by (apply existsb_exists; exists (ERx p); auto). congruence.
Qed.

Definition SI (log : list kevent) : Prop :=
  forall p guessed, In (ERx (20 :: p)) (initial log) -> announced_strict role p guessed ->
  (guessed = false \/ role = CLIENT) -> strictly_initial role p log.

Definition Q (s : kstate) : Prop :=
  exists q, ParseKexInit (k_peer_kexinit s) = Some q /\ bytes_ok (k_peer_kexinit s) /\
    k_strict s = StringListContains (ki_kex_algorithms q) (marker role) /\
    (forall p, In (ERx (20 :: p)) (k_log s) -> p = k_peer_kexinit s) /\
    (ki_first_kex_packet_follows q = false \/ role = CLIENT -> k_ignore_next s = false) /\
    (k_strict s = true -> ki_first_kex_packet_follows q = false \/ role = CLIENT ->
     exists rest, received (k_log s) = (20 :: k_peer_kexinit s) :: rest /\
       Forall (kex_message role) rest /\ In EInReset (k_log s) /\ In EOutReset (k_log s)).

Definition JJ (s : kstate) : Prop :=
  if kexinit_received (k_flags s) then Q s
  else (forall p, ~ In (ERx (20 :: p)) (k_log s)) /\
       (k_first_packet_was_kexinit s = true -> received (k_log s) = []) /\
       (role = CLIENT -> k_ignore_next s = false).

Definition J (s : kstate) : Prop :=
  k_in_encrypted s = existsb is_in (k_log s) /\
  (k_in_encrypted s = true -> SI (k_log s)) /\
  (k_in_encrypted s = false -> JJ s).

Lemma Q_SI : forall s l, Q s -> existsb is_in (k_log s) = false -> existsb is_rx l = false -> SI (k_log s ++ l).
Proof.
  intros s l (q & Hq & Hb & Hs & Hu & _ & Hst) Hi Hl p g Hin (kex & host & ec & es & mc & ms & names & Hlay & Hn & Hm) Hg.
  unfold strictly_initial. rewrite initial_app_no in * by assumption.
  assert (p = k_peer_kexinit s).
  { apply in_app_or in Hin as [Hin|Hin]; [now apply Hu|]. exfalso.
    eapply in_norx; [|exact Hin]. now apply initial_norx. }
  subst p. apply ParseKexInit_exact in Hlay; [|assumption]. rewrite Hq in Hlay. injection Hlay as ->.
  cbn [ki_kex_algorithms ki_first_kex_packet_follows] in *.
  assert (Hstr : k_strict s = true).
  { rewrite Hs. apply (contains_iff _ _ _ Hn). unfold marker, strict_marker in *. destruct role; exact Hm. }
  destruct (Hst Hstr Hg) as (rest & R1 & R2 & R3 & R4). exists rest.
  rewrite received_app, (received_none (initial l)), app_nil_r by now apply initial_norx.
  split; [exact R1|]. split; [exact R2|]. split; apply in_or_app; now left.
Qed.

Lemma JJ_SI : forall s l, JJ s -> existsb is_in (k_log s) = false -> existsb is_rx l = false -> SI (k_log s ++ l).
Proof.
  intros s l H Hi Hl. unfold JJ in H. destruct (kexinit_received (k_flags s)); [now apply Q_SI|].
  destruct H as (H & _). intros p g Hin. exfalso. apply initial_incl in Hin.
  apply in_app_or in Hin as [Hin|Hin]; [now apply H in Hin|]. eapply in_norx; eassumption.
Qed.

Lemma J_SI : forall s, J s -> SI (k_log s).
Proof.
  intros s (J1 & J2 & J3). destruct (k_in_encrypted s) eqn:Ei; [now apply J2|].
  rewrite <- (app_nil_r (k_log s)). apply JJ_SI; [now apply J3|now symmetry|reflexivity].
Qed.

Lemma J_Fr : forall s s', J s -> Fr s s' -> J s'.
Proof.
  intros s s' (J1 & J2 & J3) [((l & L & R & _ & I & _) & _ & F) (B1 & B2 & B3 & B4)].
  split; [rewrite L, I, J1, existsb_app; reflexivity|]. split.
  - intro Hi'. rewrite L. destruct (k_in_encrypted s) eqn:Ei.
    + intros p g Hin. rewrite initial_app_in in Hin by now symmetry. intros. unfold strictly_initial.
      rewrite initial_app_in by now symmetry. eapply J2; eassumption || reflexivity.
    + apply JJ_SI; [now apply J3|now symmetry|assumption].
  - intro Hi'. specialize (B4 Hi').
    assert (Ei : k_in_encrypted s = false) by (rewrite Hi' in I; destruct (k_in_encrypted s); [discriminate|reflexivity]).
    specialize (J3 Ei). unfold JJ in *. rewrite B4. destruct (kexinit_received (k_flags s)).
    + destruct J3 as (q & Hq & Hb & Hs & Hu & Hg & Hst). exists q. rewrite B3, B1, B2, L, received_app, (received_none l R), app_nil_r.
      split; [exact Hq|]. split; [exact Hb|]. split; [exact Hs|]. split.
      { intros p Hin. apply in_app_or in Hin as [Hin|Hin]; [now apply Hu|]. exfalso. eapply in_norx; eassumption. }
      split; [exact Hg|]. intros H1 H2. destruct (Hst H1 H2) as (rest & R1 & R2 & R3 & R4). exists rest.
      split; [exact R1|]. split; [exact R2|]. split; apply in_or_app; now left.
    + destruct J3 as (A1 & A2 & A3). rewrite L, F, B2. split.
      { intros p Hin. apply in_app_or in Hin as [Hin|Hin]; [now apply A1 in Hin|]. eapply in_norx; eassumption. }
      split; [|exact A3]. intro Hf. rewrite received_app, (received_none l R), app_nil_r. now apply A2.
Qed.

(** handlers other than KEXINIT *)
Lemma go_Fr : forall msg p seq rnd h s, msg <> 20 ->
  FrR (emit (ERx (msg :: p)) s) (go msg p seq rnd h s).
Proof.
  intros msg p seq rnd h s Hm. unfold go.
  assert (C : forall t, FrR t (HandleCore E role msg p seq rnd t)).
  { intro t. unfold HandleCore, HandleDisconnect.
    destruct (msg =? _); [destruct (ParseDisconnect p); apply (Fr_refl t)|].
    destruct (_ || _); [apply (Fr_refl t)|].
    destruct (msg =? MSG_KEXINIT) eqn:E20; [apply N.eqb_eq in E20; contradiction|clear E20].
    destruct (msg =? _); [apply HandleNewKeys_Fr|].
    destruct (msg =? _); [apply HandleECDHKexInit_Fr|].
    destruct (msg =? _); [apply HandleECDHKexInitReply_Fr|].
    cbn [FrR]. apply Fr_send, Fr_refl. }
  destruct (_ && _); [|apply C]. destruct h; [apply C|apply run_actions_Fr|apply Fr_refl].
Qed.

Lemma go_20 : forall p seq rnd h s, k_in_encrypted s = false ->
  go 20 p seq rnd h s = HandleKexInit E role p rnd (emit (ERx (20 :: p)) s).
Proof. intros p seq rnd h s H. unfold go. rewrite andb_false_r. reflexivity. Qed.

Lemma go_1 : forall p seq rnd h s, forall s', go 1 p seq rnd h s <> Ret s'.
Proof.
  intros p seq rnd h s s'. unfold go. rewrite andb_false_r. unfold HandleCore, HandleDisconnect. cbn.
  destruct (ParseDisconnect p); discriminate.
Qed.

Lemma allowed_kex : forall msg p, IsAllowedKexMessage role msg = true -> msg <> 1 -> kex_message role (msg :: p).
Proof.
  intros msg p H H1. exists msg, p. split; [reflexivity|]. unfold IsAllowedKexMessage in H.
  destruct (msg =? MSG_DISCONNECT) eqn:Ed; [apply N.eqb_eq in Ed; contradiction|].
  destruct (msg =? MSG_NEWKEYS) eqn:En; [apply N.eqb_eq in En; now left|]. right.
  cbn [orb] in H. destruct (msg =? MSG_ECDH_KEX_INIT) eqn:E30.
  { apply N.eqb_eq in E30. destruct role; [exact E30|discriminate]. }
  destruct (msg =? MSG_ECDH_KEX_INIT_REPLY) eqn:E31; [|discriminate].
  apply N.eqb_eq in E31. destruct role; [discriminate|exact E31].
Qed.

Lemma HandlePacket_J : forall msg p seq rnd h s s', J s -> bytes_ok p ->
  HandlePacket E role msg p seq rnd h s = Ret s' -> J s'.
Proof.
  intros msg p seq rnd h s s' HJ Hb H. rewrite HandlePacket_go in H. pose proof HJ as (J1 & J2 & J3).
  destruct (k_in_encrypted s) eqn:Ei; cbn [negb] in H.
  { (* encrypted: nothing to do *)
    pose proof (go_G msg p seq rnd h s) as G. rewrite H in G. cbn [GR] in G.
    destruct G as ((l & L & R & _ & I & _) & _).
    cbn [emit upd_self upd k_log k_in_encrypted] in L, I. rewrite Ei in I. cbn [orb] in I.
    assert (Hin : existsb is_in (k_log s) = true) by now symmetry.
    split; [|split].
    - rewrite I, L, !existsb_app, Hin. reflexivity.
    - intros _ q g. rewrite L, <- app_assoc. unfold strictly_initial. rewrite initial_app_in by assumption.
      now apply J2.
    - rewrite I. discriminate. }
  assert (Hin : existsb is_in (k_log s) = false) by now symmetry.
  specialize (J3 eq_refl). unfold JJ in J3.
  destruct (kexinit_received (k_flags s)) eqn:Er; cbn [negb] in H.
  2:{ destruct J3 as (A1 & A2 & A3).
      destruct (msg =? MSG_KEXINIT) eqn:E20.
      - apply N.eqb_eq in E20. change MSG_KEXINIT with 20 in E20. subst msg. rewrite go_20 in H by assumption.
        pose proof (HandleKexInit_G E role p rnd (emit (ERx (20 :: p)) s)) as G. rewrite H in G. cbn [GR] in G.
        destruct (HandleKexInit_strict _ _ _ _ _ _ H Ei) as (q & Hq & Hi' & Hr' & Hp' & Hs' & Hst & Hig1 & Hig2).
        destruct G as ((l & L & R & _ & I & _) & _).
        cbn [emit upd_self upd k_log k_in_encrypted k_first_packet_was_kexinit k_ignore_next] in L, I, Hst, Hig1.
        rewrite Ei, Hi' in I. cbn [orb] in I. symmetry in I.
        split; [|split].
        + rewrite Hi', L, !existsb_app, Hin, I. reflexivity.
        + rewrite Hi'. discriminate.
        + intros _. unfold JJ. rewrite Hr'. exists q. rewrite Hp', L.
          split; [exact Hq|]. split; [exact Hb|]. split; [exact Hs'|]. split.
          { intros p' Hp. apply in_app_or in Hp as [Hp|Hp]; [|exfalso; eapply in_norx; eassumption].
            apply in_app_or in Hp as [Hp|[Hp|[]]]; [now apply A1 in Hp|]. congruence. }
          split.
          { intros Hg. destruct role eqn:Hro.
            - destruct Hg as [Hg|Hg]; [|discriminate]. now apply Hig2.
            - rewrite Hig1 by reflexivity. now apply A3. }
          intros Hss _. destruct (Hst Hss) as (Hf & R1 & R2). exists []. rewrite <- L. split; [|auto].
          rewrite L, !received_app, (received_none l R), app_nil_r, (A2 Hf). reflexivity.
      - apply N.eqb_neq in E20. change MSG_KEXINIT with 20 in E20.
        pose proof (go_Fr msg p seq rnd h (set_first false s) E20) as G. rewrite H in G. cbn [FrR] in G.
        eapply J_Fr; [|exact G]. split; [|split].
        + cbn [emit set_first upd_self upd k_log k_in_encrypted]. rewrite Ei, existsb_app, Hin. reflexivity.
        + cbn [emit set_first upd_self upd k_log k_in_encrypted]. rewrite Ei. discriminate.
        + intros _. unfold JJ. cbn [emit set_first upd_self upd k_log k_flags k_first_packet_was_kexinit k_ignore_next].
          rewrite Er. split; [|split; [discriminate|exact A3]].
          intros p' Hp. apply in_app_or in Hp as [Hp|[Hp|[]]]; [now apply A1 in Hp|]. congruence. }
  (* KEXINIT was received *)
  assert (N20 : forall t, k_in_encrypted t = false -> kexinit_received (k_flags t) = true ->
    go 20 p seq rnd h t <> Ret s').
  { intros t Ht Hr. rewrite go_20 by assumption. unfold HandleKexInit.
    change (k_flags (set_timer false (emit (ERx (20 :: p)) t))) with (k_flags t). rewrite Hr. cbn [orb]. discriminate. }
  assert (C : forall t, go msg p seq rnd h t = Ret s' -> k_in_encrypted t = false -> kexinit_received (k_flags t) = true ->
    k_log t = k_log s -> Q (emit (ERx (msg :: p)) t) -> J s').
  { intros t Hg Ht Hr Hl HQ.
    assert (Hm : msg <> 20) by (intros ->; now apply N20 in Hg).
    pose proof (go_Fr msg p seq rnd h t Hm) as G. rewrite Hg in G. cbn [FrR] in G.
    eapply J_Fr; [|exact G]. split; [|split].
    - cbn [emit upd_self upd k_log k_in_encrypted]. rewrite Ht, existsb_app, Hl, Hin. reflexivity.
    - change (k_in_encrypted (emit (ERx (msg :: p)) t)) with (k_in_encrypted t). rewrite Ht. discriminate.
    - intros _. unfold JJ. change (k_flags (emit (ERx (msg :: p)) t)) with (k_flags t). rewrite Hr. exact HQ. }
  destruct J3 as (q & Hq & Hpb & Hs & Hu & Hg & Hst).
  assert (U : msg <> 20 -> forall e, e = ERx (msg :: p) \/ e = EIgnored (msg :: p) ->
     forall p', In (ERx (20 :: p')) (k_log s ++ [e]) -> p' = k_peer_kexinit s).
  { intros Hm e He p' Hp. apply in_app_or in Hp as [Hp|[Hp|[]]]; [now apply Hu|].
    destruct He as [->| ->]; [|discriminate]. injection Hp as H1 H2. congruence. }
  destruct (k_ignore_next s) eqn:Eg.
  - (* the wrong guess: only if guessed *)
    assert (X : ~ (ki_first_kex_packet_follows q = false \/ role = CLIENT)).
    { intro X. specialize (Hg X). discriminate. }
    cbv zeta in H. destruct (IsKex msg) eqn:Ek.
    + injection H as <-. split; [|split].
      * cbn [emit set_ignore_next upd_self upd k_log k_in_encrypted]. rewrite Ei, existsb_app, Hin. reflexivity.
      * cbn [emit set_ignore_next upd_self upd k_in_encrypted]. rewrite Ei. discriminate.
      * intros _. unfold JJ. change (k_flags (emit _ _)) with (k_flags s). rewrite Er. exists q.
        split; [exact Hq|]. split; [exact Hpb|]. split; [exact Hs|].
        split; [apply U; [intros ->; discriminate|now right]|]. split; [reflexivity|]. intros _ Y. now destruct X.
    + apply (C _ H Ei Er eq_refl). exists q.
      split; [exact Hq|]. split; [exact Hpb|]. split; [exact Hs|].
      split; [apply U; [|now left]|].
      { intros ->. apply (N20 (set_ignore_next false s)); assumption. }
      split; [reflexivity|]. intros _ Y. now destruct X.
  - destruct (k_strict s && negb (IsAllowedKexMessage role msg)) eqn:Ea; [discriminate|].
    apply (C _ H Ei Er eq_refl). exists q.
    split; [exact Hq|]. split; [exact Hpb|]. split; [exact Hs|].
    split; [apply U; [|now left]|].
    { intros ->. now apply (N20 s). }
    split; [intros _; exact Eg|].
    cbn [emit upd_self upd k_strict k_log k_peer_kexinit]. intros S1 S2.
    destruct (Hst S1 S2) as (rest & R1 & R2 & R3 & R4). exists (rest ++ [msg :: p]).
    rewrite received_app, R1. cbn [received app]. split; [reflexivity|]. split.
    + apply Forall_app. split; [exact R2|]. constructor; [|constructor]. rewrite S1 in Ea. cbn [andb] in Ea.
      apply negb_false_iff in Ea. apply allowed_kex; [exact Ea|]. intros ->. now apply go_1 in H.
    + split; apply in_or_app; now left.
Qed.

Lemma finish_running : forall r, k_status (finish r) = Running -> exists s, r = Ret s /\ finish r = s.
Proof.
  intros [s|e s] H; [eauto|]. exfalso. destruct e; cbn [finish] in H; try discriminate.
  unfold DoDisconnect in H. destruct (k_status s) eqn:Es; try discriminate; congruence.
Qed.

Lemma kstep_J : forall op s s', J s -> op_ok op -> kstep E role op s = Some s' -> k_status s' = Running -> J s'.
Proof.
  intros op s s' HJ Ho H Hr. unfold kstep in H. destruct (k_status s); try discriminate.
  destruct op as [v rnd|p seq rnd h|rnd|p| |r m|]; cbn [op_ok] in Ho.
  - destruct (k_version_exchanged s); [discriminate|]. injection H as <-.
    destruct (finish_running _ Hr) as (t & Ht & Hf). rewrite Hf in *.
    assert (V : Fr s (emit (EVersion v) (set_version v s))).
    { apply Fr_emit; try reflexivity. apply (Fr_refl s). }
    destruct (is_server role); [injection Ht as <-; eapply J_Fr; eassumption|].
    pose proof (SendKexInit_Fr E role rnd (emit (EVersion v) (set_version v s))) as Q0. rewrite Ht in Q0.
    eapply J_Fr; [exact HJ|]. eapply Fr_trans; [exact V|exact Q0].
  - destruct (k_version_exchanged s); [|discriminate]. injection H as <-. destruct Ho as (Hb & _).
    destruct (finish_running _ Hr) as (t & Ht & Hf). rewrite Hf in *. unfold HandleRawPacket in Ht.
    destruct p as [|m p]; [discriminate|]. apply Forall_inv_tail in Hb.
    destruct (HandlePacket E role m p seq rnd h s) as [u|[]] eqn:Eh; try discriminate. injection Ht as <-.
    eapply HandlePacket_J; eassumption.
  - destruct (k_timer s); [|discriminate]. injection H as <-.
    destruct (finish_running _ Hr) as (t & Ht & Hf). rewrite Hf in *. unfold check in Ht.
    destruct (_ && _); [|discriminate]. cbn [bind] in Ht.
    destruct (IsIdle _).
    + pose proof (SendKexInit_Fr E role rnd (set_timer false s)) as Q0. rewrite Ht in Q0.
      eapply J_Fr; [exact HJ|exact Q0].
    + injection Ht as <-. exact HJ.
  - injection H as <-. eapply J_Fr; [exact HJ|]. apply Fr_send, Fr_refl.
  - injection H as <-. destruct (finish_running _ Hr) as (t & Ht & Hf). rewrite Hf in *.
    pose proof (SetAuthenticated_Fr s) as Q0. rewrite Ht in Q0. eapply J_Fr; [exact HJ|exact Q0].
  - injection H as <-. unfold DoDisconnect in *. destruct (k_status s) eqn:Es; [discriminate|exact HJ|exact HJ].
  - injection H as <-. discriminate.
Qed.

Lemma new_J : forall u, J (new_connection u).
Proof.
  intro u. split; [reflexivity|]. split; [discriminate|]. intros _. split; [intros p []|]. split; reflexivity.
Qed.

Theorem kruns_J : forall u ops s, kruns E role u ops s -> Forall op_ok ops -> k_status s = Running -> J s.
Proof.
  intros u ops s H. induction H as [|ops s op s' H IH Hs]; intros Ho Hr; [apply new_J|].
  apply Forall_app in Ho as [Ho1 Ho2]. inversion Ho2; subst.
  eapply kstep_J; [|eassumption|exact Hs|exact Hr]. apply IH; [assumption|].
  unfold kstep in Hs. destruct (k_status s); [reflexivity|discriminate|discriminate].
Qed.

End H.
