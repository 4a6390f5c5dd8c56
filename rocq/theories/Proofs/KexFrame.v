(** What the handlers of the key exchange machine do not change. *)

From Coq Require Import NArith List Bool Lia String.
From Verif.Base Require Import Bytes.
From Verif.Spec Require Import WireSpec PacketSpec NamesSpec KexSpec.
From Verif.Model Require Import Wire Frame Packets StringList Negotiate KexKeys KexMachine.
Import ListNotations.
Open Scope N_scope.

Definition is_out (e : kevent) : bool := match e with EOutCipher _ => true | _ => false end.
Definition is_in (e : kevent) : bool := match e with EInCipher _ => true | _ => false end.
Definition is_auth (e : kevent) : bool := match e with EAuthenticated => true | _ => false end.
Definition is_rx (e : kevent) : bool := match e with ERx _ | EIgnored _ => true | _ => false end.

Definition FrameG (s s' : kstate) : Prop :=
  (exists l, k_log s' = k_log s ++ l /\ existsb is_rx l = false /\
     k_out_encrypted s' = k_out_encrypted s || existsb is_out l /\
     k_in_encrypted s' = k_in_encrypted s || existsb is_in l /\
     k_authenticated s' = k_authenticated s || existsb is_auth l) /\
  (k_session_id s <> [] -> k_session_id s' = k_session_id s) /\
  k_first_packet_was_kexinit s' = k_first_packet_was_kexinit s.

Definition FrameS (s s' : kstate) : Prop :=
  k_strict s' = k_strict s /\ k_ignore_next s' = k_ignore_next s /\
  k_peer_kexinit s' = k_peer_kexinit s /\
  (k_in_encrypted s' = false -> kexinit_received (k_flags s') = kexinit_received (k_flags s)).

Lemma FrameG_refl : forall s, FrameG s s.
Proof.
  intro s. split; [|split; reflexivity]. exists []. rewrite app_nil_r. cbn [existsb].
  rewrite !orb_false_r. repeat split.
Qed.

Lemma FrameG_trans : forall a b c, FrameG a b -> FrameG b c -> FrameG a c.
Proof.
  intros a b c ((l1 & L1 & R1 & O1 & I1 & A1) & S1 & F1) ((l2 & L2 & R2 & O2 & I2 & A2) & S2 & F2).
  split; [exists (l1 ++ l2); rewrite !existsb_app|].
  - rewrite L2, L1, O2, O1, I2, I1, A2, A1, R1, R2, !app_assoc, !orb_assoc. repeat split.
  - split; [|congruence]. intro H. rewrite S2, S1; [reflexivity|assumption|rewrite S1; assumption].
Qed.

Lemma FrameS_trans : forall a b c, FrameG b c -> FrameS a b -> FrameS b c -> FrameS a c.
Proof.
  intros a b c ((l & _ & _ & _ & I & _) & _) (A1 & A2 & A3 & A4) (B1 & B2 & B3 & B4).
  repeat split; try congruence. intro H. rewrite B4 by assumption. apply A4.
  rewrite H in I. destruct (k_in_encrypted b); [discriminate|reflexivity].
Qed.

Definition Fr (s s' : kstate) : Prop := FrameG s s' /\ FrameS s s'.

Lemma Fr_refl : forall s, Fr s s.
Proof. intro s. split; [apply FrameG_refl|]. repeat split. Qed.

Lemma Fr_trans : forall a b c, Fr a b -> Fr b c -> Fr a c.
Proof.
  intros a b c [A1 A2] [B1 B2]. split; [eapply FrameG_trans; eassumption|eapply FrameS_trans; eassumption].
Qed.

Lemma G_emit : forall s t e, FrameG s t -> is_rx e = false -> is_out e = false -> is_in e = false ->
  is_auth e = false -> FrameG s (emit e t).
Proof.
  intros s t e ((l & L & R & O & I & A) & S) H1 H2 H3 H4. split; [|exact S].
  exists (l ++ [e]). cbn [emit upd_self upd k_log k_out_encrypted k_in_encrypted k_authenticated].
  rewrite !existsb_app, L, O, I, A, R, app_assoc. cbn [existsb]. rewrite H1, H2, H3, H4.
  rewrite !orb_false_r. repeat split.
Qed.

Lemma Fr_emit : forall s t e, Fr s t -> is_rx e = false -> is_out e = false -> is_in e = false ->
  is_auth e = false -> Fr s (emit e t).
Proof. intros s t e [A B] H1 H2 H3 H4. split; [now apply G_emit|exact B]. Qed.

Lemma Fr_send : forall s t p, Fr s t -> Fr s (SendPacket p t).
Proof. intros s t p H. exact (Fr_emit s t (ETx p) H eq_refl eq_refl eq_refl eq_refl). Qed.

Lemma Fr_out : forall s t c, Fr s t -> Fr s (set_out_encrypted (emit (EOutCipher c) t)).
Proof.
  intros s t c [((l & L & R & O & I & A) & S) B]. split; [|exact B]. split; [|exact S].
  exists (l ++ [EOutCipher c]). cbn [set_out_encrypted emit upd_self upd k_log k_out_encrypted k_in_encrypted k_authenticated].
  rewrite !existsb_app, L, I, A, R, app_assoc. cbn [existsb is_rx is_out is_in is_auth].
  rewrite !orb_false_r, !orb_true_r. repeat split.
Qed.

Lemma Fr_auth : forall s t, Fr s t -> Fr s (emit EAuthenticated (set_authenticated t)).
Proof.
  intros s t [((l & L & R & O & I & A) & S) B]. split; [|exact B]. split; [|exact S].
  exists (l ++ [EAuthenticated]). cbn [set_authenticated emit upd_self upd k_log k_out_encrypted k_in_encrypted k_authenticated].
  rewrite !existsb_app, L, O, I, R, app_assoc. cbn [existsb is_rx is_out is_in is_auth].
  rewrite !orb_false_r, !orb_true_r. repeat split.
Qed.

Lemma Fr_in : forall s t c, Fr s t -> Fr s (set_in_encrypted (emit (EInCipher c) t)).
Proof.
  intros s t c [((l & L & R & O & I & A) & S) B]. split.
  - split; [|exact S].
    exists (l ++ [EInCipher c]). cbn [set_in_encrypted emit upd_self upd k_log k_out_encrypted k_in_encrypted k_authenticated].
    rewrite !existsb_app, L, O, A, R, app_assoc. cbn [existsb is_rx is_out is_in is_auth].
    rewrite !orb_false_r, !orb_true_r. repeat split.
  - destruct B as (B1 & B2 & B3 & _). split; [exact B1|]. split; [exact B2|]. split; [exact B3|].
    cbn. discriminate.
Qed.

Definition FrR (s : kstate) (r : res) : Prop := match r with Ret s' | Throw _ s' => Fr s s' end.
Definition GR (s : kstate) (r : res) : Prop := match r with Ret s' | Throw _ s' => FrameG s s' end.

Lemma FrR_bind : forall s r f, FrR s r -> (forall t, r = Ret t -> FrR t (f t)) -> FrR s (bind r f).
Proof.
  intros s [t|e t] f H Hf; cbn [bind FrR] in *; [|exact H].
  specialize (Hf t eq_refl). destruct (f t); cbn [FrR] in *; eapply Fr_trans; eassumption.
Qed.

Lemma GR_bind : forall s r f, GR s r -> (forall t, r = Ret t -> GR t (f t)) -> GR s (bind r f).
Proof.
  intros s [t|e t] f H Hf; cbn [bind GR] in *; [|exact H].
  specialize (Hf t eq_refl). destruct (f t); cbn [GR] in *; eapply FrameG_trans; eassumption.
Qed.

Lemma FrR_check : forall s b, FrR s (check b s).
Proof. intros s []; apply Fr_refl. Qed.

Ltac fr :=
  repeat first
  [ apply Fr_refl
  | match goal with
    | |- Fr ?s (SendPacket _ ?t) => apply Fr_send
    | |- Fr ?s (set_timer _ ?t) => change (Fr s t)
    | |- Fr ?s (set_kex _ ?t) => change (Fr s t)
    | |- Fr ?s (set_my_kexinit _ ?t) => change (Fr s t)
    | |- Fr ?s (set_host_key _ ?t) => change (Fr s t)
    | |- Fr ?s (set_out_encrypted (emit (EOutCipher _) ?t)) => apply Fr_out
    | |- Fr ?s (emit EAuthenticated (set_authenticated ?t)) => apply Fr_auth
    | |- Fr ?s (set_in_encrypted (emit (EInCipher _) ?t)) => apply Fr_in
    | |- Fr ?s (emit _ ?t) => apply Fr_emit; [|reflexivity|reflexivity|reflexivity|reflexivity]
    end
  | assumption ].

Lemma Fr_flags : forall s t f, Fr s t -> kexinit_received f = kexinit_received (k_flags t) ->
  Fr s (set_flags f t).
Proof.
  intros s t f [A B] H. split; [exact A|]. destruct B as (B1 & B2 & B3 & B4).
  split; [exact B1|]. split; [exact B2|]. split; [exact B3|]. intro Hi.
  change (k_flags (set_flags f t)) with f. rewrite H. apply B4. exact Hi.
Qed.

Lemma Fr_keys : forall s t sid nk, Fr s t -> (k_session_id t <> [] -> sid = k_session_id t) ->
  Fr s (set_keys sid nk t).
Proof.
  intros s t sid nk [[A1 [A2 A3]] B] H. split; [|exact B]. split; [exact A1|]. split; [|exact A3].
  intro Hs. change (k_session_id (set_keys sid nk t)) with sid. rewrite H; [now apply A2|].
  rewrite A2 by assumption. exact Hs.
Qed.

Section H.
Variable E : kenv.
Variable role : Role.

Lemma SendKexInit_Fr : forall rnd s, FrR s (SendKexInit E role rnd s).
Proof.
  intros rnd s. unfold SendKexInit. apply FrR_bind; [apply FrR_check|]. intros t H.
  unfold check in H. destruct (negb _ && _ && _); [|discriminate]. injection H as <-.
  destruct (SerializeKex _ _ _); cbn [FrR]; [|fr]. apply Fr_send. apply Fr_flags; [fr|reflexivity].
Qed.

Lemma SendECDHKexInit_Fr : forall s, FrR s (SendECDHKexInit E role s).
Proof.
  intros s. unfold SendECDHKexInit. apply FrR_bind; [apply FrR_check|]. intros t _.
  destruct (k_kex t) as [[]|]; [|cbn [FrR]; fr]. destruct (WriteLengthEncoded _ _); cbn [FrR]; fr.
Qed.

Lemma DeriveKeys_sid : forall H sid h k r sid' nk,
  DeriveKeys H sid h k r (len sid =? 0) = Some (sid', nk) -> sid <> [] -> sid' = sid.
Proof.
  intros H sid h k r sid' nk D Hs. unfold DeriveKeys in D.
  destruct (len sid =? 0) eqn:El; [apply N.eqb_eq in El; now apply len_0 in El|].
  cbn [obind] in D. destruct (derive_all _ _ _ _ _); [|discriminate]. cbn [obind] in D. congruence.
Qed.

Lemma SendECDHKexInitReply_Fr : forall p s, FrR s (SendECDHKexInitReply E role p s).
Proof.
  intros p s. unfold SendECDHKexInitReply. apply FrR_bind; [apply FrR_check|]. intros t _.
  destruct (k_kex t) as [[alg sec]|]; [|cbn [FrR]; fr].
  destruct (k_host_key t) as [[hk ha]|]; [|cbn [FrR]; fr].
  destruct (e_shared _ _ _ _) as [sh|]; [|cbn [FrR]; fr].
  destruct (e_sign _ _ _ _) as [sg|]; [|cbn [FrR]; fr].
  match goal with |- context [match ?m with Some _ => _ | None => _ end] => destruct m end; [|cbn [FrR]; fr].
  set (t1 := SendPacket _ _).
  assert (F1 : Fr t t1) by (subst t1; fr).
  destruct (DeriveKeys _ _ _ _ _ _) as [[sid nk]|] eqn:Ed; [|exact F1]. cbn [FrR].
  match goal with |- Fr _ (set_kex _ ?u) => change (Fr t u) end.
  apply Fr_keys; [fr|]. intro Hs. eapply DeriveKeys_sid; [exact Ed|exact Hs].
Qed.

Lemma SendNewKeys_Fr : forall s, FrR s (SendNewKeys role s).
Proof.
  intros s. unfold SendNewKeys.
  destruct (kexinit_sent (k_flags s) && kexinit_received (k_flags s) && negb (newkeys_sent (k_flags s)) && negb (newkeys_received (k_flags s))) eqn:Ec;
    cbn [check bind]; [|cbn [FrR]; fr].
  apply andb_true_iff in Ec as [_ Ec]. apply negb_true_iff in Ec.
  set (t := set_flags _ _).
  assert (F1 : Fr s t) by (apply Fr_flags; [fr|reflexivity]).
  destruct (KexState_MakeCipher _ _ _ _) as [[c|]|]; try exact F1. cbn [FrR].
  assert (R : ResetIfComplete (set_out_encrypted (emit (EOutCipher c) t)) = set_out_encrypted (emit (EOutCipher c) t)).
  { unfold ResetIfComplete.
    change (k_flags (set_out_encrypted (emit (EOutCipher c) t))) with (k_flags t).
    assert (N : IsComplete (k_flags t) = false).
    { subst t. unfold IsComplete.
      cbn [set_flags upd_self upd k_flags newkeys_sent newkeys_received]. now rewrite Ec. }
    now rewrite N. }
  rewrite R. destruct (negb _ && _); fr.
Qed.

Lemma SendExtInfo_Fr : forall s, FrR s (SendExtInfo s).
Proof.
  intros s. unfold SendExtInfo. match goal with |- context [match ?m with Some _ => _ | None => _ end] => destruct m end;
    cbn [FrR]; fr.
Qed.

Lemma HandleNewKeys_Fr : forall s, FrR s (HandleNewKeys role s).
Proof.
  intros s. unfold HandleNewKeys.
  match goal with |- context [if ?b then Throw _ _ else _] => destruct b end; [cbn [FrR]; fr|].
  set (t := set_flags _ _).
  assert (F1 : Fr s t) by (apply Fr_flags; [fr|reflexivity]).
  destruct (len _ =? 0); [exact F1|].
  destruct (KexState_MakeCipher _ _ _ _) as [[c|]|]; try exact F1. cbn [FrR].
  assert (R : Fr s (ResetIfComplete (set_in_encrypted (emit (EInCipher c) t)))).
  { unfold ResetIfComplete. destruct (IsComplete _); [|fr].
    pose proof (Fr_in s t c F1) as [A (B1 & B2 & B3 & B4)].
    split; [exact A|]. split; [exact B1|]. split; [exact B2|]. split; [exact B3|]. cbn. discriminate. }
  destruct (negb _ && _); fr.
Qed.

Lemma HandleECDHKexInit_Fr : forall p s, FrR s (HandleECDHKexInit E role p s).
Proof.
  intros p s. unfold HandleECDHKexInit. destruct (negb (is_server role)); [cbn [FrR]; fr|].
  match goal with |- context [if ?b then Throw _ _ else _] => destruct b end; [cbn [FrR]; fr|].
  destruct (ParseECDHKexInit p); [|cbn [FrR]; fr].
  apply FrR_bind; [apply SendECDHKexInitReply_Fr|]. intros t _.
  apply FrR_bind; [apply SendNewKeys_Fr|]. intros u _.
  destruct (k_ext_info u); [apply SendExtInfo_Fr|cbn [FrR]; fr].
Qed.

Lemma HandleECDHKexInitReply_Fr : forall p s, FrR s (HandleECDHKexInitReply E role p s).
Proof.
  intros p s. unfold HandleECDHKexInitReply. destruct (is_server role); [cbn [FrR]; fr|].
  match goal with |- context [if ?b then Throw _ _ else _] => destruct b end; [cbn [FrR]; fr|].
  destruct (k_kex s) as [[alg sec]|]; [|cbn [FrR]; fr].
  destruct (ParseECDHKexInitReply p) as [q|]; [|cbn [FrR]; fr].
  destruct (negb _); [cbn [FrR]; fr|].
  destruct (e_shared _ _ _ _) as [sh|]; [|cbn [FrR]; fr].
  destruct (negb _); [cbn [FrR]; fr|].
  destruct (DeriveKeys _ _ _ _ _ _) as [[sid nk]|] eqn:Ed; [|cbn [FrR]; fr].
  set (t := set_kex None _).
  assert (F : Fr s t).
  { subst t. match goal with |- Fr _ (set_kex _ ?u) => change (Fr s u) end.
    apply Fr_keys; [fr|]. intro Hs. eapply DeriveKeys_sid; [exact Ed|exact Hs]. }
  pose proof (SendNewKeys_Fr t) as Q. destruct (SendNewKeys role t); cbn [FrR] in *; eapply Fr_trans; eassumption.
Qed.

Lemma SetAuthenticated_Fr : forall s, FrR s (SetAuthenticated s).
Proof.
  intros s. unfold SetAuthenticated. apply FrR_bind; [apply FrR_check|]. intros t _. cbn [FrR]. fr.
Qed.

Lemma run_actions_Fr : forall l s, FrR s (run_actions l s).
Proof.
  induction l as [|a l IH]; intro s; cbn [run_actions]; [cbn [FrR]; fr|].
  destruct a as [p|].
  - specialize (IH (SendPacket p s)). assert (F : Fr s (SendPacket p s)) by fr.
    destruct (run_actions l (SendPacket p s)); cbn [FrR] in *; eapply Fr_trans; eassumption.
  - apply FrR_bind; [apply SetAuthenticated_Fr|]. intros t _. apply IH.
Qed.

Lemma FrR_GR : forall s r, FrR s r -> GR s r.
Proof. intros s [t|e t] [A B]; exact A. Qed.

Definition marker : bytes :=
  if is_server role then bs "kex-strict-c-v00@openssh.com" else bs "kex-strict-s-v00@openssh.com".

(** KEXINIT *)
Lemma HandleKexInit_G : forall p rnd s, GR s (HandleKexInit E role p rnd s).
Proof.
  intros p rnd s. unfold HandleKexInit.
  match goal with |- context [if ?b then Throw _ _ else _] => destruct b end; [apply (FrameG_refl s)|].
  destruct (ParseKexInit p) as [q|]; [|apply (FrameG_refl s)].
  destruct (MakeKex _) as [alg|]; [|apply (FrameG_refl s)].
  match goal with |- context [if negb (IsEncrypted ?u) then ?a else ?b] =>
    set (t := if negb (IsEncrypted u) then a else b) end.
  assert (F : FrameG s t) by (subst t; destruct (negb _); apply (FrameG_refl s)).
  clearbody t. destruct (k_strict t && _); [exact F|].
  set (u := if k_strict t then _ else _).
  assert (F2 : FrameG s u).
  { subst u. destruct (k_strict t); [|exact F]. apply G_emit; try reflexivity. apply G_emit; try reflexivity. exact F. }
  clearbody u. clear F t.
  destruct (is_server role).
  - destruct (e_choose _ _) as [[hk ha]|]; [|exact F2].
    match goal with |- GR _ (bind ?m _) => assert (F3 : GR s m) end.
    { destruct (kexinit_sent _); [exact F2|].
      pose proof (FrR_GR _ _ (SendKexInit_Fr rnd (set_host_key (Some (hk, ha)) u))) as Q.
      destruct (SendKexInit _ _ _ _); (eapply FrameG_trans; [exact F2|exact Q]). }
    match goal with |- GR _ (bind ?m _) => destruct m end; exact F3.
  - match goal with |- GR _ (bind ?m _) => assert (F3 : GR s m) end.
    { destruct (kexinit_sent _); [exact F2|].
      pose proof (FrR_GR _ _ (SendKexInit_Fr rnd u)) as Q.
      destruct (SendKexInit _ _ _ _); (eapply FrameG_trans; [exact F2|exact Q]). }
    match goal with |- GR _ (bind ?m _) => destruct m as [v|e v] end; [|exact F3].
    cbn [bind]. pose proof (FrR_GR _ _ (SendECDHKexInit_Fr v)) as Q.
    destruct (SendECDHKexInit _ _ v); (eapply FrameG_trans; [exact F3|exact Q]).
Qed.

Lemma HandleKexInit_strict : forall p rnd s s', HandleKexInit E role p rnd s = Ret s' ->
  k_in_encrypted s = false ->
  exists q, ParseKexInit p = Some q /\ k_in_encrypted s' = false /\
    kexinit_received (k_flags s') = true /\ k_peer_kexinit s' = p /\
    k_strict s' = StringListContains (ki_kex_algorithms q) marker /\
    (k_strict s' = true -> k_first_packet_was_kexinit s = true /\
       In EInReset (k_log s') /\ In EOutReset (k_log s')) /\
    (is_server role = false -> k_ignore_next s' = k_ignore_next s) /\
    (is_server role = true -> ki_first_kex_packet_follows q = false -> k_ignore_next s' = false).
Proof.
  intros p rnd s s' H Hi. unfold HandleKexInit in H.
  match type of H with context [if ?b then Throw _ _ else _] => destruct b end; [discriminate|].
  destruct (ParseKexInit p) as [q|]; [|discriminate]. exists q. split; [reflexivity|].
  destruct (MakeKex _) as [alg|]; [|discriminate].
  match type of H with context [if negb (IsEncrypted ?u) then ?a else ?b] =>
    set (t := if negb (IsEncrypted u) then a else b) in H end.
  assert (T : k_strict t = StringListContains (ki_kex_algorithms q) marker /\
    k_in_encrypted t = false /\ kexinit_received (k_flags t) = true /\ k_peer_kexinit t = p /\
    k_first_packet_was_kexinit t = k_first_packet_was_kexinit s /\ k_ignore_next t = k_ignore_next s).
  { subst t. unfold IsEncrypted. cbn [k_in_encrypted set_ext_info set_kex set_lists set_peer_kexinit set_flags set_timer upd_self upd].
    match goal with |- context [negb (?a && ?b)] => replace (negb (a && b)) with true end.
    - repeat split; assumption.
    - symmetry. change (negb (k_in_encrypted s && k_out_encrypted s) = true). now rewrite Hi. }
  clearbody t. destruct T as (T1 & T2 & T3 & T4 & T5 & T6).
  destruct (k_strict t && negb (k_first_packet_was_kexinit t)) eqn:Es; [discriminate|].
  set (u := if k_strict t then _ else _) in H.
  assert (U : k_strict u = k_strict t /\ k_in_encrypted u = false /\ kexinit_received (k_flags u) = true /\
    k_peer_kexinit u = p /\ k_ignore_next u = k_ignore_next s /\
    (k_strict t = true -> In EInReset (k_log u) /\ In EOutReset (k_log u))).
  { subst u. destruct (k_strict t) eqn:Et; [|repeat split; try assumption; discriminate].
    repeat split; try assumption.
    - cbn. apply in_or_app. left. apply in_or_app. right. now left.
    - cbn. apply in_or_app. right. now left. }
  clearbody u. destruct U as (U1 & U2 & U3 & U4 & U5 & U6).
  assert (Hf : k_strict t = true -> k_first_packet_was_kexinit s = true).
  { intro Ht. rewrite Ht, T5 in Es. cbn in Es. now apply negb_false_iff in Es. }
  (* from u on, only Fr *)
  assert (K : forall v, Fr u v -> k_in_encrypted v = false -> k_in_encrypted v = false /\
     kexinit_received (k_flags v) = true /\ k_peer_kexinit v = p /\
     k_strict v = StringListContains (ki_kex_algorithms q) marker /\
     (k_strict v = true -> k_first_packet_was_kexinit s = true /\
       In EInReset (k_log v) /\ In EOutReset (k_log v)) /\ k_ignore_next v = k_ignore_next s).
  { intros v [((l & L & _) & _) (B1 & B2 & B3 & B4)] Hv. rewrite L. split; [exact Hv|].
    split; [rewrite B4 by assumption; assumption|]. split; [congruence|]. split; [congruence|].
    split; [|congruence]. intro Hs. rewrite B1, U1 in Hs. split; [now apply Hf|].
    destruct (U6 Hs). split; apply in_or_app; now left. }
  (* nothing here installs a cipher *)
  assert (Si : forall w r, SendKexInit E role rnd w = Ret r -> k_in_encrypted r = k_in_encrypted w).
  { intros w r. unfold SendKexInit. unfold check. destruct (negb _ && _ && _); [|discriminate]. cbn [bind].
    destruct (SerializeKex _ _ _); [|discriminate]. intro X. injection X as <-. reflexivity. }
  assert (Sc : forall w r, SendECDHKexInit E role w = Ret r -> k_in_encrypted r = k_in_encrypted w).
  { intros w r. unfold SendECDHKexInit. unfold check. destruct (negb _ && _ && _ && _ && _); [|discriminate].
    cbn [bind]. destruct (k_kex w) as [[]|]; [|discriminate].
    destruct (WriteLengthEncoded _ _); [|discriminate]. intro X. injection X as <-. reflexivity. }
  destruct (is_server role) eqn:Hr.
  - destruct (e_choose _ _) as [[hk ha]|]; [|discriminate].
    match type of H with bind ?m _ = _ => destruct m as [v|] eqn:Em end; [|discriminate].
    cbn [bind] in H. injection H as <-.
    assert (Fv : Fr u v /\ k_in_encrypted v = false).
    { destruct (kexinit_sent _).
      - injection Em as <-. split; [fr|exact U2].
      - split.
        + pose proof (SendKexInit_Fr rnd (set_host_key (Some (hk, ha)) u)) as Q. rewrite Em in Q. exact Q.
        + apply Si in Em. rewrite Em. exact U2. }
    destruct Fv as [Fv Iv]. destruct (K v Fv Iv) as (K1 & K2 & K3 & K4 & K5 & K6).
    split; [exact K1|]. split; [exact K2|]. split; [exact K3|]. split; [exact K4|]. split; [exact K5|].
    split; [discriminate|]. intros _ Hfol.
    cbn [set_ignore_next upd_self upd k_ignore_next]. now rewrite Hfol.
  - match type of H with bind ?m _ = _ => destruct m as [v|] eqn:Em end; [|discriminate]. cbn [bind] in H.
    assert (Fv : Fr u v /\ k_in_encrypted v = false).
    { destruct (kexinit_sent _).
      - injection Em as <-. split; [fr|exact U2].
      - split.
        + pose proof (SendKexInit_Fr rnd u) as Q. rewrite Em in Q. exact Q.
        + apply Si in Em. rewrite Em. exact U2. }
    destruct Fv as [Fv Iv]. pose proof (SendECDHKexInit_Fr v) as Q. rewrite H in Q. cbn [FrR] in Q.
    assert (Iv' : k_in_encrypted s' = false) by (rewrite (Sc _ _ H); exact Iv).
    destruct (K s' (Fr_trans _ _ _ Fv Q) Iv') as (K1 & K2 & K3 & K4 & K5 & K6).
    split; [exact K1|]. split; [exact K2|]. split; [exact K3|]. split; [exact K4|]. split; [exact K5|].
    split; [intros _; exact K6|discriminate].
Qed.

End H.
