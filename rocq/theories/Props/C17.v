(** * C17: the key exchange state machine admits only complete exchanges

    [xstep] (Spec/KexSpec.v) is the reference: which message may be sent and
    received when.  [history] replays what a connection has done:
    [None] would mean that the connection itself has broken the order,
    [Some XBad] that the peer has broken it and only DISCONNECT may
    follow, [Some XEnd] that DISCONNECT was sent or the connection closed,
    after which nothing may happen. *)

From Coq Require Import NArith List Bool Lia String.
From Verif.Base Require Import Bytes.
From Verif.Spec Require Import WireSpec PacketSpec NamesSpec KexSpec.
From Verif.Model Require Import Wire Frame Packets StringList Negotiate KexKeys KexMachine.
From Verif.Proofs Require Import WireFacts PacketFacts NamesFacts KexKeysFacts KexFacts KexFrame KexStrict KexLog KexAuth KexToy.
Import ListNotations.
Open Scope N_scope.

(** For every run: the connection itself never breaks the order, and it
    goes on only if the peer has not broken it, either. *)
Theorem C17_order_of_messages :
  forall E role, (forall x, len (e_digest E x) = 32) ->
  forall u ops s, kruns E role u ops s -> Forall op_ok ops ->
  (k_status s = Running -> exists x, history role (k_log s) = Some (XRun x)) /\
  (k_status s = Dead -> history role (k_log s) = Some XEnd) /\
  history role (k_log s) <> None.
Proof.
  intros E role H32 u ops s H Ho. destruct (kruns_Fin E role H32 u ops s H Ho) as (_ & F).
  destruct (k_status s).
  - destruct F as (x & (Hx & _) & _). split; [eauto|]. split; [discriminate|]. congruence.
  - split; [discriminate|]. split; [auto|]. congruence.
  - destruct F as (f & F & _). split; [discriminate|]. split; [discriminate|]. congruence.
Qed.
Print Assumptions C17_order_of_messages.

(** A message out of order is answered with DISCONNECT and nothing else. *)
Theorem C17_out_of_order_disconnects :
  forall E role, (forall x, len (e_digest E x) = 32) ->
  forall u ops s, kruns E role u ops s -> Forall op_ok ops -> k_status s <> AssertFailed ->
  forall pre post, k_log s = pre ++ post -> history role pre = Some XBad ->
  exists reason, post = [ETx (1 :: reason)] /\ k_status s = Dead.
Proof.
  intros E role H32 u ops s H Ho Hna pre post HL Hb.
  destruct (C17_order_of_messages E role H32 u ops s H Ho) as (O1 & O2 & O3).
  rewrite HL in *. unfold history in *. rewrite xsteps_app, Hb in *.
  destruct (k_status s); [destruct (O1 eq_refl) as (x & O)| |contradiction].
  - exfalso. destruct post as [|e post]; [discriminate|]. cbn [xsteps] in O.
    destruct (xstep role XBad e) as [ph|] eqn:E1; [|discriminate].
    assert (ph = XEnd). { cbn [xstep] in E1. destruct e; try discriminate. destruct payload as [|[|[]] ?]; try discriminate. congruence. }
    subst ph. destruct post; discriminate.
  - specialize (O2 eq_refl). destruct post as [|e post]; [discriminate|]. cbn [xsteps] in O2.
    cbn [xstep] in O2. destruct e; try discriminate. destruct payload as [|[|[]] ?]; try discriminate.
    destruct post as [|e post]; [|discriminate]. eauto.
Qed.
Print Assumptions C17_out_of_order_disconnects.

(** After DISCONNECT (or close) nothing happens any more. *)
Theorem C17_nothing_after_the_end :
  forall E role, (forall x, len (e_digest E x) = 32) ->
  forall u ops s, kruns E role u ops s -> Forall op_ok ops ->
  forall pre e post, k_log s = pre ++ e :: post ->
  e = EClosed \/ (exists reason, e = ETx (1 :: reason)) -> post = [].
Proof.
  intros E role H32 u ops s H Ho pre e post HL He.
  destruct (C17_order_of_messages E role H32 u ops s H Ho) as (_ & _ & O3).
  rewrite HL in O3. unfold history in O3. rewrite xsteps_app in O3.
  destruct (xsteps role (XRun (idle [])) pre) as [ph|]; [|congruence]. cbn [xsteps] in O3.
  destruct (xstep role ph e) as [ph'|] eqn:Ex; [|congruence].
  assert (ph' = XEnd).
  { destruct ph; destruct He as [->|(r & ->)]; cbn [xstep] in Ex; congruence. }
  subst ph'. destruct post as [|f post]; [reflexivity|]. destruct O3. reflexivity.
Qed.
Print Assumptions C17_nothing_after_the_end.

(** A direction is switched to new keys only by a complete exchange: KEXINIT
    sent and received, both key exchange messages, keys derived, NEWKEYS in
    that direction. *)
Theorem C17_complete_exchange :
  forall E role, (forall x, len (e_digest E x) = 32) ->
  forall u ops s, kruns E role u ops s -> Forall op_ok ops ->
  forall d pre c post,
  k_log s = pre ++ (match d with OUTGOING => EOutCipher c | INCOMING => EInCipher c end) :: post ->
  exists x, history role pre = Some (XRun x) /\
    x_tx20 x <> None /\ x_rx20 x <> None /\ x_init x <> None /\ x_reply x <> None /\ x_secret x <> None /\
    match d with OUTGOING => x_tx21 x = true /\ x_out x = false | INCOMING => x_rx21 x = true end.
Proof.
  intros E role H32 u ops s H Ho d pre c post HL.
  destruct (kruns_Fin E role H32 u ops s H Ho) as ((G & _) & _).
  destruct (G pre _ post HL) as (ph & Hh & Ge).
  assert (X : exists x h sig, ph = XRun x /\ exchanged role (e_version E) x h sig /\ x_secret x = Some (K h)).
  { destruct d; cbn [good_event] in Ge; destruct Ge as (x & h & sig & -> & _ & X1 & X2 & _); exists x, h, sig; auto. }
  destruct X as (x & h & sig & -> & (X1 & X2 & X3) & X4). exists x. split; [exact Hh|].
  destruct (C17_order_of_messages E role H32 u ops s H Ho) as (_ & _ & O3).
  destruct (history role (k_log s)) as [f|] eqn:Ef; [|congruence]. rewrite HL in Ef.
  destruct (history_pre role _ _ _ _ Ef) as (p1 & p2 & Hp1 & Hp2). rewrite Hh in Hp1. injection Hp1 as <-.
  assert (Y : x_tx20 x <> None /\ x_rx20 x <> None).
  { destruct role; destruct X3 as (_ & _ & X5 & X6); split; congruence. }
  destruct Y as [Y1 Y2]. split; [exact Y1|]. split; [exact Y2|]. split; [congruence|]. split; [congruence|].
  split; [congruence|]. destruct d; cbn [xstep] in Hp2; unfold must in Hp2.
  - destruct (x_rx21 x); [reflexivity|discriminate].
  - destruct (x_tx21 x && negb (x_out x)) eqn:Eb; [|discriminate].
    apply andb_prop in Eb as [B1 B2]. apply negb_true_iff in B2. auto.
Qed.
Print Assumptions C17_complete_exchange.

(** ** Assertions

    "no internal assertion of the key exchange code can fail" is not true:
    the rekey timer is armed after the first exchange, and its handler
    asserts that the peer is authenticated. *)
Definition slow_ops : list kop := server_ops ++ [OpRekeyTimer (rnd 6)].

Theorem C17_assertions_refuted :
  exists ops s, kruns toy SERVER false ops s /\ Forall op_ok ops /\ k_status s = AssertFailed.
Proof.
  destruct (krun SERVER slow_ops) as [s|] eqn:E1; [|vm_compute in E1; discriminate].
  exists slow_ops, s. split; [now apply krun_runs|]. split; [okops|].
  vm_compute in E1. injection E1 as <-. reflexivity.
Qed.
Print Assumptions C17_assertions_refuted.

Lemma run_actions_assert : forall l s s', IsEncrypted s = true -> run_actions l s = Throw XAssert s' ->
  exists a b, l = a ++ HAuthenticated :: b /\ (k_authenticated s = true \/ In HAuthenticated a).
Proof.
  induction l as [|[p|] l IH]; intros s s' Hi H; cbn [run_actions] in H; [discriminate| |].
  - destruct (IH (SendPacket p s) s' Hi H) as (a & b & -> & D). exists (HSend p :: a), b. split; [reflexivity|].
    destruct D as [D|D]; [left; exact D|right; now right].
  - unfold SetAuthenticated, check in H. rewrite Hi in H. destruct (k_authenticated s) eqn:Ea.
    + exists [], l. split; [reflexivity|now left].
    + cbn [negb andb bind] in H.
      destruct (IH (set_timer true (emit EAuthenticated (set_authenticated s))) s' Hi H) as (a & b & -> & _).
      exists (HAuthenticated :: a), b. split; [reflexivity|]. right. now left.
Qed.

Lemma packet_assert : forall E role, (forall x, len (e_digest E x) = 32) ->
  forall p seq r h s s', Fin E role s -> op_ok (OpPacket p seq r h) ->
  kstep E role (OpPacket p seq r h) s = Some s' -> k_status s' = AssertFailed ->
  exists l, h = HDone l /\ exists a b, l = a ++ HAuthenticated :: b /\ (k_authenticated s = true \/ In HAuthenticated a).
Proof.
  intros E role H32 p seq r h s s' HF Ho Hs Ha.
  destruct h as [|l|e].
  1,3: exfalso; exact (proj2 (kstep_Fin E role H32 _ _ _ HF Ho Hs) Ha).
  exists l. split; [reflexivity|].
  (* compare with the same packet, passed on by all handlers *)
  assert (Ho' : op_ok (OpPacket p seq r HPass)) by (destruct Ho as (O1 & O2 & _); repeat split; assumption).
  destruct p as [|m p].
  { exfalso. unfold kstep in Hs. destruct (k_status s); try discriminate.
    destruct (k_version_exchanged s); [|discriminate]. injection Hs as <-. discriminate. }
  destruct (IsEncrypted s && negb (core_message m)) eqn:Ei.
  - apply andb_prop in Ei as [Ei Ec].
    unfold kstep in Hs. destruct (k_status s) eqn:Est; try discriminate.
    destruct (k_version_exchanged s); [|discriminate]. apply (f_equal (option_map k_status)) in Hs. cbn [option_map] in Hs.
    rewrite Ha in Hs.
    assert (Q : HandlePacket E role m p seq r (HDone l) s = run_actions l (emit (ERx (m :: p)) s)).
    { rewrite HandlePacket_go. unfold IsEncrypted in Ei. apply andb_prop in Ei as [Ei1 Ei2]. rewrite Ei1. cbn [negb].
      unfold go. rewrite Ec. change (IsEncrypted (emit (ERx (m :: p)) s)) with (IsEncrypted s).
      unfold IsEncrypted. rewrite Ei1, Ei2. reflexivity. }
    unfold HandleRawPacket in Hs. rewrite Q in Hs.
    destruct (run_actions l (emit (ERx (m :: p)) s)) as [t|e t] eqn:Er.
    + exfalso. cbn [finish] in Hs.
      assert (St : forall l s t, k_status s = Running -> run_actions l s = Ret t -> k_status t = Running).
      { clear. induction l as [|[q|] l IH]; intros s t Hs H; cbn [run_actions] in H; [congruence|eapply IH; [|exact H]; exact Hs|].
        unfold SetAuthenticated, check in H. destruct (_ && _); [|discriminate]. cbn [bind] in H. eapply IH; [|exact H]. exact Hs. }
      specialize (St l (emit (ERx (m :: p)) s) t Est Er). congruence.
    + assert (e = XAssert).
      { assert (Z : forall l s e t, run_actions l s = Throw e t -> e = XAssert).
        { clear. induction l as [|[q|] l IH]; intros s e t H; cbn [run_actions] in H; [discriminate|eapply IH; exact H|].
          unfold SetAuthenticated, check in H. destruct (_ && _); cbn [bind] in H; [eapply IH; exact H|congruence]. }
        eapply Z. exact Er. }
      subst e. eapply run_actions_assert in Er; [exact Er|exact Ei].
  - exfalso.
    assert (Hs' : kstep E role (OpPacket (m :: p) seq r HPass) s = Some s').
    { rewrite <- Hs. unfold kstep. destruct (k_status s); try reflexivity.
      destruct (k_version_exchanged s); [|reflexivity]. do 2 f_equal. unfold HandleRawPacket.
      assert (Q : forall t, IsEncrypted t = IsEncrypted s -> go E role m p seq r HPass t = go E role m p seq r (HDone l) t).
      { intros t Ht. unfold go. change (IsEncrypted (emit (ERx (m :: p)) t)) with (IsEncrypted t). rewrite Ht, Ei. reflexivity. }
      rewrite !HandlePacket_go. cbv zeta.
      assert (Q1 : IsEncrypted (if m =? MSG_KEXINIT then s else set_first false s) = IsEncrypted s) by (destruct (m =? _); reflexivity).
      rewrite (Q s eq_refl), (Q _ Q1), (Q (set_ignore_next false s) eq_refl). reflexivity. }
    exact (proj2 (kstep_Fin E role H32 _ _ _ HF Ho' Hs') Ha).
Qed.

(** What is proved: an assertion can only fail if the rekey timer expires
    on a connection which is not authenticated, or if the rest of the
    program reports the authentication of a connection which is already
    authenticated or not encrypted.  No message of the peer can cause it
    directly. *)
Theorem C17_assertions_partial :
  forall E role, (forall x, len (e_digest E x) = 32) ->
  forall u ops s, kruns E role u ops s -> Forall op_ok ops -> k_status s = AssertFailed ->
  exists before op s0, ops = before ++ [op] /\ kruns E role u before s0 /\
  match op with
  | OpRekeyTimer _ => ~ In EAuthenticated (k_log s0)
  | OpAuthenticated => In EAuthenticated (k_log s0) \/ IsEncrypted s0 = false
  | OpPacket _ _ _ (HDone l) => exists a b, l = a ++ HAuthenticated :: b /\
      (In EAuthenticated (k_log s0) \/ In HAuthenticated a)
  | _ => False
  end.
Proof.
  intros E role H32 u ops s H Ho Ha.
  inversion H as [|before s0 op s' Hr Hs]; subst; [discriminate|]. exists before, op, s0. split; [reflexivity|].
  split; [exact Hr|]. apply Forall_app in Ho as [Ho1 Ho2]. apply Forall_inv in Ho2.
  pose proof (kruns_Fin E role H32 u before s0 Hr Ho1) as HF.
  destruct (kruns_flags E role u before s0 Hr) as (_ & _ & Fa).
  assert (A : k_authenticated s0 = true <-> In EAuthenticated (k_log s0)).
  { rewrite Fa, existsb_exists. split; [intros (e & Hin & He); destruct e; try discriminate; exact Hin|].
    intro Hin. exists EAuthenticated. auto. }
  pose proof (proj2 (kstep_Fin E role H32 _ _ _ HF Ho2 Hs) Ha) as Q.
  destruct op as [v r|p seq r h|r|p| |a b|]; cbn [op_asserts] in Q; try contradiction.
  - destruct (packet_assert E role H32 _ _ _ _ _ _ HF Ho2 Hs Ha) as (l & -> & a & b & -> & D).
    exists a, b. split; [reflexivity|]. rewrite <- A. exact D.
  - rewrite <- A. intro Hat. rewrite Hat, (kruns_AE E role u before s0 Hr Hat) in Q. discriminate.
  - rewrite <- A. destruct (IsEncrypted s0); [|now right]. left. destruct (k_authenticated s0); [reflexivity|discriminate].
Qed.
Print Assumptions C17_assertions_partial.

(** Witness: two complete exchanges; and a NEWKEYS out of order. *)
Example C17_witness : exists s, kruns toy SERVER false rekey_ops s /\ Forall op_ok rekey_ops /\
  k_status s = Running /\ history SERVER (k_log s) = Some (XRun (idle (bs "SSH-2.0-toy"))) /\
  map (hd 0) (sent (k_log s)) = [20; 31; 21; 80; 20; 31; 21; 94].
Proof.
  destruct (krun SERVER rekey_ops) as [s|] eqn:E; [|vm_compute in E; discriminate].
  exists s. split; [now apply krun_runs|]. split; [okops|].
  vm_compute in E. injection E as <-. vm_compute. repeat split.
Qed.

Example C17_witness_bad :
  match krun SERVER [OpVersion (bs "SSH-2.0-toy") (rnd 5); pkt client_kexinit; pkt [21]] with
  | Some s => k_status s = Dead /\ map (hd 0) (sent (k_log s)) = [20; 1] /\ k_in_encrypted s = false
  | None => False
  end.
Proof. vm_compute. repeat split. Qed.
