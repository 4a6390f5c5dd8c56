(** What the history of a run says about the exchange in progress. *)

From Coq Require Import NArith List Bool Lia String.
From Verif.Base Require Import Bytes.
From Verif.Spec Require Import WireSpec PacketSpec NamesSpec KexSpec.
From Verif.Model Require Import Wire Packets StringList Negotiate KexKeys KexMachine.
From Verif.Proofs Require Import NamesFacts KexKeysFacts KexFacts KexFrame KexStrict.
Import ListNotations.
Open Scope N_scope.

Section Log.
Variable E : kenv.
Variable role : Role.

Local Notation exchanged' := (exchanged role (e_version E)).

Local Ltac fin :=
  split; [intros; solve [auto|congruence]|]; split; [intros; solve [auto|congruence]|];
  split; [left; reflexivity|left; reflexivity].

(** fields of an exchange are set once *)
Lemma xstep_keeps : forall x e x', xstep role (XRun x) e = Some (XRun x') ->
  x' = idle (x_version x) \/
  ((x_secret x <> None -> forall h sig, exchanged' x h sig -> exchanged' x' h sig) /\
   (forall p, x_tx20 x = Some p -> x_tx20 x' = Some p) /\
   (forall p, x_rx20 x = Some p -> x_rx20 x' = Some p) /\
   (x_secret x' = x_secret x \/ exists k, e = ESecret k /\ x_secret x = None /\ x' = with_secret k x) /\
   (x_out x' = x_out x \/ exists c, e = EOutCipher c /\ x' = with_out x)).
Proof.
  intros x e x' H.
  assert (P : forall b y, (if b : bool then Some (XRun y) else None) = Some (XRun x') -> b = true /\ x' = y).
  { intros [] y Q; [injection Q as ->; auto|discriminate]. }
  assert (P' : forall b y, Some (if b : bool then XRun y else XBad) = Some (XRun x') -> b = true /\ x' = y).
  { intros [] y Q; [injection Q as ->; auto|discriminate]. }
  assert (R : x' = x -> x' = idle (x_version x) \/
    ((x_secret x <> None -> forall h sig, exchanged' x h sig -> exchanged' x' h sig) /\
   (forall p, x_tx20 x = Some p -> x_tx20 x' = Some p) /\
   (forall p, x_rx20 x = Some p -> x_rx20 x' = Some p) /\
   (x_secret x' = x_secret x \/ exists k, e = ESecret k /\ x_secret x = None /\ x' = with_secret k x) /\
   (x_out x' = x_out x \/ exists c, e = EOutCipher c /\ x' = with_out x))).
  { intros ->. right. split; [auto|fin]. }
  destruct e as [v|p|p|p|k|c|c| | | | |]; cbn [xstep] in H.
  - unfold must in H. apply P in H as [B ->]. right. apply andb_prop in B as [B1 B2].
    unfold is_none, is_some in B1, B2. destruct (x_tx20 x) eqn:E1; [discriminate|]. destruct (x_rx20 x) eqn:E2; [discriminate|].
    split; [|fin].
    intros _ h sig (_ & _ & X). destruct role; destruct X as (_ & _ & X & _); congruence.
  - (* ERx *)
    destruct p as [|m p]; [injection H as ->; now apply R|].
    destruct (N.eq_dec m 20) as [->|N20].
    { unfold expect in H. apply P' in H as [B ->]. right.
      unfold is_none, is_some in B. destruct (x_rx20 x) eqn:E2; [discriminate|].
      split; [|fin].
      intros _ h sig (_ & _ & X). destruct role; destruct X as (_ & _ & _ & X); congruence. }
    destruct (N.eq_dec m 30) as [->|N30].
    { unfold expect in H. apply P' in H as [B ->]. right.
      unfold is_none, is_some in B. destruct (x_init x) eqn:E2; [rewrite andb_false_r in B; discriminate|].
      split; [|fin].
      intros _ h sig (X & _). congruence. }
    destruct (N.eq_dec m 31) as [->|N31].
    { unfold expect in H. apply P' in H as [B ->]. right.
      unfold is_none, is_some in B. destruct (x_reply x) eqn:E2; [rewrite andb_false_r in B; discriminate|].
      split; [|fin].
      intros _ h sig (_ & X & _). congruence. }
    destruct (N.eq_dec m 21) as [->|N21].
    { unfold expect in H. apply P' in H as [B ->]. right. split; [auto|fin]. }
    assert (Hx : Some (XRun x) = Some (XRun x')).
    { rewrite <- H. destruct m as [|q]; [reflexivity|].
      do 5 (destruct q as [q|q|]; try reflexivity; try congruence). }
    injection Hx as ->. now apply R.
  - injection H as ->. now apply R.
  - (* ETx *)
    destruct p as [|m p]; [injection H as ->; now apply R|].
    destruct (N.eq_dec m 1) as [->|N1]; [discriminate|].
    destruct (N.eq_dec m 20) as [->|N20].
    { unfold must in H. apply P in H as [B ->]. right.
      unfold is_none, is_some in B. destruct (x_tx20 x) eqn:E2; [discriminate|].
      split; [|fin].
      intros _ h sig (_ & _ & X). destruct role; destruct X as (_ & _ & X & _); congruence. }
    destruct (N.eq_dec m 30) as [->|N30].
    { unfold must in H. apply P in H as [B ->]. right.
      unfold is_none, is_some in B. destruct (x_init x) eqn:E2; [rewrite andb_false_r in B; discriminate|].
      split; [|fin].
      intros _ h sig (X & _). congruence. }
    destruct (N.eq_dec m 31) as [->|N31].
    { unfold must in H. apply P in H as [B ->]. right.
      unfold is_none, is_some in B. destruct (x_reply x) eqn:E2; [rewrite andb_false_r in B; discriminate|].
      split; [|fin].
      intros _ h sig (_ & X & _). congruence. }
    destruct (N.eq_dec m 21) as [->|N21].
    { unfold must in H. apply P in H as [B ->]. right. split; [auto|fin]. }
    assert (Hx : Some (XRun x) = Some (XRun x')).
    { rewrite <- H. destruct m as [|q]; [reflexivity|].
      do 5 (destruct q as [q|q|]; try reflexivity; try congruence). }
    injection Hx as ->. now apply R.
  - unfold must in H. apply P in H as [B ->]. right. apply andb_prop in B as [_ B].
    unfold is_none, is_some in B. destruct (x_secret x) eqn:E2; [discriminate|].
    split; [congruence|]. split; [auto|]. split; [auto|]. split; [right; eauto|now left].
  - unfold must in H. apply P in H as [B ->]. right.
    split; [auto|]. split; [auto|]. split; [auto|]. split; [now left|right; eauto].
  - unfold must in H. apply P in H as [B ->]. now left.
  - injection H as ->. now apply R.
  - injection H as ->. now apply R.
  - injection H as ->. now apply R.
  - injection H as ->. now apply R.
  - discriminate.
Qed.

Lemma xstep_back : forall ph e x, xstep role ph e = Some (XRun x) -> exists y, ph = XRun y.
Proof.
  intros [y| |] e x H; [eauto| |discriminate]. exfalso. cbn [xstep] in H.
  destruct e; try discriminate. destruct payload as [|[|[]] ?]; discriminate.
Qed.

Lemma negotiated_keep : forall d x x' c, (forall p, x_tx20 x = Some p -> x_tx20 x' = Some p) ->
  (forall p, x_rx20 x = Some p -> x_rx20 x' = Some p) ->
  negotiated_cipher role d x c -> negotiated_cipher role d x' c.
Proof.
  intros d x x' c H1 H2 (a0 & a1 & a2 & a3 & a4 & a5 & a6 & a7 & a8 & a9 & b3 & b4 & b5 & b6 & b7 & b8 & b9 & T & L1 & R & L2 & Rest).
  split; [exact a0|]. exists a1, a2, a3, a4, a5, a6, a7, a8, a9, b3, b4, b5, b6, b7, b8, b9. auto 10.
Qed.

Definition proof_of (h : handshake) (sig : bytes) : Prop :=
  match role with CLIENT => server_verified E h sig | SERVER => server_signed E h sig end.

Lemma history_pre : forall pre e post ph, history role (pre ++ e :: post) = Some ph ->
  exists ph1 ph2, history role pre = Some ph1 /\ xstep role ph1 e = Some ph2.
Proof.
  intros pre e post ph H. unfold history in *. rewrite xsteps_app in H.
  destruct (xsteps role (XRun (idle [])) pre) as [ph1|]; [|discriminate]. cbn [xsteps] in H.
  destruct (xstep role ph1 e) as [ph2|] eqn:E2; [|discriminate]. exists ph1, ph2. auto.
Qed.

Lemma secret_known : forall sid log, good_log E role sid log ->
  forall x, history role log = Some (XRun x) ->
  (x_secret x <> None -> exists h sig, exchanged' x h sig /\ x_secret x = Some (K h) /\
     secret_shared E role h /\ proof_of h sig) /\
  (x_out x = true -> exists c, negotiated_cipher role OUTGOING x c) /\
  (x_out x = true -> x_secret x <> None).
Proof.
  intros sid log. induction log as [|e log IH] using rev_ind; intros G x H.
  { cbn in H. injection H as <-. cbn. split; [congruence|]. split; discriminate. }
  assert (G' : good_log E role sid log).
  { intros pre f post Hl. apply (G pre f (post ++ [e])). rewrite Hl, <- app_assoc. reflexivity. }
  destruct (G log e [] eq_refl) as (ph & Hh & Ge).
  rewrite history_snoc, Hh in H. destruct (xstep_back _ _ _ H) as (y & ->).
  destruct (IH G' y Hh) as (I1 & I2 & I3).
  destruct (xstep_keeps _ _ _ H) as [->|(K1 & K2 & K3 & K4 & K5)].
  { cbn. split; [congruence|]. split; discriminate. }
  split; [|split].
  - destruct K4 as [K4|(k & -> & Hn & ->)].
    + rewrite K4. intro Hs. destruct (I1 Hs) as (h & sig & X1 & X2 & X3 & X4). exists h, sig. auto.
    + intros _. destruct Ge as (y' & h & sig & Ey & Ex & EK & Es & Ep). injection Ey as <-.
      exists h, sig. split; [exact Ex|]. cbn [with_secret x_secret]. split; [congruence|]. auto.
  - destruct K5 as [K5|(c & -> & ->)].
    + rewrite K5. intro Ho. destruct (I2 Ho) as (c & Hc). exists c. eapply negotiated_keep; eassumption.
    + intros _. destruct Ge as (y' & h & sig & Ey & _ & _ & _ & Hc & _). injection Ey as <-. exists c. exact Hc.
  - destruct K5 as [K5|(c & -> & ->)].
    + rewrite K5. intro Ho. specialize (I3 Ho). destruct K4 as [K4|(k & -> & Hn & ->)]; congruence.
    + intros _. destruct Ge as (y' & h & sig & Ey & _ & _ & Hs & _). injection Ey as <-. cbn. congruence.
Qed.

Lemma good_pre : forall sid pre e post, good_log E role sid (pre ++ e :: post) -> good_log E role sid pre.
Proof.
  intros sid pre e post G a f b Hl. apply (G a f (b ++ e :: post)). rewrite Hl, <- app_assoc. reflexivity.
Qed.

(** after an exchange, the machine is deterministic *)
Lemma kruns_split : forall u more ops s', kruns E role u (ops ++ more) s' ->
  exists s, kruns E role u ops s /\ (k_session_id s <> [] -> k_session_id s' = k_session_id s).
Proof.
  intros u more. induction more as [|op more IH] using rev_ind; intros ops s' H.
  - rewrite app_nil_r in H. eauto.
  - rewrite app_assoc in H. inversion H as [Hn|ops' s op' s'' Hr Hs Hl].
    + exfalso. symmetry in H0 || idtac. destruct (ops ++ more); discriminate.
    + apply app_inj_tail in Hl as [-> ->]. subst. destruct (IH _ _ Hr) as (s0 & R0 & S0). exists s0.
      split; [exact R0|]. intro Hn. destruct (kstep_Step E role _ _ _ Hs) as (_ & Hsid).
      specialize (S0 Hn). rewrite <- S0. apply Hsid. congruence.
Qed.

Lemma kruns_det : forall u ops s s', kruns E role u ops s -> kruns E role u ops s' -> s = s'.
Proof.
  intros u ops. induction ops as [|op ops IH] using rev_ind; intros s s' H1 H2.
  - inversion H1 as [|? ? ? ? ? ? Q1]; [|destruct ops; discriminate].
    inversion H2 as [|? ? ? ? ? ? Q2]; [|destruct ops; discriminate]. congruence.
  - inversion H1 as [Q1|? t1 ? ? R1 S1 Q1]; [destruct ops; discriminate|].
    inversion H2 as [Q2|? t2 ? ? R2 S2 Q2]; [destruct ops; discriminate|].
    apply app_inj_tail in Q1 as [-> ->]. apply app_inj_tail in Q2 as [-> ->].
    rewrite (IH _ _ R1 R2) in S1. congruence.
Qed.

End Log.
