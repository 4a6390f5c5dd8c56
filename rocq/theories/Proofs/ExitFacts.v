(** The order of what is sent at the end of a program (for C73). *)

From Coq Require Import NArith List Bool Lia.
From Verif.Base Require Import Bytes.
From Verif.Spec Require Import FlowSpec ExitSpec.
From Verif.Model Require Import ChannelIO.
From Verif.Proofs Require Import FlowFacts.
Import ListNotations.
Open Scope N_scope.

Definition b2n (b : bool) : nat := if b then 1%nat else 0%nat.

(** while the channel is open *)
Definition Live (s : sess) : Prop :=
  ~ In IClosed (ss_log s) /\
  starts (ss_log s) = (reports (ss_log s) + b2n (ss_child s))%nat /\
  (In ISentEof (ss_log s) -> s_outputs s = false /\ ss_child s = true) /\
  (ss_child s = true -> s_outputs s = true \/ In ISentEof (ss_log s)).

Definition X (s : sess) : Prop := proper_end (ss_log s) /\ (ss_closed s = false -> Live s).

(** events which play no role *)
Definition neutral (e : iev) : Prop :=
  match e with ISent _ _ | ISentEof | ISentExit | IClosed | IStarted => False | _ => True end.

Lemma X_silent : forall s t, alike s t -> ss_log t = ss_log s -> X s -> X t.
Proof. intros s t (A & B & C) E H. unfold X, Live in *. rewrite A, B, C, E. exact H. Qed.

Lemma X_neutral : forall e s t, neutral e -> alike s t -> ss_log t = e :: ss_log s -> ss_closed s = false -> X s -> X t.
Proof.
  intros e s t N (A & B & C) E O (H & L). specialize (L O). unfold X, Live in *. rewrite A, B, C, E.
  destruct L as (L1 & L2 & L3 & L4). split.
  - split; [|exact H]. split; [exact L1|]. destruct e; try exact Logic.I; destruct N.
  - intros _. split; [intros [Q|Q]; [subst e; exact N|auto]|]. split; [destruct e; exact L2 || destruct N|].
    split; [intros [Q|Q]; [subst e; destruct N|exact (L3 Q)]|]. intros Q. destruct (L4 Q); [now left|right; now right].
Qed.

Lemma X_sent : forall x d s t, alike s t -> ss_log t = ISent x d :: ss_log s -> ss_closed s = false -> s_outputs s = true -> X s -> X t.
Proof.
  intros x d s t (A & B & C) E O P (H & L). specialize (L O). unfold X, Live in *. rewrite A, B, C, E.
  destruct L as (L1 & L2 & L3 & L4).
  assert (NE : ~ In ISentEof (ss_log s)) by (intros Q; destruct (L3 Q); congruence). split.
  - split; [|exact H]. split; [exact L1|exact NE].
  - intros _. split; [intros [Q|Q]; [discriminate|auto]|]. split; [exact L2|]. split; [intros [Q|Q]; [discriminate|tauto]|].
    intros _. now left.
Qed.

(** closing one's end of a source *)
Definition same (s t : sess) : Prop := ss_closed t = ss_closed s /\ ss_child t = ss_child s.
Lemma close_source_same : forall x c s, same s (s_close_source x c s).
Proof. intros x c s. unfold s_close_source. destruct (so_open _); [|split; reflexivity]. destruct (so_data _); split; reflexivity. Qed.

(** before [s_maybe_eof]: no EOF has been sent *)
Definition Pre (s : sess) : Prop :=
  proper_end (ss_log s) /\ ~ In IClosed (ss_log s) /\
  starts (ss_log s) = (reports (ss_log s) + b2n (ss_child s))%nat /\ ~ In ISentEof (ss_log s).

Lemma Pre_close_source : forall x c s, so_open (sget s x) = true -> ss_closed s = false -> X s -> Pre (s_close_source x c s).
Proof.
  intros x c s O C (H & L). specialize (L C). destruct L as (L1 & L2 & L3 & L4).
  assert (P : s_outputs s = true) by (unfold s_outputs; destruct x; cbn in O; try discriminate; rewrite O, ?orb_true_r; reflexivity).
  assert (NE : ~ In ISentEof (ss_log s)) by (intros Q; destruct (L3 Q); congruence).
  unfold Pre. rewrite (proj2 (close_source_same x c s)). unfold s_close_source. rewrite O.
  destruct (so_data (sget s x)) as [|b l].
  - change (ss_log _) with (IEnded x :: ss_log s). split; [split; [split; [exact L1|exact Logic.I]|exact H]|].
    split; [intros [Q|Q]; [discriminate|auto]|]. split; [exact L2|intros [Q|Q]; [discriminate|auto]].
  - change (ss_log _) with (IEnded x :: ILost x (b :: l) c :: ss_log s).
    assert (N1 : ~ In IClosed (ILost x (b :: l) c :: ss_log s)) by (intros [Q|Q]; [discriminate|auto]).
    split; [split; [split; [exact N1|exact Logic.I]|split; [split; [exact L1|exact Logic.I]|exact H]]|].
    split; [intros [Q|Q]; [discriminate|auto]|]. split; [exact L2|intros [Q|[Q|Q]]; [discriminate|discriminate|auto]].
Qed.

Lemma close_quiet : forall c s, s_outputs s = false -> ss_log (s_close c s) = IClosed :: ss_log s.
Proof.
  intros c s O. unfold s_outputs in O. apply orb_false_iff in O. destruct O as (O & O3). apply orb_false_iff in O. destruct O as (O1 & O2).
  unfold s_close, s_close_source. cbn [sget]. rewrite O1. cbn [sget]. rewrite O2. cbn [sget]. rewrite O3. reflexivity.
Qed.

Lemma X_maybe_eof : forall s, ss_closed s = false -> Pre s -> X (s_maybe_eof s).
Proof.
  intros s C (H & N1 & E & N2). unfold s_maybe_eof. destruct (s_outputs s) eqn:O.
  - split; [exact H|]. intros _. split; [exact N1|]. split; [exact E|]. split; [tauto|now left].
  - unfold s_close_if_inactive. change (s_outputs (slog ISentEof s)) with (s_outputs s). change (ss_child (slog ISentEof s)) with (ss_child s).
    rewrite O. cbn [orb].
    assert (H' : proper_end (ISentEof :: ss_log s)) by (split; [split; assumption|exact H]).
    destruct (ss_child s) eqn:B.
    + split; [exact H'|]. intros _. unfold Live. change (ss_log (slog ISentEof s)) with (ISentEof :: ss_log s).
      change (s_outputs (slog ISentEof s)) with (s_outputs s). change (ss_child (slog ISentEof s)) with (ss_child s). rewrite B, O.
      split; [intros [Q|Q]; [discriminate|auto]|]. split; [exact E|]. split; [auto|]. intros _. right. now left.
    + split; [|discriminate]. rewrite close_quiet by exact O. change (ss_log (slog ISentEof s)) with (ISentEof :: ss_log s).
      split; [|exact H']. split; [intros [Q|Q]; [discriminate|auto]|]. split; [|now left].
      change (reports (ISentEof :: ss_log s)) with (reports (ss_log s)). change (starts (ISentEof :: ss_log s)) with (starts (ss_log s)).
      rewrite E. cbn. lia.
Qed.

Lemma open_outputs : forall s x, so_open (sget s x) = true -> s_outputs s = true.
Proof. intros s x O. unfold s_outputs; destruct x; cbn in O; try discriminate; rewrite O, ?orb_true_r; reflexivity. Qed.

Lemma X_hangup : forall x s, so_open (sget s x) = true -> ss_closed s = false -> X s -> X (s_maybe_eof (s_close_source x LHangup s)).
Proof.
  intros x s O C H. apply X_maybe_eof; [rewrite (proj1 (close_source_same _ _ _)); exact C|]. now apply Pre_close_source.
Qed.

Lemma X_read : forall x s, so_open (sget s x) = true -> ss_closed s = false -> X s -> X (s_read x s).
Proof.
  intros x s O C H. unfold s_read. destruct (_ =? 0).
  - apply (X_neutral IAssertFailed s); [exact Logic.I|repeat split|reflexivity|exact C|exact H].
  - destruct (take _ _) as [|b l] eqn:T; [now apply X_hangup|]. cbv zeta. set (t := slog _ _).
    assert (A : alike s t).
    { unfold t. eapply alike_trans; [apply (alike_put x (set_data (sget s x) (drop (N.min 4096 (ss_swin s)) (so_data (sget s x)))) s); reflexivity|repeat split]. }
    assert (XT : X t) by (apply (X_sent x (b :: l) s); [exact A|reflexivity|exact C|now apply (open_outputs s x)|exact H]).
    clearbody t. destruct (_ =? 0); [|exact XT]. apply (X_silent t); [apply alike_cancel|reflexivity|exact XT].
Qed.

Lemma X_spawned : forall s t, ss_closed s = false -> ss_child s = false -> (s_outputs s = false -> ~ In ISentEof (ss_log s)) ->
  ss_closed t = false -> ss_child t = true -> s_outputs t = true -> ss_log t = IStarted :: ss_log s -> X s -> X t.
Proof.
  intros s t C B N C' B' O' E (H & L). specialize (L C). destruct L as (L1 & L2 & L3 & L4). rewrite B in *.
  assert (NE : ~ In ISentEof (ss_log s)) by (intros Q; destruct (L3 Q); congruence).
  unfold X, Live. rewrite B', O', E. split; [split; [split; [exact L1|exact Logic.I]|exact H]|]. intros _.
  split; [intros [Q|Q]; [discriminate|auto]|]. split; [|split; [intros [Q|Q]; [discriminate|tauto]|now left]].
  change (starts (IStarted :: ss_log s)) with (Datatypes.S (starts (ss_log s))). change (reports (IStarted :: ss_log s)) with (reports (ss_log s)).
  rewrite L2. cbn. lia.
Qed.

Lemma X_exit : forall s, ss_closed s = false -> ss_child s = true -> X s -> X (s_close_if_inactive (slog ISentExit (schild false s))).
Proof.
  intros s C B (H & L). specialize (L C). destruct L as (L1 & L2 & L3 & L4). rewrite B in *. cbn [b2n] in L2.
  set (t := slog ISentExit (schild false s)).
  assert (Lt : ss_log t = ISentExit :: ss_log s) by reflexivity. assert (Ot : s_outputs t = s_outputs s) by reflexivity.
  assert (Bt : ss_child t = false) by reflexivity.
  assert (Rt : reports (ss_log t) = Datatypes.S (reports (ss_log s))) by reflexivity. assert (St : starts (ss_log t) = starts (ss_log s)) by reflexivity.
  clearbody t.
  assert (H' : proper_end (ss_log t)) by (rewrite Lt; split; [split; [exact L1|lia]|exact H]).
  assert (NC : ~ In IClosed (ss_log t)) by (rewrite Lt; intros [Q|Q]; [discriminate|auto]).
  unfold s_close_if_inactive. rewrite Ot, Bt, orb_false_r. destruct (s_outputs s) eqn:O.
  - split; [exact H'|]. intros _. split; [exact NC|]. rewrite Rt, St, Bt, Ot. split; [cbn; lia|].
    split; [|discriminate]. rewrite Lt. intros [Q|Q]; [discriminate|]. destruct (L3 Q); discriminate.
  - split; [|discriminate]. rewrite close_quiet by exact Ot. split; [|exact H']. split; [exact NC|]. split; [lia|].
    rewrite Lt. right. destruct (L4 eq_refl) as [Q|Q]; [discriminate|exact Q].
Qed.

Lemma T_E : forall s, T s -> ss_closed s = false -> starts (ss_log s) <> 0%nat -> ss_child s || s_outputs s = true.
Proof.
  intros s H C N. apply H; [exact C|]. unfold starts in N. induction (ss_log s) as [|e l IH]; [destruct N; reflexivity|].
  destruct e; try (right; apply IH; exact N). now left.
Qed.

Lemma X_step : forall s o, benign o -> X s -> X (sstep s o).
Proof.
  intros s o BN H. unfold sstep. destruct (ss_closed s) eqn:C; [exact H|]. destruct o; try destruct BN.
  - destruct (so_open (sget s x)) eqn:O; [|exact H]. destruct (negb _); [|exact H]. cbn [andb].
    apply (X_neutral (IProduced x d) s); [exact Logic.I| |reflexivity|exact C|exact H].
    eapply alike_trans; [apply (alike_put x (set_data (sget s x) (so_data (sget s x) ++ d)) s); reflexivity|repeat split].
  - destruct (so_open (sget s x)) eqn:O; [|exact H]. apply (X_silent s); [apply alike_put; reflexivity|reflexivity|exact H].
  - destruct (so_open (sget s x)) eqn:O; [|exact H]. destruct (so_reg _); [|exact H]. cbn [andb].
    destruct x; try (destruct (so_data _); [destruct (so_eof _)|]; (apply X_read; assumption) || exact H).
    unfold s_tty_ready. destruct (_ && _); [now apply X_read|]. destruct (so_eof _); [|exact H]. now apply X_hangup.
  - apply (X_silent s); [|reflexivity|exact H]. apply alike_put. unfold schedule_write. cbn. destruct (so_open (ss_tty s)) eqn:E; [reflexivity|exact E].
  - destruct (k =? 0); [exact H|]. cbv zeta. change (ss_swin (slog (IAdjusted k) s)) with (ss_swin s). destruct (ss_swin s =? 0).
    + apply (X_neutral (IAdjusted k) s); [exact Logic.I|exact (alike_schedule (slog (IAdjusted k) s))|reflexivity|exact C|exact H].
    + apply (X_neutral (IAdjusted k) s); [exact Logic.I|repeat split|reflexivity|exact C|exact H].
  - destruct (ss_child s || s_outputs s) eqn:E; [exact H|]. apply orb_false_iff in E. destruct E as (E1 & E2).
    destruct H as (H & L). split; [exact H|]. intros _. destruct (L C) as (L1 & L2 & L3 & L4). split; [exact L1|]. split; [exact L2|].
    split; [intros Q; destruct (L3 Q); congruence|]. intros _. left. apply orb_true_r.
  - destruct (ss_child s) eqn:B; [exact H|]. cbn [orb]. destruct (so_open (ss_out s) || so_open (ss_err s)); [exact H|]. cbv zeta.
    apply (X_spawned s); [exact C|exact B| | | |  | |exact H].
    + intros _ Q. destruct H as (_ & L). destruct (L C) as (_ & _ & L3 & _). destruct (L3 Q); congruence.
    + destruct (so_open (ss_tty s)); (destruct (_ =? 0); exact C).
    + reflexivity.
    + destruct (so_open (ss_tty s)) eqn:Y; (destruct (_ =? 0)); unfold s_outputs; cbn -[schedule_read];
      rewrite ?(proj2 (schedule_data _)), ?Y, ?orb_true_r; reflexivity.
    + destruct (so_open (ss_tty s)); (destruct (_ =? 0); reflexivity).
  - destruct (ss_child s) eqn:B; [now apply X_exit|exact H].
  - destruct (b_rekey (ss_block s)); [exact H|]. cbn [b_kexinit].
    apply (X_neutral IKexInit s); [exact Logic.I|eapply alike_trans; [|apply alike_tell]; repeat split|now rewrite tell_log|exact C|exact H].
  - destruct (b_rekey (ss_block s)); [|exact H]. cbn [b_newkeys].
    apply (X_neutral INewKeys s); [exact Logic.I|eapply alike_trans; [|apply alike_tell]; repeat split|now rewrite tell_log|exact C|exact H].
  - cbn [b_flush]. apply (X_silent s); [eapply alike_trans; [|apply alike_tell]; repeat split|now rewrite tell_log|exact H].
Qed.

Lemma X_init : forall w b, X (ss_init w b).
Proof. intros w b. split; [exact Logic.I|]. intros _. split; [tauto|]. split; [reflexivity|]. split; [intros []|discriminate]. Qed.

Lemma sruns_X : forall w b ops, Forall benign ops -> X (sruns w b ops).
Proof.
  intros w b ops. induction ops as [|o t IH] using rev_ind; intros F; [apply X_init|].
  rewrite sruns_snoc. apply Forall_app in F. destruct F as (F1 & F2). apply X_step; [now inversion F2|]. exact (IH F1).
Qed.

Lemma sruns_TT : forall w b ops, T (sruns w b ops).
Proof.
  intros w b ops. induction ops as [|o t IH] using rev_ind; [intros _ []|]. rewrite sruns_snoc. now apply T_step.
Qed.
