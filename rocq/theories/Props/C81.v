(** * C81: keys are renewed *)

From Coq Require Import NArith List Bool Lia.
From Verif.Model Require Import Negotiate KexKeys KexMachine Rekey.
From Verif.Spec Require Import RekeySpec.
From Verif.Proofs Require Import RekeyFacts.
Import ListNotations.
Open Scope N_scope.

(** After authentication, and while no key exchange is in progress, the keys are
    never older than one hour: before that time has passed, a key exchange has
    been started.  Missing: how long the exchange itself may take. *)
Theorem C81_hour_partial : forall dbg slack role ops s t, rk_runs dbg slack role ops s -> r_status s = RRunning ->
  logged_in (r_log s) = true -> exchanging (r_log s) = false -> renewed (r_log s) = Some t -> r_now s <= t + one_hour + slack.
Proof.
  intros dbg slack role ops s t H R A X T. destruct (runs_full dbg slack role ops s H R) as (C & _ & D).
  rewrite (co_auth _ _ C) in A. rewrite (co_ex _ _ C) in X. destruct (du_some _ D A X) as (d & t' & E1 & E2 & E3). pose proof (co_late _ _ C d E1). rewrite T in E2. injection E2 as <-. lia.
Qed.
Print Assumptions C81_hour_partial.

(** A packet which brings the number of bytes sent with the present keys to one
    GiB or more is followed by our KEXINIT within the time the event loop needs:
    as long as there is none, no more time has passed. *)
Theorem C81_bytes_partial : forall dbg slack role ops s pre t n post, rk_runs dbg slack role ops s -> r_status s = RRunning ->
  r_log s = pre ++ (t, VPacket true n) :: post -> logged_in pre = true -> exchanging pre = false ->
  one_gib <= used (pre ++ [(t, VPacket true n)]) -> (forall e, In e post -> is_kexinit e = false) ->
  r_now s <= t + slack.
Proof.
  intros dbg slack role ops s pre t n post H R L A X U F. destruct (runs_full dbg slack role ops s H R) as (C & _ & D). destruct (runs_W dbg slack role ops s H) as (_ & WF & _).
  assert (F' : forallb (fun e => negb (is_kexinit e)) post = true) by (apply forallb_forall; intros e I; now rewrite (F e I)).
  destruct (exhausted_split _ pre t n post WF L A X U F') as (E1 & _ & t' & E2 & E3). rewrite (co_ex _ _ C) in E1. destruct (du_now _ D t' E2 E1) as (d & D1 & D2). pose proof (co_late _ _ C d D1). lia.
Qed.
Print Assumptions C81_bytes_partial.

(** Never without need: after authentication the server begins a key exchange
    only if the last one was completed an hour ago, or one GiB was sent. *)
Theorem C81_needed : forall dbg slack role ops s pre t post t0, rk_runs dbg slack role ops s ->
  r_log s = pre ++ (t, VKexInit true) :: post -> logged_in pre = true -> renewed pre = Some t0 ->
  t0 + one_hour <= t \/ one_gib <= used pre.
Proof.
  intros dbg slack role ops s pre t post t0 H L A T. destruct (runs_W dbg slack role ops s H) as (_ & WF & _). destruct (WF pre _ post L) as (_ & S). cbn in S. exact (S A t0 T).
Qed.
Print Assumptions C81_needed.

(** Messages of the peer can always complete the exchange. *)
Definition of_peer (o : rop) : Prop := match o with RKexInit false _ _ | RExchange false _ _ _ | RNewKeys false => True | _ => False end.

Theorem C81_can_finish : forall dbg slack role ops s, rk_runs dbg slack role ops s -> r_status s = RRunning -> exchanging (r_log s) = true ->
  exists more s', rk_runs dbg slack role (ops ++ more) s' /\ Forall of_peer more /\ r_status s' = RRunning /\ exchanging (r_log s') = false /\
    renewed (r_log s') = Some (r_now s').
Proof.
  assert (NK : forall dbg slack role ops s, rk_runs dbg slack role ops s -> r_status s = RRunning -> newkeys_sent (r_flags s) = true ->
    exists s', rk_runs dbg slack role (ops ++ [RNewKeys false]) s' /\ r_status s' = RRunning /\ exchanging (r_log s') = false /\ renewed (r_log s') = Some (r_now s')).
  { intros dbg slack role ops s H R K. destruct (runs_full dbg slack role ops s H R) as (_ & (R1 & R2 & R3) & _). specialize (R2 K). specialize (R3 R2).
    destruct (rk_step dbg slack role (RNewKeys false) s) as [s'|] eqn:S; unfold rk_step in S; rewrite R in S; rewrite R1, R2, R3, K in S; cbn in S; [|discriminate].
    exists s'. split; [eapply rk_snoc; [exact H|]; unfold rk_step; rewrite R, R1, R2, R3, K; exact S|]. unfold r_ResetIfComplete, IsComplete in S. cbn in S. injection S as <-. unfold r_schedule. cbn [r_set_due r_set_flags r_set_in r_note r_status r_log r_now]. split; [exact R|].
    rewrite exchanging_snoc, renewed_snoc. split; reflexivity. }
  assert (EX : forall dbg slack role ops s, rk_runs dbg slack role ops s -> r_status s = RRunning -> kexinit_received (r_flags s) = true -> newkeys_sent (r_flags s) = false ->
    exists s', rk_runs dbg slack role (ops ++ [RExchange false 0 0 0]) s' /\ r_status s' = RRunning /\ newkeys_sent (r_flags s') = true).
  { intros dbg slack role ops s H R K K'. destruct (runs_full dbg slack role ops s H R) as (_ & (R1 & R2 & R3) & _). specialize (R3 K).
    destruct (rk_step dbg slack role (RExchange false 0 0 0) s) as [s'|] eqn:S; unfold rk_step in S; rewrite R in S; rewrite R1, K', R3, K in S; cbn [negb orb] in S; [|discriminate].
    exists s'. split; [eapply rk_snoc; [exact H|]; unfold rk_step; rewrite R, R1, K', R3, K; exact S|]. injection S as <-. unfold r_SendNewKeys. cbv zeta.
    set (s1 := match role with SERVER => r_SendPacket 0 s | CLIENT => s end). assert (F1 : r_flags s1 = r_flags s /\ r_status s1 = RRunning) by (unfold s1; destruct role; [destruct (send_flags 0 s) as (A & B & _); rewrite A, B; auto|auto]).
    destruct F1 as (F1 & F2). rewrite F1, R1. unfold r_ResetIfComplete, IsComplete. cbn. split; [|reflexivity]. destruct (send_flags 0 (r_set_due None s1)) as (_ & A & _). rewrite A. exact F2. }
  intros dbg slack role ops s H R X. destruct (runs_full dbg slack role ops s H R) as (C & (R1 & R2 & R3) & _). rewrite (co_ex _ _ C) in X.
  destruct (newkeys_sent (r_flags s)) eqn:K1.
  - destruct (NK dbg slack role ops s H R K1) as (s' & A & B). exists [RNewKeys false], s'. split; [exact A|]. split; [repeat constructor|exact B].
  - destruct (kexinit_received (r_flags s)) eqn:K2.
    + destruct (EX dbg slack role ops s H R K2 K1) as (s1 & A1 & B1 & B2). destruct (NK _ _ _ _ _ A1 B1 B2) as (s' & A & B).
      exists [RExchange false 0 0 0; RNewKeys false], s'. change [RExchange false 0 0 0; RNewKeys false] with ([RExchange false 0 0 0] ++ [RNewKeys false]). rewrite app_assoc. split; [exact A|]. split; [repeat constructor|exact B].
    + assert (KI : exists s0, rk_runs dbg slack role (ops ++ [RKexInit false 0 0]) s0 /\ r_status s0 = RRunning /\ kexinit_received (r_flags s0) = true /\ newkeys_sent (r_flags s0) = false).
      { destruct (rk_step dbg slack role (RKexInit false 0 0) s) as [s0|] eqn:S; unfold rk_step in S; rewrite R in S; rewrite K2, K1, R1, X in S; cbn [orb] in S; [|discriminate].
        exists s0. split; [eapply rk_snoc; [exact H|]; unfold rk_step; rewrite R, K2, K1, R1, X; exact S|]. injection S as <-. destruct role; [cbn; auto|].
        match goal with |- context [r_SendPacket 0 ?u] => destruct (send_flags 0 u) as (A & B & _) end. rewrite A, B. cbn. auto. }
      destruct KI as (s0 & A0 & B0 & B1 & B2). destruct (EX _ _ _ _ _ A0 B0 B1 B2) as (s1 & A1 & B3 & B4). destruct (NK _ _ _ _ _ A1 B3 B4) as (s' & A & B).
      exists [RKexInit false 0 0; RExchange false 0 0 0; RNewKeys false], s'. split; [|split; [repeat constructor|exact B]].
      rewrite <- !app_assoc in A. exact A.
Qed.
Print Assumptions C81_can_finish.

(** ** What does not hold *)

(** "There is a limit on the age of the keys." *)
Definition C81_time_full_statement : Prop :=
  exists bound, forall dbg slack role ops s t, rk_runs dbg slack role ops s -> r_status s = RRunning -> logged_in (r_log s) = true ->
    keys_since (r_log s) = Some t -> r_now s <= t + bound + slack.
(** "Received data counts as well." *)
Definition C81_received_full_statement : Prop :=
  exists bound, forall dbg slack role ops s, rk_runs dbg slack role ops s -> r_status s = RRunning -> logged_in (r_log s) = true ->
    exchanging (r_log s) = false -> received_with_keys (r_log s) <= bound.

Fixpoint rk_run (dbg : bool) (slack : N) (role : Role) (ops : list rop) (s : rconn) : option rconn :=
  match ops with
  | [] => Some s
  | o :: rest => match rk_step dbg slack role o s with Some s' => rk_run dbg slack role rest s' | None => None end
  end.
Lemma rk_run_runs : forall dbg slack role ops before s s', rk_runs dbg slack role before s -> rk_run dbg slack role ops s = Some s' -> rk_runs dbg slack role (before ++ ops) s'.
Proof.
  intros dbg slack role. induction ops as [|o ops IH]; intros before s s' H E; cbn [rk_run] in E.
  - injection E as <-. now rewrite app_nil_r.
  - destruct (rk_step dbg slack role o s) as [s1|] eqn:S; [|discriminate]. change (o :: ops) with ([o] ++ ops). rewrite app_assoc. eapply IH; [|exact E]. eapply rk_snoc; eauto.
Qed.

(** the initial key exchange and authentication *)
Definition C81_login : list rop := [RKexInit false 800 0; RExchange false 300 16 16; RNewKeys false; RSend 100; RAuthenticated].
(** the peer starts another one, and does not send NEWKEYS; data still flows in
    both directions *)
Definition C81_stall : list rop := [RKexInit false 800 0; RExchange false 300 16 16].

Definition state_of (ops : list rop) : rconn := match rk_run true 0 SERVER ops (r_init 0) with Some s => s | None => r_init 0 end.
Definition stalled : rconn := Eval vm_compute in state_of (C81_login ++ C81_stall).
Definition ready : rconn := Eval vm_compute in state_of C81_login.
Lemma stalled_runs : rk_runs true 0 SERVER (C81_login ++ C81_stall) stalled.
Proof. apply (rk_run_runs true 0 SERVER _ [] _ _ (rk_nil true 0 SERVER 0)). vm_compute. reflexivity. Qed.
Lemma ready_runs : rk_runs true 0 SERVER C81_login ready.
Proof. apply (rk_run_runs true 0 SERVER _ [] _ _ (rk_nil true 0 SERVER 0)). vm_compute. reflexivity. Qed.

Theorem C81_time_refuted : ~ C81_time_full_statement.
Proof.
  intros (b & H). assert (G : rk_runs true 0 SERVER ((C81_login ++ C81_stall) ++ [RTick (b + 1)]) (r_set_now (r_now stalled + (b + 1)) stalled)) by (eapply rk_snoc; [exact stalled_runs|reflexivity]).
  specialize (H true 0 SERVER _ _ 0 G eq_refl eq_refl eq_refl). change (r_now (r_set_now (r_now stalled + (b + 1)) stalled)) with (0 + (b + 1)) in H. lia.
Qed.
Print Assumptions C81_time_refuted.

(** in this state packets are received and sent as usual *)
Example C81_stalled_works : exists s, rk_run true 0 SERVER [RTick 100000000; RReceive 1000; RSend 2000000000; RTick 100000000; RSend 1000] stalled = Some s /\ r_status s = RRunning /\
  used (r_log s) = 2000001032 /\ exchanging (r_log s) = true.
Proof. eexists. split; [vm_compute; reflexivity|]. vm_compute. auto. Qed.

Theorem C81_received_refuted : ~ C81_received_full_statement.
Proof.
  intros (b & H). assert (G : rk_runs true 0 SERVER (C81_login ++ [RReceive (b + 1)]) (r_note (VReceived (b + 1)) ready)) by (eapply rk_snoc; [exact ready_runs|reflexivity]).
  specialize (H true 0 SERVER _ _ G eq_refl eq_refl eq_refl). change (received_with_keys (r_log (r_note (VReceived (b + 1)) ready))) with (0 + (b + 1)) in H. lia.
Qed.
Print Assumptions C81_received_refuted.

(** ** A concrete case: rekeying after one hour and after one GiB *)
Definition C81_hourly : list rop := C81_login ++ [RTick 3600000; RTimer 800; RKexInit false 800 0; RExchange false 300 16 16; RNewKeys false; RTick 1000; RSend 1073741808].
Example C81_demo : r_status (state_of C81_hourly) = RRunning /\ logged_in (r_log (state_of C81_hourly)) = true /\ exchanging (r_log (state_of C81_hourly)) = false /\
  renewed (r_log (state_of C81_hourly)) = Some 3600000 /\ used (r_log (state_of C81_hourly)) = 1073741824 /\ r_due (state_of C81_hourly) = Some 3601000 /\
  rk_step true 0 SERVER (RTick 1) (state_of C81_hourly) = None /\
  exists s, rk_step true 0 SERVER (RTimer 800) (state_of C81_hourly) = Some s /\ exchanging (r_log s) = true.
Proof. vm_compute. repeat split. eexists. split; reflexivity. Qed.
