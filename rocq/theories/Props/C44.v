(** * C44: no-more-sessions is permanent *)

From Coq Require Import NArith List Bool Lia String.
From Verif.Base Require Import Bytes.
From Verif.Spec Require Import WireSpec PacketSpec KeySpec AuthSpec SessionSpec AuthDemo.
From Verif.Model Require Import Wire Packets StringList KeyOptions Auth Session Server.
From Verif.Proofs Require Import WireFacts PacketFacts KeyFacts AuthFacts ServerFacts SessionFacts RestrictFacts StepFacts AuthClientFacts.
Import ListNotations.
Open Scope N_scope.

Local Arguments bs : simpl never.

Definition NO_MORE_SESSIONS : bytes := bs "no-more-sessions@openssh.com".

Lemma nms_step : forall cfg sid op s, good cfg s -> sv_no_more_sessions s = true ->
  ac_authenticated (sv_account s) = true ->
  sv_no_more_sessions (vstep cfg sid op s) = true /\ ac_authenticated (sv_account (vstep cfg sid op s)) = true /\
  forall n events, sv_log (vstep cfg sid op s) = sv_log s ++ events -> ~ In (VSession n) events.
Proof.
  intros cfg sid op s G NM A. split; [|split].
  - destruct (is_oauth op) as [[w ->]|NA]; [|exact (q_nms _ _ _ _ (vstep_quiet cfg sid op s NA) NM)].
    destruct (sv_alive s) eqn:AS; [|now rewrite vstep_dead by exact AS].
    rewrite oauth_idle; [exact NM|]. intros p X. destruct (proj2 G AS) as [LB _ _]. rewrite X in LB. destruct LB. congruence.
  - destruct (after_login cfg sid op s G A) as (o & ->). exact A.
  - intros n events L I. destruct (step_log cfg sid op s G) as (l & L' & [N|(w & payload & -> & AL & B)]).
    + rewrite (log_suffix _ _ _ _ L' L) in N. rewrite Forall_forall in N. destruct (N _ I) as (_ & _ & X & _). congruence.
    + destruct (proj2 G AL) as [LB _ _]. rewrite B in LB. destruct LB. congruence.
Qed.

(** After the client's request no session is created any more. *)
Theorem C44_permanent :
  forall cfg session_id peer_address ops op more events data n, Forall op_ok (ops ++ op :: more) ->
  let s := vrun cfg session_id peer_address ops in
  sv_log (vstep cfg session_id op s) = sv_log s ++ events -> In (VGlobal NO_MORE_SESSIONS data) events ->
  exists later, sv_log (vrun cfg session_id peer_address (ops ++ op :: more)) = sv_log s ++ events ++ later /\
    ~ In (VSession n) later.
Proof.
  intros cfg sid peer ops op more events data n F s L I.
  assert (FO : Forall op_ok ops) by (apply Forall_app in F; apply F).
  pose proof (vrun_good cfg sid peer ops FO) as G. fold s in G.
  destruct (global_step cfg sid op s events _ _ G L I) as (payload & env & g & OP & P & NM & D & CH & AU & E).
  assert (S1 : sv_no_more_sessions (vstep cfg sid op s) = true /\ ac_authenticated (sv_account (vstep cfg sid op s)) = true).
  { rewrite E. unfold HandleGlobalRequest. cbv zeta.
    change (bytes_eqb NO_MORE_SESSIONS (bs "tcpip-forward")) with false. cbn match.
    change (bytes_eqb NO_MORE_SESSIONS (bs "cancel-tcpip-forward")) with false. cbn match.
    change (bytes_eqb NO_MORE_SESSIONS (bs "no-more-sessions@openssh.com")) with true. cbn match. auto. }
  change (ops ++ op :: more) with (ops ++ [op] ++ more) in *. rewrite app_assoc in *.
  assert (INV : exists later, sv_log (vrun cfg sid peer ((ops ++ [op]) ++ more)) = sv_log s ++ events ++ later /\ ~ In (VSession n) later /\
    sv_no_more_sessions (vrun cfg sid peer ((ops ++ [op]) ++ more)) = true /\
    ac_authenticated (sv_account (vrun cfg sid peer ((ops ++ [op]) ++ more))) = true).
  { induction more as [|o t IH] using rev_ind.
    - exists []. rewrite !app_nil_r, vrun_snoc. fold s. split; [exact L|]. split; [intros []|exact S1].
    - rewrite app_assoc in *. apply Forall_app in F as [F _]. destruct (IH F) as (later & L1 & N1 & M1 & A1).
      pose proof (vrun_good cfg sid peer _ F) as G1. rewrite vrun_snoc.
      destruct (nms_step cfg sid o _ G1 M1 A1) as (M2 & A2 & N2).
      destruct (step_log cfg sid o _ G1) as (l & L2 & _). exists (later ++ l). split; [rewrite L2, L1, <- !app_assoc; reflexivity|].
      split; [|auto]. intro X. apply in_app_or in X as [X|X]; [contradiction|exact (N2 n l L2 X)]. }
  destruct INV as (later & X & Y & _). eauto.
Qed.
Print Assumptions C44_permanent.

(** A later attempt to open a session ends the connection, without any other
    effect. *)
Theorem C44_attempt :
  forall cfg session_id peer_address ops op more payload env events data peer_channel window max_packet rest,
  Forall op_ok (ops ++ op :: more) ->
  let s := vrun cfg session_id peer_address ops in
  sv_log (vstep cfg session_id op s) = sv_log s ++ events -> In (VGlobal NO_MORE_SESSIONS data) events ->
  let t := vrun cfg session_id peer_address (ops ++ op :: more) in
  sv_alive t = true -> bytes_ok payload ->
  channel_open_layout payload (bs "session") peer_channel window max_packet rest ->
  let t' := vstep cfg session_id (OPacket MSG_CHANNEL_OPEN payload env) t in
  sv_alive t' = false /\ sv_log t' = sv_log t ++ [VDead].
Proof.
  intros cfg sid peer ops op more payload env events data pc wi mp rest F s L I t AL BO LAY.
  assert (FO : Forall op_ok ops) by (apply Forall_app in F; apply F).
  pose proof (vrun_good cfg sid peer ops FO) as G. fold s in G.
  destruct (global_step cfg sid op s events _ _ G L I) as (pl & env0 & g & OP & P & NM & D & CH & AU & E).
  assert (S1 : sv_no_more_sessions (vstep cfg sid op s) = true /\ ac_authenticated (sv_account (vstep cfg sid op s)) = true /\
    sv_channels (vstep cfg sid op s) = true).
  { rewrite E. unfold HandleGlobalRequest. cbv zeta.
    change (bytes_eqb NO_MORE_SESSIONS (bs "tcpip-forward")) with false. cbn match.
    change (bytes_eqb NO_MORE_SESSIONS (bs "cancel-tcpip-forward")) with false. cbn match.
    change (bytes_eqb NO_MORE_SESSIONS (bs "no-more-sessions@openssh.com")) with true. cbn match. auto. }
  assert (INV : sv_no_more_sessions t = true /\ ac_authenticated (sv_account t) = true /\ (sv_alive t = true -> sv_channels t = true)).
  { clear AL. subst t. change (ops ++ op :: more) with (ops ++ [op] ++ more) in *. rewrite app_assoc in *.
    induction more as [|o t IH] using rev_ind.
    - rewrite app_nil_r, vrun_snoc. fold s. split; [apply S1|]. split; [apply S1|]. intros _. apply S1.
    - rewrite app_assoc in *. apply Forall_app in F as [F _]. destruct (IH F) as (M1 & A1 & C1).
      pose proof (vrun_good cfg sid peer _ F) as G1. rewrite vrun_snoc.
      destruct (nms_step cfg sid o _ G1 M1 A1) as (M2 & A2 & _). split; [exact M2|]. split; [exact A2|].
      intro AL'. destruct (sv_alive (vrun cfg sid peer ((ops ++ [op]) ++ t))) eqn:AL1; [|rewrite vstep_dead in AL' by exact AL1; congruence].
      apply channels_stay; auto. }
  destruct INV as (NMS & A & C). specialize (C AL). cbv zeta. unfold vstep. rewrite AL. cbn [negb]. unfold Packet. cbv zeta.
  change (MSG_CHANNEL_OPEN =? MSG_GLOBAL_REQUEST) with false. change (MSG_CHANNEL_OPEN =? MSG_CHANNEL_OPEN) with true. cbn match.
  apply ParseChannelOpen_exact in LAY; [|exact BO]. rewrite LAY, C, A. cbn [andb].
  assert (CC : CreateChannel (bs "session") rest env t = die t).
  { unfold CreateChannel. change (bytes_eqb (bs "session") (bs "session")) with true. cbn match. now rewrite NMS. }
  cbn [co_channel_type co_data]. rewrite CC.
  assert (DD : sv_alive (die t) = false /\ sv_log (die t) = sv_log t ++ [VDead]) by (split; reflexivity).
  destruct (sv_user_auth t); [|exact DD]. unfold UserAuthPacket. destruct (busy_now t && _); [exact DD|].
  change (MSG_CHANNEL_OPEN =? MSG_SERVICE_REQUEST) with false. change (MSG_CHANNEL_OPEN =? MSG_USERAUTH_REQUEST) with false. cbn match.
  cbv beta iota zeta. rewrite C, A. cbn match. cbn [andb co_channel_type co_data]. try rewrite CC. exact DD.
Qed.
Print Assumptions C44_attempt.

(** One session, the request, another session. *)
Example C44_demo :
  let ops := demo_attempt (demo_key_request (bs "alice") (bs "PLAIN")) ++ [demo_open (bs "session") [] 0] in
  let request := demo_global NO_MORE_SESSIONS [] in
  let t := demo_run true (ops ++ [request; demo_request 0 (bs "shell") []]) in
  Forall op_ok (demo_start ++ ops ++ [request]) /\
  In (VGlobal NO_MORE_SESSIONS []) (sv_log t) /\ sv_alive t = true /\
  sv_alive (demo_run true (ops ++ [demo_open (bs "session") [] 1])) = true /\
  sv_alive (demo_run true (ops ++ [request; demo_open (bs "session") [] 1])) = false.
Proof. cbv zeta. split; [apply ok_ops; vm_compute; reflexivity|]. repeat split; vm_compute; auto 20. Qed.
