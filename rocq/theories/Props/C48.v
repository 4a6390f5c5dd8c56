(** * C48: the proxy relays the connection layer only, in order, after the restrictions *)

From Coq Require Import NArith List Bool Lia String.
From Verif.Base Require Import Bytes.
From Verif.Spec Require Import WireSpec PacketSpec KeySpec AuthSpec SessionSpec AuthDemo RelaySpec.
From Verif.Model Require Import Wire Packets StringList KeyOptions Auth Session Server Relay.
From Verif.Proofs Require Import WireFacts PacketFacts KeyFacts AuthFacts ServerFacts StepFacts RelayFacts ProxyFacts.
From Verif.Props Require C33.
Import ListNotations.
Open Scope N_scope.

Local Arguments bs : simpl never.

(** Once the options have been sent to the target, and as long as the
    connection lasts: what is sent to the target is exactly what the client
    sends in the connection layer (messages 80 to 82 and 90 to 100), unchanged
    and in this order; and what the client gets in the connection layer is
    exactly what the target sends. *)
Theorem C48_relayed :
  forall cfg session_id peer_address before o after, Forall op_ok (before ++ after) ->
  let log := sv_log (vrun cfg session_id peer_address before) in
  let log' := sv_log (vrun cfg session_id peer_address (before ++ after)) in
  In (VOptions o) log -> sv_alive (vrun cfg session_id peer_address (before ++ after)) = true ->
  flat_map to_target log' = flat_map to_target log ++ flat_map from_client after /\
  flat_map to_client log' = flat_map to_client log ++ flat_map from_target after.
Proof.
  intros cfg sid peer before o after F log log' I A. destruct (streams cfg sid peer before o after F I A) as (_ & X). exact X.
Qed.
Print Assumptions C48_relayed.

(** The options come first: nothing of the client reaches the target before
    them. *)
Theorem C48_options_first :
  forall cfg session_id peer_address ops a p b, Forall op_ok ops ->
  sv_log (vrun cfg session_id peer_address ops) = a ++ VForward p :: b ->
  exists o, In (VOptions o) a.
Proof. intros. eapply forward_after_options; eauto. Qed.
Print Assumptions C48_options_first.

(** They are those of the login: with a key, the options of this key; with a
    host key, at least as strict as the options of this host key. *)
Theorem C48_options :
  forall cfg session_id peer_address ops op events o, Forall op_ok ops ->
  let s := vrun cfg session_id peer_address ops in
  sv_log (vstep cfg session_id op s) = sv_log s ++ events -> In (VOptions o) events ->
  exists before w payload user c src,
    login_request cfg session_id peer_address ops before w payload user c src /\
    match c with
    | CKey _ o' => o = o'
    | CHost _ o' => at_least o o'
    | CPassword | CWaived => o = ac_options (sv_account (vrun cfg session_id peer_address before))
    end.
Proof.
  intros cfg sid peer ops op events o F s L I.
  destruct (sv_alive s) eqn:AL.
  2:{ exfalso. rewrite vstep_dead in L by exact AL. rewrite <- (app_nil_r (sv_log s)) in L at 1. apply app_inv_head in L. subst events. destruct I. }
  pose proof (vrun_good cfg sid peer ops F) as G. pose proof (vrun_relaying cfg sid peer ops F AL) as R.
  destruct (step_relaying cfg sid op _ G AL R) as [_ H]. fold s in H, R, G.
  assert (U : logs s (vstep cfg sid op s) -> False).
  { intros (l & L' & FU). rewrite L' in L. apply app_inv_head in L. subst l. rewrite Forall_forall in FU. destruct (FU _ I). discriminate. }
  assert (X : ac_authenticated (sv_account s) = true /\ o = ac_options (sv_account s)).
  { destruct op; try (now exfalso; auto).
    - destruct (_ && _); [|exfalso; auto]. rewrite H in L. cbn in L. apply app_inv_head in L. subst events. destruct I as [I|[]]; discriminate.
    - destruct (sv_outgoing s && negb (sv_proxy s)) eqn:E.
      + rewrite H in L. apply app_inv_head in L. subst events. destruct I as [I|[I|[]]]; [|discriminate]. injection I as <-. split; [|reflexivity].
        apply andb_true_iff in E as [E _]. apply (re_outgoing s R E).
      + exfalso. apply U. rewrite H. apply logs_refl.
    - exfalso. apply U. rewrite H. destruct (_ && _); [|apply logs_refl]. apply logs_emit; [apply logs_refl|unrel]. }
  destruct X as [A ->]. exact (C33.C33_options_partial cfg sid peer ops F A).
Qed.
Print Assumptions C48_options.

(** With blocking (Model/Relay.v): in both directions, whatever the sockets,
    the worker threads and the key exchanges of both connections do, what has
    been passed on, followed by what still waits, is what was received,
    unchanged and in order; and nothing but the connection layer is passed
    on.  [fresh_end]: at the beginning, either connection may be write-blocked
    or in the middle of a key exchange. *)
Theorem C48_blocking :
  forall client target ops x, fresh_end client -> fresh_end target ->
  let r := rrun client target ops in
  filter is_relayed (arrivals x ops (new_relay client target)) = passed_on x r ++ filter is_relayed (waiting x r) /\
  Forall (fun p => is_relayed p = true) (passed_on x r).
Proof.
  intros c t ops x C T r. pose proof (rrun_flows c t ops x C T) as H. fold r in H. split; [exact H|].
  apply Forall_forall. intros p I. assert (J : In p (filter is_relayed (arrivals x ops (new_relay c t)))) by (rewrite H; apply in_or_app; auto).
  apply filter_In in J. apply J.
Qed.
Print Assumptions C48_blocking.

(** A user "far" is served by another host; the key has options. *)
Definition demo_far : list vop :=
  demo_start ++ demo_attempt (demo_key_request (bs "far") (bs "KEY")) ++ [OConnected true; OOutgoingService; OOutgoingSuccess].
Definition demo_traffic : list vop :=
  [demo_open (bs "session") [] 0; OPacket MSG_IGNORE [] demo_env; OOutgoingPacket MSG_CHANNEL_OPEN_CONFIRMATION (enc [FU32 0]);
   demo_request 0 (bs "shell") []; OOutgoingPacket MSG_IGNORE []; OOutgoingPacket MSG_CHANNEL_SUCCESS (enc [FU32 0])].
Example C48_witness :
  Forall op_ok (demo_far ++ demo_traffic) /\
  (let s := vrun (demo_config true) demo_session_id (bs "192.0.2.1") demo_far in
   In (VOptions demo_options) (sv_log s)) /\
  (let s := vrun (demo_config true) demo_session_id (bs "192.0.2.1") (demo_far ++ demo_traffic) in
   sv_alive s = true /\ len (flat_map to_target (sv_log s)) = 2 /\ len (flat_map to_client (sv_log s)) = 2).
Proof.
  split; [apply ok_ops; vm_compute; reflexivity|]. split; [vm_compute; tauto|]. vm_compute. auto.
Qed.

(** The target's socket is full while the client sends. *)
Example C48_witness_blocking :
  let e := new_end false false false false false in
  let r := rrun e e [RReceive Client [[94; 1]; [2]]; RWork Client; RDone Client; RWrite Target true;
                     RReceive Client [[94; 2]; [96]]; RWork Client; RDone Client] in
  passed_on Client r = [[94; 1]] /\ waiting Client r = [[94; 2]; [96]].
Proof. vm_compute. auto. Qed.
