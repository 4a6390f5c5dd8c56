(** * C55: programs are started on request only, and as requested *)

From Coq Require Import NArith List Bool Lia String.
From Verif.Base Require Import Bytes.
From Verif.Spec Require Import WireSpec PacketSpec KeySpec AuthSpec SessionSpec SessionRun QuoteSpec OriginSpec AuthDemo.
From Verif.Model Require Import Wire Packets StringList KeyOptions Auth Session Server.
From Verif.Proofs Require Import WireFacts PacketFacts KeyFacts AuthFacts ServerFacts SessionFacts RestrictFacts StepFacts SessionRunFacts SizeFacts QuoteFacts OriginFacts AuthClientFacts.
Import ListNotations.
Open Scope N_scope.


Local Arguments bs : simpl never.
Local Arguments session_log : simpl never.

(** Spec/OriginSpec.v: [answers_request] says what a shell, exec or subsystem
    request asks for.  Every program which the server ever starts on a session
    channel answers a request which the client has sent on this very channel
    before: an exec request gets the client's command unchanged (up to a null
    byte), a shell request the login shell, a subsystem request the SFTP
    server; a forced command replaces the first two, and then the client's
    command is in SSH_ORIGINAL_COMMAND. *)
Theorem C55_requested :
  forall cfg session_id peer_address ops op events n p, Forall op_ok ops ->
  let s := vrun cfg session_id peer_address ops in
  sv_log (vstep cfg session_id op s) = sv_log s ++ events -> In (VSess n (SStarted p)) events ->
  exists payload env type want data,
    In (OPacket MSG_CHANNEL_REQUEST payload env) ops /\ channel_request_layout payload n type want data /\
    answers_request (sv_account s) type data p.
Proof.
  intros cfg sid peer ops op events n p F s L I.
  destruct (vrun_started cfg sid peer ops op events n p F L I) as (type & data & ok & IN & A). fold s in A.
  unfold happened in IN. apply in_flat_map in IN as (o & J & K). destruct o; cbn [for_session] in K; try contradiction.
  - destruct (N.eqb_spec msg MSG_CHANNEL_REQUEST) as [->|_]; [|contradiction].
    destruct (ParseChannelRequest payload) as [c|] eqn:P; [|contradiction].
    destruct (N.eqb_spec (cr_local_channel c) n) as [E|_]; [|contradiction]. destruct K as [K|[]]. injection K as <- <- _.
    exists payload, env, (cr_request_type c), (cr_want_reply c), (cr_data c). split; [exact J|]. split; [|exact A].
    rewrite Forall_forall in F. specialize (F _ J). apply ParseChannelRequest_exact; [exact F|]. rewrite P, <- E. now destruct c.
  - destruct (n0 =? n); [|contradiction]. destruct op0; destruct K as [K|[]] || destruct K; discriminate.
Qed.
Print Assumptions C55_requested.

(** There are no more programs than requests: no request is carried out
    twice. *)
Theorem C55_once :
  forall cfg session_id peer_address ops n, Forall op_ok ops ->
  (count is_started (session_log n (sv_log (vrun cfg session_id peer_address ops))) <= count is_start (happened n ops))%nat.
Proof.
  intros cfg sid peer ops n F. destruct (vrun_projected cfg sid peer n ops F) as [l [-> P _ _]].
  pose proof (srun_counts cfg l) as [C _]. pose proof (part_count _ is_start _ _ P). lia.
Qed.
Print Assumptions C55_once.

Example C55_demo :
  let log := demo_attempt (demo_key_request (bs "alice") (bs "PLAIN")) in
  let s := demo_run true (log ++ [demo_open (bs "session") [] 0; demo_request 0 (bs "exec") (enc [FString (bs "ls -l")])]) in
  let op := OSession 0 (OSpawner 0 demo_spawn) in
  let s' := vstep (demo_config true) demo_session_id op s in
  exists p, sv_log s' = sv_log s ++ [VSess 0 (SStarted p)] /\ exists path, st_program p = ShellCommand path (bs "ls -l").
Proof. cbv zeta. eexists. split; [vm_compute; reflexivity|]. eexists. vm_compute. reflexivity. Qed.
