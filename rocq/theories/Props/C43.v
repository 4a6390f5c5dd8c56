(** * C43: environment and command size are bounded *)

From Coq Require Import NArith List Bool Lia String.
From Verif.Base Require Import Bytes.
From Verif.Spec Require Import WireSpec PacketSpec KeySpec AuthSpec SessionSpec SessionRun AuthDemo.
From Verif.Model Require Import Wire Packets StringList KeyOptions Auth Session Server.
From Verif.Proofs Require Import WireFacts PacketFacts KeyFacts AuthFacts ServerFacts SessionFacts RestrictFacts StepFacts SessionRunFacts SizeFacts AuthClientFacts.
Import ListNotations.
Open Scope N_scope.


Local Arguments session_log : simpl never.

(** Spec/SessionRun.v: [env_total] counts name, value and 32 bytes for each
    variable, [client_bytes] is the size of the command.  The limit: *)
Definition LIMIT : N := 16384.

(** The full statement: environment and command of every program which is
    started stay within the limit. *)
Definition C43_full_statement : Prop :=
  forall cfg l1 a o l2 l p, l = l1 ++ (a, o) :: l2 ->
  In (SStarted p) (snd (sstep cfg a o (fst (srun cfg l1)))) ->
  env_total (st_env p) + client_bytes a p <= LIMIT.

(** It is false: variables are still accepted after the command, as long as
    the spawner has not answered. *)
Definition long_command : bytes := repeat 120 (N.to_nat 16000).
Definition long_value : bytes := repeat 121 (N.to_nat 16000).
Definition alice : account := sv_account (demo_run true (demo_attempt (demo_key_request (bs "alice") (bs "PLAIN")))).
Definition late_env : list (account * sop) :=
  [(alice, ORequest (bs "exec") (enc [FString long_command]) true);
   (alice, ORequest (bs "env") (enc [FString (bs "LANG"); FString long_value]) true)].
Lemma find_started : forall (f : started -> bool) l,
  existsb (fun e => match e with SStarted p => f p | _ => false end) l = true -> exists p, In (SStarted p) l /\ f p = true.
Proof.
  intros f l H. apply existsb_exists in H as (e & I & E). destruct e; try discriminate. exists p. auto.
Qed.
Theorem C43_refuted : ~ C43_full_statement.
Proof.
  intro H.
  assert (X : existsb (fun e => match e with SStarted p => LIMIT <? env_total (st_env p) + client_bytes alice p | _ => false end)
    (snd (sstep (demo_config true) alice (OSpawner 0 demo_spawn) (fst (srun (demo_config true) late_env)))) = true) by (vm_compute; reflexivity).
  destruct (find_started _ _ X) as (p & I & E). clear X. apply N.ltb_lt in E.
  pose proof (H (demo_config true) late_env alice (OSpawner 0 demo_spawn) [] _ p eq_refl I) as L.
  exact (N.lt_irrefl _ (N.lt_le_trans _ _ _ E L)).
Qed.
Print Assumptions C43_refuted.

(** What holds.  The variables which a channel has accepted stay below the
    limit, in every run of the server, whatever the client sends. *)
Theorem C43_environment :
  forall cfg session_id peer_address ops n, Forall op_ok ops ->
  env_total (accepted_env (session_log n (sv_log (vrun cfg session_id peer_address ops)))) < LIMIT.
Proof.
  intros cfg sid peer ops n F. destruct (vrun_projected cfg sid peer n ops F) as [l [-> _ _ _]].
  destruct (srun_env cfg l) as (_ & <- & X). exact X.
Qed.
Print Assumptions C43_environment.

(** A program gets exactly the accepted variables, and its command alone is
    within the limit. *)
Theorem C43_program_partial :
  forall cfg l a o p, In (SStarted p) (snd (sstep cfg a o (fst (srun cfg l)))) ->
  st_env p = rev (accepted_env (snd (srun cfg l))) /\
  env_total (st_env p) < LIMIT /\ client_bytes a p <= LIMIT.
Proof.
  intros cfg l a o p I. destruct (started_by_spawner _ _ _ _ _ I) as (n & ans & ->).
  destruct (spawner_bytes _ _ _ _ _ _ I) as (t & J & P & C & E). destruct (srun_env cfg l) as (A & B & X).
  rewrite E, A, env_total_rev, <- B. split; [reflexivity|]. split; [exact X|].
  pose proof (srun_tasks cfg l (n, t) J P) as S. cbn [snd] in S. unfold LIMIT, MAX_ENV_SIZE in *. lia.
Qed.
Print Assumptions C43_program_partial.

(** If the client waits for each answer, both together are within the limit. *)
Theorem C43_waiting_partial :
  forall cfg l a o p, waits cfg l -> In (SStarted p) (snd (sstep cfg a o (fst (srun cfg l)))) ->
  env_total (st_env p) + client_bytes a p <= LIMIT.
Proof.
  intros cfg l a o p W I. destruct (started_by_spawner _ _ _ _ _ I) as (n & ans & ->).
  destruct (spawner_bytes _ _ _ _ _ _ I) as (t & J & P & C & E). destruct (srun_env cfg l) as (A & B & X).
  pose proof (waits_tasks cfg l (n, t) W J P) as S. cbn [snd] in S.
  rewrite E, A, env_total_rev, <- B. unfold LIMIT, MAX_ENV_SIZE in *. lia.
Qed.
Print Assumptions C43_waiting_partial.

(** Exceeding the environment limit ends the connection; nothing is
    accepted. *)
Theorem C43_env_exceeded :
  forall cfg l a payload ok name value,
  let x := fst (srun cfg l) in
  se_child x = false -> ac_allow_exec a = true -> bytes_ok payload ->
  exactly payload [FString name; FString value] ->
  LIMIT <= env_total (accepted_env (snd (srun cfg l))) + (len name + len value + 32) ->
  sstep cfg a (ORequest (bs "env") payload ok) x = (x, [SDisconnect]).
Proof.
  intros cfg l a payload ok name value x C X BO LAY T. cbn [sstep]. unfold OnRequest, WasStarted. rewrite C.
  change (bytes_eqb (bs "env") (bs "exec")) with false. change (bytes_eqb (bs "env") (bs "shell")) with false.
  change (bytes_eqb (bs "env") (bs "subsystem")) with false. change (bytes_eqb (bs "env") (bs "pty-req")) with false.
  change (bytes_eqb (bs "env") (bs "env")) with true. cbn match. rewrite X. cbn [negb].
  assert (P : parse_env payload = Some (name, value)).
  { unfold parse_env. layout_inv. parse_run'. reflexivity. }
  rewrite P. destruct (srun_env cfg l) as (_ & B & _). fold x in B. unfold SetEnv. cbv zeta. rewrite B.
  replace (MAX_ENV_SIZE <=? _) with true; [reflexivity|]. symmetry. apply N.leb_le. exact T.
Qed.
Print Assumptions C43_env_exceeded.

(** The same for the value of TERM. *)
Theorem C43_term_exceeded :
  forall cfg l a payload term columns rows width height modes,
  let x := fst (srun cfg l) in
  se_child x = false -> ac_allow_exec a = true -> ko_no_pty (ac_options a) = false ->
  exactly payload [FString term; FU32 columns; FU32 rows; FU32 width; FU32 height; FString modes] ->
  LIMIT <= env_total (accepted_env (snd (srun cfg l))) + (len (bs "TERM") + len term + 32) ->
  snd (sstep cfg a (ORequest (bs "pty-req") payload true) x) = [SPty; SDisconnect].
Proof.
  intros cfg l a payload term columns rows width height modes x C X K LAY T. cbn [sstep]. unfold OnRequest, WasStarted. rewrite C.
  change (bytes_eqb (bs "pty-req") (bs "exec")) with false. change (bytes_eqb (bs "pty-req") (bs "shell")) with false.
  change (bytes_eqb (bs "pty-req") (bs "subsystem")) with false. change (bytes_eqb (bs "pty-req") (bs "pty-req")) with true.
  cbn match. rewrite X, K. cbn [negb orb].
  assert (P : parse_pty payload = Some term).
  { unfold parse_pty, ReadWindowSize. change ReadLengthEncoded with ReadString. layout_inv. parse_run'. reflexivity. }
  rewrite P. destruct (srun_env cfg l) as (_ & B & _). fold x in B. unfold SetEnv. cbv zeta. cbn [with_tty se_env_size]. rewrite B.
  replace (MAX_ENV_SIZE <=? _) with true; [reflexivity|]. symmetry. apply N.leb_le. exact T.
Qed.
Print Assumptions C43_term_exceeded.

(** [SDisconnect] is the end of the connection. *)
Theorem C43_disconnect :
  forall cfg n op s x, find_session n (sv_sessions s) = Some x -> In SDisconnect (snd (sstep cfg (sv_account s) op x)) ->
  let s' := session_step cfg n op s in sv_alive s' = false /\ sv_sessions s' = [].
Proof.
  intros cfg n op s x F I. cbv zeta. unfold session_step. rewrite F. destruct (sstep cfg (sv_account s) op x) as [x' es]. cbn [snd] in I.
  replace (existsb _ es) with true; [split; reflexivity|]. symmetry. apply existsb_exists. exists SDisconnect. auto.
Qed.
Print Assumptions C43_disconnect.

(** A command which does not fit is refused: nothing will be started for
    it. *)
Theorem C43_command_too_long :
  forall cfg l a payload ok command,
  let x := fst (srun cfg l) in
  se_child x = false -> exactly payload [FString command] ->
  LIMIT < env_total (accepted_env (snd (srun cfg l))) + len command ->
  let r := sstep cfg a (ORequest (bs "exec") payload ok) x in
  se_tasks (fst r) = se_tasks x /\ (snd r = [SAnswer false] \/ snd r = [SStderr (bs "Command too long"); SAnswer true]).
Proof.
  intros cfg l a payload ok command x C LAY T. cbv zeta. cbn [sstep]. unfold OnRequest, WasStarted. rewrite C.
  change (bytes_eqb (bs "exec") (bs "exec")) with true. cbn match.
  assert (P : parse_string payload = Some command).
  { unfold parse_string. layout_inv. parse_run'. reflexivity. }
  rewrite P. destruct (srun_env cfg l) as (_ & B & _). fold x in B. rewrite B.
  replace (MAX_ENV_SIZE <? _) with true.
  - destruct (cf_exec_reject_stderr cfg); cbn [fst snd SetStderrString]; auto.
  - symmetry. apply N.ltb_lt. unfold LIMIT, MAX_ENV_SIZE in *. lia.
Qed.
Print Assumptions C43_command_too_long.

(** The limit is reached exactly. *)
Example C43_demo :
  let run := srun (demo_config true) in
  let env n := (alice, ORequest (bs "env") (enc [FString (bs "LANG"); FString (repeat 121 (N.to_nat n))]) true) in
  let exec n := (alice, ORequest (bs "exec") (enc [FString (repeat 120 (N.to_nat n))]) true) in
  map (fun e => match e with SEnv _ _ => true | _ => false end) (snd (run [env 16347])) = [true; false] /\
  snd (run [env 16348]) = [SDisconnect] /\
  ntasks (fst (run [env 16347; exec 1])) = 1%nat /\ ntasks (fst (run [env 16347; exec 2])) = 0%nat.
Proof. repeat split; vm_compute; reflexivity. Qed.

