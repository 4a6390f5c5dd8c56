(** * C65: programs run with the account's shell, terminal and environment *)

From Coq Require Import NArith List Bool Lia String.
From Verif.Base Require Import Bytes.
From Verif.Spec Require Import WireSpec PacketSpec KeySpec AuthSpec SessionSpec SessionRun RunSpec AuthDemo.
From Verif.Model Require Import Wire Packets StringList KeyOptions Auth Session Server.
From Verif.Proofs Require Import WireFacts PacketFacts KeyFacts AuthFacts ServerFacts SessionFacts SessionRunFacts RunFacts.
Import ListNotations.
Open Scope N_scope.

Local Arguments bs : simpl never.
Local Arguments session_log : simpl never.

(** Spec/RunSpec.v: a shell, and a command, are run by the login shell of the
    account; an interactive shell is called "-" and the last component of its
    path, which makes it a login shell. *)
Theorem C65_shell :
  forall cfg session_id peer_address ops op events n p, Forall op_ok ops ->
  let s := vrun cfg session_id peer_address ops in
  sv_log (vstep cfg session_id op s) = sv_log s ++ events -> In (VSess n (SStarted p)) events ->
  run_shell (sv_account s) (st_program p).
Proof. intros cfg sid peer ops op events n p F s L I. apply (vrun_how cfg sid peer ops op events n p F L I). Qed.
Print Assumptions C65_shell.

(** The environment consists of the variables which were accepted on this
    channel since it was opened, the newest first, and no others; the home
    directory is read-only if the key's options say so. *)
Theorem C65_environment :
  forall cfg session_id peer_address ops op events n p, Forall op_ok ops ->
  let s := vrun cfg session_id peer_address ops in
  sv_log (vstep cfg session_id op s) = sv_log s ++ events -> In (VSess n (SStarted p)) events ->
  st_env p = rev (accepted_env (session_log n (sv_log s))) /\
  st_home_read_only p = ko_home_read_only (ac_options (sv_account s)).
Proof.
  intros cfg sid peer ops op events n p F s L I. pose proof (vrun_how cfg sid peer ops op events n p F L I) as (_ & E & H & _).
  split; assumption.
Qed.
Print Assumptions C65_environment.

(** Only shells and commands have a terminal, and only if one was allocated
    on this channel. *)
Theorem C65_terminal :
  forall cfg session_id peer_address ops op events n p, Forall op_ok ops ->
  let s := vrun cfg session_id peer_address ops in
  sv_log (vstep cfg session_id op s) = sv_log s ++ events -> In (VSess n (SStarted p)) events ->
  st_tty p = true -> is_shell (st_program p) = true /\ In SPty (session_log n (sv_log s)).
Proof. intros cfg sid peer ops op events n p F s L I. apply (vrun_how cfg sid peer ops op events n p F L I). Qed.
Print Assumptions C65_terminal.

(** If a terminal was allocated, shells and commands get it, unless it was
    closed (by a program, or because the channel has shown an error message
    instead of a program). *)
Theorem C65_terminal_used :
  forall cfg session_id peer_address ops op events n p, Forall op_ok ops ->
  let s := vrun cfg session_id peer_address ops in
  sv_log (vstep cfg session_id op s) = sv_log s ++ events -> In (VSess n (SStarted p)) events ->
  is_shell (st_program p) = true -> In SPty (session_log n (sv_log s)) ->
  (forall t, ~ In (SStderr t) (session_log n (sv_log s))) -> ~ In OTtyClosed (happened n ops) -> st_tty p = true.
Proof. intros cfg sid peer ops op events n p F s L I. apply (vrun_how cfg sid peer ops op events n p F L I). Qed.
Print Assumptions C65_terminal_used.

(** alice opens a terminal, sets a variable and asks for a shell; then dave,
    whose shell is known from the account database, runs a command. *)
Definition pty_request : bytes := enc [FString (bs "xterm"); FU32 80; FU32 24; FU32 0; FU32 0; FString []].
Example C65_demo :
  let show p := (st_program p, st_env p, st_tty p) in
  map show (demo_started (demo_run true (demo_attempt (demo_password_request (bs "alice") (bs "secret")) ++
    [demo_open (bs "session") [] 0; demo_request 0 (bs "pty-req") pty_request;
     demo_request 0 (bs "env") (enc [FString (bs "LANG"); FString (bs "C")]);
     demo_request 0 (bs "shell") []; OSession 0 (OSpawner 0 demo_spawn)]))) =
    [(Shell (bs "/bin/bash") (bs "-bash"), [(bs "LANG", bs "C"); (bs "TERM", bs "xterm")], true)] /\
  map show (demo_started (demo_run false (demo_attempt (demo_key_request (bs "dave") (bs "PLAIN")) ++
    [demo_open (bs "session") [] 0; demo_request 0 (bs "exec") (enc [FString (bs "id")]); OSession 0 (OSpawner 0 demo_spawn)]))) =
    [(ShellCommand (bs "/bin/zsh") (bs "id"), [], false)].
Proof. cbv zeta. split; vm_compute; reflexivity. Qed.

Example C65_demo_step :
  let s := demo_run true (demo_attempt (demo_password_request (bs "alice") (bs "secret")) ++
    [demo_open (bs "session") [] 0; demo_request 0 (bs "pty-req") pty_request; demo_request 0 (bs "shell") []]) in
  exists p, sv_log (vstep (demo_config true) demo_session_id (OSession 0 (OSpawner 0 demo_spawn)) s) = sv_log s ++ [VSess 0 (SStarted p)] /\
    is_shell (st_program p) = true /\ session_log 0 (sv_log s) = [SPty; SEnv (bs "TERM") (bs "xterm"); SAnswer true].
Proof. cbv zeta. eexists. split; [vm_compute; reflexivity|]. split; vm_compute; reflexivity. Qed.
