(** * C39: a forced command is enforced *)

From Coq Require Import NArith List Bool Lia String.
From Verif.Base Require Import Bytes.
From Verif.Spec Require Import WireSpec PacketSpec KeySpec AuthSpec SessionSpec AuthDemo.
From Verif.Model Require Import Wire Packets StringList KeyOptions Auth Session Server.
From Verif.Proofs Require Import WireFacts PacketFacts KeyFacts AuthFacts ServerFacts SessionFacts RestrictFacts StepFacts AuthClientFacts.
Import ListNotations.
Open Scope N_scope.

Local Arguments bs : simpl never.

(** Every program: while a forced command is in force (the options of the key
    with which the client has logged in, see C33), each program which is
    started is this command. *)
Definition C39_full_statement : Prop :=
  forall cfg session_id peer_address ops op events n p, Forall op_ok ops ->
  let s := vrun cfg session_id peer_address ops in
  sv_log (vstep cfg session_id op s) = sv_log s ++ events -> In (VSess n (SStarted p)) events ->
  let command := ko_command (ac_options (sv_account s)) in
  command <> [] -> exists path, st_program p = ShellCommand path (c_str command).

(** It is false: the SFTP server is started although the key has a forced
    command. *)
Definition demo_sftp : list vop :=
  [demo_open (bs "session") [] 0; demo_request 0 (bs "subsystem") (enc [FString (bs "sftp")])].
Definition demo_forced : list vop := demo_start ++ demo_attempt (demo_key_request (bs "alice") (bs "KEY")) ++ demo_sftp.

Theorem C39_refuted : ~ C39_full_statement.
Proof.
  intro H.
  set (s := vrun (demo_config true) demo_session_id (bs "192.0.2.1") demo_forced).
  set (s' := vstep (demo_config true) demo_session_id (OSession 0 (OSpawner 0 demo_spawn)) s).
  assert (E : exists p, sv_log s' = sv_log s ++ [VSess 0 (SStarted p)] /\ st_program p = Sftp (bs "/usr/lib/openssh/sftp-server")).
  { eexists. split; vm_compute; reflexivity. }
  destruct E as (p & L & P).
  destruct (H (demo_config true) demo_session_id (bs "192.0.2.1") demo_forced (OSession 0 (OSpawner 0 demo_spawn)) [VSess 0 (SStarted p)] 0 p) as (path & X).
  - apply ok_ops; vm_compute; reflexivity.
  - exact L.
  - left. reflexivity.
  - vm_compute. discriminate.
  - rewrite P in X. discriminate.
Qed.
Print Assumptions C39_refuted.

(** The same with restricted rsync: an account without shell access, whose
    key has a forced command, can run rsync with any arguments. *)
Definition demo_rsync_forced : server :=
  demo_run true (demo_attempt (demo_key_request (bs "carol") (bs "KEY")) ++
    [demo_open (bs "session") [] 0; demo_request 0 (bs "exec") (enc [FString (bs "rsync --server . /")]); OSession 0 (OSpawner 0 demo_spawn)]).

Example C39_refuted_rsync :
  ko_command (ac_options (sv_account demo_rsync_forced)) = bs "backup" /\
  map st_program (demo_started demo_rsync_forced) =
    [Rsync (bs "/usr/bin/rsync") [bs "rsync"; bs "--server"; bs "."; bs "/"]].
Proof. split; vm_compute; reflexivity. Qed.

(** What holds: each shell program is the forced command; the others are the
    SFTP server, and what a restricted account can start (C41). *)
Definition not_shell (p : program) : Prop :=
  match p with Sftp _ | Rsync _ _ | Git _ _ _ => True | Shell _ _ | ShellCommand _ _ => False end.

Theorem C39_forced_partial :
  forall cfg session_id peer_address ops op events n p, Forall op_ok ops ->
  let s := vrun cfg session_id peer_address ops in
  sv_log (vstep cfg session_id op s) = sv_log s ++ events -> In (VSess n (SStarted p)) events ->
  let command := ko_command (ac_options (sv_account s)) in
  command <> [] -> (exists path, st_program p = ShellCommand path (c_str command)) \/ not_shell (st_program p).
Proof.
  intros cfg sid peer ops op events n p F s L I command NE.
  destruct (session_event cfg sid peer ops op n _ events F L I) as (_ & _ & x & _ & _ & _ & _ & _ & RF).
  fold s in RF. fold command in RF. unfold is_shell in RF. destruct (st_program p); try (right; exact Logic.I); left; now apply RF.
Qed.
Print Assumptions C39_forced_partial.

(** In terms of the login: a client who has logged in with a key which has a
    forced command never gets another shell program, during the whole life of
    the connection. *)
Theorem C39_login_partial :
  forall cfg session_id peer_address ops, Forall op_ok ops ->
  let s := vrun cfg session_id peer_address ops in
  ac_authenticated (sv_account s) = true ->
  exists before w payload user c src,
    login_request cfg session_id peer_address ops before w payload user c src /\
    forall blob o n p, c = CKey blob o \/ c = CHost blob o -> ko_command o <> [] -> In (VSess n (SStarted p)) (sv_log s) ->
      (exists path, st_program p = ShellCommand path (c_str (ko_command o))) \/ not_shell (st_program p).
Proof.
  intros cfg sid peer ops F s A.
  destruct (login_origin cfg sid peer ops F A) as (before & w & payload & user & c & src & after & LO).
  exists before, w, payload, user, c, src. split; [eapply login_request_of; eauto|]. intros blob o n p C NE J.
  destruct (event_origin _ _ _ _ _ F J) as (t & op & rest & events & O & L & I').
  assert (FT : Forall op_ok t) by (rewrite O in F; apply Forall_app in F; apply F).
  destruct (session_event cfg sid peer t op n _ events FT L I') as (AL & A' & _).
  assert (CM : ko_command (ac_options (sv_account (vrun cfg sid peer t))) = ko_command o).
  { pose proof (lo_login _ _ _ _ _ _ _ _ _ _ _ LO) as LG. pose proof (lo_ops _ _ _ _ _ _ _ _ _ _ _ LO) as OP.
    assert (LA : at_least (ac_options (sv_account (vrun cfg sid peer t))) o).
    2:{ apply LA. exact NE. }
    assert (T : exists mid, t = before ++ OAuth w :: mid).
    { exact (login_prefix _ _ _ _ _ _ _ _ _ _ _ _ _ _ F LO O A'). }
    destruct T as (mid & ->).
    destruct (options_later _ _ _ _ _ _ FT (lg_auth _ _ _ _ _ _ _ _ LG)) as (X1 & _).
    pose proof (lg_options _ _ _ _ _ _ _ _ LG) as GO. destruct C as [-> | ->]; rewrite <- GO; exact X1. }
  pose proof (C39_forced_partial cfg sid peer t op events n p FT L I') as R. cbv zeta in R. rewrite CM in R. exact (R NE).
Qed.
Print Assumptions C39_login_partial.

(** A shell request with the demo key. *)
Example C39_demo :
  let s := demo_run true (demo_attempt (demo_key_request (bs "alice") (bs "KEY")) ++
    [demo_open (bs "session") [] 0; demo_request 0 (bs "exec") (enc [FString (bs "id")]); OSession 0 (OSpawner 0 demo_spawn)]) in
  map st_program (demo_started s) = [ShellCommand (bs "/bin/bash") (bs "backup")] /\
  map st_original_command (demo_started s) = [Some (bs "id")].
Proof. split; vm_compute; reflexivity. Qed.
