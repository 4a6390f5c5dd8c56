(** * C41: session requests are authorized *)

From Coq Require Import NArith List Bool Lia String.
From Verif.Base Require Import Bytes.
From Verif.Spec Require Import WireSpec PacketSpec KeySpec AuthSpec SessionSpec AuthDemo.
From Verif.Model Require Import Wire Packets StringList KeyOptions Auth Session Server.
From Verif.Proofs Require Import WireFacts PacketFacts KeyFacts AuthFacts ServerFacts SessionFacts RestrictFacts StepFacts AuthClientFacts.
Import ListNotations.
Open Scope N_scope.

Local Arguments bs : simpl never.

(** Spec/SessionSpec.v: [may_start] says which programs an account may
    start, and with which identity.  Whatever happens on a session channel,
    the client is authenticated, and
    - a program is started only if the account may start it;
    - a pseudo-terminal is allocated only if exec is allowed and the key
      allows it;
    - an environment variable is accepted only if exec is allowed. *)
Theorem C41_authorized :
  forall cfg session_id peer_address ops op events n e, Forall op_ok ops ->
  let s := vrun cfg session_id peer_address ops in
  let a := sv_account s in
  sv_log (vstep cfg session_id op s) = sv_log s ++ events -> In (VSess n e) events ->
  ac_authenticated a = true /\
  match e with
  | SStarted p => may_start a p
  | SPty => ac_allow_exec a = true /\ ko_no_pty (ac_options a) = false
  | SEnv _ _ => ac_allow_exec a = true
  | _ => True
  end.
Proof.
  intros cfg sid peer ops op events n e F s a L I.
  destruct (session_event cfg sid peer ops op n e events F L I) as (_ & A & x & _ & OK). split; [exact A|].
  destruct e; try exact Logic.I; exact OK || apply OK.
Qed.
Print Assumptions C41_authorized.

(** Without exec: over the whole life of the connection, only the SFTP server,
    rsync and the two git commands are started; rsync and git only with
    options which the translation server has provided for this service, the
    SFTP server with such options or with the general ones; and no shell, no
    pseudo-terminal, no environment variable. *)
Theorem C41_without_exec :
  forall cfg session_id peer_address ops n e, Forall op_ok ops ->
  let s := vrun cfg session_id peer_address ops in
  let a := sv_account s in
  ac_allow_exec a = false -> In (VSess n e) (sv_log s) ->
  match e with
  | SStarted p =>
      match st_program p with
      | Sftp _ => provided a (bs "sftp") (st_identity p) \/ general a (st_identity p)
      | Rsync _ _ => provided a (bs "rsync") (st_identity p)
      | Git _ name _ => In name [bs "git-receive-pack"; bs "git-upload-pack"] /\ provided a name (st_identity p)
      | Shell _ _ | ShellCommand _ _ => False
      end
  | SPty | SEnv _ _ => False
  | _ => True
  end.
Proof.
  intros cfg sid peer ops n e F s a NX J.
  destruct (event_origin _ _ _ _ _ F J) as (t & op & rest & events & O & L & I').
  assert (FT : Forall op_ok t) by (rewrite O in F; apply Forall_app in F; apply F).
  destruct (C41_authorized cfg sid peer t op events n e FT L I') as (A & OK).
  assert (X : exists o, a = set_options o (sv_account (vrun cfg sid peer t))).
  { subst a s. rewrite O in *. now apply fixed_later. }
  destruct X as (o & X). rewrite X in *. cbn in NX. destruct e; try exact Logic.I; try (destruct OK; congruence); try congruence.
  unfold may_start in OK. destruct (st_program p); cbn.
  - destruct OK. congruence.
  - destruct OK. congruence.
  - apply OK.
  - apply OK.
  - destruct OK as (_ & Y & Z). split; [exact Y|exact Z].
Qed.
Print Assumptions C41_without_exec.

(** With exec the account has general options: a shell always has an
    identity, the assertion in PrepareChildProcess() does not fail. *)
Theorem C41_identity :
  forall cfg session_id peer_address ops, Forall op_ok ops ->
  let s := vrun cfg session_id peer_address ops in
  let a := sv_account s in
  sv_alive s = true -> ac_authenticated a = true -> ac_allow_exec a = true -> exists i, general a i.
Proof.
  intros cfg sid peer ops F s a AL A X. pose proof (vrun_good cfg sid peer ops F) as G. fold s in G.
  destruct (proj2 G AL) as [_ _ K]. destruct (K A) as (_ & (src & SO & KN) & _). fold a in SO, KN. unfold general. destruct src as [r|p]; destruct SO as [T P]; rewrite T.
  - destruct KN as (_ & _ & _ & KX & _). destruct (tr_execute_options r) as [eo|]; [eauto|]. rewrite KX in X by reflexivity. discriminate.
  - eauto.
Qed.
Print Assumptions C41_identity.

(** alice has a shell; carol has not, but rsync and git-upload-pack. *)
Definition demo_session (user key : string) (requests : list vop) : server :=
  demo_run true (demo_attempt (demo_key_request (bs user) (bs key)) ++ demo_open (bs "session") [] 0 :: requests ++ [OSession 0 (OSpawner 0 demo_spawn)]).
Definition demo_exec_request (cmd : string) : vop := demo_request 0 (bs "exec") (enc [FString (bs cmd)]).
Definition demo_pty : vop :=
  demo_request 0 (bs "pty-req") (enc [FString (bs "xterm"); FU32 80; FU32 24; FU32 0; FU32 0; FString []]).
Definition demo_set_env : vop := demo_request 0 (bs "env") (enc [FString (bs "LANG"); FString (bs "C")]).
Definition session_events (s : server) : list sevent := flat_map (fun e => match e with VSess _ e => [e] | _ => [] end) (sv_log s).

Example C41_demo :
  map st_program (demo_started (demo_session "alice" "PLAIN" [demo_pty; demo_set_env; demo_exec_request "id"])) =
    [ShellCommand (bs "/bin/bash") (bs "id")] /\
  session_events (demo_session "alice" "KEY" [demo_pty]) = [SAnswer false] /\
  demo_started (demo_session "carol" "PLAIN" [demo_exec_request "id"]) = [] /\
  session_events (demo_session "carol" "PLAIN" [demo_pty; demo_set_env]) = [SAnswer false; SAnswer false] /\
  map st_program (demo_started (demo_session "carol" "PLAIN" [demo_exec_request "rsync --server . /"])) =
    [Rsync (bs "/usr/bin/rsync") [bs "rsync"; bs "--server"; bs "."; bs "/"]] /\
  map st_program (demo_started (demo_session "carol" "PLAIN" [demo_exec_request "git-upload-pack 'a b'"])) =
    [Git (bs "/usr/bin/rsync") (bs "git-upload-pack") (bs "a b")] /\
  demo_started (demo_session "carol" "PLAIN" [demo_exec_request "git-receive-pack 'a b'"]) = [].
Proof. repeat split; vm_compute; reflexivity. Qed.
