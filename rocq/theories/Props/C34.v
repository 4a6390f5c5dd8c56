(** * C34: account restrictions are never loosened *)

From Coq Require Import NArith List Bool Lia String.
From Verif.Base Require Import Bytes.
From Verif.Spec Require Import WireSpec KeySpec AuthSpec SessionSpec AuthDemo.
From Verif.Model Require Import Wire Packets StringList KeyOptions Auth Session Server.
From Verif.Proofs Require Import WireFacts KeyFacts AuthFacts ServerFacts SessionFacts RestrictFacts.
Import ListNotations.
Open Scope N_scope.

(** What only clients who may execute programs can do: shells and commands,
    pseudo-terminals, environment variables, forwarding. *)
Definition needs_exec (e : vevent) : Prop :=
  match e with
  | VSess _ (SStarted p) => is_shell (st_program p) = true
  | VSess _ SPty | VSess _ (SEnv _ _) | VConnectTcp _ _ | VConnectLocal _ | VBind _ _ => True
  | _ => False
  end.

Lemma needs_exec_step : forall cfg sid peer ops op e events, Forall op_ok ops ->
  let s := vrun cfg sid peer ops in
  sv_log (vstep cfg sid op s) = sv_log s ++ events -> In e events -> needs_exec e ->
  ac_authenticated (sv_account s) = true /\ ac_allow_exec (sv_account s) = true.
Proof.
  intros cfg sid peer ops op e events F s L I NE.
  assert (P : privileged e /\ (forall x, e <> VConnectProxy x)) by (destruct e; try contradiction NE; split; try exact Logic.I; discriminate).
  destruct P as [P NP]. destruct (privileged_step cfg sid peer ops op e events F L I P NP) as (_ & A & N). split; [exact A|].
  destruct e as [| |n|n e| | | | | | | | | | | |]; try contradiction NE.
  - destruct (session_event cfg sid peer ops op n e events F L I) as (_ & _ & x & _ & OK). destruct e; try contradiction NE; cbn in OK.
    + destruct OK as (M & _). unfold may_start in M. unfold is_shell in NE. cbn in NE. destruct (st_program p); try discriminate; apply M.
    + apply OK.
    + exact OK.
  - destruct N as (_ & _ & N). unfold IsForwardingAllowed in N. fold s in N. destruct (ac_allow_exec (sv_account s)); [reflexivity|].
    destruct (ko_no_port_forwarding (ac_options (sv_account s))); discriminate N.
  - destruct N as (_ & _ & N). exact N.
  - destruct N as (_ & _ & N). unfold IsForwardingAllowed in N. fold s in N. destruct (ac_allow_exec (sv_account s)); [reflexivity|].
    destruct (ko_no_port_forwarding (ac_options (sv_account s))); discriminate N.
Qed.

(** Once exec is forbidden it stays forbidden, and nothing which needs it
    happens any more. *)
Theorem C34_permanent :
  forall cfg session_id peer_address ops more, Forall op_ok (ops ++ more) ->
  ac_allow_exec (sv_account (vrun cfg session_id peer_address ops)) = false ->
  ac_allow_exec (sv_account (vrun cfg session_id peer_address (ops ++ more))) = false /\
  exists events, sv_log (vrun cfg session_id peer_address (ops ++ more)) = sv_log (vrun cfg session_id peer_address ops) ++ events /\
    forall e, In e events -> ~ needs_exec e.
Proof.
  intros cfg sid peer ops more F A. split; [now apply forbidden_stays|].
  induction more as [|op t IH] using rev_ind.
  - exists []. rewrite !app_nil_r. split; [reflexivity|intros e []].
  - rewrite app_assoc in *. apply Forall_app in F as [F _]. destruct (IH F) as (l & L & N). rewrite vrun_snoc.
    destruct (step_log cfg sid op _ (vrun_good cfg sid peer _ F)) as (l' & L' & _). exists (l ++ l').
    split; [rewrite L', L, app_assoc; reflexivity|]. intros e I NE. apply in_app_or in I as [I|I]; [exact (N e I NE)|].
    destruct (needs_exec_step cfg sid peer (ops ++ t) op e l' F L' I NE) as (_ & X).
    rewrite forbidden_stays in X by assumption. discriminate.
Qed.
Print Assumptions C34_permanent.

(** If the translation server has ever answered with a restriction on this
    connection (the token "sftp-only", no options for executing programs,
    or NO_PASSWORD with the payload "sftp"), then exec is forbidden, and
    nothing which needs it happens during the whole life of the connection. *)
Theorem C34_restricted :
  forall cfg session_id peer_address ops user password r, Forall op_ok ops ->
  let s := vrun cfg session_id peer_address ops in
  In (ATranslate user password (Some r)) (ac_log (sv_account s)) ->
  tr_status_ok r = true -> forbids_exec password r ->
  ac_allow_exec (sv_account s) = false /\ forall e, In e (sv_log s) -> ~ needs_exec e.
Proof.
  intros cfg sid peer ops user password r F s I OK FB. split; [eapply forbidding_answer; eauto|].
  intros e J NE. destruct (event_origin _ _ _ _ _ F J) as (t & op & rest & events & O & L & I').
  assert (FT : Forall op_ok t) by (rewrite O in F; apply Forall_app in F; apply F).
  destruct (needs_exec_step cfg sid peer t op e events FT L I' NE) as (A & X).
  subst s. rewrite O in *. destruct (fixed_later cfg sid peer t (op :: rest) F A) as (o & Y). rewrite Y in I. cbn in I.
  rewrite (forbidding_answer cfg sid peer t user password r FT I OK FB) in X. discriminate.
Qed.
Print Assumptions C34_restricted.

(** The account data of an authenticated client: if they have no options for
    executing programs then no shell and no command is ever started. *)
Theorem C34_no_options :
  forall cfg session_id peer_address ops user r, Forall op_ok ops ->
  let s := vrun cfg session_id peer_address ops in
  ac_authenticated (sv_account s) = true -> ac_translation (sv_account s) = Some (user, r) ->
  tr_execute_options r = None ->
  forall n p, In (VSess n (SStarted p)) (sv_log s) -> is_shell (st_program p) = false.
Proof.
  intros cfg sid peer ops user r F s A T EO n p J.
  destruct (event_origin _ _ _ _ _ F J) as (t & op & rest & events & O & L & I').
  assert (FT : Forall op_ok t) by (rewrite O in F; apply Forall_app in F; apply F).
  destruct (session_event cfg sid peer t op n _ events FT L I') as (_ & A' & x & _ & M & _).
  subst s. rewrite O in *. destruct (fixed_later cfg sid peer t (op :: rest) F A') as (o & Y). rewrite Y in T. cbn in T.
  unfold may_start, general in M. rewrite T in M. unfold is_shell.
  destruct (st_program p); try reflexivity; destruct M as (_ & eo & X & _); congruence.
Qed.
Print Assumptions C34_no_options.

(** carol's account is restricted.  After a first attempt as carol, even the
    unrestricted alice gets no shell on this connection. *)
Definition demo_exec : list vop :=
  [demo_open (bs "session") [] 0; demo_request 0 (bs "exec") (enc [FString (bs "id")]); OSession 0 (OSpawner 0 demo_spawn)].
Definition demo_carol_alice : list vop :=
  demo_attempt (demo_bad_signature (bs "carol") (bs "PLAIN")) ++
  demo_attempt (demo_key_request (bs "alice") (bs "PLAIN")) ++ demo_exec.

Example C34_demo :
  let s := demo_run true demo_carol_alice in
  Forall op_ok (demo_start ++ demo_carol_alice) /\
  In (ATranslate (bs "carol") [] (Some demo_restricted)) (ac_log (sv_account s)) /\
  tr_status_ok demo_restricted = true /\ forbids_exec [] demo_restricted /\
  ac_authenticated (sv_account s) = true /\ ac_username (sv_account s) = bs "alice" /\ demo_started s = [] /\
  (* without that attempt *)
  demo_started (demo_run true (demo_attempt (demo_key_request (bs "alice") (bs "PLAIN")) ++ demo_exec)) <> [].
Proof.
  cbv zeta. split; [apply ok_ops; vm_compute; reflexivity|]. split; [vm_compute; auto|].
  split; [reflexivity|]. split; [right; left; reflexivity|]. split; [vm_compute; reflexivity|].
  split; [vm_compute; reflexivity|]. split; [vm_compute; reflexivity|vm_compute; discriminate].
Qed.

(** carol may use rsync, but there is no shell. *)
Example C34_demo_no_options :
  let s := demo_run true (demo_attempt (demo_none_request (bs "carol")) ++
    [demo_open (bs "session") [] 0; demo_request 0 (bs "exec") (enc [FString (bs "rsync --server .")]); OSession 0 (OSpawner 0 demo_spawn)]) in
  ac_authenticated (sv_account s) = true /\ ac_translation (sv_account s) = Some (bs "carol", demo_restricted) /\
  tr_execute_options demo_restricted = None /\
  map st_program (demo_started s) = [Rsync (bs "/usr/bin/rsync") [bs "rsync"; bs "--server"; bs "."]].
Proof. vm_compute. repeat split; reflexivity. Qed.
