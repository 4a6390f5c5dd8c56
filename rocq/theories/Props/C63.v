(** * C63: programs run with a complete identity *)

From Coq Require Import NArith List Bool Lia String.
From Verif.Base Require Import Bytes.
From Verif.Spec Require Import WireSpec KeySpec AuthSpec SessionSpec AuthDemo.
From Verif.Model Require Import Wire Packets StringList KeyOptions Auth Session Server.
From Verif.Proofs Require Import WireFacts KeyFacts AuthFacts ServerFacts SessionFacts.
Import ListNotations.
Open Scope N_scope.

(** Somebody has decided user id, group id and home directory. *)
Definition complete_identity (i : identity) : Prop :=
  match i with
  | AsOptions eo => eo_uid eo <> None /\ eo_gid eo <> None /\ eo_home eo <> None
  | AsPasswd _ => True
  end.

(** Every program which is started for a client. *)
Definition C63_full_statement : Prop :=
  forall cfg session_id peer_address ops n p, Forall op_ok ops ->
  In (VSess n (SStarted p)) (sv_log (vrun cfg session_id peer_address ops)) ->
  complete_identity (st_identity p).

(** It is false: the options of a service are not checked. *)
Definition no_uid : execute_options :=
  {| eo_execute := Some (bs "/usr/lib/openssh/sftp-server"); eo_uid := None; eo_gid := None; eo_home := None;
     eo_shell := None; eo_enable_network := false; eo_id := 7 |}.
Definition incomplete_response : response := {|
  tr_status_ok := true; tr_token := None; tr_execute_options := Some demo_eo;
  tr_service_execute_options := [(bs "sftp", no_uid)]; tr_no_password := None; tr_authorized_keys := None;
  tr_no_home_authorized_keys := true; tr_arch := 0; tr_site := None |}.
Definition incomplete_world : world := {|
  w_translate := fun _ _ => Some incomplete_response; w_getpwnam := fun _ => None;
  w_open := fun _ => NotOpened; w_delegate := fun _ => None |}.
Definition incomplete_ops : list vop :=
  demo_start ++ [OPacket MSG_USERAUTH_REQUEST (demo_password_request (bs "alice") (bs "x")) demo_env; OAuth incomplete_world;
    demo_open (bs "session") [] 0; demo_request 0 (bs "subsystem") (enc [FString (bs "sftp")]); OSession 0 (OSpawner 0 demo_spawn)].

Theorem C63_refuted : ~ C63_full_statement.
Proof.
  intro H. set (s := vrun (demo_config true) demo_session_id (bs "192.0.2.1") incomplete_ops).
  assert (E : exists n p, In (VSess n (SStarted p)) (sv_log s) /\ st_identity p = AsOptions no_uid).
  { clear H. assert (X : map st_identity (demo_started s) = [AsOptions no_uid]) by (vm_compute; reflexivity).
    clearbody s. destruct (demo_started s) as [|p l] eqn:D; [discriminate|].
    assert (I : In p (demo_started s)) by (rewrite D; left; reflexivity).
    unfold demo_started in I. apply in_flat_map in I as (e & I & J).
    destruct e; try (now destruct J). destruct e; try (now destruct J). destruct J as [->|[]].
    exists n, p. split; [exact I|]. cbn [map] in X. congruence. }
  destruct E as (n & p & I & ID).
  assert (C : complete_identity (st_identity p)).
  { eapply H; [|exact I]. apply ok_ops. vm_compute. reflexivity. }
  rewrite ID in C. destruct C as (X & _). apply X. reflexivity.
Qed.
Print Assumptions C63_refuted.

(** What holds: shells and commands always have a complete identity.  The
    others (SFTP server, rsync, git) have, unless the translation server has
    sent options for just this service which are incomplete. *)
Theorem C63_identity_partial :
  forall cfg session_id peer_address ops n p, Forall op_ok ops ->
  In (VSess n (SStarted p)) (sv_log (vrun cfg session_id peer_address ops)) ->
  complete_identity (st_identity p) \/
  (is_shell (st_program p) = false /\
   exists user password r service eo, In (ATranslate user password (Some r)) (ac_log (sv_account (vrun cfg session_id peer_address ops))) /\
     st_user p = user /\ In (service, eo) (tr_service_execute_options r) /\ st_identity p = AsOptions eo /\
     In service [bs "sftp"; bs "rsync"; bs "git-receive-pack"; bs "git-upload-pack"]).
Proof.
  intros cfg sid peer ops n p F I. destruct (event_origin _ _ _ _ _ F I) as (t & op & rest & events & O & L & I').
  assert (FT : Forall op_ok t) by (rewrite O in F; apply Forall_app in F; apply F).
  destruct (session_event cfg sid peer t op n _ events FT L I') as (_ & A & x & _ & M & U & _).
  destruct (login_origin cfg sid peer t FT A) as (before & w & payload & user & c & src & after & LO).
  pose proof (lo_login _ _ _ _ _ _ _ _ _ _ _ LO) as LG. destruct (lo_fixed _ _ _ _ _ _ _ _ _ _ _ LO) as (o & X). 
  assert (LOG : ac_log (sv_account (vrun cfg sid peer ops)) = ac_log (sv_account (vrun cfg sid peer t)) /\
    ac_authenticated (sv_account (vrun cfg sid peer ops)) = true).
  { clear -O F A. rewrite O in *. revert F. generalize (op :: rest) as post. intro post. induction post as [|q post IH] using rev_ind; intro F.
    - rewrite app_nil_r. auto.
    - rewrite app_assoc in *. apply Forall_app in F as [F FQ]. destruct (IH F) as (E & AU). rewrite vrun_snoc.
      destruct (after_login cfg sid q (vrun cfg sid peer (t ++ post)) (vrun_good _ _ _ _ F) AU) as (o & E').
      rewrite E'. split; [exact E|exact AU]. }
  destruct LOG as (LOG & _).
  pose proof (lg_name _ _ _ _ _ _ _ _ LG) as NM. pose proof (lg_source _ _ _ _ _ _ _ _ LG) as SO.
  assert (NM' : ac_username (sv_account (vrun cfg sid peer t)) = user) by (rewrite X; exact NM).
  assert (SO' : source_of src user (sv_account (vrun cfg sid peer t))) by (rewrite X; destruct src; exact SO).
  pose proof (lg_asked _ _ _ _ _ _ _ _ LG) as AK. pose proof (lg_complete _ _ _ _ _ _ _ _ LG) as CP.
  assert (AL : ac_log (sv_account (vrun cfg sid peer t)) = ac_log (sv_account (vrun cfg sid peer (before ++ [OAuth w])))) by (rewrite X; reflexivity).
  clear X. set (a := sv_account (vrun cfg sid peer t)) in *.
  assert (GEN : general a (st_identity p) -> complete_identity (st_identity p)).
  { unfold general. destruct src as [r|pw]; destruct SO' as [T P]; rewrite T.
    - intros (eo & E & ->). cbn. exact (CP r eq_refl eo E).
    - intros (q & _ & ->). exact Logic.I. }
  assert (PRO : forall service, provided a service (st_identity p) -> In service [bs "sftp"; bs "rsync"; bs "git-receive-pack"; bs "git-upload-pack"] ->
    exists user password r service eo, In (ATranslate user password (Some r)) (ac_log (sv_account (vrun cfg sid peer ops))) /\
     st_user p = user /\ In (service, eo) (tr_service_execute_options r) /\ st_identity p = AsOptions eo /\
     In service [bs "sftp"; bs "rsync"; bs "git-receive-pack"; bs "git-upload-pack"]).
  { intros service (u & r & eo & T & IN & ID) S. destruct src as [r'|pw]; destruct SO' as [T' P]; rewrite T' in T; [|discriminate].
    injection T as <- <-. destruct AK as (password & AK & _). exists user, password, r', service, eo.
    split; [rewrite LOG, AL; exact AK|]. split; [congruence|]. auto. }
  unfold may_start in M. destruct (st_program p) as [? ?|? ?|?|? ?|? ? ?] eqn:SP.
  all: try (left; apply GEN; now destruct M).
  all: try match goal with |- _ \/ (is_shell ?q = false /\ _) => change (is_shell q) with false end.
  - destruct M as (_ & [M|M]); [right; split; [reflexivity|]; eapply PRO; [exact M|]; cbn [In]; auto|left; auto].
  - destruct M as (_ & _ & M). right. split; [reflexivity|]. eapply PRO; [exact M|]; cbn [In]; auto.
  - destruct M as (_ & NI & M). right. split; [reflexivity|]. eapply PRO; [exact M|]. cbn [In] in *. tauto.
Qed.
Print Assumptions C63_identity_partial.

(** Shell programs. *)
Theorem C63_shell_partial :
  forall cfg session_id peer_address ops n p, Forall op_ok ops ->
  In (VSess n (SStarted p)) (sv_log (vrun cfg session_id peer_address ops)) ->
  is_shell (st_program p) = true -> complete_identity (st_identity p).
Proof.
  intros cfg sid peer ops n p F I S. destruct (C63_identity_partial cfg sid peer ops n p F I) as [X|(X & _)]; [exact X|congruence].
Qed.
Print Assumptions C63_shell_partial.

(** A response without a home directory ends the connection; the account of
    alice is complete and her command runs. *)
Definition no_home : response := {|
  tr_status_ok := true; tr_token := None;
  tr_execute_options := Some {| eo_execute := None; eo_uid := Some 1000; eo_gid := Some 1000; eo_home := None;
     eo_shell := Some (bs "/bin/bash"); eo_enable_network := false; eo_id := 1 |};
  tr_service_execute_options := []; tr_no_password := None; tr_authorized_keys := None;
  tr_no_home_authorized_keys := true; tr_arch := 0; tr_site := None |}.
Example C63_demo :
  sv_alive (demo_run true [OPacket MSG_USERAUTH_REQUEST (demo_password_request (bs "alice") (bs "x")) demo_env;
    OAuth {| w_translate := fun _ _ => Some no_home; w_getpwnam := fun _ => None; w_open := fun _ => NotOpened; w_delegate := fun _ => None |}]) = false /\
  map (fun p => (is_shell (st_program p), st_identity p)) (demo_started (demo_run true
    (demo_attempt (demo_password_request (bs "alice") (bs "secret")) ++
     [demo_open (bs "session") [] 0; demo_request 0 (bs "exec") (enc [FString (bs "id")]); OSession 0 (OSpawner 0 demo_spawn)]))) =
    [(true, AsOptions demo_eo)].
Proof. split; vm_compute; reflexivity. Qed.
