(** * C84: the environment of a program *)

From Coq Require Import NArith List Bool Lia String.
From Verif.Base Require Import Bytes.
From Verif.Spec Require Import WireSpec PacketSpec KeySpec AuthSpec SessionSpec SessionRun RunSpec AuthDemo EnvironSpec.
From Verif.Model Require Import Wire Packets StringList KeyOptions Auth Session Server Environ.
From Verif.Proofs Require Import WireFacts PacketFacts KeyFacts AuthFacts ServerFacts SessionFacts RestrictFacts StepFacts
  SessionRunFacts RunFacts EnvironFacts.
From Verif.Props Require Import C41 C65.
Import ListNotations.
Open Scope N_scope.

Local Arguments bs : simpl never.
Local Arguments session_log : simpl never.

(** A program which is started in a run of the server. *)
Definition starts (cfg : config) (session_id peer_address : bytes) (ops : list vop) (op : vop) (n : N) (p : started) : Prop :=
  Forall op_ok ops /\
  let s := vrun cfg session_id peer_address ops in
  exists events, sv_log (vstep cfg session_id op s) = sv_log s ++ events /\ In (VSess n (SStarted p)) events.

(** ** The variables of the server *)

(** Shells and commands are told the name under which the client has logged
    in, and the login shell. *)
Theorem C84_login :
  forall cfg session_id peer_address ops op n p sy ex, starts cfg session_id peer_address ops op n p ->
  is_shell (st_program p) = true ->
  let a := sv_account (vrun cfg session_id peer_address ops) in
  ac_authenticated a = true /\
  (exists user, until_null (ac_username a) user /\
     first_value (Environment sy ex p) (bs "USER") user /\ first_value (Environment sy ex p) (bs "LOGNAME") user) /\
  exists path shell, login_shell a path /\ until_null path shell /\ first_value (Environment sy ex p) (bs "SHELL") shell.
Proof.
  intros cfg sid peer ops op n p sy ex (F & events & L & I) S a.
  destruct (session_event cfg sid peer ops op n _ events F L I) as (_ & A & x & _ & _ & U & _). fold a in A, U.
  pose proof (vrun_how cfg sid peer ops op events n p F L I) as (R & _). fold a in R. split; [exact A|].
  assert (X : exists path rest, (st_program p = Shell path rest \/ st_program p = ShellCommand path rest) /\ login_shell a path).
  { destruct (st_program p); try discriminate S; [exists path, argv0|exists path, cmd]; (split; [auto|]); apply R. }
  destruct X as (path & rest & P & LS).
  destruct (shell_environment sy ex p path rest P) as (r & E). rewrite E, U.
  destruct (shell_entries_named sy (ac_username a) path) as (c & k & N & _). rewrite N. clear N E.
  split.
  - exists (c_str (ac_username a)). split; [now apply until_c_str|]. split; apply first_app.
    + apply named_first; [names|apply no_equals; reflexivity|]. exists []. eexists. split; [reflexivity|intros []].
    + apply named_first; [names|apply no_equals; reflexivity|]. exists [(bs "USER", ac_username a)]. eexists.
      split; [reflexivity|not_there].
  - exists path, (c_str path). split; [exact LS|]. split; [now apply until_c_str|]. apply first_app.
    apply named_first; [names|apply no_equals; reflexivity|]. exists [(bs "USER", ac_username a); (bs "LOGNAME", ac_username a)].
    eexists. split; [reflexivity|not_there].
Qed.
Print Assumptions C84_login.

(** ... and the addresses of the connection, as OpenSSH does it. *)
Theorem C84_address :
  forall cfg session_id peer_address ops op n p sy ex, starts cfg session_id peer_address ops op n p ->
  is_shell (st_program p) = true ->
  let show e := ep_host e ++ bs " " ++ decimal (ep_port e) in
  (exists v, until_null (show (sy_peer sy) ++ bs " " ++ decimal (ep_port (sy_local sy))) v /\
     first_value (Environment sy ex p) (bs "SSH_CLIENT") v) /\
  (exists v, until_null (show (sy_peer sy) ++ bs " " ++ show (sy_local sy)) v /\
     first_value (Environment sy ex p) (bs "SSH_CONNECTION") v).
Proof.
  intros cfg sid peer ops op n p sy ex _ S show.
  assert (X : exists path rest, st_program p = Shell path rest \/ st_program p = ShellCommand path rest).
  { destruct (st_program p); try discriminate S; eauto. }
  destruct X as (path & rest & P).
  destruct (shell_environment sy ex p path rest P) as (r & E). rewrite E.
  destruct (shell_entries_named sy (st_user p) path) as (c & k & N & C & K). rewrite N. clear N E.
  split.
  - exists (c_str c). split; [apply until_c_str; rewrite C; unfold show; rewrite <- app_assoc; reflexivity|]. apply first_app.
    apply named_first; [names|apply no_equals; reflexivity|].
    exists [(bs "USER", st_user p); (bs "LOGNAME", st_user p); (bs "SHELL", path)]. eexists. split; [reflexivity|not_there].
  - exists (c_str k). split; [apply until_c_str; rewrite K; unfold show; rewrite <- app_assoc; reflexivity|]. apply first_app.
    apply named_first; [names|apply no_equals; reflexivity|].
    exists [(bs "USER", st_user p); (bs "LOGNAME", st_user p); (bs "SHELL", path); (bs "SSH_CLIENT", c)]. eexists.
    split; [reflexivity|not_there].
Qed.
Print Assumptions C84_address.

(** If there is a home directory, then every program is told, by the
    translation server's variable or with the real path. *)
Theorem C84_home :
  forall cfg session_id peer_address ops op n p sy ex home, starts cfg session_id peer_address ops op n p ->
  sy_container_home sy (st_identity p) = Some home ->
  (forall eo, st_identity p = AsOptions eo -> undefined (sy_options_env sy eo) (bs "HOME")) ->
  exists v, until_null home v /\ first_value (Environment sy ex p) (bs "HOME") v.
Proof.
  intros cfg sid peer ops op n p sy ex home _ H U. exists (c_str home). split; [now apply until_c_str|].
  apply environment_home; [exact H|]. unfold OptionsEnv. destruct (st_identity p) as [eo|pw]; [exact (U _ eq_refl)|intros e v []].
Qed.
Print Assumptions C84_home.

(** With a forced command, the command which the client has asked for is in
    SSH_ORIGINAL_COMMAND. *)
Theorem C84_original :
  forall cfg session_id peer_address ops op n p sy ex cmd, starts cfg session_id peer_address ops op n p ->
  is_shell (st_program p) = true -> st_original_command p = Some cmd ->
  (forall eo, st_identity p = AsOptions eo -> undefined (sy_options_env sy eo) (bs "SSH_ORIGINAL_COMMAND")) ->
  exists v, until_null cmd v /\ first_value (Environment sy ex p) (bs "SSH_ORIGINAL_COMMAND") v.
Proof.
  intros cfg sid peer ops op n p sy ex cmd _ S O U. exists (c_str cmd). split; [now apply until_c_str|].
  apply environment_original; [exact S|exact O|]. unfold OptionsEnv. destruct (st_identity p) as [eo|pw]; [exact (U _ eq_refl)|intros e v []].
Qed.
Print Assumptions C84_original.

(** ** The variables of the client *)

(** The full statement: whatever the server (or the translation server) has
    set, the client cannot change. *)
Definition C84_server_full_statement : Prop :=
  forall cfg session_id peer_address ops op n p sy ex name value, starts cfg session_id peer_address ops op n p ->
  var_name name -> first_value (Environment sy ex (without_client p)) name value ->
  forall v, first_value (Environment sy ex p) name v \/ last_value (Environment sy ex p) name v -> v = value.

(** True of programs which use getenv(). *)
Theorem C84_server_partial :
  forall cfg session_id peer_address ops op n p sy ex name value, starts cfg session_id peer_address ops op n p ->
  var_name name -> first_value (Environment sy ex (without_client p)) name value ->
  forall v, first_value (Environment sy ex p) name v -> v = value.
Proof.
  intros cfg sid peer ops op n p sy ex name value _ V F v F'. rewrite environment_split in F'.
  exact (first_functional _ _ _ _ V F' (first_app _ _ _ _ F)).
Qed.
Print Assumptions C84_server_partial.

(** All other variables are those of the channel's own "env" requests (and
    "pty-req", for TERM), the last one of a name prevails. *)
Theorem C84_client :
  forall cfg session_id peer_address ops op n p sy ex name value, starts cfg session_id peer_address ops op n p ->
  var_name name -> undefined (Environment sy ex (without_client p)) name ->
  (first_value (Environment sy ex p) name value <->
   exists before v after,
     accepted_env (session_log n (sv_log (vrun cfg session_id peer_address ops))) = before ++ v :: after /\
     requests v name value /\ forall w x, In w after -> ~ requests w name x).
Proof.
  intros cfg sid peer ops op n p sy ex name value (F & events & L & I) V U.
  pose proof (vrun_how cfg sid peer ops op events n p F L I) as (_ & E & _).
  rewrite <- (client_first _ _ _ V). rewrite <- E, environment_split. split.
  - intros H. exact (first_app_inv _ _ _ _ H V U).
  - intros H. exact (first_skip _ _ _ _ U H).
Qed.
Print Assumptions C84_client.

(** rsync and git get no variables from the client. *)
Theorem C84_services :
  forall cfg session_id peer_address ops op n p sy ex, starts cfg session_id peer_address ops op n p ->
  match st_program p with Rsync _ _ | Git _ _ _ => True | _ => False end ->
  st_env p = [] /\ Environment sy ex p = Environment sy ex (without_client p).
Proof.
  intros cfg sid peer ops op n p sy ex (F & events & L & I) S.
  destruct (C41_authorized cfg sid peer ops op events n _ F L I) as (_ & M).
  assert (NX : ac_allow_exec (sv_account (vrun cfg sid peer ops)) = false).
  { unfold may_start in M. destruct (st_program p); try contradiction; apply M. }
  pose proof (vrun_how cfg sid peer ops op events n p F L I) as (_ & E & _).
  assert (Z : st_env p = []).
  { rewrite E. assert (Q : accepted_env (session_log n (sv_log (vrun cfg sid peer ops))) = []); [|now rewrite Q].
    unfold accepted_env. apply flat_map_none. intros e J.
    assert (J' : In (VSess n e) (sv_log (vrun cfg sid peer ops))).
    { exact (session_log_in n e _ J). }
    pose proof (C41_without_exec cfg sid peer ops n e F NX J') as W. destruct e; try reflexivity. contradiction W. }
  split; [exact Z|]. rewrite environment_split, Z. cbn [map]. apply app_nil_r.
Qed.
Print Assumptions C84_services.

(** ** What is not true *)

(** alice, with the key which may only run the command "backup". *)
Definition demo_system : system := {|
  sy_peer := {| ep_host := bs "192.0.2.1"; ep_port := 40000 |};
  sy_local := {| ep_host := bs "192.0.2.2"; ep_port := 22 |};
  sy_options_env := fun eo => if eo_id eo =? 1 then [bs "SITE=example"] else [];
  sy_container_home := fun i => match i with AsOptions eo => eo_home eo | AsPasswd pw => Some (pw_dir pw) end |}.
Definition demo_extras : extras := {| ex_agent := true; ex_system_sftp := false |}.
Definition demo_set (name value : string) : vop := demo_request 0 (bs "env") (enc [FString (bs name); FString (bs value)]).
Definition demo_env_ops (key : string) (requests : list vop) : list vop :=
  demo_start ++ demo_attempt (demo_key_request (bs "alice") (bs key)) ++ demo_open (bs "session") [] 0 :: requests ++
  [demo_request 0 (bs "exec") (enc [FString (bs "id")])].
Definition demo_env_started (original : option bytes) (cmd : string) (env : list (bytes * bytes)) : started :=
  {| st_program := ShellCommand (bs "/bin/bash") (bs cmd); st_identity := AsOptions demo_eo; st_user := bs "alice"; st_env := env;
     st_original_command := original; st_tty := false; st_home_read_only := false |}.

Lemma demo_starts : forall ops n p,
  forallb ok_op ops = true ->
  let s := vrun (demo_config true) demo_session_id (bs "192.0.2.1") ops in
  sv_log (vstep (demo_config true) demo_session_id (OSession 0 (OSpawner 0 demo_spawn)) s) = sv_log s ++ [VSess n (SStarted p)] ->
  starts (demo_config true) demo_session_id (bs "192.0.2.1") ops (OSession 0 (OSpawner 0 demo_spawn)) n p.
Proof. intros ops n p O s H. split; [apply ok_ops; exact O|]. exists [VSess n (SStarted p)]. split; [exact H|left; reflexivity]. Qed.

(** The environment may have two strings for one name.  A program which takes
    the last one (bash does) sees the client's value; here USER, but HOME,
    SSH_CONNECTION and SSH_ORIGINAL_COMMAND are no different. *)
Theorem C84_server_refuted : ~ C84_server_full_statement.
Proof.
  intros H.
  set (p := demo_env_started None "id" [(bs "USER", bs "root")]).
  specialize (H (demo_config true) demo_session_id (bs "192.0.2.1") (demo_env_ops "PLAIN" [demo_set "USER" "root"])
    (OSession 0 (OSpawner 0 demo_spawn)) 0 p demo_system demo_extras (bs "USER") (bs "alice")).
  assert (X : bs "root" = bs "alice"); [|discriminate X]. apply H.
  - apply demo_starts; vm_compute; reflexivity.
  - apply no_equals. reflexivity.
  - exists []. eexists. eexists. split; [vm_compute; reflexivity|]. split; [reflexivity|intros e v []].
  - right. unfold last_value. exists []. eexists. eexists. split; [vm_compute; reflexivity|]. split; [reflexivity|intros e v []].
Qed.
Print Assumptions C84_server_refuted.

(** One would like: a key which forces a command lets the client decide about
    nothing but the type of the terminal (and what the server passes on in
    SSH_ORIGINAL_COMMAND). *)
Definition C84_forced_full_statement : Prop :=
  forall cfg session_id peer_address ops op n p sy ex name value, starts cfg session_id peer_address ops op n p ->
  is_shell (st_program p) = true ->
  ko_command (ac_options (sv_account (vrun cfg session_id peer_address ops))) <> [] ->
  name <> bs "TERM" -> first_value (Environment sy ex p) name value ->
  first_value (Environment sy ex (without_client p)) name value.

(** "env" requests are accepted with any name: with BASH_ENV, bash runs the
    client's commands before the forced one. *)
Theorem C84_forced_refuted : ~ C84_forced_full_statement.
Proof.
  intros H.
  set (p := demo_env_started (Some (bs "id")) "backup" [(bs "BASH_ENV", bs "/home/alice/x")]).
  specialize (H (demo_config true) demo_session_id (bs "192.0.2.1") (demo_env_ops "KEY" [demo_set "BASH_ENV" "/home/alice/x"])
    (OSession 0 (OSpawner 0 demo_spawn)) 0 p demo_system demo_extras (bs "BASH_ENV") (bs "/home/alice/x")).
  assert (V : var_name (bs "BASH_ENV")) by (apply no_equals; reflexivity).
  assert (U : undefined (Environment demo_system demo_extras (without_client p)) (bs "BASH_ENV")).
  { apply has_env_spec. vm_compute. reflexivity. }
  assert (X : first_value (Environment demo_system demo_extras (without_client p)) (bs "BASH_ENV") (bs "/home/alice/x")).
  { apply H.
    - apply demo_starts; vm_compute; reflexivity.
    - reflexivity.
    - vm_compute. discriminate.
    - vm_compute. discriminate.
    - rewrite environment_split. apply first_skip; [exact U|]. exists []. eexists. eexists.
      split; [vm_compute; reflexivity|]. split; [reflexivity|intros e v []]. }
  destruct X as (b & e & a & E & D & _). apply (U e (bs "/home/alice/x")); [|exact D]. rewrite E. apply in_app_iff. right. left. reflexivity.
Qed.
Print Assumptions C84_forced_refuted.

(** ** Examples *)

Definition show_env (s : server) : list (list bytes) := map (Environment demo_system demo_extras) (demo_started s).
Definition demo_env_run (key : string) (requests : list vop) : server :=
  vrun (demo_config true) demo_session_id (bs "192.0.2.1") (demo_env_ops key requests ++ [OSession 0 (OSpawner 0 demo_spawn)]).

Example C84_demo :
  show_env (demo_env_run "KEY" [demo_set "LANG" "C"; demo_set "HOME" "/tmp"; demo_set "LANG" "de"]) =
  [[bs "USER=alice"; bs "LOGNAME=alice"; bs "SHELL=/bin/bash"; bs "SSH_CLIENT=192.0.2.1 40000 22";
    bs "SSH_CONNECTION=192.0.2.1 40000 192.0.2.2 22"; bs "SITE=example"; bs "HOME=/home/alice";
    bs "SSH_AUTH_SOCK=/run/agent-forward.socket"; bs "SSH_ORIGINAL_COMMAND=id"; bs "LANG=de"; bs "HOME=/tmp"; bs "LANG=C"]].
Proof. vm_compute. reflexivity. Qed.

(** The hypotheses of the theorems above are met. *)
Example C84_demo_hypotheses :
  let ops := demo_env_ops "KEY" [demo_set "LANG" "C"; demo_set "LANG" "de"] in
  let p := demo_env_started (Some (bs "id")) "backup" [(bs "LANG", bs "de"); (bs "LANG", bs "C")] in
  starts (demo_config true) demo_session_id (bs "192.0.2.1") ops (OSession 0 (OSpawner 0 demo_spawn)) 0 p /\
  is_shell (st_program p) = true /\ st_original_command p = Some (bs "id") /\
  sy_container_home demo_system (st_identity p) = Some (bs "/home/alice") /\
  undefined (sy_options_env demo_system demo_eo) (bs "HOME") /\
  undefined (sy_options_env demo_system demo_eo) (bs "SSH_ORIGINAL_COMMAND") /\
  undefined (Environment demo_system demo_extras (without_client p)) (bs "LANG") /\
  first_value (Environment demo_system demo_extras p) (bs "LANG") (bs "de").
Proof.
  cbv zeta. split; [apply demo_starts; vm_compute; reflexivity|]. split; [reflexivity|]. split; [reflexivity|]. split; [reflexivity|].
  split; [apply has_env_spec; vm_compute; reflexivity|]. split; [apply has_env_spec; vm_compute; reflexivity|].
  split; [apply has_env_spec; vm_compute; reflexivity|].
  rewrite environment_split. apply first_skip; [apply has_env_spec; vm_compute; reflexivity|].
  exists []. eexists. eexists. split; [vm_compute; reflexivity|]. split; [reflexivity|intros e v []].
Qed.

(** carol runs rsync. *)
Example C84_demo_rsync :
  let s := demo_run true (demo_attempt (demo_key_request (bs "carol") (bs "PLAIN")) ++
    [demo_open (bs "session") [] 0; demo_set "LANG" "C"; demo_request 0 (bs "exec") (enc [FString (bs "rsync --server . /")]);
     OSession 0 (OSpawner 0 demo_spawn)]) in
  map st_program (demo_started s) = [Rsync (bs "/usr/bin/rsync") [bs "rsync"; bs "--server"; bs "."; bs "/"]] /\
  show_env s = [[bs "HOME=/home/carol"]].
Proof. cbv zeta. split; vm_compute; reflexivity. Qed.
