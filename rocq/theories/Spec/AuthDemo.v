(** Concrete configurations, for the examples beside the theorems about
    authentication and sessions. *)

From Coq Require Import NArith List Bool String.
From Verif.Base Require Import Bytes.
From Verif.Spec Require Import WireSpec KeySpec AuthSpec.
From Verif.Model Require Import Wire Packets StringList KeyOptions Auth Session Server.
Import ListNotations.
Open Scope N_scope.

(** Options of the demo key. *)
Definition demo_options : key_options :=
  {| ko_command := bs "backup"; ko_no_port_forwarding := true; ko_no_pty := true; ko_home_read_only := false |}.

(** A toy signature scheme: the signature is the key and the message. *)
Definition toy_sign (blob message : bytes) : bytes := blob ++ message.

Definition demo_config (translation : bool) : config := {|
  cf_translation_server := translation;
  cf_authorized_host_keys := [(bs "HOST", ko_default)];
  cf_global_keys := [(bs "KEY", demo_options); (bs "PLAIN", ko_default)];
  cf_accept_client_address := false;
  cf_exec_reject_stderr := true;
  cf_verbose_errors := true;
  cf_proxy_to := fun _ sticky => if bytes_eqb sticky (bs "far") then Some (bs "10.0.0.1") else None;
  cf_openssl := true;
  cf_base64 := fun b => Some b;
  cf_parse_key := fun blob => negb (is_nil blob);
  cf_verify := fun blob message signature => Some (bytes_eqb signature (toy_sign blob message));
  cf_parse_address := fun b => Some b |}.

Definition demo_eo : execute_options :=
  {| eo_execute := None; eo_uid := Some 1000; eo_gid := Some 1000; eo_home := Some (bs "/home/alice");
     eo_shell := Some (bs "/bin/bash"); eo_enable_network := false; eo_id := 1 |}.
Definition demo_rsync : execute_options :=
  {| eo_execute := Some (bs "/usr/bin/rsync"); eo_uid := Some 1000; eo_gid := Some 1000; eo_home := Some (bs "/home/carol");
     eo_shell := None; eo_enable_network := false; eo_id := 2 |}.

Definition demo_response : response := {|
  tr_status_ok := true; tr_token := None; tr_execute_options := Some demo_eo;
  tr_service_execute_options := []; tr_no_password := None; tr_authorized_keys := None;
  tr_no_home_authorized_keys := true; tr_arch := 0; tr_site := None |}.
(** no shell, but rsync and git *)
Definition demo_restricted : response := {|
  tr_status_ok := true; tr_token := None; tr_execute_options := None;
  tr_service_execute_options := [(bs "sftp", demo_rsync); (bs "rsync", demo_rsync); (bs "git-upload-pack", demo_rsync)];
  tr_no_password := Some []; tr_authorized_keys := None;
  tr_no_home_authorized_keys := true; tr_arch := 0; tr_site := None |}.
Definition demo_refused : response := {|
  tr_status_ok := false; tr_token := None; tr_execute_options := None;
  tr_service_execute_options := []; tr_no_password := None; tr_authorized_keys := None;
  tr_no_home_authorized_keys := false; tr_arch := 0; tr_site := None |}.

Definition demo_passwd : passwd :=
  {| pw_uid := 1001; pw_gid := 1001; pw_dir := bs "/home/dave"; pw_shell := bs "/bin/zsh" |}.

(** alice and far: password "secret"; carol: no password, restricted;
    dave: passwd entry. *)
Definition demo_world : world := {|
  w_translate := fun user password =>
    if bytes_eqb user (bs "alice") || bytes_eqb user (bs "far") then
      Some (if is_nil password || bytes_eqb password (bs "secret") then demo_response else demo_refused)
    else if bytes_eqb user (bs "carol") then Some demo_restricted
    else Some demo_refused;
  w_getpwnam := fun user => if bytes_eqb user (bs "dave") then Some demo_passwd else None;
  w_open := fun _ => NotOpened;
  w_delegate := fun _ => None |}.

Definition demo_session_id : bytes := bs "session".

(** Requests *)
Definition demo_key_request (user key : bytes) : bytes :=
  let r := key_request user 1 (bs "ssh-ed25519") key in
  enc (r ++ [FString (toy_sign key (signed_data demo_session_id r))]).
Definition demo_query (user key : bytes) : bytes := enc (key_request user 0 (bs "ssh-ed25519") key).
Definition demo_bad_signature (user key : bytes) : bytes :=
  enc (key_request user 1 (bs "ssh-ed25519") key ++ [FString (bs "forged")]).
Definition demo_host_request (user : bytes) : bytes :=
  let r := host_request user (bs "ssh-ed25519") (bs "HOST") (bs "proxy.example") (bs "root") in
  enc (r ++ [FString (toy_sign (bs "HOST") (signed_data demo_session_id r))]).
Definition demo_password_request (user password : bytes) : bytes := enc (password_request user password).
Definition demo_none_request (user : bytes) : bytes :=
  enc [FString user; FString CONNECTION; FString (bs "none"); FRaw []].

Definition demo_env : packet_env := {| pe_channel := 0; pe_pty := true |}.

(** The start of a connection. *)
Definition demo_start : list vop :=
  [OEncrypted; OPacket MSG_SERVICE_REQUEST (enc [FString (bs "ssh-userauth")]) demo_env].
Definition demo_attempt (payload : bytes) : list vop :=
  [OPacket MSG_USERAUTH_REQUEST payload demo_env; OAuth demo_world].

Definition demo_run (translation : bool) (ops : list vop) : server :=
  vrun (demo_config translation) demo_session_id (bs "192.0.2.1") (demo_start ++ ops).

(** Channel messages *)
Definition demo_open (type data : bytes) (n : N) : vop :=
  OPacket MSG_CHANNEL_OPEN (enc [FString type; FU32 0; FU32 65536; FU32 32768; FRaw data]) {| pe_channel := n; pe_pty := true |}.
Definition demo_request (n : N) (type data : bytes) : vop :=
  OPacket MSG_CHANNEL_REQUEST (enc [FU32 n; FString type; FBool true; FRaw data]) demo_env.
Definition demo_global (name data : bytes) : vop :=
  OPacket MSG_GLOBAL_REQUEST (enc [FString name; FBool true; FRaw data]) demo_env.
Definition demo_spawn : spawn_answer := {| sa_ok := true; sa_open := true; sa_sftp_server := true |}.

(** A decision procedure for [op_ok]. *)
Definition ok_op (op : vop) : bool :=
  match op with OPacket _ payload _ => forallb (fun b => b <? 256) payload | _ => true end.
Lemma ok_ops : forall ops, forallb ok_op ops = true -> Forall op_ok ops.
Proof.
  intros ops H. apply Forall_forall. intros op I. rewrite forallb_forall in H. specialize (H op I).
  destruct op; try exact Logic.I. cbn in *. apply Forall_forall. intros b J. rewrite forallb_forall in H.
  specialize (H b J). now apply N.ltb_lt in H.
Qed.

(** The programs which were started. *)
Definition demo_started (s : server) : list started :=
  flat_map (fun e => match e with VSess _ (SStarted p) => [p] | _ => [] end) (sv_log s).
