(** Specification of valid credentials (C64): what a user needs to log in,
    in terms of what the outside world says. *)

From Coq Require Import NArith List Bool String.
From Verif.Base Require Import Bytes.
From Verif.Spec Require Import WireSpec KeySpec AuthSpec.
From Verif.Model Require Import KeyOptions Auth.
Import ListNotations.
Open Scope N_scope.

(** The account exists: the translation server (asked without password) or
    the account database knows it.  If the translation server sends execute
    options, they must be complete. *)
Definition usable (r : response) : Prop :=
  tr_status_ok r = true /\
  forall eo, tr_execute_options r = Some eo -> eo_uid eo <> None /\ eo_gid eo <> None /\ eo_home eo <> None.

Definition exists_account (cfg : config) (w : world) (user : bytes) (s : source) : Prop :=
  match s with
  | FromTranslation r => cf_translation_server cfg = true /\ w_translate w user [] = Some r /\ usable r
  | FromPasswd p => cf_translation_server cfg = false /\ w_getpwnam w user = Some p
  end.

(** The key is listed where it is looked for: in the text sent by the
    translation server, in the configured keys, or in the file in the home
    directory, if the server can open it. *)
Definition found (cfg : config) (w : world) (s : source) (blob : bytes) : Prop :=
  (exists r text lines o, s = FromTranslation r /\ tr_authorized_keys r = Some text /\ text_lines text lines /\
     first_authorizing (cf_openssl cfg) (cf_base64 cfg) lines blob o) \/
  (exists o, In (blob, o) (cf_global_keys cfg)) \/
  (exists home f o, home_of s home /\ w_open w home = Opened f /\ f_regular f = true /\ len (f_contents f) < 1048576 /\
     match s with FromTranslation r => tr_no_home_authorized_keys r = false | FromPasswd _ => True end /\
     first_authorizing (cf_openssl cfg) (cf_base64 cfg) (file_lines (f_contents f)) blob o).

(** A complete request with a valid credential. *)
Inductive valid_request (cfg : config) (session_id : bytes) (w : world) (user : bytes) : bytes -> Prop :=
| V_key : forall flag algorithm blob signature s,
    exists_account cfg w user s -> found cfg w s blob -> cf_parse_key cfg blob = true -> 0 < flag ->
    cf_verify cfg blob (signed_data session_id (key_request user flag algorithm blob)) signature = Some true ->
    valid_request cfg session_id w user (enc (key_request user flag algorithm blob ++ [FString signature]))
| V_host : forall algorithm blob client_host client_user signature o s,
    exists_account cfg w user s -> In (blob, o) (cf_authorized_host_keys cfg) -> cf_parse_key cfg blob = true ->
    cf_verify cfg blob (signed_data session_id (host_request user algorithm blob client_host client_user)) signature = Some true ->
    valid_request cfg session_id w user
      (enc (host_request user algorithm blob client_host client_user ++ [FString signature]))
| V_password : forall password r,
    cf_translation_server cfg = true -> password <> [] -> w_translate w user password = Some r -> usable r ->
    valid_request cfg session_id w user (enc (password_request user password))
| V_waived : forall r,
    exists_account cfg w user (FromTranslation r) ->
    tr_no_password r = Some [] \/ tr_no_password r = Some (bs "sftp") ->
    valid_request cfg session_id w user (enc [FString user; FString CONNECTION; FString (bs "none")]).
