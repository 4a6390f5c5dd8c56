(** Specification of user authentication (C29 to C35, C52): what a client must
    show to be logged in, in terms of the bytes it sends and of what the
    outside world answers. *)

From Coq Require Import NArith List Bool String.
From Verif.Base Require Import Bytes.
From Verif.Spec Require Import WireSpec KeySpec.
From Verif.Model Require Import KeyOptions Auth Session Server.
Import ListNotations.
Open Scope N_scope.

(** ** User names *)

Definition name_char (c : N) : Prop :=
  (48 <= c /\ c <= 57) \/ (65 <= c /\ c <= 90) \/ (97 <= c /\ c <= 122) \/ In c [45; 95; 46; 64].

Definition valid_name (user : bytes) : Prop :=
  user <> [] /\ len user <= 255 /\ Forall name_char user.

(** ** Where keys are listed *)

(** What is known about the account [user]: the translation server's response
    to a request without password, or the passwd entry. *)
Inductive source := FromTranslation (r : response) | FromPasswd (p : passwd).

(** The outside world has said so, for this user. *)
Definition said (cfg : config) (log : list aevent) (user : bytes) (s : source) : Prop :=
  match s with
  | FromTranslation r =>
      cf_translation_server cfg = true /\ In (ATranslate user [] (Some r)) log /\ tr_status_ok r = true
  | FromPasswd p => cf_translation_server cfg = false /\ In (AGetpwnam user (Some p)) log
  end.

(** The home directory of the account. *)
Definition home_of (s : source) (home : bytes) : Prop :=
  match s with
  | FromTranslation r => exists eo, tr_execute_options r = Some eo /\ eo_home eo = Some home
  | FromPasswd p => pw_dir p = home /\ home <> []
  end.

(** Identities a process of this account can have. *)
Definition identity_of (s : source) (i : identity) : Prop :=
  match s with
  | FromTranslation r => exists eo, i = AsOptions eo /\
      (tr_execute_options r = Some eo \/ exists name, In (name, eo) (tr_service_execute_options r))
  | FromPasswd p => i = AsPasswd p
  end.

(** A usable authorized_keys file in the home directory of the account: read
    directly, or by a helper process of the account. *)
Definition home_keys (w : world) (s : source) (contents : bytes) : Prop :=
  exists f, f_regular f = true /\ f_contents f = contents /\ len contents < 1048576 /\
  match s with FromTranslation r => tr_no_home_authorized_keys r = false | FromPasswd _ => True end /\
  ((exists home, home_of s home /\ w_open w home = Opened f) \/
   (exists i, identity_of s i /\ w_delegate w i = Some f)).

(** The key [blob] is listed for the account, with the options [o]. *)
Definition listed (cfg : config) (w : world) (s : source) (blob : bytes) (o : key_options) : Prop :=
  (exists r text lines, s = FromTranslation r /\ tr_authorized_keys r = Some text /\ text_lines text lines /\
     first_authorizing (cf_openssl cfg) (cf_base64 cfg) lines blob o) \/
  In (blob, o) (cf_global_keys cfg) \/
  (exists contents, home_keys w s contents /\
     first_authorizing (cf_openssl cfg) (cf_base64 cfg) (file_lines contents) blob o).

(** ** Requests *)

Definition CONNECTION : bytes := bs "ssh-connection".
Definition PUBLICKEY : bytes := bs "publickey".
Definition HOSTBASED : bytes := bs "hostbased".
Definition PASSWORD : bytes := bs "password".

(** RFC 4252 section 7: the request without the signature; [flag] is the
    boolean TRUE (any number but 0) *)
Definition key_request (user : bytes) (flag : N) (algorithm blob : bytes) : list field :=
  [FString user; FString CONNECTION; FString PUBLICKEY; FByte flag; FString algorithm; FString blob].

(** RFC 4252 section 9 *)
Definition host_request (user algorithm blob client_host client_user : bytes) : list field :=
  [FString user; FString CONNECTION; FString HOSTBASED; FString algorithm; FString blob;
   FString client_host; FString client_user].

(** RFC 4252 section 8 *)
Definition password_request (user password : bytes) : list field :=
  [FString user; FString CONNECTION; FString PASSWORD; FByte 0; FString password].

(** RFC 4252 sections 7 and 9: what is signed *)
Definition signed_data (session_id : bytes) (request : list field) : bytes :=
  enc (FString session_id :: FByte 50 :: request).

(** The requests which carry a signature, with their values. *)
Inductive signed_request :=
| KeyRequest (user : bytes) (flag : N) (algorithm blob : bytes)
| HostRequest (user algorithm blob client_host client_user : bytes).

Definition request_fields (r : signed_request) : list field :=
  match r with
  | KeyRequest user flag algorithm blob => key_request user flag algorithm blob
  | HostRequest user algorithm blob client_host client_user => host_request user algorithm blob client_host client_user
  end.

Definition request_user (r : signed_request) : bytes :=
  match r with KeyRequest user _ _ _ => user | HostRequest user _ _ _ _ => user end.

Definition request_key (r : signed_request) : bytes :=
  match r with KeyRequest _ _ _ blob => blob | HostRequest _ _ blob _ _ => blob end.

(** These are the account data which a connection keeps. *)
Definition source_of (s : source) (user : bytes) (a : account) : Prop :=
  match s with
  | FromTranslation r => ac_translation a = Some (user, r) /\ ac_passwd a = None
  | FromPasswd p => ac_translation a = None /\ ac_passwd a = Some p
  end.

(** What the client has shown. *)
Inductive credential :=
| CKey (blob : bytes) (o : key_options)       (* a public key which is listed with these options *)
| CHost (blob : bytes) (o : key_options)      (* a host key *)
| CPassword                                   (* a password *)
| CWaived.                                    (* nothing *)

(** [proves cfg session_id w log payload user c]: the request [payload] proves
    that the client is [user]. *)
Inductive proves (cfg : config) (session_id : bytes) (w : world) (log : list aevent)
  : bytes -> bytes -> credential -> Prop :=
| P_key : forall user flag algorithm blob signature s o,
    flag <> 0 ->
    said cfg log user s -> listed cfg w s blob o ->
    cf_parse_key cfg blob = true ->
    cf_verify cfg blob (signed_data session_id (key_request user flag algorithm blob)) signature = Some true ->
    proves cfg session_id w log (enc (key_request user flag algorithm blob ++ [FString signature])) user (CKey blob o)
| P_host : forall user algorithm blob client_host client_user signature s o,
    said cfg log user s -> In (blob, o) (cf_authorized_host_keys cfg) ->
    cf_parse_key cfg blob = true ->
    cf_verify cfg blob (signed_data session_id (host_request user algorithm blob client_host client_user)) signature = Some true ->
    proves cfg session_id w log
      (enc (host_request user algorithm blob client_host client_user ++ [FString signature])) user (CHost blob o)
| P_password : forall user password r,
    cf_translation_server cfg = true -> password <> [] ->
    w_translate w user password = Some r -> tr_status_ok r = true ->
    proves cfg session_id w log (enc (password_request user password)) user CPassword
| P_waived : forall user method rest r,
    ~ In method [PUBLICKEY; HOSTBASED; PASSWORD] ->
    said cfg log user (FromTranslation r) ->
    tr_no_password r = Some [] \/ tr_no_password r = Some (bs "sftp") ->
    proves cfg session_id w log (enc [FString user; FString CONNECTION; FString method; FRaw rest]) user CWaived.

(** The account data which belong to a login: the answer to this very request
    if it was a password, what is known about the user otherwise. *)
Definition answered (cfg : config) (w : world) (log : list aevent) (payload user : bytes) (c : credential) (s : source) : Prop :=
  match c with
  | CPassword => exists password r, payload = enc (password_request user password) /\
      w_translate w user password = Some r /\ tr_status_ok r = true /\ s = FromTranslation r
  | _ => said cfg log user s
  end.

(** ** What the server does *)

(** A question to the outside world on behalf of the request [payload]: only
    about the user it names; files are read only in the home directory of that
    account, a helper process runs only with the identity of that account. *)
Definition asked_for (cfg : config) (payload : bytes) (log : list aevent) (e : aevent) : Prop :=
  exists user rest, payload = string_enc user ++ rest /\ valid_name user /\
  match e with
  | ATranslate u _ _ => u = user /\ cf_translation_server cfg = true
  | AGetpwnam u _ => u = user /\ cf_translation_server cfg = false
  | AOpenKeys home => exists s, said cfg log user s /\ home_of s home
  | AHelper i => exists s, said cfg log user s /\ identity_of s i
  end.


(** Effects which are reserved for authenticated clients. *)
Definition privileged (e : vevent) : Prop :=
  match e with
  | VSession _ | VSess _ _ | VConnectTcp _ _ | VConnectLocal _ | VBind _ _ | VForwarded _ _ | VOpenFailure
  | VGlobal _ _ | VGlobalAnswer _ | VConnectProxy _ | VHostbased _ | VOptions _ | VForward _ => True
  | VSend _ | VAuthenticated _ | VDead => False
  end.

(** Bytes are bytes. *)
Definition op_ok (op : vop) : Prop :=
  match op with OPacket _ payload _ => bytes_ok payload | _ => True end.

(** This request has arrived. *)
Definition received (ops : list vop) (payload : bytes) : Prop :=
  exists env, In (OPacket Packets.MSG_USERAUTH_REQUEST payload env) ops.

(** RFC 4253 section 6.1: no packet is that large (see also C03). *)
Definition op_small (op : vop) : Prop :=
  match op with OPacket _ payload _ => len payload < pow32 | _ => True end.

(** The request which has logged in the client, and what it says. *)
Definition login_request (cfg : config) (session_id peer_address : bytes) (ops before : list vop) (w : world)
  (payload user : bytes) (c : credential) (src : source) : Prop :=
  (exists after, ops = before ++ OAuth w :: after) /\
  sv_busy (vrun cfg session_id peer_address before) = Checking payload /\ received before payload /\
  let log := ac_log (sv_account (vrun cfg session_id peer_address (before ++ [OAuth w]))) in
  proves cfg session_id w log payload user c /\ answered cfg w log payload user c src.

(** A request with a key. *)
Definition key_method (payload : bytes) : Prop :=
  exists user service method rest, (In method [PUBLICKEY; HOSTBASED] /\
    payload = enc [FString user; FString service; FString method; FRaw rest])%type.

(** A response of the translation server to a question with this password
    which does not allow the client to execute programs. *)
Definition forbids_exec (password : bytes) (r : response) : Prop :=
  tr_token r = Some (bs "sftp-only") \/ tr_execute_options r = None \/
  (password = [] /\ tr_no_password r = Some (bs "sftp")).

(** The start of a connection, and one attempt: the client sends a request,
    and the outside world gives its answers. *)
Definition attempt (x : bytes * world) : list vop :=
  [OPacket Packets.MSG_USERAUTH_REQUEST (fst x) {| pe_channel := 0; pe_pty := true |}; OAuth (snd x)].
Definition opening : list vop :=
  [OEncrypted; OPacket Packets.MSG_SERVICE_REQUEST (enc [FString (bs "ssh-userauth")]) {| pe_channel := 0; pe_pty := true |}].
