(** Model of the user authentication of the server: Connection's handling of
    one USERAUTH_REQUEST (src/Connection.cxx:281-313, 568-612, 774-1177).

    One request is handled by one coroutine.  It suspends while it waits for
    the translation server, a helper process or a timer, but no other packet
    handler looks at the members it changes before it finishes (class
    UserAuthServer, see Model/Server.v, handles nothing else meanwhile).  It
    is therefore one function here; what the outside world answers while it
    runs is the parameter [w].

    Not modelled: delays (tarpit, fail_sleep), the accounting token bucket
    (Model/Accounting.v), counters, log messages. *)

From Coq Require Import NArith List Bool String.
From Verif.Base Require Import Bytes.
From Verif.Model Require Import Wire Packets KeyOptions.
Import ListNotations.
Open Scope N_scope.

(** ** Data from outside *)

(** libcommon ExecuteOptions/ChildOptions: the part which is looked at by
    lukko.  [None] is UNSET_UID, UNSET_GID, nullptr.  [eo_id] stands for
    everything else (mounts, namespaces, ...), which goes unchanged to the
    spawner. *)
Record execute_options := {
  eo_execute : option bytes;
  eo_uid : option N;
  eo_gid : option N;
  eo_home : option bytes;
  eo_shell : option bytes;
  eo_enable_network : bool;
  eo_id : N
}.

(** libcommon TranslateResponse: the part which is looked at by lukko *)
Record response := {
  tr_status_ok : bool;                        (* status == HttpStatus{} *)
  tr_token : option bytes;
  tr_execute_options : option execute_options;
  tr_service_execute_options : list (bytes * execute_options);
  tr_no_password : option bytes;
  tr_authorized_keys : option bytes;
  tr_no_home_authorized_keys : bool;
  tr_arch : N;
  tr_site : option bytes
}.

(** struct passwd *)
Record passwd := { pw_uid : N; pw_gid : N; pw_dir : bytes; pw_shell : bytes }.

(** As whom a process runs (src/Connection.cxx:522-541 PrepareChildProcess()):
    with the options from the translation server, or with the ids of the
    passwd entry. *)
Inductive identity := AsOptions (eo : execute_options) | AsPasswd (p : passwd).

(** a file which was opened: S_ISREG(), contents *)
Record file := { f_regular : bool; f_contents : bytes }.

(** the outcome of opening ".ssh/authorized_keys" in a home directory *)
Inductive open_answer :=
| NoHome            (* the home directory could not be opened *)
| Opened (f : file)
| NotOpened         (* failed, but not with EACCES *)
| Denied.           (* EACCES *)

(** What the outside world answers while one request is handled. *)
Record world := {
  (** TranslateLogin(user, password); [None]: exception *)
  w_translate : bytes -> bytes -> option response;
  (** getpwnam() *)
  w_getpwnam : bytes -> option passwd;
  (** OpenHome() and TryOpenReadOnlyBeneath() for this directory *)
  w_open : bytes -> open_answer;
  (** DelegateOpen(): the answer of a helper process *)
  w_delegate : identity -> option file
}.

(** Configuration and the functions of the crypto library, constant for a
    connection. *)
Record config := {
  cf_translation_server : bool;               (* instance.GetTranslationServer() *)
  cf_authorized_host_keys : key_set;          (* listener.GetAuthorizedHostKeys() *)
  cf_global_keys : key_set;                   (* instance.GetGlobalAuthorizedKeys() *)
  cf_accept_client_address : bool;            (* listener.GetAcceptClientAddress() *)
  cf_exec_reject_stderr : bool;               (* listener.GetExecRejectStderr() *)
  cf_verbose_errors : bool;                   (* listener.GetVerboseErrors() *)
  cf_proxy_to : N -> bytes -> option bytes;   (* listener.GetProxyTo(arch, sticky_source) *)
  cf_openssl : bool;                          (* HAVE_OPENSSL *)
  cf_base64 : bytes -> option bytes;
  (** ParsePublicKeyBlob(blob) succeeds *)
  cf_parse_key : bytes -> bool;
  (** ParsePublicKeyBlob(blob)->Verify(message, signature); [None]: exception *)
  cf_verify : bytes -> bytes -> bytes -> option bool;
  (** ParseSocketAddress() *)
  cf_parse_address : bytes -> option bytes
}.

(** Calls to the outside world, for the specification. *)
Inductive aevent :=
| ATranslate (user password : bytes) (answer : option response)
| AGetpwnam (user : bytes) (answer : option passwd)
| AOpenKeys (home : bytes)
| AHelper (i : identity).

(** ** The members of class Connection which belong to authentication
    (src/Connection.hxx:75-123).  [ac_log] is a history variable. *)
Record account := {
  ac_authenticated : bool;                      (* SSH::Connection::authenticated *)
  ac_username : bytes;
  ac_translation : option (bytes * response);   (* translation->user, ->response *)
  ac_passwd : option passwd;                    (* uid, gid, home_path, shell *)
  ac_options : key_options;                     (* authorized_key_options *)
  ac_allow_exec : bool;
  ac_allow_sftp : bool;
  ac_sftp_only : bool;
  ac_hostbased : bool;                          (* authenticated_hostbased *)
  ac_peer_address : bytes;
  ac_log : list aevent
}.

(** src/Connection.hxx:75-123 the initial values *)
Definition new_account (peer_address : bytes) : account := {|
  ac_authenticated := false; ac_username := []; ac_translation := None; ac_passwd := None;
  ac_options := ko_default; ac_allow_exec := true; ac_allow_sftp := true; ac_sftp_only := false;
  ac_hostbased := false; ac_peer_address := peer_address; ac_log := [] |}.

Definition mk_account authenticated username translation pw options exec sftp only hostbased peer log : account := {|
  ac_authenticated := authenticated; ac_username := username; ac_translation := translation; ac_passwd := pw;
  ac_options := options; ac_allow_exec := exec; ac_allow_sftp := sftp; ac_sftp_only := only;
  ac_hostbased := hostbased; ac_peer_address := peer; ac_log := log |}.

Definition log_event (e : aevent) (a : account) : account :=
  mk_account (ac_authenticated a) (ac_username a) (ac_translation a) (ac_passwd a) (ac_options a)
    (ac_allow_exec a) (ac_allow_sftp a) (ac_sftp_only a) (ac_hostbased a) (ac_peer_address a) (ac_log a ++ [e]).
Definition set_translation (t : bytes * response) (a : account) : account :=
  mk_account (ac_authenticated a) (ac_username a) (Some t) (ac_passwd a) (ac_options a)
    (ac_allow_exec a) (ac_allow_sftp a) (ac_sftp_only a) (ac_hostbased a) (ac_peer_address a) (ac_log a).
Definition set_passwd (p : passwd) (a : account) : account :=
  mk_account (ac_authenticated a) (ac_username a) (ac_translation a) (Some p) (ac_options a)
    (ac_allow_exec a) (ac_allow_sftp a) (ac_sftp_only a) (ac_hostbased a) (ac_peer_address a) (ac_log a).
Definition set_options (o : key_options) (a : account) : account :=
  mk_account (ac_authenticated a) (ac_username a) (ac_translation a) (ac_passwd a) o
    (ac_allow_exec a) (ac_allow_sftp a) (ac_sftp_only a) (ac_hostbased a) (ac_peer_address a) (ac_log a).
Definition set_allow_sftp (b : bool) (a : account) : account :=
  mk_account (ac_authenticated a) (ac_username a) (ac_translation a) (ac_passwd a) (ac_options a)
    (ac_allow_exec a) b (ac_sftp_only a) (ac_hostbased a) (ac_peer_address a) (ac_log a).
(** allow_exec = false *)
Definition forbid_exec (a : account) : account :=
  mk_account (ac_authenticated a) (ac_username a) (ac_translation a) (ac_passwd a) (ac_options a)
    false (ac_allow_sftp a) (ac_sftp_only a) (ac_hostbased a) (ac_peer_address a) (ac_log a).
(** sftp_only = true *)
Definition set_sftp_only (a : account) : account :=
  mk_account (ac_authenticated a) (ac_username a) (ac_translation a) (ac_passwd a) (ac_options a)
    (ac_allow_exec a) (ac_allow_sftp a) true (ac_hostbased a) (ac_peer_address a) (ac_log a).
Definition set_hostbased (a : account) : account :=
  mk_account (ac_authenticated a) (ac_username a) (ac_translation a) (ac_passwd a) (ac_options a)
    (ac_allow_exec a) (ac_allow_sftp a) (ac_sftp_only a) true (ac_peer_address a) (ac_log a).
Definition set_peer_address (p : bytes) (a : account) : account :=
  mk_account (ac_authenticated a) (ac_username a) (ac_translation a) (ac_passwd a) (ac_options a)
    (ac_allow_exec a) (ac_allow_sftp a) (ac_sftp_only a) (ac_hostbased a) p (ac_log a).
(** username.assign(); SetAuthenticated() *)
Definition set_login (user : bytes) (a : account) : account :=
  mk_account true user (ac_translation a) (ac_passwd a) (ac_options a)
    (ac_allow_exec a) (ac_allow_sftp a) (ac_sftp_only a) (ac_hostbased a) (ac_peer_address a) (ac_log a).

(** ** Accessors *)

Definition response_of (a : account) : option response := option_map snd (ac_translation a).

(** libcommon TranslationServiceExecuteOptions::Get(): the first one with
    this name *)
Definition GetService (r : response) (name : bytes) : option execute_options :=
  option_map snd (find (fun e => bytes_eqb (fst e) name) (tr_service_execute_options r)).

(** src/Connection.cxx:337-367 GetSftpExecuteOptions() etc. *)
Definition GetServiceExecuteOptions (name : bytes) (a : account) : option execute_options :=
  match response_of a with
  | Some r => GetService r name
  | None => None
  end.

Definition SFTP : bytes := bs "sftp".
Definition RSYNC : bytes := bs "rsync".
Definition GIT_RECEIVE_PACK : bytes := bs "git-receive-pack".
Definition GIT_UPLOAD_PACK : bytes := bs "git-upload-pack".

(** src/Connection.cxx:457-470 GetHome(); an empty home_path is no home *)
Definition GetHome (a : account) : option bytes :=
  match response_of a with
  | Some r =>
      match tr_execute_options r with
      | Some eo => eo_home eo
      | None => match ac_passwd a with
                | Some p => if is_nil (pw_dir p) then None else Some (pw_dir p)
                | None => None
                end
      end
  | None => match ac_passwd a with
            | Some p => if is_nil (pw_dir p) then None else Some (pw_dir p)
            | None => None
            end
  end.

(** src/Connection.cxx:369-390, 522-541 PrepareChildProcess(SFTP) with
    GetExecuteOptions(SFTP), as used by the helper process
    (src/Delegate.cxx:71-106, 143-150).  [None]: assertion failure (there is
    neither) *)
Definition HelperIdentity (a : account) : option identity :=
  match response_of a with
  | Some r =>
      match GetService r SFTP with
      | Some eo => Some (AsOptions eo)
      | None => option_map AsOptions (tr_execute_options r)
      end
  | None => option_map AsPasswd (ac_passwd a)
  end.

(** src/Connection.cxx:484-505 OpenInHome() *)
Definition OpenInHome (w : world) (a : account) : account * option file :=
  let delegate (a : account) :=
    if ac_allow_sftp a then
      match HelperIdentity a with
      | Some i => (log_event (AHelper i) a, w_delegate w i)
      | None => (a, None)
      end
    else (a, None) in
  match GetHome a with
  | Some home =>
      let a := log_event (AOpenKeys home) a in
      match w_open w home with
      | Opened f => (a, Some f)
      | NotOpened => (a, None)
      | NoHome | Denied => delegate a
      end
  | None => delegate a
  end.

(** src/Connection.cxx:556-565 ShouldLoadHomeAuthorizedKeys() *)
Definition ShouldLoadHomeAuthorizedKeys (a : account) : bool :=
  match response_of a with
  | Some r => negb (tr_no_home_authorized_keys r)
  | None => true
  end.

(** 1024 * 1024 in line 589 *)
Definition MAX_KEYS_FILE : N := 1048576.

(** src/Connection.cxx:567-601 IsAcceptedPublicKey() *)
Definition IsAcceptedPublicKey (cfg : config) (w : world) (blob : bytes) (a : account) : account * bool :=
  let from_home (a : account) :=
    if ShouldLoadHomeAuthorizedKeys a then
      match OpenInHome w a with
      | (a, Some f) =>
          if f_regular f && (len (f_contents f) <? MAX_KEYS_FILE) then
            match PublicKeysTextFileContains (cf_base64 cfg) (cf_openssl cfg) (f_contents f) blob with
            | Some o => (set_options o a, true)
            | None => (a, false)
            end
          else (a, false)
      | (a, None) => (a, false)
      end
    else (a, false) in
  let from_global (a : account) :=
    match Find (cf_global_keys cfg) blob with
    | Some o => (set_options o a, true)
    | None => from_home a
    end in
  match response_of a with
  | Some r =>
      match tr_authorized_keys r with
      | Some text =>
          match PublicKeysTextContains (cf_base64 cfg) (cf_openssl cfg) text blob with
          | Some o => (set_options o a, true)
          | None => from_global a
          end
      | None => from_global a
      end
  | None => from_global a
  end.

(** src/Connection.cxx:603-612 IsAcceptedHostPublicKey() *)
Definition IsAcceptedHostPublicKey (cfg : config) (blob : bytes) (a : account) : account * bool :=
  match Find (cf_authorized_host_keys cfg) blob with
  | Some o => (set_options o a, true)
  | None => (a, false)
  end.

(** src/Connection.cxx:281-313 LazyTranslate(); [None]: Disconnect *)
Definition LazyTranslate (w : world) (new_username password : bytes) (a : account)
  : account * option response :=
  let ask :=
    let r := w_translate w new_username password in
    let a := log_event (ATranslate new_username password r) a in
    match r with
    | Some r => (set_translation (new_username, r) a, Some r)
    | None => (a, None)
    end in
  match ac_translation a with
  | Some (user, r) => if is_nil password && bytes_eqb new_username user then (a, Some r) else ask
  | None => ask
  end.

(** src/Connection.cxx:141-168 CheckTranslateResponse(); [false]: exception *)
Definition CheckTranslateResponse (r : response) : bool :=
  match tr_execute_options r with
  | Some eo =>
      match eo_uid eo, eo_gid eo, eo_home eo with
      | Some _, Some _, Some _ => true
      | _, _, _ => false
      end
  | None => true
  end.

Definition alnum (c : N) : bool :=
  (48 <=? c) && (c <=? 57) || (65 <=? c) && (c <=? 90) || (97 <=? c) && (c <=? 122).

(** src/Connection.cxx:780-786 IsValidUsername() *)
Definition IsValidUsername (username : bytes) : bool :=
  (len username <=? 255) && negb (is_nil username) &&
  forallb (fun ch => alnum ch || (ch =? 45) || (ch =? 95) || (ch =? 46) || (ch =? 64)) username.

(** src/ssh/AuthMethods.hxx:21-37 ToString() *)
Definition AuthMethods (hostbased password : bool) : bytes :=
  if hostbased then
    if password then bs "publickey,hostbased,password" else bs "publickey,hostbased"
  else
    if password then bs "publickey,password" else bs "publickey".

(** How a request ends: *)
Inductive outcome :=
| Failure (methods : bytes)                    (* USERAUTH_FAILURE was sent *)
| PkOk (algorithm blob : bytes)                (* USERAUTH_PK_OK was sent *)
| Die                                          (* Disconnect or another exception *)
| Accepted (proxy_to : option bytes).          (* authenticated *)

(** the string whose signature is verified, src/Connection.cxx:991-994 and
    1058-1061; [None]: exception (PacketTooLarge) *)
Definition ToBeVerified (session_id to_be_signed : bytes) : option bytes :=
  let* s := WriteLengthEncoded new_serializer session_id in
  let* s := WriteU8 s MSG_USERAUTH_REQUEST in
  WriteN s to_be_signed.

(** [public_key->Verify(s.Finish(), signature)] in its try block; an
    exception is the same as a wrong signature *)
Definition VerifyRequest (cfg : config) (session_id blob to_be_signed signature : bytes) : bool :=
  match ToBeVerified session_id to_be_signed with
  | Some m => match cf_verify cfg blob m signature with Some b => b | None => false end
  | None => false
  end.

(** src/Connection.cxx:1140-1169 after the checks: the end of
    OnUserAuthRequest() up to the choice of the proxy target *)
Definition Login (cfg : config) (user : bytes) (arch : N) (sticky_source : bytes) (a : account) : account * outcome :=
  (set_login user a, Accepted (cf_proxy_to cfg arch sticky_source)).

(** src/Connection.cxx:944-1020 method "publickey"; [d]: what is left of
    [payload] after the method name *)
Definition AuthPublicKey (cfg : config) (w : world) (session_id payload user d methods : bytes)
  (arch : N) (sticky_source : bytes) (a : account) : account * outcome :=
  match ReadBool d with
  | None => (a, Die)
  | Some (with_signature, d) =>
  match ReadString d with
  | None => (a, Die)
  | Some (algorithm, d) =>
  match ReadLengthEncoded d with
  | None => (a, Die)
  | Some (blob, d) =>
      match IsAcceptedPublicKey cfg w blob a with
      | (a, false) => (a, Failure methods)
      | (a, true) =>
          if negb (cf_parse_key cfg blob) then (a, Failure methods)
          else if negb with_signature then
            match ExpectEnd d with
            | None => (a, Die)
            | Some _ => (a, PkOk algorithm blob)
            end
          else
            let to_be_signed := DSince payload d in
            match ReadLengthEncoded d with
            | None => (a, Die)
            | Some (signature, d) =>
                match ExpectEnd d with
                | None => (a, Die)
                | Some _ =>
                    if VerifyRequest cfg session_id blob to_be_signed signature
                    then Login cfg user arch sticky_source a
                    else (a, Failure methods)
                end
            end
      end
  end end end.

(** src/Connection.cxx:1021-1117 method "hostbased" *)
Definition AuthHostbased (cfg : config) (session_id payload user d methods : bytes)
  (arch : N) (sticky_source : bytes) (a : account) : account * outcome :=
  match ReadString d with
  | None => (a, Die)
  | Some (algorithm, d) =>
  match ReadLengthEncoded d with
  | None => (a, Die)
  | Some (blob, d) =>
  match ReadString d with
  | None => (a, Die)
  | Some (client_host_name, d) =>
  match ReadString d with
  | None => (a, Die)
  | Some (client_user_name, d) =>
      let to_be_signed := DSince payload d in
      match ReadLengthEncoded d with
      | None => (a, Die)
      | Some (signature, d) =>
          match ExpectEnd d with
          | None => (a, Die)
          | Some _ =>
              match IsAcceptedHostPublicKey cfg blob a with
              | (a, false) => (a, Failure methods)
              | (a, true) =>
                  if negb (cf_parse_key cfg blob) then (a, Failure methods)
                  else if VerifyRequest cfg session_id blob to_be_signed signature then
                    let a :=
                      if cf_accept_client_address cfg then
                        let '(user_name, address) := Split client_user_name 64 in
                        if negb (is_nil user_name) && negb (is_nil address) then
                          match cf_parse_address cfg (c_str address) with
                          | Some p => set_peer_address p a
                          | None => a
                          end
                        else a
                      else a in
                    Login cfg user arch sticky_source (set_hostbased a)
                  else (a, Failure methods)
              end
          end
      end
  end end end end.

(** src/Connection.cxx:944-1138 the methods *)
Definition AuthMethod (cfg : config) (w : world) (session_id payload user method d methods : bytes)
  (password_accepted : bool) (arch : N) (sticky_source : bytes) (a : account) : account * outcome :=
  if bytes_eqb method (bs "publickey") then
    AuthPublicKey cfg w session_id payload user d methods arch sticky_source a
  else if bytes_eqb method (bs "hostbased") then
    AuthHostbased cfg session_id payload user d methods arch sticky_source a
  else if password_accepted then Login cfg user arch sticky_source a
  else (a, Failure methods).

(** src/Connection.cxx:877-906 what a successful translation response does
    to the account; the result is [password_accepted] *)
Definition ApplyResponse (r : response) (password : bytes) (a : account) : account * bool :=
  let a :=
    match tr_token r with
    | Some token => if bytes_eqb token (bs "sftp-only") then set_sftp_only (forbid_exec a) else a
    | None => a
    end in
  let a :=
    match tr_execute_options r with
    | None => set_allow_sftp (match GetService r SFTP with Some _ => true | None => false end) (forbid_exec a)
    | Some _ => a
    end in
  if negb (is_nil password) then (a, true)
  else
    match tr_no_password r with
    | Some np =>
        if bytes_eqb np SFTP then (set_sftp_only (forbid_exec a), true)
        else (a, is_nil np)
    | None => (a, false)
    end.

(** src/Connection.cxx:829-926 with a translation server *)
Definition AuthTranslation (cfg : config) (w : world) (session_id payload user method d : bytes)
  (a : account) : account * outcome :=
  let methods := AuthMethods (match cf_authorized_host_keys cfg with [] => false | _ => true end) true in
  (** the second phase, with the password (empty for other methods) *)
  let translate (password d : bytes) :=
    match LazyTranslate w user password a with
    | (a, None) => (a, Die)
    | (a, Some r) =>
        if negb (tr_status_ok r) then (a, Failure [])
        else
          let '(a, password_accepted) := ApplyResponse r password a in
          if negb (CheckTranslateResponse r) then (a, Die)
          else
            AuthMethod cfg w session_id payload user method d methods password_accepted (tr_arch r)
              (match tr_site r with Some site => site | None => user end) a
    end in
  if bytes_eqb method (bs "password") then
    match ReadBool d with
    | None => (a, Die)
    | Some (change_password, d) =>
    match ReadString d with
    | None => (a, Die)
    | Some (password, d) =>
    match ExpectEnd d with
    | None => (a, Die)
    | Some _ =>
        if change_password then (a, Failure methods)
        else if is_nil password then (a, Failure methods)
        else translate password d
    end end end
  else translate [] d.

(** Arch::NONE *)
Definition ARCH_NONE : N := 0.

(** src/Connection.cxx:788-1169 OnUserAuthRequest() *)
Definition OnUserAuthRequest (cfg : config) (w : world) (session_id payload : bytes) (a : account)
  : account * outcome :=
  match ReadString payload with
  | None => (a, Die)
  | Some (user, d) =>
  match ReadString d with
  | None => (a, Die)
  | Some (service_name, d) =>
  match ReadString d with
  | None => (a, Die)
  | Some (method, d) =>
      if negb (bytes_eqb service_name (bs "ssh-connection")) then (a, Failure [])
      else if negb (IsValidUsername user) then (a, Die)
      else if cf_translation_server cfg then AuthTranslation cfg w session_id payload user method d a
      else
        let methods := AuthMethods (match cf_authorized_host_keys cfg with [] => false | _ => true end) false in
        let pw := w_getpwnam w user in
        let a := log_event (AGetpwnam user pw) a in
        match pw with
        | None => (a, Failure methods)
        | Some pw =>
            AuthMethod cfg w session_id payload user method d methods false ARCH_NONE user (set_passwd pw a)
        end
  end end end.
