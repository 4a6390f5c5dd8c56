(** Model of what a session channel lets its client start:
    src/SessionChannel.cxx (requests, program execution) and
    src/SessionChannel.hxx.

    The data flow of a session is in Model/ChannelIO.v and Model/Buffered.v,
    the replies to requests in Model/Requests.v.  Here a request either is
    answered at once, or becomes a task which is suspended: first waiting for
    the spawner (CoEnqueueSpawner), then for the new process
    (CoWaitSpawnCompletion).  Several requests can be suspended at the same
    time, because the next request is handled without waiting for the
    previous one (src/ssh/Channel.cxx, see Model/Requests.v).

    Not modelled: the spawner, mount tables other than that the home
    directory becomes read-only, agent forwarding sockets, log messages. *)

From Coq Require Import NArith List Bool String.
From Verif.Base Require Import Bytes.
From Verif.Model Require Import Wire KeyOptions Auth.
Import ListNotations.
Open Scope N_scope.

(** ** Command lines *)

(** src/SessionChannel.cxx:354-383 SplitCmdline(), the inner loop: one
    parameter and what is left.  The argument is the C string without its
    terminating null byte. *)
Fixpoint split_word (cmd : bytes) : bytes * bytes :=
  match cmd with
  | [] => ([], [])
  | ch :: cmd =>
      if ch =? 32 then ([], cmd)
      else if ch =? 92 then
        match cmd with
        | [] => ([ch], [])
        | c :: cmd => let '(s, rest) := split_word cmd in (c :: s, rest)
        end
      else let '(s, rest) := split_word cmd in (ch :: s, rest)
  end.

(** lines 357-358 *)
Fixpoint skip_spaces (cmd : bytes) : bytes :=
  match cmd with
  | ch :: r => if ch =? 32 then skip_spaces r else cmd
  | [] => []
  end.

(** src/SessionChannel.cxx:354-383 SplitCmdline(): the loop; [fuel] is the
    length of the string, each parameter takes at least one character *)
Fixpoint split_loop (fuel : nat) (cmd : bytes) : list bytes :=
  match fuel with
  | O => []
  | S fuel =>
      match skip_spaces cmd with
      | [] => []
      | cmd => let '(s, rest) := split_word cmd in s :: split_loop fuel rest
      end
  end.
Definition SplitCmdline (cmd : bytes) : list bytes := split_loop (S (List.length cmd)) cmd.

(** src/SessionChannel.cxx:424-453 ShellUnescapeOneSingleQuoted(); [None] is
    nullptr *)
Fixpoint unescape_loop (quote : bool) (src : bytes) : option bytes :=
  match src with
  | [] => if quote then None else Some []
  | ch :: src =>
      if ch =? 39 then unescape_loop (negb quote) src
      else if ch =? 92 then
        match src with
        | [] => None
        | c :: src => option_map (cons c) (unescape_loop quote src)
        end
      else option_map (cons ch) (unescape_loop quote src)
  end.
Definition ShellUnescapeOneSingleQuoted (src : bytes) : option bytes := unescape_loop false src.

(** libcommon StringAfterPrefix() *)
Fixpoint StringAfterPrefix (s prefix : bytes) : option bytes :=
  match prefix, s with
  | [], _ => Some s
  | p :: ps, c :: cs => if c =? p then StringAfterPrefix cs ps else None
  | _ :: _, [] => None
  end.

(** strrchr(shell, '/') + 1 if there is something behind it, else the whole
    string, src/SessionChannel.cxx:187-195 LoginShellName() *)
Definition LoginShellName (shell : bytes) : bytes :=
  let base := last (StringList.split 47 shell) [] in
  45 :: (if is_nil base then shell else base).

(** ** Programs *)

(** What is executed: path (or file descriptor of that path) and arguments. *)
Inductive program :=
| Shell (path : bytes) (argv0 : bytes)              (* the login shell *)
| ShellCommand (path cmd : bytes)                   (* shell -c cmd *)
| Sftp (path : bytes)                               (* the SFTP server *)
| Rsync (path : bytes) (args : list bytes)
| Git (path name arg : bytes).

(** A process which was started.  [st_original_command]: the variable
    SSH_ORIGINAL_COMMAND. *)
Record started := {
  st_program : program;
  st_identity : identity;
  st_user : bytes;
  st_env : list (bytes * bytes);
  st_original_command : option bytes;
  st_tty : bool;
  st_home_read_only : bool
}.

(** ** The channel *)

(** A request which is suspended. *)
Inductive task :=
| TExec (cmd : option bytes)                              (* Exec(), waiting for the spawner *)
| TRsync (cmd : bytes) (eo : execute_options)             (* ExecRsync() *)
| TGit (name path arg : bytes) (eo : execute_options)     (* ExecGit() *)
| TSftp                                                   (* StartSftpServer() *)
| TSpawned (failure : bytes).                             (* waiting for the new process *)

(** src/SessionChannel.hxx:28-66 *)
Record session := {
  se_child : bool;                      (* child != nullptr *)
  se_tty : bool;                        (* tty.IsDefined() *)
  se_env : list (bytes * bytes);        (* newest first *)
  se_env_size : N;
  se_enable_agent_forward : bool;
  se_tasks : list (N * task);           (* the number is only a name *)
  se_next : N
}.

Definition new_session : session :=
  {| se_child := false; se_tty := false; se_env := []; se_env_size := 0; se_enable_agent_forward := false;
     se_tasks := []; se_next := 0 |}.

Definition with_child (b : bool) (s : session) : session :=
  {| se_child := b; se_tty := se_tty s; se_env := se_env s; se_env_size := se_env_size s;
     se_enable_agent_forward := se_enable_agent_forward s; se_tasks := se_tasks s; se_next := se_next s |}.
Definition with_tty (b : bool) (s : session) : session :=
  {| se_child := se_child s; se_tty := b; se_env := se_env s; se_env_size := se_env_size s;
     se_enable_agent_forward := se_enable_agent_forward s; se_tasks := se_tasks s; se_next := se_next s |}.
Definition with_agent (s : session) : session :=
  {| se_child := se_child s; se_tty := se_tty s; se_env := se_env s; se_env_size := se_env_size s;
     se_enable_agent_forward := true; se_tasks := se_tasks s; se_next := se_next s |}.
Definition with_env (env : list (bytes * bytes)) (size : N) (s : session) : session :=
  {| se_child := se_child s; se_tty := se_tty s; se_env := env; se_env_size := size;
     se_enable_agent_forward := se_enable_agent_forward s; se_tasks := se_tasks s; se_next := se_next s |}.
Definition with_tasks (l : list (N * task)) (s : session) : session :=
  {| se_child := se_child s; se_tty := se_tty s; se_env := se_env s; se_env_size := se_env_size s;
     se_enable_agent_forward := se_enable_agent_forward s; se_tasks := l; se_next := se_next s |}.
Definition add_task (t : task) (s : session) : session :=
  {| se_child := se_child s; se_tty := se_tty s; se_env := se_env s; se_env_size := se_env_size s;
     se_enable_agent_forward := se_enable_agent_forward s; se_tasks := se_tasks s ++ [(se_next s, t)];
     se_next := se_next s + 1 |}.

(** What the channel does, visible from outside. *)
Inductive sevent :=
| SStarted (p : started)
| SPty                          (* a pseudo-terminal was allocated *)
| SEnv (name value : bytes)     (* an environment variable was accepted *)
| SStderr (text : bytes)        (* a message for the user *)
| SAnswer (ok : bool)           (* the request succeeded or failed *)
| SDisconnect                   (* throw Disconnect or another exception: the connection is closed *)
| SAssert.                      (* assertion failure *)

(** src/SessionChannel.hxx:85-87 WasStarted() *)
Definition WasStarted (s : session) : bool := se_child s.

(** src/SessionChannel.hxx:45 *)
Definition MAX_ENV_SIZE : N := 16384.

(** src/SessionChannel.cxx:101-119 SetEnv(); [None]: Disconnect *)
Definition SetEnv (name value : bytes) (s : session) : option session :=
  let size := se_env_size s + (len name + len value + 32) in
  if MAX_ENV_SIZE <=? size then None else Some (with_env ((name, value) :: se_env s) size s).

(** src/SessionChannel.cxx:86-99 SetStderrString() *)
Definition SetStderrString (text : bytes) (s : session) : session * list sevent :=
  (with_tty false (with_child false s), [SStderr text; SAnswer true]).

(** src/Connection.cxx:507-520 GetShell(); an empty shell in the passwd entry
    means /bin/sh *)
Definition GetShell (a : account) : bytes :=
  let default := match ac_passwd a with
                 | Some p => if is_nil (pw_shell p) then bs "/bin/sh" else pw_shell p
                 | None => bs "/bin/sh"
                 end in
  match response_of a with
  | Some r => match tr_execute_options r with
              | Some eo => match eo_shell eo with Some s => s | None => default end
              | None => default
              end
  | None => default
  end.

(** src/Connection.cxx:369-376, 522-541 PrepareChildProcess(SSH); [None]:
    assertion failure *)
Definition ShellIdentity (a : account) : option identity :=
  match response_of a with
  | Some r => option_map AsOptions (tr_execute_options r)
  | None => option_map AsPasswd (ac_passwd a)
  end.

(** src/SessionChannel.cxx:317-344 SpawnChildProcess() *)
Definition Spawn (p : program) (i : identity) (original : option bytes) (tty : bool) (a : account) (s : session) : started :=
  {| st_program := p; st_identity := i; st_user := ac_username a; st_env := se_env s;
     st_original_command := original; st_tty := tty; st_home_read_only := ko_home_read_only (ac_options a) |}.

(** What the system answers when a program is about to be started:
    success or an exception ([sa_ok]; creating pipes, fork, for rsync also
    opening the executable), whether the configured SFTP server can be opened
    ([sa_open], line 645) and whether lukko's own SFTP server exists
    ([sa_sftp_server], line 652). *)
Record spawn_answer := { sa_ok : bool; sa_open : bool; sa_sftp_server : bool }.

(** Messages, src/SessionChannel.cxx:747, 763, 697 (without the text of the
    exception) *)
Definition FAILED_EXEC : bytes := bs "Failed to execute".
Definition FAILED_SHELL : bytes := bs "Failed to spawn shell".
Definition FAILED_SFTP : bytes := bs "Failed to spawn SFTP server".

(** the catch blocks in src/SessionChannel.cxx:742-750, 758-766, 692-701 *)
Definition OnSpawnError (cfg : config) (message : bytes) (s : session) : session * list sevent :=
  if cf_verbose_errors cfg then SetStderrString message s else (s, [SAnswer false]).

(** src/SessionChannel.cxx:543-567 the second part of Exec() *)
Definition ExecShell (cfg : config) (a : account) (cmd : option bytes) (ans : spawn_answer) (s : session)
  : session * list sevent :=
  let message := match cmd with Some _ => FAILED_EXEC | None => FAILED_SHELL end in
  match ShellIdentity a with
  | None => (s, [SAssert])
  | Some i =>
      if negb (sa_ok ans) then OnSpawnError cfg message s
      else
        let shell := GetShell a in
        let '(cmd, original) :=
          if negb (is_nil (ko_command (ac_options a))) then (Some (c_str (ko_command (ac_options a))), cmd)
          else (cmd, None) in
        let p := match cmd with
                 | Some cmd => ShellCommand shell cmd
                 | None => Shell shell (LoginShellName shell)
                 end in
        (add_task (TSpawned message) (with_child true s), [SStarted (Spawn p i original (se_tty s) a s)])
  end.

(** src/SessionChannel.cxx:385-422 ExecRsync(), behind CoEnqueueSpawner *)
Definition ExecRsync (cfg : config) (a : account) (cmd : bytes) (eo : execute_options) (ans : spawn_answer) (s : session)
  : session * list sevent :=
  match eo_execute eo with
  | Some path =>
      if negb (sa_ok ans) then OnSpawnError cfg FAILED_EXEC s
      else (add_task (TSpawned FAILED_EXEC) (with_child true s),
            [SStarted (Spawn (Rsync path (SplitCmdline cmd)) (AsOptions eo) None false a s)])
  | None => OnSpawnError cfg FAILED_EXEC s
  end.

(** src/SessionChannel.cxx:455-494 ExecGit(), behind CoEnqueueSpawner *)
Definition ExecGit (cfg : config) (a : account) (name path arg : bytes) (eo : execute_options) (ans : spawn_answer) (s : session)
  : session * list sevent :=
  if negb (sa_ok ans) then OnSpawnError cfg FAILED_EXEC s
  else
    let path := match eo_execute eo with Some p => p | None => path end in
    (add_task (TSpawned FAILED_EXEC) (with_child true s),
     [SStarted (Spawn (Git path name arg) (AsOptions eo) None false a s)]).

(** src/SessionChannel.cxx:629-664, 681-702 StartSftpServer() behind
    CoEnqueueSpawner.  Opening the configured executable (line 645) is
    outside of the try block; its exception closes the connection. *)
Definition ExecSftp (cfg : config) (a : account) (ans : spawn_answer) (s : session) : session * list sevent :=
  let start (path : bytes) (i : identity) :=
    if negb (sa_ok ans) then OnSpawnError cfg FAILED_SFTP s
    else (add_task (TSpawned FAILED_SFTP) (with_child true s),
          [SStarted (Spawn (Sftp path) i None false a s)]) in
  let default :=
    match ShellIdentity a with
    | Some i => start (bs "/usr/lib/openssh/sftp-server") i
    | None => (s, [SAssert])
    end in
  if se_tty s then (s, [SAssert])
  else
    match GetServiceExecuteOptions SFTP a with
    | Some eo =>
        match eo_execute eo with
        | Some path => if sa_open ans then start path (AsOptions eo) else (s, [SDisconnect])
        | None =>
            if sa_sftp_server ans then start (bs "/usr/lib/cm4all/openssh/libexec/sftp-server") (AsOptions eo)
            else default
        end
    | None => default
    end.

(** src/SessionChannel.cxx:496-536 the first part of Exec(); [cmd] is a C
    string.  ExecRsync() throws (line 395) before it is suspended if there is
    no path; ExecGit() fails at once if the argument is malformed. *)
Definition Exec (cfg : config) (a : account) (cmd : option bytes) (s : session) : session * list sevent :=
  if ac_allow_exec a then (add_task (TExec cmd) s, [])
  else
    let denied :=
      if ac_sftp_only a && cf_exec_reject_stderr cfg
      then SetStderrString (bs "Shell access denied (SFTP only).") s
      else (s, [SAnswer false]) in
    let git (name path : bytes) (other : session * list sevent) :=
      match cmd with
      | Some cmd =>
          match StringAfterPrefix cmd (name ++ [32]), GetServiceExecuteOptions name a with
          | Some arg, Some eo =>
              match ShellUnescapeOneSingleQuoted arg with
              | Some arg => (add_task (TGit name path arg eo) s, [])
              | None => (s, [SAnswer false])
              end
          | _, _ => other
          end
      | None => other
      end in
    let gits :=
      git GIT_RECEIVE_PACK (bs "/usr/bin/git-receive-pack")
        (git GIT_UPLOAD_PACK (bs "/usr/bin/git-upload-pack") denied) in
    match cmd with
    | Some c =>
        if ac_allow_sftp a && starts_with c (bs "rsync --server ") then
          match GetServiceExecuteOptions RSYNC a with
          | Some eo =>
              match eo_execute eo with
              | Some _ => (add_task (TRsync c eo) s, [])
              | None => OnSpawnError cfg FAILED_EXEC s
              end
          | None => gits
          end
        else gits
    | None => denied
    end.

(** What the system answers to pty-req and window-change: openpty() and
    ioctl() can fail. *)
Definition pty_answer := bool.

(** src/SessionChannel.cxx:705-714 ReadWindowSize() *)
Definition ReadWindowSize (d : bytes) : option bytes :=
  let* (_, d) := ReadU32 d in
  let* (_, d) := ReadU32 d in
  let* (_, d) := ReadU32 d in
  let* (_, d) := ReadU32 d in
  Some d.

(** src/SessionChannel.cxx:840-858 OnLateRequest() *)
Definition OnLateRequest (request_type data : bytes) (ok : pty_answer) (s : session) : session * list sevent :=
  if bytes_eqb request_type (bs "window-change") then
    if negb (se_tty s) then (s, [SAnswer false])
    else
      match (let* d := ReadWindowSize data in ExpectEnd d) with
      | None => (s, [SDisconnect])
      | Some _ => if ok then (s, [SAnswer true]) else (s, [SDisconnect])
      end
  else (s, [SAnswer false]).

(** a request with one string *)
Definition parse_string (data : bytes) : option bytes :=
  let* (x, d) := ReadString data in
  let* _ := ExpectEnd d in
  Some x.

(** lines 792-797: the value of TERM *)
Definition parse_pty (data : bytes) : option bytes :=
  let* (term, d) := ReadString data in
  let* d := ReadWindowSize d in
  let* (_, d) := ReadLengthEncoded d in
  let* _ := ExpectEnd d in
  Some term.

(** lines 824-827 *)
Definition parse_env (data : bytes) : option (bytes * bytes) :=
  let* (name, d) := ReadString data in
  let* (value, d) := ReadString d in
  let* _ := ExpectEnd d in
  Some (name, value).

(** src/SessionChannel.cxx:716-838 OnRequest() *)
Definition OnRequest (cfg : config) (a : account) (request_type data : bytes) (ok : pty_answer) (s : session)
  : session * list sevent :=
  if WasStarted s then OnLateRequest request_type data ok s
  else if bytes_eqb request_type (bs "exec") then
    match parse_string data with
    | None => (s, [SDisconnect])
    | Some command =>
        if MAX_ENV_SIZE <? len command + se_env_size s then
          if cf_exec_reject_stderr cfg then SetStderrString (bs "Command too long") s else (s, [SAnswer false])
        else Exec cfg a (Some (c_str command)) s
    end
  else if bytes_eqb request_type (bs "shell") then Exec cfg a None s
  else if bytes_eqb request_type (bs "subsystem") then
    match parse_string data with
    | None => (s, [SDisconnect])
    | Some name =>
        if bytes_eqb name SFTP then
          if negb (ac_allow_sftp a) then (s, [SAnswer false])
          else if se_tty s then (s, [SAnswer false])
          else (add_task TSftp s, [])
        else (s, [SAnswer false])
    end
  else if bytes_eqb request_type (bs "pty-req") then
    if negb (ac_allow_exec a) || ko_no_pty (ac_options a) then
      (s, [SAnswer (ac_sftp_only a && cf_exec_reject_stderr cfg)])
    else
      match parse_pty data with
      | None => (s, [SDisconnect])
      | Some term =>
          if negb ok then (s, [SDisconnect])
          else
            match SetEnv (bs "TERM") term (with_tty true s) with
            | None => (with_tty true s, [SPty; SDisconnect])
            | Some s => (s, [SPty; SEnv (bs "TERM") term; SAnswer true])
            end
      end
  else if bytes_eqb request_type (bs "env") then
    if negb (ac_allow_exec a) then (s, [SAnswer false])
    else
      match parse_env data with
      | None => (s, [SDisconnect])
      | Some (name, value) =>
          match SetEnv name value s with
          | None => (s, [SDisconnect])
          | Some s => (s, [SEnv name value; SAnswer true])
          end
      end
  else if bytes_eqb request_type (bs "agent-req") || bytes_eqb request_type (bs "auth-agent-req@openssh.com") then
    (with_agent s, [SAnswer true])
  else (s, [SAnswer false]).

(** ** Events of a session channel *)
Inductive sop :=
| ORequest (request_type data : bytes) (ok : pty_answer)
| OSpawner (n : N) (ans : spawn_answer)     (* the spawner is ready for task [n] *)
| OSpawned (n : N) (ok : bool)              (* the new process runs, or failed to execute *)
| OExit                                     (* the process has exited *)
| OTtyClosed.                               (* the process has closed the pseudo-terminal *)

Definition remove_task (n : N) (s : session) : session :=
  with_tasks (filter (fun t => negb (fst t =? n)) (se_tasks s)) s.

(** OExit: src/SessionChannel.cxx:984-1002; OTtyClosed: lines 876-918;
    OSpawned: lines 569-572 and the catch blocks *)
Definition sstep (cfg : config) (a : account) (op : sop) (s : session) : session * list sevent :=
  match op with
  | ORequest request_type data ok => OnRequest cfg a request_type data ok s
  | OSpawner n ans =>
      match find (fun t => fst t =? n) (se_tasks s) with
      | Some (_, TExec cmd) => ExecShell cfg a cmd ans (remove_task n s)
      | Some (_, TRsync cmd eo) => ExecRsync cfg a cmd eo ans (remove_task n s)
      | Some (_, TGit name path arg eo) => ExecGit cfg a name path arg eo ans (remove_task n s)
      | Some (_, TSftp) => ExecSftp cfg a ans (remove_task n s)
      | _ => (s, [])
      end
  | OSpawned n ok =>
      match find (fun t => fst t =? n) (se_tasks s) with
      | Some (_, TSpawned message) =>
          if ok then (remove_task n s, [SAnswer true]) else OnSpawnError cfg message (remove_task n s)
      | _ => (s, [])
      end
  | OExit => (with_child false s, [])
  | OTtyClosed => (with_tty false s, [])
  end.
