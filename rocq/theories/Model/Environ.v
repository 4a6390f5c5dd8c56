(** Model of the environment of the programs which a session starts:
    src/SessionChannel.cxx:195-345, 385-422, 455-494, 538-700 as far as it
    concerns environment variables.

    A process gets a list of C strings ("name=value").  libcommon's
    PreparedChildProcess (not part of /repo) is modelled as that list:
    PutEnv() appends, SetEnv() formats and appends, HasEnv() looks for the
    prefix "name=".

    Not modelled: pipes, file descriptors, mounts, the working directory.
    Outside: the environment which the translation server has put into the
    child options, the path of the home directory inside of the container,
    and the text form of socket addresses. *)

From Coq Require Import NArith List Bool String DecimalString.
From Verif.Base Require Import Bytes.
From Verif.Model Require Import Wire StringList KeyOptions Auth Session.
Import ListNotations.
Open Scope N_scope.

(** One end of a TCP connection: HostToString() and GetPort() *)
Record endpoint := { ep_host : bytes; ep_port : N }.

(** What the system and libcommon say.
    - [sy_peer], [sy_local]: src/SessionChannel.cxx:202-205;
    - [sy_options_env]: the variables which ChildOptions::CopyTo() adds;
    - [sy_container_home]: ToContainerPath(GetHome()), line 243; [None] is
      nullptr *)
Record system := {
  sy_peer : endpoint;
  sy_local : endpoint;
  sy_options_env : execute_options -> list bytes;
  sy_container_home : identity -> option bytes
}.

(** What else decides about the environment and is not part of
    Model/Session.v's description of a process: agent forwarding was
    requested on the channel (line 307); the SFTP server is the one of the
    distribution, started with the account's general options (line 661). *)
Record extras := { ex_agent : bool; ex_system_sftp : bool }.

(** libcommon PreparedChildProcess::SetEnv(): fmt::format("{}={}"), used as a
    C string *)
Definition env_entry (name value : bytes) : bytes := c_str (name ++ 61 :: value).

(** libcommon PreparedChildProcess::HasEnv() *)
Definition HasEnv (name : bytes) (env : list bytes) : bool :=
  existsb (fun e => starts_with e (name ++ [61])) env.

(** fmt's "{}" of an unsigned number *)
Definition decimal (n : N) : bytes := bs (NilZero.string_of_uint (N.to_uint n)).

(** src/SessionChannel.cxx:197-214 PrepareAddressEnv() *)
Definition PrepareAddressEnv (sy : system) : list bytes :=
  let peer := sy_peer sy in
  let local := sy_local sy in
  [c_str (bs "SSH_CLIENT=" ++ ep_host peer ++ 32 :: decimal (ep_port peer) ++ 32 :: decimal (ep_port local));
   c_str (bs "SSH_CONNECTION=" ++ ep_host peer ++ 32 :: decimal (ep_port peer) ++ 32 :: ep_host local ++ 32 :: decimal (ep_port local))].

(** src/Connection.cxx:522-541 PrepareChildProcess(): only options of the
    translation server have variables *)
Definition OptionsEnv (sy : system) (i : identity) : list bytes :=
  match i with AsOptions eo => sy_options_env sy eo | AsPasswd _ => [] end.

(** src/SessionChannel.cxx:240-250 PrepareHome() *)
Definition PrepareHome (sy : system) (i : identity) (env : list bytes) : list bytes :=
  match sy_container_home sy i with
  | Some home => if HasEnv (bs "HOME") env then env else env ++ [env_entry (bs "HOME") home]
  | None => env
  end.

(** src/SessionChannel.cxx:276 PrepareAgentForward() *)
Definition AGENT_PATH : bytes := bs "/run/agent-forward.socket".

(** src/SessionChannel.cxx:279-315 PrepareExec() *)
Definition PrepareExecEnv (sy : system) (ex : extras) (user shell : bytes) (i : identity) : list bytes :=
  let env := [env_entry (bs "USER") user; env_entry (bs "LOGNAME") user; env_entry (bs "SHELL") shell] in
  let env := env ++ PrepareAddressEnv sy in
  let env := env ++ OptionsEnv sy i in
  let env := PrepareHome sy i env in
  if ex_agent ex then env ++ [env_entry (bs "SSH_AUTH_SOCK") AGENT_PATH] else env.

(** src/SessionChannel.cxx:590-627 PrepareSftpServer(), both variants *)
Definition PrepareSftpEnv (sy : system) (ex : extras) (user : bytes) (i : identity) : list bytes :=
  let env := env_entry (bs "USER") user :: (if ex_system_sftp ex then [env_entry (bs "LOGNAME") user] else []) in
  PrepareHome sy i (env ++ OptionsEnv sy i).

(** src/SessionChannel.cxx:385-422 ExecRsync(), 455-494 ExecGit() *)
Definition PrepareServiceEnv (sy : system) (i : identity) : list bytes := PrepareHome sy i (OptionsEnv sy i).

(** src/SessionChannel.cxx:538-556 Exec(): the variable of the forced
    command; lines 326-327 SpawnChildProcess(): the variables of the client
    come last, in the order of the list.  src/SessionChannel.cxx:117: the
    strings "name=value"; c_str() cuts them at the first null byte. *)
Definition Environment (sy : system) (ex : extras) (p : started) : list bytes :=
  let i := st_identity p in
  (match st_program p with
   | Shell path _ | ShellCommand path _ =>
       PrepareExecEnv sy ex (st_user p) path i ++
       match st_original_command p with Some cmd => [env_entry (bs "SSH_ORIGINAL_COMMAND") cmd] | None => [] end
   | Sftp _ => PrepareSftpEnv sy ex (st_user p) i
   | Rsync _ _ | Git _ _ _ => PrepareServiceEnv sy i
   end) ++
  map (fun v => env_entry (fst v) (snd v)) (st_env p).
