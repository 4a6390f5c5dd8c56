(** Model of the confinement of the processes which lukko starts for its
    users: their ids, their namespaces and limits, and the resource group (the
    Linux cgroup) each of them is put in.  src/Connection.cxx:387-411, 522-541
    (with the helper of src/Delegate.cxx:77-106), src/RConnect.cxx:79-103,
    src/RBind.cxx:98-122.

    The history is the one of the whole daemon: the number in the name of a
    session's group is a static variable, shared by all the connections.

    Contracts of libcommon (which is not here): ChildOptions::CopyTo() copies
    all the options; a PreparedChildProcess has no limits, no group and no
    namespaces before that; a process with a defined cgroup and a
    "cgroup_session" is put in the child group of this name, a process without
    a cgroup stays in the group of the daemon's spawner.

    Simplifications: the user and network namespaces and the mounts are one
    number; so are the resource limits and the other options without a meaning
    here (process priority, no_new_privs and so on). *)

From Coq Require Import NArith List Bool String.
From Verif.Base Require Import Bytes.
From Verif.Model Require Import Auth Environ.
Import ListNotations.
Open Scope N_scope.

(** libcommon NamespaceOptions *)
Record namespaces := { ns_pid : bool; ns_cgroup : bool; ns_ipc : bool; ns_other : N }.

(** libcommon ChildOptions, and (after CopyTo()) PreparedChildProcess.
    [co_cgroup] is [None] for both a null pointer and an undefined
    CgroupOptions *)
Record child_options := {
  co_uid_gid : option N * option N;
  co_ns : namespaces;
  co_cgroup : option bytes;
  co_cgroup_session : option bytes;
  co_limits : N;
  co_forbid_multicast : bool;
  co_forbid_bind : bool
}.

(** a new PreparedChildProcess *)
Definition no_namespaces : namespaces := {| ns_pid := false; ns_cgroup := false; ns_ipc := false; ns_other := 0 |}.
Definition no_options : child_options := {|
  co_uid_gid := (None, None); co_ns := no_namespaces; co_cgroup := None; co_cgroup_session := None;
  co_limits := 0; co_forbid_multicast := false; co_forbid_bind := false |}.

(** What is started, and for whom *)
Inductive kind :=
| Program         (* a shell, a command, a service: src/SessionChannel.cxx:298, 403, 474, 603, 626 *)
| FileHelper      (* opens a file or a local socket: src/Delegate.cxx:77-106 *)
| ConnectHelper   (* connects to a host: src/RConnect.cxx:79-103 *)
| BindHelper.     (* listens: src/RBind.cxx:98-122 *)

Record launch := { la_kind : kind; la_identity : identity }.

(** the translation server's child_options; an oracle *)
Definition options_of := execute_options -> child_options.

(** the static variable session_id_counter is an unsigned int *)
Definition increment (n : N) : N := (n + 1) mod 2 ^ 32.

Definition with_session (s : bytes) (o : child_options) : child_options := {|
  co_uid_gid := co_uid_gid o; co_ns := co_ns o; co_cgroup := co_cgroup o; co_cgroup_session := Some s;
  co_limits := co_limits o; co_forbid_multicast := co_forbid_multicast o; co_forbid_bind := co_forbid_bind o |}.

(** src/Connection.cxx:387-402 PrepareChildProcess(); the number of the last
    session before and after *)
Definition PrepareOptions (counter : N) (o : child_options) : N * child_options :=
  match co_cgroup o, co_cgroup_session o with
  | Some _, None =>
      let n := increment counter in
      (n, with_session (bs "session-" ++ decimal n) o)
  | _, _ => (counter, o)
  end.

(** src/Connection.cxx:522-541 PrepareChildProcess() *)
Definition PrepareIdentity (opts : options_of) (counter : N) (i : identity) : N * child_options :=
  match i with
  | AsOptions eo => PrepareOptions counter (opts eo)
  | AsPasswd pw =>
      (counter, {| co_uid_gid := (Some (pw_uid pw), Some (pw_gid pw)); co_ns := no_namespaces; co_cgroup := None;
                   co_cgroup_session := None; co_limits := 0; co_forbid_multicast := false; co_forbid_bind := false |})
  end.

(** src/RConnect.cxx:86-98 and src/RBind.cxx:105-117.  Without options of the
    translation server, there is no helper (src/RConnect.cxx:179-200,
    src/RBind.cxx:214-235): the daemon does it itself. *)
Definition PrepareNetworkHelper (opts : options_of) (i : identity) : child_options :=
  match i with
  | AsOptions eo =>
      let o := opts eo in
      {| co_uid_gid := co_uid_gid o;
         co_ns := {| ns_pid := false; ns_cgroup := false; ns_ipc := false; ns_other := ns_other (co_ns o) |};
         co_cgroup := None; co_cgroup_session := None; co_limits := 0;
         co_forbid_multicast := co_forbid_multicast o; co_forbid_bind := co_forbid_bind o |}
  | AsPasswd _ => no_options
  end.

(** One process *)
Definition lstep (opts : options_of) (counter : N) (l : launch) : N * child_options :=
  match la_kind l with
  | Program | FileHelper => PrepareIdentity opts counter (la_identity l)
  | ConnectHelper | BindHelper => (counter, PrepareNetworkHelper opts (la_identity l))
  end.

(** The processes of the daemon, in the order in which they are started *)
Fixpoint lrun (opts : options_of) (counter : N) (l : list launch) : list child_options :=
  match l with
  | [] => []
  | x :: r => let '(n, o) := lstep opts counter x in o :: lrun opts n r
  end.

(** the daemon has just been started *)
Definition processes (opts : options_of) (l : list launch) : list child_options := lrun opts 0 l.
