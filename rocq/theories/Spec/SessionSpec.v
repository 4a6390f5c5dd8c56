(** Specification of session channels (C32, C34, C39, C41 to C45): which
    programs a client may start. *)

From Coq Require Import NArith List Bool String.
From Verif.Base Require Import Bytes.
From Verif.Spec Require Import WireSpec KeySpec AuthSpec.
From Verif.Model Require Import KeyOptions Auth Session Server.
Import ListNotations.
Open Scope N_scope.

(** The translation server has provided options for a service, and the
    process runs with them. *)
Definition provided (a : account) (service : bytes) (i : identity) : Prop :=
  exists user r eo, ac_translation a = Some (user, r) /\ In (service, eo) (tr_service_execute_options r) /\
    i = AsOptions eo.

(** The general options of the account: those of the translation server, or
    the passwd entry. *)
Definition general (a : account) (i : identity) : Prop :=
  match ac_translation a with
  | Some (_, r) => exists eo, tr_execute_options r = Some eo /\ i = AsOptions eo
  | None => exists p, ac_passwd a = Some p /\ i = AsPasswd p
  end.

Definition is_shell (p : program) : bool :=
  match p with Shell _ _ | ShellCommand _ _ => true | _ => false end.

(** A program which an account may start. *)
Definition may_start (a : account) (p : started) : Prop :=
  match st_program p with
  | Shell _ _ | ShellCommand _ _ => ac_allow_exec a = true /\ general a (st_identity p)
  | Sftp _ => ac_allow_sftp a = true /\
      (provided a (bs "sftp") (st_identity p) \/ general a (st_identity p))
  | Rsync _ _ => ac_allow_exec a = false /\ ac_allow_sftp a = true /\ provided a (bs "rsync") (st_identity p)
  | Git _ name _ => ac_allow_exec a = false /\ In name [bs "git-receive-pack"; bs "git-upload-pack"] /\
      provided a name (st_identity p)
  end.

(** The forced command of the login key. *)
Definition runs_forced_command (a : account) (p : program) : Prop :=
  exists path, p = ShellCommand path (c_str (ko_command (ac_options a))).
