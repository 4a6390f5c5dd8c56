(** How programs are run (C65): executable, name, terminal, environment. *)

From Coq Require Import NArith List Bool String.
From Verif.Base Require Import Bytes.
From Verif.Model Require Import KeyOptions Auth Session.
Import ListNotations.
Open Scope N_scope.

(** The login shell of the account: what the translation server says; if it
    says nothing, what the account database says; if that is empty or there is
    no entry, /bin/sh. *)
Definition passwd_shell (p : option passwd) (path : bytes) : Prop :=
  match p with
  | Some p => (pw_shell p <> [] /\ path = pw_shell p) \/ (pw_shell p = [] /\ path = bs "/bin/sh")
  | None => path = bs "/bin/sh"
  end.
Definition login_shell (a : account) (path : bytes) : Prop :=
  match ac_translation a with
  | Some (_, r) =>
      match tr_execute_options r with
      | Some eo => match eo_shell eo with Some s => path = s | None => passwd_shell (ac_passwd a) path end
      | None => passwd_shell (ac_passwd a) path
      end
  | None => passwd_shell (ac_passwd a) path
  end.

(** login(1): the name of a login shell is a dash and the last component of
    its path. *)
Definition login_name (path name : bytes) : Prop :=
  exists base, name = 45 :: base /\
  ((base <> [] /\ ~ In 47 base /\ (path = base \/ exists dir, path = dir ++ 47 :: base)) \/
   (base = path /\ (path = [] \/ exists dir, path = dir ++ [47]))).

(** The executable of a shell program, and its name. *)
Definition run_shell (a : account) (p : program) : Prop :=
  match p with
  | Shell path name => login_shell a path /\ login_name path name
  | ShellCommand path _ => login_shell a path
  | Sftp _ | Rsync _ _ | Git _ _ _ => True
  end.
