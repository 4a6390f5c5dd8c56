(** Environment variables (C84). *)

From Coq Require Import NArith List Bool String.
From Verif.Base Require Import Bytes.
From Verif.Model Require Import KeyOptions Auth Session.
Import ListNotations.
Open Scope N_scope.

(** An environment is a list of strings.  A string defines a variable if it
    is the name, an equals sign and the value. *)
Definition defines (entry name value : bytes) : Prop := entry = name ++ 61 :: value.

(** The name of a variable: no equals sign. *)
Definition var_name (name : bytes) : Prop := ~ In 61 name.

(** getenv(3): the value in the first string which defines the variable. *)
Definition first_value (env : list bytes) (name value : bytes) : Prop :=
  exists before entry after, env = before ++ entry :: after /\ defines entry name value /\
    forall e v, In e before -> ~ defines e name v.
Definition undefined (env : list bytes) (name : bytes) : Prop := forall e v, In e env -> ~ defines e name v.

(** A shell imports its environment string by string: the value in the last
    one. *)
Definition last_value (env : list bytes) (name value : bytes) : Prop := first_value (rev env) name value.

(** A variable which the client has requested: what becomes of its name and
    value (C strings end at the first null byte). *)
Inductive until_null : bytes -> bytes -> Prop :=
| un_none : forall s, ~ In 0 s -> until_null s s
| un_cut : forall s r, ~ In 0 s -> until_null (s ++ 0 :: r) s.
Definition requests (v : bytes * bytes) (name value : bytes) : Prop :=
  exists entry, until_null (fst v ++ 61 :: snd v) entry /\ defines entry name value.

(** The same program, started without any variable from the client. *)
Definition without_client (p : started) : started :=
  {| st_program := st_program p; st_identity := st_identity p; st_user := st_user p; st_env := [];
     st_original_command := st_original_command p; st_tty := st_tty p; st_home_read_only := st_home_read_only p |}.
