(** Specification of the confinement of processes (C100). *)

From Coq Require Import NArith List.
From Verif.Base Require Import Bytes.
From Verif.Model Require Import Auth Cgroup.
Import ListNotations.
Open Scope N_scope.

(** The process is in the child group [session] of [group] *)
Definition in_group (group session : bytes) (o : child_options) : Prop :=
  co_cgroup o = Some group /\ co_cgroup_session o = Some session.

(** Two processes are in the same group: what one of them uses is taken from
    the other one, too *)
Definition together (o o' : child_options) : Prop := exists group session, in_group group session o /\ in_group group session o'.

(** The [i]-th process of a daemon is [x], and this is how it runs *)
Definition process (opts : options_of) (l : list launch) (i : nat) (x : launch) (o : child_options) : Prop :=
  nth_error l i = Some x /\ nth_error (processes opts l) i = Some o.

(** The user's own programs, and the helper which opens their files *)
Definition own (x : launch) : Prop := la_kind x = Program \/ la_kind x = FileHelper.

(** The administrator wants a group for this process, *)
Definition grouped (opts : options_of) (x : launch) (group : bytes) : Prop :=
  exists eo, la_identity x = AsOptions eo /\ co_cgroup (opts eo) = Some group.

(** ... and has left it to lukko to choose a name for the session, or not *)
Definition chosen (opts : options_of) (x : launch) (name : option bytes) : Prop :=
  exists eo, la_identity x = AsOptions eo /\ co_cgroup_session (opts eo) = name.
