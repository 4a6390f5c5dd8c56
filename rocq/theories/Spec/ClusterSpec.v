(** The members of a cluster and the choice of one of them (C75). *)

From Coq Require Import NArith List Bool.
From Verif.Base Require Import Bytes.
From Verif.Model Require Import Cluster.
Import ListNotations.
Open Scope N_scope.

(** [v] is announced under [key] at the end of this history: announced, and
    since then neither announced again nor removed. *)
Definition announced (ops : list cop) (key : bytes) (v : member) : Prop :=
  exists pre post, ops = pre ++ CNew key v :: post /\
    forall o, In o post -> o <> CRemove key /\ forall w, o <> CNew key w.

(** [v] is a first choice *)
Definition first_choice (rank : member -> N) (ops : list cop) (v : member) : Prop :=
  (exists key, announced ops key v) /\
  forall key w, announced ops key w -> rank v <= rank w.

(** no two different members are equally good *)
Definition no_ties (rank : member -> N) (ops : list cop) : Prop :=
  forall key1 v key2 w, announced ops key1 v -> announced ops key2 w -> rank v = rank w -> v = w.

Definition same_members (a b : list cop) : Prop :=
  forall key v, announced a key v <-> announced b key v.

Definition picks (rank : N -> bytes -> member -> N) (arch : N) (sticky : bytes) (order : list N) (ops : list cop) : option member :=
  match fst (Pick rank arch sticky order (crun rank ops)) with Picked _ v => Some v | _ => None end.
