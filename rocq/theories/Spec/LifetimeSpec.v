(** What it means to use memory safely. *)

From Coq Require Import NArith List Bool.
From Verif.Model Require Import Lifetime.
Import ListNotations.
Open Scope N_scope.

(** How often a worker thread has entered (left) Run(). *)
Fixpoint entered (b : which) (log : list event) : N :=
  match log with
  | [] => 0
  | Enter b' :: l => (if which_eqb b b' then 1 else 0) + entered b l
  | _ :: l => entered b l
  end.
Fixpoint left (b : which) (log : list event) : N :=
  match log with
  | [] => 0
  | Leave b' :: l => (if which_eqb b b' then 1 else 0) + left b l
  | _ :: l => left b l
  end.

(** May [e] happen after [log]?  Nothing is accessed or freed after it was
    freed, nothing is freed while a thread is inside, nobody calls a method
    of a connection which is gone. *)
Definition may (log : list event) (e : event) : Prop :=
  match e with
  | Use b | Enter b | Leave b => ~ In (Free b) log
  | Free b => ~ In (Free b) log /\ entered b log = left b log
  | Callback _ | Gone => ~ In Gone log
  | AssertFailed => False
  end.

Inductive safe : list event -> Prop :=
| safe_nil : safe []
| safe_snoc : forall log e, safe log -> may log e -> safe (log ++ [e]).
