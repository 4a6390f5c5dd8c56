(** What the accounting of clients is for, in terms of who is connected. *)

From Coq Require Import NArith List Bool.
From Verif.Model Require Import Accounting.
Import ListNotations.
Open Scope N_scope.

Definition is_peer (a : N) (x : client) : bool :=
  match cl_peer x with Some b => a =? b | None => false end.

(** The sockets which are open for a client address, both those which are
    served already and those which are held back. *)
Definition open_from (a : N) (s : accounting) : list client := List.filter (is_peer a) (ac_open s).

(** When an event overdraws the token bucket of an address. *)
Definition overdraft (a : N) (o : aop) (s : accounting) : list N :=
  match o with
  | AAccept now (Some b) true _ => if a =? b then [now] else []
  | AUpdate now id true =>
      match find (fun x => cl_id x =? id) (ac_open s) with
      | Some x => match cl_kind x with Served => if is_peer a x then [now] else [] | Delayed => [] end
      | None => []
      end
  | _ => []
  end.

(** All times at which the token bucket of an address was overdrawn. *)
Fixpoint overdrafts (c : acfg) (a : N) (ops : list aop) (s : accounting) : list N :=
  match ops with
  | [] => []
  | o :: rest => overdraft a o s ++ overdrafts c a rest (snd (astep c o s))
  end.

Definition time_of (o : aop) : N :=
  match o with
  | AAccept now _ _ _ => now
  | ATimer now _ _ => now
  | AClose now _ => now
  | AUpdate now _ _ => now
  | ACleanup now => now
  end.

(** The clock does not go back. *)
Fixpoint clock_ok (now : N) (ops : list aop) : Prop :=
  match ops with
  | [] => True
  | o :: rest => now <= time_of o /\ clock_ok (time_of o) rest
  end.
