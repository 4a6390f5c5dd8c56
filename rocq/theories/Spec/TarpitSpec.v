(** Specification of the tarpit (C83). *)

From Coq Require Import NArith List.
From Verif.Model Require Import Tarpit Metrics.
Import ListNotations.
Open Scope N_scope.

(** What an event costs at most (in thousandths of tokens), and for how long
    it lasts (in milliseconds) *)
Definition cost (op : top) : N :=
  match op with TAccept | TPassword _ => 1000 | TSpend _ size => size | TWrong _ => 8000 | _ => 0 end.
Definition costs (ops : list top) : N := fold_right (fun op n => cost op + n) 0 ops.
Definition ticks (ops : list top) : N := fold_right (fun op n => match op with TTick => 1 | _ => 0 end + n) 0 ops.

(** A client which, in every period, causes costs of at most ten tokens and one
    for each second. *)
Definition modest (ops : list top) : Prop := forall p w q, ops = p ++ w ++ q -> costs w <= 10000 + ticks w.

(** What a request has cost *)
Definition spent (l : list note) : N := fold_right (fun x n => match x with Spend t => t | Count _ => 0 end + n) 0 l.

(** A period in which the client does nothing but connect *)
Definition knocking (ops : list top) : Prop := Forall (fun op => op = TTick \/ op = TAccept) ops.
