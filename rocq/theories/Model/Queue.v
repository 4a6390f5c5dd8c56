(** Model of class SendQueue, src/ssh/Queue.hxx. *)

From Coq Require Import NArith List Bool.
From Verif.Base Require Import Bytes.
Import ListNotations.
Open Scope N_scope.

(** src/ssh/Queue.hxx:17-23 class SendQueue.  A BufferList (src/ssh/List.hxx)
    is a list of byte strings. *)
Record SendQueue := { sq_queue : list bytes; sq_consumed : N }.

Definition new_SendQueue : SendQueue := {| sq_queue := []; sq_consumed := 0 |}.

(** src/ssh/Queue.hxx:26-28 empty() *)
Definition sq_empty (q : SendQueue) : bool :=
  match sq_queue q with [] => true | _ => false end.

(** src/ssh/Queue.hxx:30-36 Push() *)
Definition sq_Push (q : SendQueue) (src : bytes) : SendQueue :=
  {| sq_queue := sq_queue q ++ [src]; sq_consumed := sq_consumed q |}.

(** src/ssh/Queue.hxx:38-40 MoveFrom() *)
Definition sq_MoveFrom (q : SendQueue) (src : list bytes) : SendQueue :=
  {| sq_queue := sq_queue q ++ src; sq_consumed := sq_consumed q |}.

(** the loop in src/ssh/Queue.hxx:60-68; [room] is v.size()-n.  [None] is a
    failed assertion (line 61). *)
Fixpoint sq_Prepare_loop (queue : list bytes) (skip : N) (room : nat) : option (list bytes) :=
  match queue, room with
  | [], _ => Some []
  | _, O => Some []
  | i :: queue, S room =>
      if len i <=? skip then None
      else match sq_Prepare_loop queue 0 room with
           | Some v => Some (drop skip i :: v)
           | None => None
           end
  end.

(** src/ssh/Queue.hxx:54-71 Prepare(); the result is the list of iovecs.
    [v_size] is the (non-zero) size of the array; the loop of the model
    checks the capacity before each element, the C++ code after each one,
    which is the same for a non-empty array. *)
Definition sq_Prepare (q : SendQueue) (v_size : nat) : option (list bytes) :=
  sq_Prepare_loop (sq_queue q) (sq_consumed q) v_size.

(** the loop in src/ssh/Queue.hxx:74-87; [None] is a failed assertion or
    unsigned underflow (undefined contents). *)
Fixpoint sq_Consume_loop (queue : list bytes) (consumed nbytes : N) : option SendQueue :=
  match queue with
  | [] => if nbytes =? 0 then Some {| sq_queue := []; sq_consumed := consumed |} else None
  | front :: queue' =>
      if len front <? consumed then None
      else
        let remaining := len front - consumed in
        if nbytes <? remaining
        then Some {| sq_queue := queue; sq_consumed := consumed + nbytes |}
        else sq_Consume_loop queue' 0 (nbytes - remaining)
  end.

(** src/ssh/Queue.hxx:73-88 Consume() *)
Definition sq_Consume (q : SendQueue) (nbytes : N) : option SendQueue :=
  sq_Consume_loop (sq_queue q) (sq_consumed q) nbytes.
