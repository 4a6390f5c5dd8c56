(** Model of the lists of pending requests in src/ssh/Channel.cxx (channel
    requests) and src/ssh/GSupport.cxx (global requests).  Both files contain
    the same algorithm; it is modelled once.

    A request is answered by a coroutine.  It can finish before the function
    that started it returns ("synchronously"), later, or never; it yields a
    boolean or throws.

    Contract of Co::EagerInvokeTask (libcommon, not in this repository):
    [!invoke_task], i.e. IsDone(), is false while the coroutine is suspended
    and true when the completion callback runs ([assert(request.IsDone())],
    src/ssh/Channel.cxx:221, src/ssh/GSupport.cxx:104).  What it yields right
    after the constructor if the coroutine has already finished cannot be
    seen in this repository: [r_sync_done] is that answer.  If it is true
    then an exception thrown by that coroutine is kept in the promise and
    nobody asks for it; if it is false then Start() invokes the completion
    callback at once.

    [r_dbg] tells whether assertions are compiled in. *)

From Coq Require Import NArith List Bool.
From Verif.Base Require Import Bytes.
Import ListNotations.
Open Scope N_scope.

Record renv := { r_dbg : bool; r_sync_done : bool }.

(** src/ssh/Channel.cxx:21-69 class Channel::PendingRequest,
    src/ssh/GSupport.cxx:20-64 class PendingGlobalRequest.  [pq_done] is
    [Some success] if IsDone().  [pq_id] identifies the object. *)
Record preq := { pq_id : N; pq_want : bool; pq_done : option bool }.

(** how a coroutine leaves its first, synchronous part.  [RThrow garbage]: it
    threw; the variable [success] was never assigned and [garbage] is what
    it happens to contain (Channel.cxx:31 "bool success;" without
    initializer). *)
Inductive routcome := RSync (success : bool) | RThrow (garbage : bool) | RAsync.

(** how a suspended coroutine ends *)
Inductive rresult := RDone (success : bool) | RError.

(** replies to send (oldest first), the remaining list, and whether an
    assertion failed *)
Definition submitted : Type := list bool * list preq * bool.

(** src/ssh/Channel.cxx:191-215 SubmitRequestResponses(),
    src/ssh/GSupport.cxx:79-98 SubmitGlobalRequestResponses() *)
Fixpoint submit (dbg : bool) (l : list preq) : submitted :=
  match l with
  | [] => ([], [], false)
  | r :: t =>
      match pq_done r with
      | None => ([], l, false)
      | Some success =>
          if dbg && negb (pq_want r) then ([], l, true)
          else let '(rs, t', a) := submit dbg t in (success :: rs, t', a)
      end
  end.

(** the request [id] is no longer running *)
Fixpoint mark_done (id : N) (success : bool) (l : list preq) : list preq :=
  match l with
  | [] => []
  | r :: t =>
      if pq_id r =? id
      then {| pq_id := pq_id r; pq_want := pq_want r; pq_done := Some success |} :: t
      else r :: mark_done id success t
  end.

(** the list without the request [id] *)
Fixpoint erase_request (id : N) (l : list preq) : list preq :=
  match l with
  | [] => []
  | r :: t => if pq_id r =? id then t else r :: erase_request id t
  end.

Fixpoint find_request (id : N) (l : list preq) : option preq :=
  match l with
  | [] => None
  | r :: t => if pq_id r =? id then Some r else find_request id t
  end.

(** src/ssh/Channel.cxx:217-239 OnRequestDone() without the error case,
    src/ssh/GSupport.cxx:100-119 *)
Definition finish_request (dbg : bool) (id : N) (success : bool) (l : list preq) : submitted :=
  match find_request id l with
  | None => ([], l, false)
  | Some r =>
      let l := mark_done id success l in
      submit dbg (if pq_want r then l else erase_request id l)
  end.

(** src/ssh/Channel.cxx:181-188 in HandleRequest(), src/ssh/GSupport.cxx:139-147;
    [o] is what the coroutine does in its synchronous part.  [None]: the
    completion callback got an exception. *)
Definition start_request (E : renv) (id : N) (want_reply : bool) (o : routcome) (l : list preq)
  : option submitted :=
  let pushed done := l ++ [{| pq_id := id; pq_want := want_reply; pq_done := done |}] in
  match o with
  | RAsync => Some ([], pushed None, false)
  | RSync b =>
      Some (if r_sync_done E then submit (r_dbg E) (pushed (Some b))
            else finish_request (r_dbg E) id b (pushed None))
  | RThrow garbage =>
      if r_sync_done E then Some (submit (r_dbg E) (pushed (Some garbage))) else None
  end.
