(** Model of the lifetime of the classes SSH::Input and SSH::Output: each
    is a ThreadJob, so it may be in use by a worker thread when its
    connection is destroyed (src/ssh/Input.cxx, src/ssh/Output.cxx,
    src/ssh/Connection.cxx).

    What the worker does with the data is in Model/Input.v and
    Model/Output.v; here an object has a state in the thread queue and some
    memory, and every access to this memory is an event.

    Thread queue (libcommon, thread/Queue.hxx; not in this checkout; see
    DESIGN.md "Contracts"): as in Model/Output.v; in addition, Cancel()
    removes a waiting job from the queue and fails if the job is being run
    or was run and Done() was not yet called. *)

From Coq Require Import NArith List Bool.
Import ListNotations.
Open Scope N_scope.

(** The two objects of a connection. *)
Inductive which := INPUT | OUTPUT.

Definition which_eqb (a b : which) : bool :=
  match a, b with INPUT, INPUT | OUTPUT, OUTPUT => true | _, _ => false end.

(** ThreadJob::State *)
Inductive jstate := INITIAL | WAITING | BUSY | DONE.

(** src/ssh/Input.hxx:27-92, src/ssh/Output.hxx:25-89: only what matters for
    the lifetime *)
Record object := {
  x_state : jstate;
  x_again : bool;
  x_postponed : bool      (* postponed_destroy *)
}.
Definition new_object : object := {| x_state := INITIAL; x_again := false; x_postponed := false |}.

(** What happens to the memory. *)
Inductive event :=
| Use (b : which)        (* a thread reads or writes the object *)
| Enter (b : which)      (* a worker thread begins Run() *)
| Leave (b : which)      (* Run() has returned *)
| Free (b : which)       (* delete this *)
| Callback (b : which)   (* Done() calls a method of the connection *)
| Gone                   (* the connection's own memory is gone *)
| AssertFailed.

Record world := {
  w_alive : bool;                 (* ~Connection() was not yet called *)
  w_input : object;
  w_output : object;
  w_log : list event
}.
Definition new_world : world :=
  {| w_alive := true; w_input := new_object; w_output := new_object; w_log := [] |}.

Definition obj (b : which) (w : world) : object :=
  match b with INPUT => w_input w | OUTPUT => w_output w end.
Definition set_obj (b : which) (x : object) (w : world) : world :=
  match b with
  | INPUT => {| w_alive := w_alive w; w_input := x; w_output := w_output w; w_log := w_log w |}
  | OUTPUT => {| w_alive := w_alive w; w_input := w_input w; w_output := x; w_log := w_log w |}
  end.
Definition say (l : list event) (w : world) : world :=
  {| w_alive := w_alive w; w_input := w_input w; w_output := w_output w; w_log := w_log w ++ l |}.

(** ThreadQueue::Add() *)
Definition Add (x : object) : object :=
  match x_state x with
  | INITIAL => {| x_state := WAITING; x_again := false; x_postponed := x_postponed x |}
  | WAITING => x
  | BUSY | DONE => {| x_state := x_state x; x_again := true; x_postponed := x_postponed x |}
  end.

(** ThreadQueue::Cancel() *)
Definition Cancel (x : object) : object * bool :=
  match x_state x with
  | INITIAL => (x, true)
  | WAITING => ({| x_state := INITIAL; x_again := x_again x; x_postponed := x_postponed x |}, true)
  | BUSY | DONE => (x, false)
  end.

(** src/ssh/Input.cxx:22-31, src/ssh/Output.cxx:21-30 Destroy() *)
Definition Destroy (b : which) (w : world) : world :=
  let w := say [Use b] w in
  if x_postponed (obj b w) then say [AssertFailed] w
  else
    let '(x, cancelled) := Cancel (obj b w) in
    let w := set_obj b x w in
    if cancelled then say [Free b] w
    else set_obj b {| x_state := x_state x; x_again := x_again x; x_postponed := true |} w.

(** src/ssh/Connection.cxx:78-82 ~Connection(); the members, among them the
    socket, are destructed afterwards *)
Definition DestroyConnection (w : world) : world :=
  let w := Destroy OUTPUT w in
  let w := Destroy INPUT w in
  say [Gone] {| w_alive := false; w_input := w_input w; w_output := w_output w; w_log := w_log w |}.

(** src/ssh/Input.cxx:288-306 Input::Done(), src/ssh/Output.cxx:157-166
    Output::Done().  [ready]: there are decrypted packets or there was an
    error, so that the handler is invoked; class Output always wakes up the
    socket.  Nothing follows the call, therefore whatever the connection does
    in it (for example, destroy itself) happens after this step. *)
Definition Done (b : which) (ready : bool) (w : world) : world :=
  let w := say [Use b] w in
  if x_postponed (obj b w) then say [Free b] w
  else match b with
       | INPUT => if ready then say [Callback b] w else w
       | OUTPUT => say [Callback b] w
       end.

Inductive op :=
| Method (b : which)               (* main thread: any method which does not queue the job *)
| Queue (b : which)                (* main thread: Feed(), SetCipher(), Push() *)
| Dispose                          (* main thread: the connection is destroyed *)
| Begin (b : which)                (* a worker thread takes the job *)
| Work (b : which)                 (* this thread continues *)
| End (b : which) (again : bool)   (* Run() returns; it may have set [again] *)
| Wakeup (b : which) (ready : bool). (* main thread: ThreadQueue::WakeupCallback() *)

Definition step (o : op) (w : world) : option world :=
  match o with
  | Method b => if w_alive w then Some (say [Use b] w) else None
  | Queue b => if w_alive w then Some (set_obj b (Add (obj b w)) (say [Use b] w)) else None
  | Dispose => if w_alive w then Some (DestroyConnection w) else None
  | Begin b =>
      match x_state (obj b w) with
      | WAITING =>
          Some (set_obj b {| x_state := BUSY; x_again := x_again (obj b w); x_postponed := x_postponed (obj b w) |}
                  (say [Enter b; Use b] w))
      | _ => None
      end
  | Work b => match x_state (obj b w) with BUSY => Some (say [Use b] w) | _ => None end
  | End b again =>
      match x_state (obj b w) with
      | BUSY =>
          Some (set_obj b {| x_state := DONE; x_again := x_again (obj b w) || again; x_postponed := x_postponed (obj b w) |}
                  (say [Use b; Leave b] w))
      | _ => None
      end
  | Wakeup b ready =>
      match x_state (obj b w) with
      | DONE =>
          let w := say [Use b] w in
          if x_again (obj b w) then
            Some (set_obj b {| x_state := WAITING; x_again := false; x_postponed := x_postponed (obj b w) |} w)
          else
            Some (Done b ready
              (set_obj b {| x_state := INITIAL; x_again := false; x_postponed := x_postponed (obj b w) |} w))
      | _ => None
      end
  end.

Inductive runs : list op -> world -> Prop :=
| runs_nil : runs [] new_world
| runs_snoc : forall ops w o w', runs ops w -> step o w = Some w' -> runs (ops ++ [o]) w'.

(** src/ssh/Sizes.hxx:17 BUFFER_SIZE: the capacity of a DefaultFifoBuffer
    (src/memory/fb_pool.cxx:18) *)
Definition BUFFER_SIZE : N := 2 ^ N.log2_up 35000.
