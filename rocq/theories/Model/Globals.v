(** Model of src/ssh/GSupport.cxx, class GlobalRequestSupport.

    Like in Model/Channels.v, what the GlobalRequestHandler does is part of
    the operation: how the request's coroutine leaves its synchronous part
    and, as an operation of its own, how it finishes later.  Every observable
    effect is appended to [gs_log], newest first. *)

From Coq Require Import NArith List Bool String.
From Verif.Base Require Import Bytes.
From Verif.Model Require Import Wire Packets Requests Channels.
Import ListNotations.
Open Scope N_scope.

Inductive gev :=
| GReceived (payload : bytes)                        (* a GLOBAL_REQUEST packet *)
| GCalled (id : N) (want_reply : bool) (name data : bytes)  (* HandleGlobalRequest() *)
| GFinished (id : N) (success : bool)                (* its coroutine returned *)
| GReply (success : bool)                            (* REQUEST_SUCCESS / REQUEST_FAILURE *)
| GDied (r : cdeath).

(** src/ssh/GSupport.hxx:35-51.  [gs_next] numbers the requests. *)
Record gstate := {
  gs_pending : list preq;
  gs_next : N;
  gs_log : list gev;
  gs_dead : bool
}.

Definition gs_init : gstate := {| gs_pending := []; gs_next := 1; gs_log := []; gs_dead := false |}.

(** src/ssh/GSupport.hxx:37 *)
Definition MAX_PENDING_REQUESTS : N := 16.

Definition glog (e : gev) (s : gstate) : gstate :=
  {| gs_pending := gs_pending s; gs_next := gs_next s; gs_log := e :: gs_log s; gs_dead := gs_dead s |}.

(** the connection ends; src/ssh/GSupport.cxx:167-173 OnDisconnecting(),
    74-77 ~GlobalRequestSupport() *)
Definition gdie (r : cdeath) (s : gstate) : gstate :=
  {| gs_pending := []; gs_next := gs_next s; gs_log := GDied r :: gs_log s; gs_dead := true |}.

(** SendPacket() in src/ssh/GSupport.cxx:94-96 for each of the replies *)
Definition gsubmit (x : submitted) (s : gstate) : gstate :=
  let '(rs, l, failed) := x in
  let s := {| gs_pending := l; gs_next := gs_next s; gs_log := rev (map GReply rs) ++ gs_log s;
              gs_dead := gs_dead s |} in
  if failed then gdie DAssert s else s.

(** src/ssh/GSupport.cxx:128-148 HandleGlobalRequest() *)
Definition HandleGlobalRequest (E : renv) (payload : bytes) (o : routcome) (s : gstate) : gstate :=
  let s := glog (GReceived payload) s in
  if MAX_PENDING_REQUESTS <=? N.of_nat (List.length (gs_pending s)) then
    gdie (DDisconnect 11 (bs "Too many global requests")) s
  else
    match ParseGlobalRequest payload with
    | None => gdie MALFORMED s
    | Some p =>
        let id := gs_next s in
        let s := glog (GCalled id (gr_want_reply p) (gr_request_name p) (gr_data p)) s in
        let s := match o with RSync b => glog (GFinished id b) s | _ => s end in
        let s := {| gs_pending := gs_pending s; gs_next := id + 1; gs_log := gs_log s; gs_dead := false |} in
        match start_request E id (gr_want_reply p) o (gs_pending s) with
        | None => gdie DError s
        | Some x => gsubmit x s
        end
    end.

Inductive gop :=
| GopRequest (payload : bytes) (o : routcome)   (* message 80 on an authenticated connection *)
| GopDone (id : N) (r : rresult)
| GopEnd.

(** src/ssh/GSupport.cxx:150-165 HandlePacket(); [None]: returns false *)
Definition gHandlePacketIf (E : renv) (encrypted authenticated : bool) (msg : N) (payload : bytes)
    (o : routcome) (s : gstate) : option gstate :=
  if negb encrypted || negb authenticated then None
  else if msg =? 80 then Some (HandleGlobalRequest E payload o s) else None.

Definition gstep (E : renv) (s : gstate) (o : gop) : gstate :=
  if gs_dead s then s else
  match o with
  | GopRequest payload o =>
      match gHandlePacketIf E true true 80 payload o s with Some s' => s' | None => s end
  | GopDone id r =>
      (* src/ssh/GSupport.cxx:59-64 OnCompletion(), 100-126 OnGlobalRequestDone() *)
      match find_request id (gs_pending s) with
      | Some {| pq_done := None |} =>
          match r with
          | RError => gdie DError s
          | RDone b => gsubmit (finish_request (r_dbg E) id b (gs_pending s)) (glog (GFinished id b) s)
          end
      | _ => s
      end
  | GopEnd => gdie DClosed s
  end.

Definition gruns (E : renv) (ops : list gop) : gstate := fold_left (gstep E) ops gs_init.
