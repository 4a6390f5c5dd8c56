(** * Connections which wait to be forwarded

    A connection accepted on a forwarded port (SocketForwardListener) or on the
    socket of a forwarded agent (AgentForward) waits in an object of the class
    Factory until the client has confirmed the channel.  The two classes are
    the same but for the message, which is modelled in Model/Makers.v
    (SerializeForwarded, SerializeAgent) and a parameter here.  A Factory is freed in many places; what is
    modelled is its life together with the channel table of Model/Channels.v:
    using a freed object is an event of its own. *)

From Coq Require Import NArith List Bool String.
From Verif.Base Require Import Bytes.
From Verif.Spec Require Import WireSpec.
From Verif.Model Require Import Wire Frame Packets Requests Channels.
Import ListNotations.
Open Scope N_scope.

(** A living Factory: its number (also that of the accepted connection) and its
    listener, src/SocketForwardListener.cxx:18-50, src/AgentForward.cxx:18-43 *)
Record fobj := { fo_id : N; fo_listener : N }.

(** What becomes of accepted connections, and accesses to freed objects. *)
Inductive fev :=
| FvAccepted (f : N)
| FvGiven (f : N)       (* the socket now belongs to the new channel *)
| FvClosed (f : N)      (* the socket was closed *)
| FvUseAfterFree (f : N).

(** [fs_listeners]: the listeners, each with the session channel object that
    owns it (agent forwarding, src/SessionChannel.hxx: agent_forward) or
    without (src/Connection.hxx:97 socket_forward_listeners).  [fs_log] is
    newest-first. *)
Record fstate := {
  fs_chan : cstate;
  fs_next : N;
  fs_listeners : list (N * option N);
  fs_live : list fobj;
  fs_log : list fev
}.

Definition fs_init : fstate := {| fs_chan := cs_init; fs_next := 0; fs_listeners := []; fs_live := []; fs_log := [] |}.

Definition with_chan (c : cstate) (s : fstate) : fstate :=
  {| fs_chan := c; fs_next := fs_next s; fs_listeners := fs_listeners s; fs_live := fs_live s; fs_log := fs_log s |}.
Definition fsay (e : fev) (s : fstate) : fstate :=
  {| fs_chan := fs_chan s; fs_next := fs_next s; fs_listeners := fs_listeners s; fs_live := fs_live s; fs_log := e :: fs_log s |}.
Definition with_listeners (l : list (N * option N)) (s : fstate) : fstate :=
  {| fs_chan := fs_chan s; fs_next := fs_next s; fs_listeners := l; fs_live := fs_live s; fs_log := fs_log s |}.
Definition remove (f : N) (s : fstate) : fstate :=
  {| fs_chan := fs_chan s; fs_next := fs_next s; fs_listeners := fs_listeners s;
     fs_live := filter (fun o => negb (fo_id o =? f)) (fs_live s); fs_log := fs_log s |}.

Definition alive (f : N) (s : fstate) : bool := existsb (fun o => fo_id o =? f) (fs_live s).

(** the RequestedChannel object to which the cancel_ptr of [f] points *)
Definition request_of (f : N) (c : cstate) : option N :=
  find (fun n => match cs_slots c n with Some (SRequested g _ false) => g =? f | _ => false end) indexes.

(** src/SocketForwardListener.cxx:51-56 ~Factory(), without the Cancel() call,
    which follows ([revoke]) *)
Definition delete_factory (f : N) (s : fstate) : fstate := fsay (FvClosed f) (remove f s).

(** cancel_ptr.Cancel() *)
Definition revoke (E : renv) (s : fstate) (f : N) : fstate :=
  match request_of f (fs_chan s) with
  | Some n => with_chan (cstep E (fs_chan s) (OpCancel n)) s
  | None => fsay (FvUseAfterFree f) s
  end.

(** src/SocketForwardListener.cxx:131-134 ~SocketForwardListener(),
    src/AgentForward.cxx:115-118 ~AgentForward(): deletes all factories of the
    listeners of which [p] is true.  The numbers of the deleted factories are
    returned. *)
Definition drop_listeners (p : N * option N -> bool) (s : fstate) : fstate * list N :=
  let gone := filter p (fs_listeners s) in
  let s := with_listeners (filter (fun l => negb (p l)) (fs_listeners s)) s in
  let fs := map fo_id (filter (fun o => existsb (fun l => fst l =? fo_listener o) gone) (fs_live s)) in
  (fold_left (fun s f => delete_factory f s) fs s, fs).

(** The callbacks during one operation of the channel table, in order.
    [canceled]: factories which were deleted during this operation; their
    RequestedChannel does not call them anymore (CSupport.cxx:66,73,90).

    - SocketForwardListener.cxx:79-121 CreateChannel(), OnChannelOpenFailure(),
      OnChannelCancel()
    - a session channel goes away, and its AgentForward with it
    - the connection is destroyed without OnDisconnecting(): ~Connection()
      (src/Connection.cxx:210) destroys the listeners before the channels;
      with it (src/Connection.cxx:1264-1269), after *)
Fixpoint callbacks (evs : list cev) (canceled : list N) (s : fstate) : list N * fstate :=
  match evs with
  | [] => (canceled, s)
  | Factory f c :: evs =>
      if existsb (N.eqb f) canceled then callbacks evs (filter (fun g => negb (g =? f)) canceled) s
      else if alive f s then
        callbacks evs canceled (fsay (match c with FCreate => FvGiven f | _ => FvClosed f end) (remove f s))
      else callbacks evs canceled (fsay (FvUseAfterFree f) s)
  | Destroyed _ u :: evs =>
      let '(s, fs) := drop_listeners (fun l => match snd l with Some v => v =? u | None => false end) s in
      callbacks evs (canceled ++ fs) s
  | Died (DDisconnect _ _) :: evs => callbacks evs canceled s
  | Died _ :: evs =>
      let '(s, fs) := drop_listeners (fun _ => true) s in
      callbacks evs (canceled ++ fs) s
  | _ :: evs => callbacks evs canceled s
  end.

(** what one operation has logged, oldest first *)
Definition news (old new : cstate) : list cev :=
  rev (firstn (List.length (cs_log new) - List.length (cs_log old)) (cs_log new)).

(** One operation of the channel table.  At the end of the connection the
    listeners which are still there go away (src/Connection.cxx:1269). *)
Definition chan_op (E : renv) (o : cop) (s : fstate) : fstate :=
  let c := cstep E (fs_chan s) o in
  let '(canceled, s) := callbacks (news (fs_chan s) c) [] s in
  let s := fold_left (revoke E) canceled (with_chan c s) in
  if cs_dead c then
    let '(s, fs) := drop_listeners (fun _ => true) s in fold_left (revoke E) fs s
  else s.

Inductive fop :=
| FListen (l : N)                  (* a SocketForwardListener *)
| FAgent (l u : N)                 (* an AgentForward of the session channel object [u] *)
| FAccept (l : N) (type : bytes) (window : N) (data : bytes)
| FHangup (f : N)                  (* the accepted connection was closed by its peer *)
| FStop (l : N)                    (* cancel-tcpip-forward *)
| FChan (o : cop).

(** the channel object [u] exists *)
Definition has_channel (u : N) (c : cstate) : bool :=
  existsb (fun n => match cs_slots c n with Some (SChan x) => c_uid x =? u | _ => false end) indexes.

(** One event.  Events of objects which do not exist cannot happen: they are
    ignored, as are listeners whose number is in use.  [FChan] does not open
    or cancel channels by itself. *)
Definition fstep (E : renv) (s : fstate) (o : fop) : fstate :=
  match o with
  | FListen l =>
      if cs_dead (fs_chan s) || existsb (fun x => fst x =? l) (fs_listeners s) then s
      else with_listeners (fs_listeners s ++ [(l, None)]) s
  | FAgent l u =>
      if cs_dead (fs_chan s) || existsb (fun x => fst x =? l) (fs_listeners s) || negb (has_channel u (fs_chan s)) then s
      else with_listeners (fs_listeners s ++ [(l, Some u)]) s
  | FAccept l type window data =>
      (* src/SocketForwardListener.cxx:136-150, src/AgentForward.cxx:120-133 OnAccept() *)
      if negb (existsb (fun x => fst x =? l) (fs_listeners s)) then s
      else
        let f := fs_next s in
        let s := fsay (FvAccepted f)
                   {| fs_chan := fs_chan s; fs_next := f + 1; fs_listeners := fs_listeners s; fs_live := fs_live s; fs_log := fs_log s |} in
        match AllocateChannelIndex (fs_chan s) with
        | None => fsay (FvClosed f) s
        | Some _ =>
            let s := with_chan (cstep E (fs_chan s) (OpOpen type window data f)) s in
            {| fs_chan := fs_chan s; fs_next := fs_next s; fs_listeners := fs_listeners s;
               fs_live := fs_live s ++ [{| fo_id := f; fo_listener := l |}]; fs_log := fs_log s |}
        end
  | FHangup f =>
      (* OnSocketReady() *)
      if alive f s then revoke E (delete_factory f s) f else s
  | FStop l =>
      let '(s, fs) := drop_listeners (fun x => (fst x =? l) && match snd x with None => true | Some _ => false end) s in
      fold_left (revoke E) fs s
  | FChan (OpOpen _ _ _ _) | FChan (OpCancel _) => s
  | FChan o => chan_op E o s
  end.

Definition fruns (E : renv) (ops : list fop) : fstate := fold_left (fstep E) ops fs_init.
