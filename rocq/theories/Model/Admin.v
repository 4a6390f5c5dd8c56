(** Model of the control interface: src/Control.cxx OnControlPacket(),
    ReloadState() in src/Instance.cxx, TerminateChildren() and
    SetZeroconfVisible() in src/Listener.cxx, HasTag() and Terminate() in
    src/Connection.cxx.

    Simplifications: of a connection only its number and the tags of its login
    record are modelled (the "tag" of the options of programs: a list separated
    by null bytes).  The log of terminated connections: each entry stands for
    DoDisconnect(CONNECTION_LOST, "Account disabled").  Whether a connection is
    destroyed at once or remains in the list until its output is flushed is
    decided by [gone].  The state directory is a function. *)

From Coq Require Import NArith ZArith List Bool String.
From Verif.Base Require Import Bytes.
From Verif.Model Require Import StringList.
Import ListNotations.
Open Scope N_scope.

(** the options of the login record: TranslateResponse::execute_options and
    service_execute_options *)
Record login_record := { lr_execute_tag : option bytes; lr_service_tags : list (bytes * bytes) }.
Record cconn := { cn_id : N; cn_translation : option login_record }.
(** class Listener: tag, avahi_service->visible, connections *)
Record clistener := { ls_tag : bytes; ls_zeroconf : option bool; ls_connections : list cconn }.
(** class Instance: the log level, avahi_publisher (are the services shown?),
    listeners *)
Record instance := {
  in_log_level : N;
  in_publisher : option bool;
  in_listeners : list clistener;
  in_terminated : list N
}.

(** ::StringListContains(haystack, separator, needle) of libcommon *)
Definition ListContains (haystack : bytes) (separator : N) (needle : bytes) : bool :=
  existsb (bytes_eqb needle) (split separator haystack).

(** src/Connection.cxx:414-421 HasTag() *)
Definition HasTag (tag : bytes) (c : cconn) : bool :=
  match cn_translation c with
  | None => false
  | Some r => match lr_execute_tag r with
              | None => false
              | Some t => ListContains t 0 tag
              end
  end.

(** src/Listener.cxx:264-279 TerminateChildren(): the list afterwards and the
    connections which were terminated, in this order *)
Fixpoint TerminateChildren (gone : N -> bool) (child_tag : bytes) (l : list cconn) : list cconn * list N :=
  match l with
  | [] => ([], [])
  | c :: t =>
      let '(rest, ended) := TerminateChildren gone child_tag t in
      if HasTag child_tag c
      then (if gone (cn_id c) then rest else c :: rest, cn_id c :: ended)
      else (c :: rest, ended)
  end.

(** src/Listener.hxx:95-104 GetStateName(), src/Instance.cxx:157-171
    ReloadState(); src/Listener.cxx:162-171 SetZeroconfVisible() *)
Definition ReloadListener (get_bool : bytes -> bool -> bool) (l : clistener) : clistener :=
  if match ls_tag l with [] => true | _ => false end then l
  else match ls_zeroconf l with
       | None => l
       | Some _ => {| ls_tag := ls_tag l;
                      ls_zeroconf := Some (get_bool (bs "lukko/listener/" ++ ls_tag l ++ bs "/zeroconf") true);
                      ls_connections := ls_connections l |}
       end.

(** the commands; [Ignored]: those which do nothing, and numbers which are not
    known *)
Inductive command := VERBOSE | DISABLE_ZEROCONF | ENABLE_ZEROCONF | RELOAD_STATE | TERMINATE_CHILDREN | Ignored (code : N).

(** src/Control.cxx:16-92 OnControlPacket(); [uid] is negative for senders which
    are not local *)
Definition OnControlPacket (gone : N -> bool) (get_bool : bytes -> bool -> bool)
    (command : command) (payload : bytes) (uid : Z) (i : instance) : instance :=
  let is_privileged := (0 <=? uid)%Z in
  match command with
  | VERBOSE =>
      match is_privileged, payload with
      | true, [level] => {| in_log_level := level; in_publisher := in_publisher i; in_listeners := in_listeners i; in_terminated := in_terminated i |}
      | _, _ => i
      end
  | DISABLE_ZEROCONF =>
      match is_privileged, in_publisher i with
      | true, Some _ => {| in_log_level := in_log_level i; in_publisher := Some false; in_listeners := in_listeners i; in_terminated := in_terminated i |}
      | _, _ => i
      end
  | ENABLE_ZEROCONF =>
      match is_privileged, in_publisher i with
      | true, Some _ => {| in_log_level := in_log_level i; in_publisher := Some true; in_listeners := in_listeners i; in_terminated := in_terminated i |}
      | _, _ => i
      end
  | RELOAD_STATE =>
      {| in_log_level := in_log_level i; in_publisher := in_publisher i;
         in_listeners := map (ReloadListener get_bool) (in_listeners i); in_terminated := in_terminated i |}
  | TERMINATE_CHILDREN =>
      match payload with
      | [] => i
      | _ =>
          let results := map (fun l => (l, TerminateChildren gone payload (ls_connections l))) (in_listeners i) in
          {| in_log_level := in_log_level i; in_publisher := in_publisher i;
             in_listeners := map (fun x => {| ls_tag := ls_tag (fst x); ls_zeroconf := ls_zeroconf (fst x); ls_connections := fst (snd x) |}) results;
             in_terminated := in_terminated i ++ flat_map (fun x => snd (snd x)) results |}
      end
  | Ignored _ => i
  end.
