(** Vocabulary for the fate of connections which wait to be forwarded. *)

From Coq Require Import NArith List Bool.
From Verif.Spec Require Import ChannelSpec.
From Verif.Model Require Import Channels Forwarders.
Import ListNotations.
Open Scope N_scope.

(** how often connection [f] was accepted *)
Definition accepted (f : N) (e : fev) : bool := match e with FvAccepted g => g =? f | _ => false end.
Definition accepts (f : N) (l : list fev) : nat := List.length (filter (accepted f) l).

(** how often it was handed over to a channel or closed *)
Definition fate (f : N) (e : fev) : bool := match e with FvGiven g | FvClosed g => g =? f | _ => false end.
Definition fates (f : N) (l : list fev) : nat := List.length (filter (fate f) l).

(** the client has not answered a CHANNEL_OPEN with CHANNEL_OPEN_FAILURE *)
Definition never_refused (c : cstate) : Prop := forall f e, In e (cs_log c) -> rejected f e = false.

(** [f] waits, on behalf of listener [l] *)
Definition waiting_at (f l : N) (s : fstate) : Prop := In {| fo_id := f; fo_listener := l |} (fs_live s).
Definition waiting (f : N) (s : fstate) : Prop := exists l, waiting_at f l s.

(** a CHANNEL_OPEN for [f] is not answered yet *)
Definition outstanding (f : N) (c : cstate) : Prop := exists n w, cs_slots c n = Some (SRequested f w false).
