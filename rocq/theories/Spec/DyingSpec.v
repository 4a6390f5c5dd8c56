(** What "DISCONNECT is the last packet" means. *)

From Coq Require Import NArith List Bool.
From Verif.Base Require Import Bytes.
From Verif.Model Require Import Dying.
Import ListNotations.
Open Scope N_scope.

(** nothing follows a DISCONNECT *)
Definition last_word (l : list msg) : Prop :=
  forall before after, l = before ++ Farewell :: after -> after = [].

(** the number of DISCONNECT packets *)
Definition farewells (l : list msg) : nat :=
  List.length (filter (fun m => match m with Farewell => true | _ => false end) l).

(** the client's connection is dying: DISCONNECT has been sent, and the
    object still exists *)
Definition dying (s : state) : Prop := s_dead (client s) = true /\ disposed s = false.

(** the same for the connection to the backend *)
Definition out_dying (s : state) : Prop := exists c g, outgoing s = Some (c, g) /\ s_dead c = true.

(** there is a connection to a backend which has not yet accepted the user *)
Definition waits_for_backend (s : state) : Prop :=
  exists c g, outgoing s = Some (c, g) /\ g <> Accepted.

(** packets of the client *)
Definition from_client (e : event) : Prop :=
  match e with
  | InEncrypted | InAnswered _ | InAuth | InStart _ | InListen _ | InProxied _ | InBad | InError | InDisconnect => True
  | _ => False
  end.

(** The backend does not accept the user on behalf of a client whose
    connection is dying, and the client sends nothing for a backend whose
    connection is dying. *)
Definition no_crossing (dbg : bool) (evs : list event) : Prop :=
  forall before e after, evs = before ++ e :: after ->
    (forall n m, e = OutSuccess n m -> ~ dying (run dbg start before)) /\
    (forall n, e = InProxied n -> ~ out_dying (run dbg start before)).

(** the connection is in use *)
Definition living (s : state) : Prop := s_dead (client s) = false /\ disposed s = false /\ aborted s = false.

(** what may end the client's connection *)
Definition fatal (s : state) (e : event) : Prop :=
  match e with
  | InBad | InError | InDisconnect | AuthDisconnect | AuthError | Failed _ | Terminate | WriteError | Closed => True
  | AuthTimeout => authenticated s = false
  | Hangup blocked => blocked = true
  (* ... and the backend's *)
  | OutService host_key _ => host_key = false
  | OutFailure | OutBad | OutError | OutDisconnect | OutWriteError | OutHangup _ | OutClosed => True
  | OutFlushed _ => out_dying s
  | _ => False
  end.

(** the client is told why *)
Definition told (s s' : state) : Prop :=
  sent s' = sent s ++ [Farewell] /\ (dying s' \/ disposed s' = true).
