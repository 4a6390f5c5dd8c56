(** What it takes that nobody sits between the client who has logged in and
    the server.

    One end of a connection is described by the log of its key exchange
    machine (Spec/KexSpec.v); [kruns E role u ops s]: this end has come to
    the state [s]. *)

From Coq Require Import NArith List.
From Verif.Base Require Import Bytes.
From Verif.Spec Require Import KexSpec.
From Verif.Model Require Import Negotiate KexMachine.
Import ListNotations.
Open Scope N_scope.

(** [s] is how one end of some connection has seen it *)
Definition endpoint (E : kenv) (role : Role) (s : kstate) : Prop :=
  exists u ops, kruns E role u ops s /\ Forall op_ok ops.

(** no version string and no packet has 4 GiB or more *)
Definition modest (E : kenv) (s : kstate) : Prop :=
  len (e_version E) < 2 ^ 32 /\
  forall e, In e (k_log s) ->
  match e with EVersion p | ERx p | ETx p => len p < 2 ^ 32 | _ => True end.

(** [h] was exchanged in the first key exchange of this connection, as this
    end has seen it; [signature] is the signature in the reply; [x] are the
    messages *)
Definition first_exchange (E : kenv) (role : Role) (s : kstate) (x : progress) (h : handshake)
  (signature : bytes) : Prop :=
  exists pre post, k_log s = pre ++ ESecret (K h) :: post /\ (forall k, ~ In (ESecret k) pre) /\
  history role pre = Some (XRun x) /\ exchanged role (e_version E) x h signature.

(** two different inputs of the hash function with the same result *)
Definition collision (HASH : bytes -> bytes) (a b : bytes) : Prop := a <> b /\ HASH a = HASH b.

(** [pre] is the part of the log before a cipher of the first key exchange is
    put into use: keys were derived once *)
Definition in_first_exchange (pre : list kevent) : Prop :=
  exists a k b, pre = a ++ ESecret k :: b /\
  (forall k', ~ In (ESecret k') a) /\ (forall k', ~ In (ESecret k') b).
