(** Name-lists (RFC 4251 section 5: "a comma-separated list of names") and
    the negotiation rule of RFC 4253 section 7.1, written without reference
    to the model. *)

From Coq Require Import NArith List Bool.
From Verif.Base Require Import Bytes.
Import ListNotations.
Open Scope N_scope.

Definition COMMA : N := 44.

(** the list written out *)
Fixpoint join (names : list bytes) : bytes :=
  match names with
  | [] => []
  | [n] => n
  | n :: l => n ++ [COMMA] ++ join l
  end.

(** [s] is the comma separated list of [names].  (The empty string is the
    list with one empty name.) *)
Definition name_list (s : bytes) (names : list bytes) : Prop :=
  names <> [] /\ Forall (fun n => ~ In COMMA n) names /\ join names = s.

(** RFC 4253 section 7.1: "The first algorithm on the client's name-list
    that satisfies the requirements and is also on the server's name-list
    MUST be chosen." *)
Definition first_common (client server : list bytes) (chosen : bytes) : Prop :=
  exists before after, client = before ++ chosen :: after /\ In chosen server /\
    forall n, In n before -> ~ In n server.

Definition none_common (client server : list bytes) : Prop :=
  forall n, In n client -> ~ In n server.
