(** Which connections an administrator's command ends (C76). *)

From Coq Require Import NArith List Bool.
From Verif.Base Require Import Bytes.
From Verif.Model Require Import Admin.
Import ListNotations.
Open Scope N_scope.

(** a list of tags, separated by null bytes *)
Fixpoint joined (l : list bytes) : bytes :=
  match l with
  | [] => []
  | [x] => x
  | x :: t => x ++ 0 :: joined t
  end.
Definition tag_list (s : bytes) (l : list bytes) : Prop :=
  l <> [] /\ Forall (fun x => ~ In 0 x) l /\ s = joined l.

(** this connection's programs carry the tag *)
Definition tagged (tag : bytes) (c : cconn) : Prop :=
  exists r s l, cn_translation c = Some r /\ lr_execute_tag r = Some s /\ tag_list s l /\ In tag l.
(** ... or those of one of its services *)
Definition service_tagged (tag : bytes) (c : cconn) : Prop :=
  exists r service s l, cn_translation c = Some r /\ In (service, s) (lr_service_tags r) /\ tag_list s l /\ In tag l.

Definition connections (i : instance) : list cconn := flat_map ls_connections (in_listeners i).
