(** Model of comma separated lists: src/ssh/StringList.hxx,
    IterableSplitString and StringListContains() of libcommon. *)

From Coq Require Import NArith List Bool.
From Verif.Base Require Import Bytes.
Import ListNotations.
Open Scope N_scope.

(** libcommon util/IterableSplitString.hxx (not part of the repository;
    modelled from its documented meaning): iterate over the pieces between
    separators.  A string without separator, also the empty one, is one
    piece. *)
Fixpoint split (sep : N) (s : bytes) : list bytes :=
  match s with
  | [] => [[]]
  | b :: r =>
      if b =? sep then [] :: split sep r
      else match split sep r with
           | p :: l => (b :: p) :: l
           | [] => [[b]]
           end
  end.

(** libcommon util/StringListContains (used by src/ssh/StringList.hxx:13-17
    SSH::StringListContains): is [needle] one of the pieces? *)
Definition StringListContains (haystack needle : bytes) : bool :=
  existsb (bytes_eqb needle) (split 44 haystack).

(** src/ssh/StringList.hxx:19-23 FirstStringListItem(): Split(list, ',').first *)
Definition FirstStringListItem (list : bytes) : bytes := hd [] (split 44 list).
