(** Command lines and how clients quote them (C45). *)

From Coq Require Import NArith List Bool.
From Verif.Base Require Import Bytes.
Import ListNotations.
Open Scope N_scope.

(** ** Backslash quoting: words separated by spaces *)

(** A character which belongs to a word, or a separator. *)
Inductive token := Literal (c : N) | Separator.

(** A backslash makes the next character literal; a backslash at the end
    stands for itself. *)
Fixpoint tokens (cmd : bytes) : list token :=
  match cmd with
  | [] => []
  | 92 :: [] => [Literal 92]
  | 92 :: c :: r => Literal c :: tokens r
  | 32 :: r => Separator :: tokens r
  | c :: r => Literal c :: tokens r
  end.

(** The runs of literal characters between the separators. *)
Fixpoint runs (l : list token) : list bytes :=
  match l with
  | [] => [[]]
  | Separator :: r => [] :: runs r
  | Literal c :: r => match runs r with w :: ws => (c :: w) :: ws | [] => [[c]] end
  end.

(** The words of a command line. *)
Definition words (cmd : bytes) : list bytes := filter (fun w => match w with [] => false | _ => true end) (runs (tokens cmd)).

(** What a client does: a backslash in front of each character of a set. *)
Definition backslash_quote (special : N -> bool) (w : bytes) : bytes :=
  flat_map (fun c => if special c then [92; c] else [c]) w.
Fixpoint join (ws : list bytes) : bytes :=
  match ws with
  | [] => []
  | [w] => w
  | w :: ws => w ++ 32 :: join ws
  end.

(** ** Single quotes *)

Inductive qtoken := QLiteral (c : N) | Quote | Malformed.

(** A backslash makes the next character literal, also between single
    quotes. *)
Fixpoint qtokens (s : bytes) : list qtoken :=
  match s with
  | [] => []
  | 92 :: [] => [Malformed]
  | 92 :: c :: r => QLiteral c :: qtokens r
  | 39 :: r => Quote :: qtokens r
  | c :: r => QLiteral c :: qtokens r
  end.
Definition literals (l : list qtoken) : bytes := flat_map (fun t => match t with QLiteral c => [c] | _ => [] end) l.
Definition quotes (l : list qtoken) : nat := List.length (filter (fun t => match t with Quote => true | _ => false end) l).

(** git's sq_quote_buf(): everything in single quotes, where ' and ! are
    written as '\'' and '\!' *)
Definition git_quote (arg : bytes) : bytes :=
  39 :: flat_map (fun c => if (c =? 39) || (c =? 33) then [39; 92; c; 39] else [c]) arg ++ [39].
