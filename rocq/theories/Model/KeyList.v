(** Model of the list of host keys.  src/key/List.cxx, src/key/List.hxx,
    used by src/ssh/SimpleHostKeyChooser.cxx:11-20

    Simplification: a key is a number with the string returned by its
    GetAlgorithms() method. *)

From Coq Require Import NArith List Bool.
From Verif.Base Require Import Bytes.
From Verif.Model Require Import StringList.
Import ListNotations.
Open Scope N_scope.

Record secret_key := { sk_id : N; sk_algorithms : bytes }.

(** src/key/List.hxx:15-19 *)
Record key_list := {
  kl_keys : list secret_key;
  kl_map : list (bytes * secret_key);   (* algorithm_to_key *)
  kl_algorithms : bytes
}.

Definition mk_kl k m a : key_list := {| kl_keys := k; kl_map := m; kl_algorithms := a |}.
Definition empty_keys : key_list := mk_kl [] [] [].

Definition find_algorithm (a : bytes) (m : list (bytes * secret_key)) : option secret_key :=
  match find (fun e => bytes_eqb (fst e) a) m with Some e => Some (snd e) | None => None end.

(** the body of the loop in SecretKeyList::Add(), src/key/List.cxx:22-29 *)
Definition add_algorithm (key : secret_key) (l : key_list) (a : bytes) : key_list :=
  match find_algorithm a (kl_map l) with
  | Some _ => l
  | None =>
      mk_kl (kl_keys l) ((a, key) :: kl_map l)
        (match kl_algorithms l with [] => a | _ :: _ => kl_algorithms l ++ [44] ++ a end)
  end.

(** SecretKeyList::Add(), src/key/List.cxx:14-30 *)
Definition Add (key : secret_key) (l : key_list) : key_list :=
  fold_left (add_algorithm key) (split 44 (sk_algorithms key)) (mk_kl (key :: kl_keys l) (kl_map l) (kl_algorithms l)).

(** the loop of SecretKeyList::Choose() *)
Fixpoint choose_from (l : key_list) (names : list bytes) : option (secret_key * bytes) :=
  match names with
  | [] => None
  | a :: rest =>
      match a with
      | [] => choose_from l rest
      | _ :: _ =>
          match find_algorithm a (kl_map l) with
          | Some k => Some (k, a)
          | None => choose_from l rest
          end
      end
  end.

(** SecretKeyList::Choose(), src/key/List.cxx:32-46 *)
Definition Choose (l : key_list) (peer_algorithms : bytes) : option (secret_key * bytes) :=
  choose_from l (split 44 peer_algorithms).

(** The keys are added in this order. *)
Definition load (keys : list secret_key) : key_list := fold_left (fun l k => Add k l) keys empty_keys.
