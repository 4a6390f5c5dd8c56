(** Specification of the keys of a server (C87), from doc/index.rst: the
    keys are in the files host_ed25519_key, host_ecdsa_key and host_rsa_key
    beside the configuration file; if there are none, new ones are made. *)

From Coq Require Import NArith List Bool String.
From Verif.Base Require Import Bytes.
From Verif.Model Require Import Keys Startup.
From Verif.Spec Require Import KeyFormatSpec.
Import ListNotations.
Open Scope N_scope.

(** [o] is a readable regular file of at most 32 kB with the key [k] *)
Definition holds_key (c : crypto) (o : opened) (k : secret_key) : Prop :=
  exists size data, o = Opened {| f_stat := Some (true, size); f_data := Some data |} /\
    size <= 32768 /\ ParseSecretKey c (firstn (N.to_nat 32768) data) = Some k.

(** [keys] are the keys in the files [names]; files may be missing, but not
    broken. *)
Inductive keys_in (c : crypto) (dir : bytes -> opened) : list bytes -> list secret_key -> Prop :=
| keys_none : keys_in c dir [] []
| keys_missing : forall n names keys, dir n = Missing -> keys_in c dir names keys -> keys_in c dir (n :: names) keys
| keys_there : forall n names k keys, holds_key c (dir n) k -> keys_in c dir names keys -> keys_in c dir (n :: names) (k :: keys).

(** The key for a client which supports the algorithms [wanted] (best one
    first): for the first algorithm for which there is a key, the first key. *)
Definition fitting (keys : list secret_key) (wanted : list bytes) (k : secret_key) (a : bytes) : Prop :=
  (exists before after, wanted = before ++ a :: after /\
     forall b k', In b before -> In k' keys -> ~ algorithm_of (public_of k') b) /\
  (exists earlier later, keys = earlier ++ k :: later /\ forall k', In k' earlier -> ~ algorithm_of (public_of k') a) /\
  algorithm_of (public_of k) a.
