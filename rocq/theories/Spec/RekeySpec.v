(** What the history of a connection says about its keys (RFC 4253, section 9). *)

From Coq Require Import NArith List Bool.
From Verif.Model Require Import Rekey.
Import ListNotations.
Open Scope N_scope.

Definition rhistory := list (N * revent).

(** bytes sent with the present outgoing keys *)
Definition used (l : rhistory) : N :=
  fold_left (fun u e => match snd e with VPacket true n => u + n | VKeys => 0 | _ => u end) l 0.

(** bytes received with the present incoming keys *)
Definition received_with_keys (l : rhistory) : N :=
  fold_left (fun u e => match snd e with VReceived n => u + n | VInKeys => 0 | _ => u end) l 0.

(** is there a key exchange in progress? *)
Definition exchanging (l : rhistory) : bool :=
  fold_left (fun b e => match snd e with VKexInit _ => true | VDone => false | _ => b end) l false.

(** has the user been authenticated? *)
Definition logged_in (l : rhistory) : bool := existsb (fun e => match snd e with VAuth => true | _ => false end) l.

(** when the last key exchange was completed, or the user was authenticated *)
Definition renewed (l : rhistory) : option N :=
  fold_left (fun t e => match snd e with VDone | VAuth => Some (fst e) | _ => t end) l None.

(** when the outgoing keys were installed *)
Definition keys_since (l : rhistory) : option N :=
  fold_left (fun t e => match snd e with VKeys => Some (fst e) | _ => t end) l None.

Definition is_kexinit (e : N * revent) : bool := match snd e with VKexInit _ => true | _ => false end.
Definition is_packet (e : N * revent) : bool := match snd e with VPacket true _ => true | _ => false end.

Definition one_hour : N := 3600000.
Definition one_gib : N := 1073741824.
