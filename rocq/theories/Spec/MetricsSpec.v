(** Specification of the counters for authentication requests (C82). *)

From Coq Require Import NArith List Bool String.
From Verif.Base Require Import Bytes.
From Verif.Spec Require Import WireSpec AuthSpec.
From Verif.Model Require Import Auth Server Metrics.
Import ListNotations.

(** What a request says (RFC 4252 5): user name, service name, method name and
    what the method needs; or it is cut short. *)
Inductive form :=
| Form (service method : bytes)
| Malformed.

Definition says (payload : bytes) (f : form) : Prop :=
  let layout user service method rest :=
    payload = enc [FString user; FString service; FString method; FRaw rest] /\
    (len user < pow32)%N /\ (len service < pow32)%N /\ (len method < pow32)%N in
  match f with
  | Form service method => exists user rest, layout user service method rest
  | Malformed => ~ exists user service method rest, layout user service method rest
  end.

(** How often the counter was incremented *)
Definition metric_eqb (a b : metric) : bool :=
  match a, b with
  | Received, Received | Unsupported, Unsupported | ProtocolErrors, ProtocolErrors
  | PasswordAccepted, PasswordAccepted | PublickeyAccepted, PublickeyAccepted | HostbasedAccepted, HostbasedAccepted
  | PasswordFailed, PasswordFailed | PublickeyFailed, PublickeyFailed | HostbasedFailed, HostbasedFailed
  | UnsupportedFailed, UnsupportedFailed | UnknownFailed, UnknownFailed | TranslationErrors, TranslationErrors => true
  | _, _ => false
  end.
Definition how_many {A} (p : A -> bool) (l : list A) : nat := List.length (filter p l).
Definition value (m : metric) (l : list note) : nat :=
  how_many (fun x => match x with Count m' => metric_eqb m m' | Spend _ => false end) l.

(** "Accepted" and "failed" in all exported series *)
Definition accepted_total (l : list note) : nat :=
  value PasswordAccepted l + value PublickeyAccepted l + value HostbasedAccepted l.
Definition failed_total (l : list note) : nat :=
  value PasswordFailed l + value PublickeyFailed l + value HostbasedFailed l + value UnsupportedFailed l + value UnknownFailed l.

(** Requests by their answers and methods *)
Definition was_accepted (x : form * answer) : bool := match snd x with LoggedIn => true | _ => false end.
Definition was_refused (x : form * answer) : bool := match snd x with Refused => true | _ => false end.
Definition by_method (m : bytes) (x : form * answer) : bool :=
  match fst x with Form _ method => bytes_eqb method m | Malformed => false end.
Definition for_connection (x : form * answer) : bool :=
  match fst x with Form service _ => bytes_eqb service CONNECTION | Malformed => false end.
Definition readable (f : form) : bool := match f with Form _ _ => true | Malformed => false end.

(** The translation server never says that an account needs no password. *)
Definition passwords_needed (ops : list (N * vop)) : Prop :=
  forall c w, In (c, OAuth w) ops -> forall user password r, w_translate w user password = Some r -> tr_no_password r = None.
