(** Specification of C99: what the answer to a refused login, and its time,
    tell to a client. *)

From Coq Require Import NArith List Bool String.
From Verif.Base Require Import Bytes.
From Verif.Spec Require Import WireSpec AuthSpec.
From Verif.Model Require Import KeyOptions Auth Delay.
Import ListNotations.
Open Scope N_scope.

(** The client has got neither the account nor an invitation to sign. *)
Definition denied (o : outcome) : Prop :=
  match o with Accepted _ | PkOk _ _ => False | Failure _ | Die => True end.

(** Everything which is consulted for one request answers within 100 ms. *)
Definition quick (l : latency) : Prop :=
  forall user home i blob,
  lt_tarpit l + lt_getpwnam l user + lt_open l home + lt_delegate l i + lt_verify l blob < 100.

(** What the client can see: the answer and when it comes. *)
Definition seen (r : reply) : outcome * N := (r_outcome r, r_time r).

(** A request as RFC 4252 wants it.  For methods other than "publickey" and
    "hostbased", anything may follow the name of the method. *)
Inductive full_request : bytes -> Prop :=
| C_query : forall user algorithm blob,
    valid_name user -> full_request (enc (key_request user 0 algorithm blob))
| C_key : forall user flag algorithm blob signature,
    valid_name user -> 0 < flag < 256 -> full_request (enc (key_request user flag algorithm blob ++ [FString signature]))
| C_host : forall user algorithm blob client_host client_user signature,
    valid_name user ->
    full_request (enc (host_request user algorithm blob client_host client_user ++ [FString signature]))
| C_other : forall user method rest,
    valid_name user -> method <> PUBLICKEY -> method <> HOSTBASED ->
    full_request (enc [FString user; FString CONNECTION; FString method] ++ rest).

(** Requests which can be refused without a delay: another service than
    "ssh-connection"; a password change or an empty password; a key which is
    no key, or one whose signature cannot be checked; a host key which is
    authorized. *)
Inductive hasty (cfg : config) (session_id : bytes) : bytes -> Prop :=
| H_service : forall user service rest, service <> CONNECTION ->
    hasty cfg session_id (enc [FString user; FString service] ++ rest)
| H_password : forall user flag password, cf_translation_server cfg = true -> flag <> 0 \/ password = [] ->
    hasty cfg session_id (enc [FString user; FString CONNECTION; FString PASSWORD; FByte flag; FString password])
| H_no_key : forall user flag algorithm blob rest, cf_parse_key cfg blob = false ->
    hasty cfg session_id (enc (key_request user flag algorithm blob) ++ rest)
| H_key : forall user flag algorithm blob signature, flag <> 0 ->
    cf_verify cfg blob (signed_data session_id (key_request user flag algorithm blob)) signature = None ->
    hasty cfg session_id (enc (key_request user flag algorithm blob ++ [FString signature]))
| H_host : forall user algorithm blob client_host client_user signature o,
    In (blob, o) (cf_authorized_host_keys cfg) ->
    hasty cfg session_id (enc (host_request user algorithm blob client_host client_user ++ [FString signature])).
