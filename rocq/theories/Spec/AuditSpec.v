(** What the log of a connection should tell (C89). *)

From Coq Require Import NArith List Bool String.
From Verif.Base Require Import Bytes.
From Verif.Spec Require Import WireSpec AuthSpec.
From Verif.Model Require Import KeyOptions Auth Session Server AuditLog.
Import ListNotations.
Open Scope N_scope.

(** "Accepted ... for user" *)
Definition accepted_user (l : line) : list bytes :=
  match l with
  | LAcceptedKey user _ | LAcceptedHost user _ | LAcceptedPassword user => [user]
  | _ => []
  end.

(** The users who were logged in. *)
Definition logins (log : list vevent) : list bytes :=
  flat_map (fun e => match e with VAuthenticated user => [user] | _ => [] end) log.

(** The line which says how the connection ended. *)
Definition is_end (l : line) : bool :=
  match l with
  | LDisconnecting | LClientDisconnected _ | LTimeout | LTerminating | LOutgoing _ _ | LDisconnected => true
  | _ => false
  end.

Definition ends (l : list (bytes * line)) : list line := filter is_end (map snd l).

(** [supports cfg session_id w payload l]: the request [payload] is a reason to
    write [l]. *)
Inductive supports (cfg : config) (session_id : bytes) (w : world) : bytes -> line -> Prop :=
| S_key : forall user flag algorithm blob signature,
    flag <> 0 -> cf_parse_key cfg blob = true ->
    cf_verify cfg blob (signed_data session_id (key_request user flag algorithm blob)) signature = Some true ->
    supports cfg session_id w (enc (key_request user flag algorithm blob ++ [FString signature])) (LAcceptedKey user blob)
| S_host : forall user algorithm blob client_host client_user signature o,
    In (blob, o) (cf_authorized_host_keys cfg) -> cf_parse_key cfg blob = true ->
    cf_verify cfg blob (signed_data session_id (host_request user algorithm blob client_host client_user)) signature = Some true ->
    supports cfg session_id w (enc (host_request user algorithm blob client_host client_user ++ [FString signature]))
      (LAcceptedHost user blob)
| S_password : forall user password r,
    password <> [] -> w_translate w user password = Some r -> tr_status_ok r = true ->
    supports cfg session_id w (enc (password_request user password)) (LAcceptedPassword user)
| S_waived : forall user method rest,
    cf_translation_server cfg = true -> ~ In method [PUBLICKEY; HOSTBASED; PASSWORD] ->
    supports cfg session_id w (enc [FString user; FString CONNECTION; FString method; FRaw rest]) (LAcceptedPassword user).

(** The lines of a text. *)
Fixpoint split_from (acc t : bytes) : list bytes :=
  match t with
  | [] => [acc]
  | c :: r => if c =? 10 then acc :: split_from [] r else split_from (acc ++ [c]) r
  end.

(** ... those which are not empty *)
Definition records (text : bytes) : list bytes :=
  filter (fun l => match l with [] => false | _ => true end) (split_from [] text).

(** One line for this message: prefix and text (without the newline which
    the format "Proxy to {}\n" ends with). *)
Definition record_of (x : texts) (e : bytes * line) : bytes :=
  tx_prefix x (fst e) ++ firstn LINE_MAX
    match snd e with
    | LProxy address => bs "Proxy to " ++ address
    | l => format x l
    end.

(** Text which is written as it was received. *)
Definition raw_text (l : line) : bytes :=
  match l with
  | LClientDisconnected t | LOutgoing _ t | LProxy t | LAddress t => t
  | _ => []
  end.

Definition one_line (t : bytes) : Prop := ~ In 10 t.

(** The loggers and the keys write no newlines by themselves. *)
Definition texts_ok (x : texts) : Prop :=
  (forall domain, one_line domain -> one_line (tx_prefix x domain)) /\ (forall blob, one_line (tx_key x blob)).

Definition gop_ok (op : gop) : Prop :=
  match op with GOp op _ => op_ok op | _ => True end.

(** [claims_address cfg session_id payload address]: the request is signed by
    one of the host keys which may vouch for others, and its client user name
    is "name@address". *)
Definition claims_address (cfg : config) (session_id payload address : bytes) : Prop :=
  exists user algorithm blob client_host name signature o,
    payload = enc (host_request user algorithm blob client_host (name ++ 64 :: address) ++ [FString signature]) /\
    name <> [] /\ ~ In 64 name /\ address <> [] /\
    cf_accept_client_address cfg = true /\ cf_parse_address cfg (c_str address) <> None /\
    In (blob, o) (cf_authorized_host_keys cfg) /\
    cf_verify cfg blob (signed_data session_id
      (host_request user algorithm blob client_host (name ++ 64 :: address))) signature = Some true.

(** visible ASCII, space, or what the library takes for printable *)
Definition visible (x : texts) (c : N) : Prop := 32 <= c < 127 \/ 127 < c /\ tx_printable x c = true.
