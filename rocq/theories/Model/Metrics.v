(** Model of the counters for authentication requests
    (src/Connection.cxx OnUserAuthRequest(), LazyTranslate(); src/Instance.hxx:154-173;
    src/Instance.cxx:190-325 OnPrometheusExporterRequest()) and of what a
    request costs its client (AccountedClientConnection::UpdateTokenBucket()).

    The functions of Model/Auth.v again, with the statements which were left
    out there; Proofs/MetricsFacts.v proves that nothing else is different
    ([erase_request]).  Counters never reach 2^64.  A cost of one token is
    1000. *)

From Coq Require Import NArith List Bool String.
From Verif.Base Require Import Bytes.
From Verif.Model Require Import Wire Packets StringList KeyOptions Auth Session Server.
Import ListNotations.
Open Scope N_scope.

(** src/Instance.hxx:160-172 *)
Inductive metric :=
| Received | Unsupported | ProtocolErrors
| PasswordAccepted | PublickeyAccepted | HostbasedAccepted
| PasswordFailed | PublickeyFailed | HostbasedFailed | UnsupportedFailed | UnknownFailed
| TranslationErrors.

Inductive note :=
| Count (m : metric)
| Spend (tokens : N).

(** (account, outcome) and what was counted, in this order *)
Definition noted : Type := (account * outcome) * list note.
Definition also (l : list note) (x : noted) : noted := (fst x, l ++ snd x).

(** src/Connection.cxx:968-1038 *)
Definition NPublicKey (cfg : config) (w : world) (session_id payload user d methods : bytes)
  (arch : N) (sticky_source : bytes) (a : account) : noted :=
  match ReadBool d with
  | None => ((a, Die), [])
  | Some (with_signature, d) =>
  match ReadString d with
  | None => ((a, Die), [])
  | Some (algorithm, d) =>
  match ReadLengthEncoded d with
  | None => ((a, Die), [])
  | Some (blob, d) =>
      also [Spend 200]
      match IsAcceptedPublicKey cfg w blob a with
      | (a, false) => ((a, Failure methods), [Count PublickeyFailed])
      | (a, true) =>
          if negb (cf_parse_key cfg blob) then ((a, Failure methods), [Count PublickeyFailed; Count ProtocolErrors])
          else if negb with_signature then
            match ExpectEnd d with
            | None => ((a, Die), [])
            | Some _ => ((a, PkOk algorithm blob), [])
            end
          else
            let to_be_signed := DSince payload d in
            match ReadLengthEncoded d with
            | None => ((a, Die), [])
            | Some (signature, d) =>
                match ExpectEnd d with
                | None => ((a, Die), [])
                | Some _ =>
                    if VerifyRequest cfg session_id blob to_be_signed signature
                    then (Login cfg user arch sticky_source a, [Count PublickeyAccepted])
                    else ((a, Failure methods), [Count PublickeyFailed])
                end
            end
      end
  end end end.

(** src/Connection.cxx:1039-1126 *)
Definition NHostbased (cfg : config) (session_id payload user d methods : bytes)
  (arch : N) (sticky_source : bytes) (a : account) : noted :=
  match ReadString d with
  | None => ((a, Die), [])
  | Some (algorithm, d) =>
  match ReadLengthEncoded d with
  | None => ((a, Die), [])
  | Some (blob, d) =>
  match ReadString d with
  | None => ((a, Die), [])
  | Some (client_host_name, d) =>
  match ReadString d with
  | None => ((a, Die), [])
  | Some (client_user_name, d) =>
      let to_be_signed := DSince payload d in
      match ReadLengthEncoded d with
      | None => ((a, Die), [])
      | Some (signature, d) =>
          match ExpectEnd d with
          | None => ((a, Die), [])
          | Some _ =>
              match IsAcceptedHostPublicKey cfg blob a with
              | (a, false) => ((a, Failure methods), [Spend 10000; Count HostbasedFailed])
              | (a, true) =>
                  if negb (cf_parse_key cfg blob) then ((a, Failure methods), [Count HostbasedFailed; Count ProtocolErrors])
                  else if VerifyRequest cfg session_id blob to_be_signed signature then
                    let a :=
                      if cf_accept_client_address cfg then
                        let '(user_name, address) := Split client_user_name 64 in
                        if negb (is_nil user_name) && negb (is_nil address) then
                          match cf_parse_address cfg (c_str address) with
                          | Some p => set_peer_address p a
                          | None => a
                          end
                        else a
                      else a in
                    (Login cfg user arch sticky_source (set_hostbased a), [Count HostbasedAccepted])
                  else ((a, Failure methods), [Count HostbasedFailed])
              end
          end
      end
  end end end end.

(** src/Connection.cxx:968, 1039, 1127-1141 *)
Definition NMethod (cfg : config) (w : world) (session_id payload user method d methods : bytes)
  (password_accepted : bool) (arch : N) (sticky_source : bytes) (a : account) : noted :=
  if bytes_eqb method (bs "publickey") then
    NPublicKey cfg w session_id payload user d methods arch sticky_source a
  else if bytes_eqb method (bs "hostbased") then
    NHostbased cfg session_id payload user d methods arch sticky_source a
  else if password_accepted then (Login cfg user arch sticky_source a, [])
  else
    let is_none := bytes_eqb method (bs "none") in
    ((a, Failure methods), (if is_none then [] else [Count UnsupportedFailed]) ++ [Spend (if is_none then 100 else 5000)]).

(** src/Connection.cxx:850-950, with LazyTranslate() (lines 281-313) *)
Definition NTranslation (cfg : config) (w : world) (session_id payload user method d : bytes)
  (a : account) : noted :=
  let methods := AuthMethods (match cf_authorized_host_keys cfg with [] => false | _ => true end) true in
  let translate (password d : bytes) :=
    match LazyTranslate w user password a with
    | (a, None) => ((a, Die), [Count TranslationErrors; Spend 2000])
    | (a, Some r) =>
        if negb (tr_status_ok r) then
          ((a, Failure []), [Spend 8000; Count (if is_nil password then UnknownFailed else PasswordFailed)])
        else
          let '(a, password_accepted) := ApplyResponse r password a in
          if negb (CheckTranslateResponse r) then ((a, Die), [Count TranslationErrors; Spend 2000])
          else
            also (if password_accepted then [Count PasswordAccepted] else [])
              (NMethod cfg w session_id payload user method d methods password_accepted (tr_arch r)
                 (match tr_site r with Some site => site | None => user end) a)
    end in
  if bytes_eqb method (bs "password") then
    match ReadBool d with
    | None => ((a, Die), [])
    | Some (change_password, d) =>
    match ReadString d with
    | None => ((a, Die), [])
    | Some (password, d) =>
    match ExpectEnd d with
    | None => ((a, Die), [])
    | Some _ =>
        if change_password then ((a, Failure methods), [Count Unsupported])
        else if is_nil password then ((a, Failure methods), [Spend 10000; Count PasswordFailed])
        else also [Spend 1000] (translate password d)
    end end end
  else translate [] d.

(** src/Connection.cxx:788-1169; the counter [Received] is below *)
Definition NUserAuthRequest (cfg : config) (w : world) (session_id payload : bytes) (a : account) : noted :=
  match ReadString payload with
  | None => ((a, Die), [])
  | Some (user, d) =>
  match ReadString d with
  | None => ((a, Die), [])
  | Some (service_name, d) =>
  match ReadString d with
  | None => ((a, Die), [])
  | Some (method, d) =>
      if negb (bytes_eqb service_name (bs "ssh-connection")) then ((a, Failure []), [])
      else if negb (IsValidUsername user) then ((a, Die), [Spend 10000])
      else if cf_translation_server cfg then NTranslation cfg w session_id payload user method d a
      else
        let methods := AuthMethods (match cf_authorized_host_keys cfg with [] => false | _ => true end) false in
        let pw := w_getpwnam w user in
        let a := log_event (AGetpwnam user pw) a in
        match pw with
        | None => ((a, Failure methods), [Count UnknownFailed])
        | Some pw =>
            NMethod cfg w session_id payload user method d methods false ARCH_NONE user (set_passwd pw a)
        end
  end end end.

(** src/Connection.cxx:808-814: before the request waits for anything *)
Definition NReceived (payload : bytes) : list note :=
  match ReadString payload with
  | None => []
  | Some (user, d) =>
  match ReadString d with
  | None => []
  | Some (service_name, d) =>
  match ReadString d with
  | None => []
  | Some _ => [Count Received]
  end end end.

(** ** All connections of the server *)

(** The answer to a request: *)
Inductive answer := Refused | Continue | LoggedIn | Closed.
Definition answer_of (events : list vevent) : answer :=
  match events with
  | VSend (51 :: _) :: _ => Refused      (* USERAUTH_FAILURE *)
  | VSend (60 :: _) :: _ => Continue     (* USERAUTH_PK_OK *)
  | VAuthenticated _ :: _ => LoggedIn
  | _ => Closed
  end.

(** The connections (by number) and the notes; history: the requests which have
    arrived, and those which have been answered. *)
Record minst := {
  mi_servers : N -> server;
  mi_notes : list note;
  mi_arrived : list bytes;
  mi_answered : list (bytes * answer)
}.

(** An event of connection [c]; [sid]: the session ids *)
Definition mi_step (cfg : config) (sid : N -> bytes) (i : minst) (x : N * vop) : minst :=
  let '(c, op) := x in
  let s := mi_servers i c in
  let s' := vstep cfg (sid c) op s in
  let servers n := if n =? c then s' else mi_servers i n in
  match op, sv_alive s, sv_busy s, sv_busy s' with
  | OAuth w, true, Checking payload, _ =>
      {| mi_servers := servers;
         mi_notes := mi_notes i ++ snd (NUserAuthRequest cfg w (sid c) payload (sv_account s));
         mi_arrived := mi_arrived i;
         mi_answered := mi_answered i ++ [(payload, answer_of (skipn (List.length (sv_log s)) (sv_log s')))] |}
  | _, true, Idle, Checking payload =>
      {| mi_servers := servers; mi_notes := mi_notes i ++ NReceived payload;
         mi_arrived := mi_arrived i ++ [payload]; mi_answered := mi_answered i |}
  | _, _, _, _ =>
      {| mi_servers := servers; mi_notes := mi_notes i; mi_arrived := mi_arrived i; mi_answered := mi_answered i |}
  end.

Definition mi_run (cfg : config) (sid peers : N -> bytes) (ops : list (N * vop)) : minst :=
  fold_left (mi_step cfg sid) ops
    {| mi_servers := fun c => new_server (peers c); mi_notes := []; mi_arrived := []; mi_answered := [] |}.
