(** Model of the time at which src/Connection.cxx:788-1141
    OnUserAuthRequest() answers, and of what it takes from the client's token
    bucket.

    Model/Auth.v says what the answer is; the functions below repeat its
    control flow and add the time ([Proofs/DelayFacts.v] shows that they give
    the same answer).  Times are in milliseconds, amounts of the token bucket
    in thousandths of a token.  What the outside world needs for its answers
    is given by a [latency]; computing takes no time, except for the
    verification of signatures.

    Contract of libcommon: Co::LazySleep is resumed when the given duration
    has passed since its construction, at once if it has passed already;
    otherwise the event loop may be late.  Co::Sleep begins when it is
    awaited. *)

From Coq Require Import NArith List Bool String.
From Verif.Base Require Import Bytes.
From Verif.Model Require Import Wire Packets StringList KeyOptions Auth.
Import ListNotations.
Open Scope N_scope.

Record latency := {
  lt_tarpit : N;                            (* accounting.GetDelay() *)
  lt_translate : bytes -> bytes -> N;       (* TranslateLogin() *)
  lt_getpwnam : bytes -> N;
  lt_open : bytes -> N;                     (* OpenHome(), TryOpenReadOnlyBeneath() *)
  lt_delegate : identity -> N;              (* DelegateOpen() *)
  lt_verify : bytes -> N;                   (* PublicKey::Verify() with this key *)
  lt_late : N                               (* by how much a timer is late *)
}.

Record reply := {
  r_account : account;
  r_outcome : outcome;
  r_time : N;
  r_cost : N          (* accounting.UpdateTokenBucket() *)
}.
Definition mk_reply (a : account) (o : outcome) (t c : N) : reply :=
  {| r_account := a; r_outcome := o; r_time := t; r_cost := c |}.

(** src/Connection.cxx:803-806 fail_sleep; [t0] is the time of its
    construction *)
Definition FAIL_DELAY : N := 100.
Definition fail_sleep (l : latency) (t0 t : N) : N :=
  if t0 + FAIL_DELAY <=? t then t else t0 + FAIL_DELAY + lt_late l.

(** src/Connection.cxx:484-505 OpenInHome() *)
Definition open_time (l : latency) (w : world) (a : account) : N :=
  let delegate :=
    if ac_allow_sftp a then match HelperIdentity a with Some i => lt_delegate l i | None => 0 end else 0 in
  match GetHome a with
  | Some home =>
      lt_open l home +
      match w_open w home with
      | Opened _ | NotOpened => 0
      | NoHome | Denied => delegate
      end
  | None => delegate
  end.

(** src/Connection.cxx:567-601 IsAcceptedPublicKey(): the keys of the
    translation response, the global keys, then the home directory *)
Definition keys_time (cfg : config) (l : latency) (w : world) (blob : bytes) (a : account) : N :=
  let in_response :=
    match response_of a with
    | Some r =>
        match tr_authorized_keys r with
        | Some text =>
            match PublicKeysTextContains (cf_base64 cfg) (cf_openssl cfg) text blob with
            | Some _ => true
            | None => false
            end
        | None => false
        end
    | None => false
    end in
  if in_response then 0
  else match Find (cf_global_keys cfg) blob with
       | Some _ => 0
       | None => if ShouldLoadHomeAuthorizedKeys a then open_time l w a else 0
       end.

(** src/Connection.cxx:281-313 LazyTranslate() *)
Definition translate_time (l : latency) (user password : bytes) (a : account) : N :=
  match ac_translation a with
  | Some (u, _) => if is_nil password && bytes_eqb user u then 0 else lt_translate l user password
  | None => lt_translate l user password
  end.

(** src/Connection.cxx:1007-1030 and 1071-1092, the [try] block: [None] is an exception *)
Definition VerifyAnswer (cfg : config) (session_id blob to_be_signed signature : bytes) : option bool :=
  match ToBeVerified session_id to_be_signed with
  | Some m => cf_verify cfg blob m signature
  | None => None
  end.

(** src/Connection.cxx:968-1036 method "publickey" *)
Definition TAuthPublicKey (cfg : config) (l : latency) (w : world) (session_id payload user d methods : bytes)
  (arch : N) (sticky_source : bytes) (t0 t c : N) (a : account) : reply :=
  match ReadBool d with
  | None => mk_reply a Die t c
  | Some (with_signature, d) =>
  match ReadString d with
  | None => mk_reply a Die t c
  | Some (algorithm, d) =>
  match ReadLengthEncoded d with
  | None => mk_reply a Die t c
  | Some (blob, d) =>
      let c := c + 200 in
      let t := t + keys_time cfg l w blob a in
      match IsAcceptedPublicKey cfg w blob a with
      | (a, false) => mk_reply a (Failure methods) (fail_sleep l t0 t) c
      | (a, true) =>
          if negb (cf_parse_key cfg blob) then mk_reply a (Failure methods) t c
          else if negb with_signature then
            match ExpectEnd d with
            | None => mk_reply a Die t c
            | Some _ => mk_reply a (PkOk algorithm blob) t c
            end
          else
            let to_be_signed := DSince payload d in
            match ReadLengthEncoded d with
            | None => mk_reply a Die t c
            | Some (signature, d) =>
                match ExpectEnd d with
                | None => mk_reply a Die t c
                | Some _ =>
                    let t := t + lt_verify l blob in
                    match VerifyAnswer cfg session_id blob to_be_signed signature with
                    | Some true =>
                        let '(a, o) := Login cfg user arch sticky_source a in mk_reply a o t c
                    | Some false => mk_reply a (Failure methods) (fail_sleep l t0 t) c
                    | None => mk_reply a (Failure methods) t c
                    end
                end
            end
      end
  end end end.

(** src/Connection.cxx:1037-1125 method "hostbased" *)
Definition TAuthHostbased (cfg : config) (l : latency) (session_id payload user d methods : bytes)
  (arch : N) (sticky_source : bytes) (t0 t c : N) (a : account) : reply :=
  match ReadString d with
  | None => mk_reply a Die t c
  | Some (algorithm, d) =>
  match ReadLengthEncoded d with
  | None => mk_reply a Die t c
  | Some (blob, d) =>
  match ReadString d with
  | None => mk_reply a Die t c
  | Some (client_host_name, d) =>
  match ReadString d with
  | None => mk_reply a Die t c
  | Some (client_user_name, d) =>
      let to_be_signed := DSince payload d in
      match ReadLengthEncoded d with
      | None => mk_reply a Die t c
      | Some (signature, d) =>
          match ExpectEnd d with
          | None => mk_reply a Die t c
          | Some _ =>
              match IsAcceptedHostPublicKey cfg blob a with
              | (a, false) => mk_reply a (Failure methods) (fail_sleep l t0 t) (c + 10000)
              | (a, true) =>
                  if negb (cf_parse_key cfg blob) then mk_reply a (Failure methods) t c
                  else
                    let t := t + lt_verify l blob in
                    match VerifyAnswer cfg session_id blob to_be_signed signature with
                    | Some true =>
                        let a :=
                          if cf_accept_client_address cfg then
                            let '(user_name, address) := Split client_user_name 64 in
                            if negb (is_nil user_name) && negb (is_nil address) then
                              match cf_parse_address cfg (c_str address) with
                              | Some p => set_peer_address p a
                              | None => a
                              end
                            else a
                          else a in
                        let '(a, o) := Login cfg user arch sticky_source (set_hostbased a) in mk_reply a o t c
                    | Some false | None => mk_reply a (Failure methods) t c
                    end
              end
          end
      end
  end end end end.

(** src/Connection.cxx:968-1141 the methods *)
Definition TAuthMethod (cfg : config) (l : latency) (w : world) (session_id payload user method d methods : bytes)
  (password_accepted : bool) (arch : N) (sticky_source : bytes) (t0 t c : N) (a : account) : reply :=
  if bytes_eqb method (bs "publickey") then
    TAuthPublicKey cfg l w session_id payload user d methods arch sticky_source t0 t c a
  else if bytes_eqb method (bs "hostbased") then
    TAuthHostbased cfg l session_id payload user d methods arch sticky_source t0 t c a
  else if password_accepted then
    let '(a, o) := Login cfg user arch sticky_source a in mk_reply a o t c
  else
    mk_reply a (Failure methods) (fail_sleep l t0 t)
      (c + (if bytes_eqb method (bs "none") then 100 else 5000)).

(** src/Connection.cxx:851-949 with a translation server *)
Definition TAuthTranslation (cfg : config) (l : latency) (w : world) (session_id payload user method d : bytes)
  (t0 t c : N) (a : account) : reply :=
  let methods := AuthMethods (match cf_authorized_host_keys cfg with [] => false | _ => true end) true in
  let translate (password d : bytes) (c : N) :=
    let t := t + translate_time l user password a in
    match LazyTranslate w user password a with
    | (a, None) => mk_reply a Die t c
    | (a, Some r) =>
        if negb (tr_status_ok r) then mk_reply a (Failure []) (fail_sleep l t0 t) (c + 8000)
        else
          let '(a, password_accepted) := ApplyResponse r password a in
          if negb (CheckTranslateResponse r) then mk_reply a Die t (c + 2000)
          else
            TAuthMethod cfg l w session_id payload user method d methods password_accepted (tr_arch r)
              (match tr_site r with Some site => site | None => user end) t0 t c a
    end in
  if bytes_eqb method (bs "password") then
    match ReadBool d with
    | None => mk_reply a Die t c
    | Some (change_password, d) =>
    match ReadString d with
    | None => mk_reply a Die t c
    | Some (password, d) =>
    match ExpectEnd d with
    | None => mk_reply a Die t c
    | Some _ =>
        if change_password then mk_reply a (Failure methods) t c
        else if is_nil password then mk_reply a (Failure methods) t (c + 10000)
        else translate password d (c + 1000)
    end end end
  else translate [] d c.

(** src/Connection.cxx:788-1141 OnUserAuthRequest(); the request is received
    at the time [t0] *)
Definition TOnUserAuthRequest (cfg : config) (l : latency) (w : world) (session_id payload : bytes) (t0 : N) (a : account)
  : reply :=
  match ReadString payload with
  | None => mk_reply a Die t0 0
  | Some (user, d) =>
  match ReadString d with
  | None => mk_reply a Die t0 0
  | Some (service_name, d) =>
  match ReadString d with
  | None => mk_reply a Die t0 0
  | Some (method, d) =>
      let t := t0 + lt_tarpit l in
      if negb (bytes_eqb service_name (bs "ssh-connection")) then mk_reply a (Failure []) t 0
      else if negb (IsValidUsername user) then mk_reply a Die t 10000
      else if cf_translation_server cfg then TAuthTranslation cfg l w session_id payload user method d t0 t 0 a
      else
        let methods := AuthMethods (match cf_authorized_host_keys cfg with [] => false | _ => true end) false in
        let pw := w_getpwnam w user in
        let a := log_event (AGetpwnam user pw) a in
        let t := t + lt_getpwnam l user in
        match pw with
        | None => mk_reply a (Failure methods) (fail_sleep l t0 t) 0
        | Some pw =>
            TAuthMethod cfg l w session_id payload user method d methods false ARCH_NONE user t0 t 0 (set_passwd pw a)
        end
  end end end.
