(** Model of the log messages of a connection (src/Connection.cxx:208-270,
    788-1170, 1260-1361, 1435-1458): which line is written when, and
    what its text is made of.

    Model/Auth.v and Model/Server.v have everything else; this adds the calls
    of LogFmt() and logger with level 1.  Messages of levels above 1, those
    of session channels and listeners, "Userauth tarpit" (Model/Tarpit.v) and
    the copy for the Pond daemon are left out. *)

From Coq Require Import NArith List Bool String.
From Verif.Base Require Import Bytes.
From Verif.Model Require Import Wire Packets StringList KeyOptions Auth Session Server.
Import ListNotations.
Open Scope N_scope.

(** The messages. *)
Inductive line :=
| LUserauth (user service method : bytes)     (* 816-817 *)
| LRejected (user : bytes)                    (* 890-893 *)
| LFailedPassword (user : bytes)              (* 895-898 *)
| LTranslationError                           (* 301, 935 *)
| LBadKey                                     (* 992, 1066 *)
| LBadSignature                               (* 1024, 1086 *)
| LAcceptedKey (user blob : bytes)            (* 1034-1036 *)
| LAddress (address : bytes)                  (* 1105 *)
| LBadAddress (address : bytes)               (* 1114-1115 *)
| LAcceptedHost (user blob : bytes)           (* 1123-1125 *)
| LAcceptedPassword (user : bytes)            (* 1130-1131 *)
| LProxy (address : bytes)                    (* 1155 *)
| LError                                      (* an exception: 1319, 1356 *)
| LDisconnecting                              (* 1276; its argument is a literal of this program *)
| LClientDisconnected (description : bytes)   (* 1312 *)
| LTimeout                                    (* 1328 *)
| LTerminating                                (* 221 *)
| LOutgoing (by_us : bool) (message : bytes)  (* 1441, 1455 *)
| LDisconnected.                              (* 213 *)

(** ** The lines of an authentication request *)

(** the try blocks 1010-1028 and 1072-1090 *)
Definition VerifyLines (cfg : config) (session_id blob to_be_signed signature : bytes) (accepted : list line) : list line :=
  match ToBeVerified session_id to_be_signed with
  | Some m =>
      match cf_verify cfg blob m signature with
      | Some true => accepted
      | Some false => []
      | None => [LBadSignature]
      end
  | None => [LBadSignature]
  end.

(** src/Connection.cxx:968-1036 *)
Definition PublicKeyLines (cfg : config) (w : world) (session_id payload user d : bytes) (a : account) : list line :=
  match ReadBool d with
  | None => []
  | Some (with_signature, d) =>
  match ReadString d with
  | None => []
  | Some (_, d) =>
  match ReadLengthEncoded d with
  | None => []
  | Some (blob, d) =>
      if negb (snd (IsAcceptedPublicKey cfg w blob a)) then []
      else if negb (cf_parse_key cfg blob) then [LBadKey]
      else if negb with_signature then []
      else
        let to_be_signed := DSince payload d in
        match ReadLengthEncoded d with
        | None => []
        | Some (signature, d) =>
        match ExpectEnd d with
        | None => []
        | Some _ => VerifyLines cfg session_id blob to_be_signed signature [LAcceptedKey user blob]
        end end
  end end end.

(** src/Connection.cxx:1092-1118 *)
Definition AddressLines (cfg : config) (client_user_name : bytes) : list line :=
  if cf_accept_client_address cfg then
    let '(user_name, address) := Split client_user_name 64 in
    if negb (is_nil user_name) && negb (is_nil address) then
      match cf_parse_address cfg (c_str address) with
      | Some _ => [LAddress address]
      | None => [LBadAddress address]
      end
    else []
  else [].

(** src/Connection.cxx:1037-1125 *)
Definition HostbasedLines (cfg : config) (session_id payload user d : bytes) (a : account) : list line :=
  match ReadString d with
  | None => []
  | Some (_, d) =>
  match ReadLengthEncoded d with
  | None => []
  | Some (blob, d) =>
  match ReadString d with
  | None => []
  | Some (_, d) =>
  match ReadString d with
  | None => []
  | Some (client_user_name, d) =>
      let to_be_signed := DSince payload d in
      match ReadLengthEncoded d with
      | None => []
      | Some (signature, d) =>
      match ExpectEnd d with
      | None => []
      | Some _ =>
          if negb (snd (IsAcceptedHostPublicKey cfg blob a)) then []
          else if negb (cf_parse_key cfg blob) then [LBadKey]
          else VerifyLines cfg session_id blob to_be_signed signature
                 (AddressLines cfg client_user_name ++ [LAcceptedHost user blob])
      end end
  end end end end.

(** src/Connection.cxx:968-1141 *)
Definition MethodLines (cfg : config) (w : world) (session_id payload user method d : bytes)
  (password_accepted : bool) (a : account) : list line :=
  if bytes_eqb method (bs "publickey") then PublicKeyLines cfg w session_id payload user d a
  else if bytes_eqb method (bs "hostbased") then HostbasedLines cfg session_id payload user d a
  else if password_accepted then [LAcceptedPassword user]
  else [].

(** src/Connection.cxx:848-948, with LazyTranslate() (281-313) *)
Definition TranslationLines (cfg : config) (w : world) (session_id payload user method d : bytes)
  (a : account) : list line :=
  let translate (password d : bytes) :=
    match LazyTranslate w user password a with
    | (_, None) => [LTranslationError]
    | (a, Some r) =>
        if negb (tr_status_ok r) then
          if is_nil password then [LRejected user] else [LFailedPassword user]
        else
          let '(a, password_accepted) := ApplyResponse r password a in
          if negb (CheckTranslateResponse r) then [LTranslationError]
          else MethodLines cfg w session_id payload user method d password_accepted a
    end in
  if bytes_eqb method (bs "password") then
    match ReadBool d with
    | None => []
    | Some (change_password, d) =>
    match ReadString d with
    | None => []
    | Some (password, d) =>
    match ExpectEnd d with
    | None => []
    | Some _ => if change_password then [] else if is_nil password then [] else translate password d
    end end end
  else translate [] d.

(** src/Connection.cxx:788-1141 *)
Definition RequestLines (cfg : config) (w : world) (session_id payload : bytes) (a : account) : list line :=
  match ReadString payload with
  | None => []
  | Some (user, d) =>
  match ReadString d with
  | None => []
  | Some (service_name, d) =>
  match ReadString d with
  | None => []
  | Some (method, d) =>
      LUserauth user service_name method ::
      if negb (bytes_eqb service_name (bs "ssh-connection")) then []
      else if negb (IsValidUsername user) then []
      else if cf_translation_server cfg then TranslationLines cfg w session_id payload user method d a
      else
        match w_getpwnam w user with
        | None => []
        | Some pw =>
            MethodLines cfg w session_id payload user method d false
              (set_passwd pw (log_event (AGetpwnam user (Some pw)) a))
        end
  end end end.

(** ** Text *)

(** what is not known about the library: which bytes above 127 the format
    library takes for printable, how a logger writes its domain before a
    message, and what type and fingerprint a key has *)
Record texts := {
  tx_printable : N -> bool;
  tx_prefix : bytes -> bytes;
  tx_key : bytes -> bytes
}.

Definition hex_digit (n : N) : N := if n <? 10 then 48 + n else 87 + n.

(** the format "{:?}" of one byte.  Simplification: fmt decodes UTF-8 and asks
    for code points. *)
Definition escape (x : texts) (c : N) : bytes :=
  if c =? 10 then [92; 110]
  else if c =? 13 then [92; 114]
  else if c =? 9 then [92; 116]
  else if (c =? 34) || (c =? 92) then [92; c]
  else if (32 <=? c) && (c <? 127) || (127 <? c) && tx_printable x c then [c]
  else [92; 120; hex_digit (c / 16); hex_digit (c mod 16)].

Definition quote (x : texts) (s : bytes) : bytes := 34 :: flat_map (escape x) s ++ [34].

(** the formats of the lines cited above.  Simplification: the text of an
    exception, the message of the translation server and the literal argument
    of "Disconnecting" are left out. *)
Definition format (x : texts) (l : line) : bytes :=
  match l with
  | LUserauth user service method =>
      bs "Userauth " ++ quote x user ++ bs " service=" ++ quote x service ++ bs " method=" ++ quote x method
  | LRejected user => bs "Rejected auth for user " ++ quote x user
  | LFailedPassword user => bs "Failed password for user " ++ quote x user
  | LTranslationError => bs "Translation server error"
  | LBadKey => bs "Failed to parse the client's public key"
  | LBadSignature => bs "Failed to verify the client's public key"
  | LAcceptedKey user blob => bs "Accepted publickey for " ++ quote x user ++ bs ": " ++ tx_key x blob
  | LAddress address => bs "Accepted client address " ++ quote x address ++ bs " from proxy"
  | LBadAddress address => bs "Failed to parse client address " ++ quote x address
  | LAcceptedHost user blob => bs "Accepted hostkey for " ++ quote x user ++ bs ": " ++ tx_key x blob
  | LAcceptedPassword user => bs "Accepted password for " ++ quote x user
  | LProxy address => bs "Proxy to " ++ address ++ [10]
  | LError => bs "Error"
  | LDisconnecting => bs "Disconnecting"
  | LClientDisconnected description => bs "Client disconnected: " ++ description
  | LTimeout => bs "Authentication timeout"
  | LTerminating => bs "Terminating connection"
  | LOutgoing true message => bs "Disconnecting outgoing: " ++ message
  | LOutgoing false message => bs "Outgoing server disconnected: " ++ message
  | LDisconnected => bs "Disconnected"
  end.

(** src/Connection.cxx:231-247 LogVFmt(): VFmtBuffer<2048>, one message per
    line.  Simplification: the limit is applied to all messages. *)
Definition LINE_MAX : nat := N.to_nat 2048.
Definition written (x : texts) (e : bytes * line) : bytes :=
  tx_prefix x (fst e) ++ firstn LINE_MAX (format x (snd e)) ++ [10].

Definition log_text (x : texts) (l : list (bytes * line)) : bytes := flat_map (written x) l.

(** ** The connection *)

(** [au_domain]: the logger's domain; [au_flag]: log_disconnect
    (src/Connection.hxx:114); [au_gone]: the object has been deleted *)
Record audit := {
  au_server : server;
  au_domain : bytes;
  au_flag : bool;
  au_gone : bool;
  au_lines : list (bytes * line)
}.

Definition new_audit (peer_address domain : bytes) : audit := {|
  au_server := new_server peer_address; au_domain := domain; au_flag := true; au_gone := false; au_lines := [] |}.

Definition with_server (v : server) (s : audit) : audit := {|
  au_server := v; au_domain := au_domain s; au_flag := au_flag s; au_gone := au_gone s; au_lines := au_lines s |}.

(** src/Connection.cxx:1112 and 1145: the domain after this line *)
Definition next_domain (x : texts) (l : line) (domain : bytes) : bytes :=
  match l with
  | LAddress address => address
  | LAcceptedKey user _ | LAcceptedHost user _ | LAcceptedPassword user => domain ++ bs " user=" ++ quote x user
  | _ => domain
  end.

Definition say (x : texts) (s : audit) (l : line) : audit := {|
  au_server := au_server s; au_domain := next_domain x l (au_domain s); au_flag := au_flag s; au_gone := au_gone s;
  au_lines := au_lines s ++ [(au_domain s, l)] |}.

(** [if (log_disconnect) { log_disconnect = false; ... }] *)
Definition end_line (x : texts) (l : line) (s : audit) : audit :=
  if au_flag s then
    let s := say x s l in
    {| au_server := au_server s; au_domain := au_domain s; au_flag := false; au_gone := au_gone s; au_lines := au_lines s |}
  else s.

(** src/Connection.cxx:208-214 ~Connection() *)
Definition destroy (x : texts) (s : audit) : audit :=
  let s := if au_flag s then say x s LDisconnected else s in
  {| au_server := au_server s; au_domain := au_domain s; au_flag := au_flag s; au_gone := true; au_lines := au_lines s |}.

Inductive gop :=
| GOp (op : vop) (fault : bool)                    (* fault: if this ends the connection, it is by an exception
                                                      which is not Disconnect *)
| GTerminate                                       (* Terminate() *)
| GOutgoing (by_us : bool) (message : bytes)       (* OnOutgoingDisconnecting(), OnOutgoingDisconnected() *)
| GDestroy.                                        (* the connection is closed and deleted *)

(** the lines of the statement which has run: OnUserAuthRequest(), and line
    1155 of it after the outgoing connection was made *)
Definition op_lines (cfg : config) (session_id : bytes) (op : vop) (v : server) : list line :=
  if sv_alive v then
    match op, sv_busy v with
    | OAuth w, Checking payload => RequestLines cfg w session_id payload (sv_account v)
    | OConnected true, Connecting address => [LProxy address]
    | _, _ => []
    end
  else [].

(** how the end of the connection is logged: OnDisconnected() (lines
    1307-1314, called by src/ssh/Connection.cxx:446-453 HandleDisconnect(),
    which deletes the connection), OnAuthTimeout() (1324-1334), Dispose() and
    OnOutgoingError() (1337-1361), otherwise DoDisconnect() with
    OnDisconnecting() (1261-1277) or CloseError() with OnBufferedError()
    (1317-1321) *)
Definition ended (x : texts) (op : vop) (fault : bool) (s : audit) : audit :=
  match op with
  | OPacket msg payload _ =>
      if msg =? MSG_DISCONNECT then
        match ParseDisconnect payload with
        | Some d => destroy x (end_line x (LClientDisconnected (disconnect_description d)) s)
        | None => end_line x LDisconnecting s
        end
      else if fault then destroy x (say x s LError)
      else end_line x LDisconnecting s
  | OTimeout => end_line x LTimeout s
  | OOutgoingEnd => end_line x LDisconnecting (if fault then say x s LError else s)
  | OClose => destroy x (if fault then say x s LError else s)
  | _ => if fault then destroy x (say x s LError) else end_line x LDisconnecting s
  end.

Definition gstep (cfg : config) (x : texts) (session_id : bytes) (op : gop) (s : audit) : audit :=
  if au_gone s then s
  else
    match op with
    | GOp op fault =>
        let v := au_server s in
        let v' := vstep cfg session_id op v in
        let s := with_server v' (fold_left (say x) (op_lines cfg session_id op v) s) in
        if sv_alive v && negb (sv_alive v') then ended x op fault s else s
    | GTerminate => with_server (vstep cfg session_id OClose (au_server s)) (end_line x LTerminating s)
    | GOutgoing by_us message =>
        if sv_outgoing (au_server s) then end_line x (LOutgoing by_us message) s else s
    | GDestroy => destroy x (with_server (vstep cfg session_id OClose (au_server s)) s)
    end.

Definition grun (cfg : config) (x : texts) (session_id peer_address domain : bytes) (ops : list gop) : audit :=
  fold_left (fun s op => gstep cfg x session_id op s) ops (new_audit peer_address domain).
