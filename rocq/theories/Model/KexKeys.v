(** Model of src/ssh/KexHash.cxx and src/ssh/KexState.cxx: the exchange hash
    and the derived keys. *)

From Coq Require Import NArith List Bool.
From Verif.Base Require Import Bytes.
From Verif.Model Require Import Wire Negotiate.
Import ListNotations.
Open Scope N_scope.

(** src/ssh/KexHash.cxx:13-55 CalcKexHash(): the concatenation of the spans
    which are passed to Digest().  ToBE32() truncates the size to 32 bits. *)
Definition KexHashInput (client_version server_version client_kexinit server_kexinit
  server_host_key_blob client_ephemeral_public_key server_ephemeral_public_key
  shared_secret : bytes) : bytes :=
  put_u32 (len client_version) ++ client_version ++
  put_u32 (len server_version) ++ server_version ++
  put_u32 (len client_kexinit + 1) ++ [20] ++ client_kexinit ++
  put_u32 (len server_kexinit + 1) ++ [20] ++ server_kexinit ++
  put_u32 (len server_host_key_blob) ++ server_host_key_blob ++
  put_u32 (len client_ephemeral_public_key) ++ client_ephemeral_public_key ++
  put_u32 (len server_ephemeral_public_key) ++ server_ephemeral_public_key ++
  shared_secret.

(** src/ssh/KexState.cxx:14-37 DeriveKey(): the loop in lines 29-34.
    [buffer] is [digest_buffer.first(position)].  [None]: write behind the
    end of [digest_buffer] (DIGEST_MAX_SIZE), or the loop does not end
    because the digest is empty. *)
Fixpoint DeriveKey_loop (digest : bytes -> bytes) (fuel : nat) (need : N)
  (hash shared_secret buffer : bytes) : option bytes :=
  if len buffer <? need then
    match fuel with
    | O => None
    | S fuel =>
        let d := digest (shared_secret ++ hash ++ buffer) in
        if 64 <? len buffer + len d then None
        else DeriveKey_loop digest fuel need hash shared_secret (buffer ++ d)
    end
  else Some buffer.

Definition DeriveKey (digest : bytes -> bytes) (id need : N)
  (hash shared_secret session_id : bytes) : option bytes :=
  let d := digest (shared_secret ++ hash ++ [id] ++ session_id) in
  if 64 <? len d then None
  else DeriveKey_loop digest (N.to_nat need) need hash shared_secret d.

(** src/ssh/KexState.hxx:21-23 struct NewKey *)
Record NewKey := { enc_iv : bytes; enc_key : bytes; mac_key : bytes }.

(** src/ssh/KexState.hxx:25 std::array<NewKey, 2> new_keys, indexed by Direction *)
Record NewKeys := { nk_incoming : NewKey; nk_outgoing : NewKey }.

Definition no_key : NewKey := {| enc_iv := []; enc_key := []; mac_key := [] |}.
Definition no_keys : NewKeys := {| nk_incoming := no_key; nk_outgoing := no_key |}.

(** src/ssh/KexState.hxx:29 we_need *)
Definition we_need : N := 64.

(** src/ssh/KexState.cxx:66-72 the loop body which picks the keys for one
    direction.  The array is addressed by position. *)
Definition pick_keys (role : Role) (direction : Direction) (keys : list bytes) : NewKey :=
  let ctos := (negb (is_server role) && match direction with OUTGOING => true | INCOMING => false end)
              || (is_server role && match direction with INCOMING => true | OUTGOING => false end) in
  {| enc_iv := nth (if ctos then 0 else 1)%nat keys [];
     enc_key := nth (if ctos then 2 else 3)%nat keys [];
     mac_key := nth (if ctos then 4 else 5)%nat keys [] |}.

(** all six DeriveKey() calls, src/ssh/KexState.cxx:58-62; ids 'A'..'F' *)
Fixpoint derive_all (digest : bytes -> bytes) (ids : list N) (hash shared_secret session_id : bytes)
  : option (list bytes) :=
  match ids with
  | [] => Some []
  | id :: ids =>
      let* k := DeriveKey digest id we_need hash shared_secret session_id in
      let* l := derive_all digest ids hash shared_secret session_id in
      Some (k :: l)
  end.

(** src/ssh/KexState.cxx:39-73 DeriveKeys(): the new session id and the new
    keys.  [None] is an exception (or the failures of [DeriveKey]). *)
Definition DeriveKeys (digest : bytes -> bytes) (session_id hash shared_secret : bytes)
  (role : Role) (kex_initial : bool) : option (bytes * NewKeys) :=
  let* session_id :=
    (if kex_initial then
       if negb (len session_id =? 0) then None (* "Duplicate session ID" *)
       else Some hash
     else
       if len session_id =? 0 then None (* "No session ID" *)
       else Some session_id) in
  let* keys := derive_all digest [65; 66; 67; 68; 69; 70] hash shared_secret session_id in
  Some (session_id, {| nk_incoming := pick_keys role INCOMING keys;
                       nk_outgoing := pick_keys role OUTGOING keys |}).

(** src/ssh/KexState.cxx:75-86 KexState::MakeCipher() *)
Definition KexState_MakeCipher (new_keys : NewKeys) (encryption_algorithms mac_algorithms : bytes)
  (direction : Direction) : option (option cipher) :=
  let k := match direction with INCOMING => nk_incoming new_keys | OUTGOING => nk_outgoing new_keys end in
  MakeCipher encryption_algorithms mac_algorithms (enc_key k) (enc_iv k) (mac_key k)
    (match direction with OUTGOING => true | INCOMING => false end).
