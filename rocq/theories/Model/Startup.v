(** Model of the keys which the server loads when it starts:
    src/Main.cxx:53-110, src/key/LoadFile.cxx, src/Listener.cxx:109-135 (the
    keys of a listener), src/key/Fingerprint.cxx.

    Files are what open(), fstat() and read() say about them.  Contract of
    FileDescriptor::Read(): the beginning of the file, as much as fits.
    The new keys (Ed25519Key::Generate etc.) are parameters. *)

From Coq Require Import NArith List Bool String.
From Verif.Base Require Import Bytes.
From Verif.Model Require Import Wire KeyOptions Keys KeyList.
Import ListNotations.
Open Scope N_scope.

(** an open file: [None] if fstat() fails, else S_ISREG(st_mode) and st_size;
    [None] if read() fails, else the contents *)
Record file := { f_stat : option (bool * N); f_data : option bytes }.

(** UniqueFileDescriptor::OpenReadOnly(): ENOENT, another error, success *)
Inductive opened := Missing | Refused | Opened (f : file).

Definition BUFFER : N := 32768.

(** src/key/LoadFile.cxx:18-40 LoadKeyFile(); [None] is an exception *)
Definition LoadKeyFile (c : crypto) (f : file) : option Keys.secret_key :=
  match f_stat f with
  | None => None
  | Some (regular, size) =>
      if negb regular then None
      else if BUFFER <? size then None
      else
        match f_data f with
        | None => None
        | Some data => ParseSecretKey c (firstn (N.to_nat BUFFER) data)
        end
  end.

(** src/Main.cxx:53-66 LoadOptionalKeyFile() *)
Definition LoadOptionalKeyFile (c : crypto) (o : opened) : option (option Keys.secret_key) :=
  match o with
  | Missing => Some None
  | Refused => None
  | Opened f => match LoadKeyFile c f with Some k => Some (Some k) | None => None end
  end.

(** src/Main.cxx:73-79 *)
Definition host_key_filenames (c : crypto) : list bytes :=
  bs "host_ed25519_key" :: (if c_openssl c then [bs "host_ecdsa_key"; bs "host_rsa_key"] else []).

(** the loop in src/Main.cxx:81-83 *)
Fixpoint load_files (c : crypto) (dir : bytes -> opened) (names : list bytes) : option (list Keys.secret_key) :=
  match names with
  | [] => Some []
  | n :: r =>
      match LoadOptionalKeyFile c (dir n) with
      | None => None
      | Some k =>
          match load_files c dir r with
          | None => None
          | Some ks => Some (match k with Some k => k :: ks | None => ks end)
          end
      end
  end.

(** src/Main.cxx:68-94 LoadHostKeys(); the keys in the order of Add() *)
Definition LoadHostKeys (c : crypto) (dir : bytes -> opened) (generated : list Keys.secret_key) : option (list Keys.secret_key) :=
  match load_files c dir (host_key_filenames c) with
  | None => None
  | Some [] => Some generated
  | Some keys => Some keys
  end.

(** src/Main.cxx:96-107 LoadGlobalAuthorizedKeys(); [base64] as in
    Model/KeyOptions.v *)
Definition LoadGlobalAuthorizedKeys (openssl : bool) (base64 : bytes -> option bytes) (dir : bytes -> opened) : option key_set :=
  match dir (bs "authorized_keys") with
  | Opened f => match f_data f with Some data => Some (LoadPublicKeysTextFile base64 openssl [] data) | None => None end
  | _ => Some []
  end.

(** src/Listener.cxx:114-116 *)
Definition listener_keys (own global : list Keys.secret_key) : list Keys.secret_key :=
  match own with [] => global | _ :: _ => own end.

(** SecretKeyList: the pointers to keys are their numbers *)
Fixpoint numbered (i : N) (keys : list Keys.secret_key) : list KeyList.secret_key :=
  match keys with
  | [] => []
  | k :: r => {| sk_id := i; sk_algorithms := GetAlgorithms (public_of k) |} :: numbered (i + 1) r
  end.

(** src/Connection.cxx:191, src/ssh/SimpleHostKeyChooser.cxx:11-20: the key
    and the algorithm for a client's list of algorithms *)
Definition PresentedKey (keys : list Keys.secret_key) (peer : bytes) : option (Keys.secret_key * bytes) :=
  match Choose (load (numbered 0 keys)) peer with
  | Some (k, a) => match nth_error keys (N.to_nat (sk_id k)) with Some k => Some (k, a) | None => None end
  | None => None
  end.
