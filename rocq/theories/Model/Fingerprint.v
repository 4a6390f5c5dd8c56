(** Model of src/key/Fingerprint.cxx and of the text with which the log shows
    a key (src/Connection.cxx:1034-1036, 1123-1125). *)

From Coq Require Import NArith List Bool String.
From Verif.Base Require Import Bytes.
From Verif.Model Require Import Wire KeyOptions Keys.
Import ListNotations.
Open Scope N_scope.

(** libsodium's sodium_bin2base64(), which SodiumBase64 (libcommon, not part
    of the repository) calls; [padded]: whether its variant is one with
    padding, which is not known *)
Definition base64_char (n : N) : N :=
  if n <? 26 then 65 + n
  else if n <? 52 then 71 + n
  else if n <? 62 then n - 4
  else if n =? 62 then 43
  else 47.

Fixpoint base64 (padded : bool) (src : bytes) : bytes :=
  match src with
  | a :: b :: c :: rest =>
      base64_char (a / 4) :: base64_char (a mod 4 * 16 + b / 16) :: base64_char (b mod 16 * 4 + c / 64) ::
      base64_char (c mod 64) :: base64 padded rest
  | [a; b] =>
      [base64_char (a / 4); base64_char (a mod 4 * 16 + b / 16); base64_char (b mod 16 * 4)] ++
      (if padded then [61] else [])
  | [a] => [base64_char (a / 4); base64_char (a mod 4 * 16)] ++ (if padded then [61; 61] else [])
  | [] => []
  end.

(** src/key/Fingerprint.cxx:16-27 GetFingerprint() *)
Definition GetFingerprint (c : crypto) (padded : bool) (key : public_key) : bytes :=
  match SerializePublic [] key with
  | Some s => bs "SHA256:" ++ base64 padded (c_digest c SHA256 s)
  | None => bs "ERROR"
  end.

(** src/Connection.cxx:1036, 1125: "{} {}" with GetType() and GetFingerprint()
    of the key which ParsePublicKeyBlob() has returned (988-994, 1062-1068).
    [None] does not reach these lines. *)
Definition KeyText (c : crypto) (padded : bool) (blob : bytes) : bytes :=
  match ParsePublicKeyBlob c blob with
  | Some key => GetType key ++ [32] ++ GetFingerprint c padded key
  | None => []
  end.
