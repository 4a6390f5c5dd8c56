(** Model of src/openssl/SerializeBN.cxx and src/openssl/DeserializeBN.cxx.
    An OpenSSL BIGNUM (non-negative) is its value, an [N]. *)

From Coq Require Import NArith List Bool.
From Verif.Base Require Import Bytes.
From Verif.Model Require Import Wire.
Import ListNotations.
Open Scope N_scope.

(** Contract of OpenSSL's BN_bn2bin(): the big-endian bytes of the value
    without leading zero bytes. *)
Fixpoint bn2bin_aux (fuel : nat) (n : N) : bytes :=
  match fuel with
  | O => []
  | S fuel => if n =? 0 then [] else bn2bin_aux fuel (n / 256) ++ [n mod 256]
  end.
Definition BN_bn2bin (n : N) : bytes := bn2bin_aux (N.size_nat n) n.

(** Contract of OpenSSL's BN_num_bytes() *)
Definition BN_num_bytes (n : N) : N := len (BN_bn2bin n).

(** Contract of OpenSSL's BN_bin2bn() *)
Fixpoint BN_bin2bn_acc (acc : N) (src : bytes) : N :=
  match src with
  | [] => acc
  | b :: src => BN_bin2bn_acc (acc * 256 + b) src
  end.
Definition BN_bin2bn (src : bytes) : N := BN_bin2bn_acc 0 src.

(** src/openssl/SerializeBN.cxx:12, src/openssl/DeserializeBN.cxx:10 *)
Definition MAX_BIGNUM : N := 16384 / 8.

(** src/openssl/SerializeBN.cxx:14-26 Serialize(); [None] is any exception *)
Definition SerializeBN (s : serializer) (bn : N) : option serializer :=
  let length := BN_num_bytes bn in
  if MAX_BIGNUM <? length then None
  else
    let* s := WriteN s (BN_bn2bin bn) in
    CommitBignum2 s length.

(** src/openssl/DeserializeBN.cxx:12-16 IsNegative() *)
Definition IsNegative (src : bytes) : bool := LeadingMsb src.

(** src/openssl/DeserializeBN.cxx:26-38 DeserializeBIGNUM(); [None] is
    std::invalid_argument.  StripLeadingZeroes() (18-24) is the same loop as
    [SkipLeadingZeroes]. *)
Definition DeserializeBIGNUM (src : bytes) : option N :=
  if IsNegative src then None
  else
    let src := SkipLeadingZeroes src in
    if MAX_BIGNUM <? len src then None
    else Some (BN_bin2bn src).
