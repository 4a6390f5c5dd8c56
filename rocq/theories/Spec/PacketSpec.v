(** Which byte strings are payloads of which message (RFC 4253, RFC 4254,
    RFC 5656), written without reference to the model.  [_layout raw ...]
    means: [raw] is a payload of that kind with these field values. *)

From Coq Require Import NArith List Bool.
From Verif.Base Require Import Bytes.
From Verif.Spec Require Import WireSpec.
Import ListNotations.
Open Scope N_scope.

(** exactly these fields, nothing else *)
Definition exactly (raw : bytes) (fs : list field) : Prop :=
  Forall field_ok fs /\ raw = enc fs.

(** a byte that stands for a boolean: zero is false, anything else is true *)
Definition bool_byte (x : N) (b : bool) : Prop :=
  x < 256 /\ (b = true <-> x <> 0).

Definition disconnect_layout raw reason desc : Prop :=
  exists lang, exactly raw [FU32 reason; FString desc; FString lang].

Definition service_layout raw name : Prop :=
  exactly raw [FString name].

Definition kexinit_layout raw kex hostkey enc1 enc2 mac1 mac2 follows : Prop :=
  exists cookie comp1 comp2 lang1 lang2 x reserved,
    len cookie = 16 /\ bool_byte x follows /\
    exactly raw [FRaw cookie; FString kex; FString hostkey; FString enc1; FString enc2;
                 FString mac1; FString mac2; FString comp1; FString comp2;
                 FString lang1; FString lang2; FByte x; FU32 reserved].

Definition ecdh_init_layout raw pub : Prop :=
  exactly raw [FString pub].

Definition ecdh_reply_layout raw hostkey pub sig : Prop :=
  exactly raw [FString hostkey; FString pub; FString sig].

Definition channel_open_layout raw type peer window max data : Prop :=
  exactly raw [FString type; FU32 peer; FU32 window; FU32 max; FRaw data].

Definition channel_confirm_layout raw local peer window max data : Prop :=
  exactly raw [FU32 local; FU32 peer; FU32 window; FU32 max; FRaw data].

Definition channel_open_failure_layout raw local reason desc : Prop :=
  exists lang, exactly raw [FU32 local; FU32 reason; FString desc; FString lang].

Definition window_adjust_layout raw local nbytes : Prop :=
  exactly raw [FU32 local; FU32 nbytes].

Definition channel_data_layout raw local data : Prop :=
  exactly raw [FU32 local; FString data].

Definition channel_ext_data_layout raw local type data : Prop :=
  exactly raw [FU32 local; FU32 type; FString data].

Definition channel_only_layout raw local : Prop :=
  exactly raw [FU32 local].

Definition channel_request_layout raw local type want data : Prop :=
  exists x, bool_byte x want /\
  exactly raw [FU32 local; FString type; FByte x; FRaw data].

(** CHANNEL_SUCCESS/CHANNEL_FAILURE: lukko tolerates trailing bytes here *)
Definition channel_response_layout raw local : Prop :=
  exists trailing, exactly raw [FU32 local; FRaw trailing].

Definition global_request_layout raw name want data : Prop :=
  exists x, bool_byte x want /\
  exactly raw [FString name; FByte x; FRaw data].
