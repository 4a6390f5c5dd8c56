(** * C61: no byte of key stream is used for two packets

    [consumes c n p u] (Proofs/CipherStream.v): the key stream byte [u] is
    used for packet [p] with sequence number [n] by cipher object [c].
    [C61_only_these_bytes] shows that this is what it says: the result of
    Encrypt() does not depend on any other key stream byte. *)

From Coq Require Import NArith List Bool Lia.
From Verif.Base Require Import Bytes.
From Verif.Model Require Import Negotiate Ciphers.
From Verif.Spec Require Import CipherSpec.
From Verif.Proofs Require Import CipherFacts CipherMade CipherStream.
From Verif.Props Require C58 C59.
Import ListNotations.
Open Scope N_scope.

(** If the primitives are replaced by others which differ in key stream
    bytes not in [consumes c n p], the result stays the same. *)
Theorem C61_only_these_bytes :
  forall P P' c n p, agree P P' (consumes c n p) -> Encrypt P c n p = Encrypt P' c n p.
Proof. exact depends. Qed.
Print Assumptions C61_only_these_bytes.

(** The sender encrypts the packets [ps1], then [p], then [ps2], then [q],
    from any sequence number on, fewer than 2^64 in total: [p] and [q] have
    no key stream byte in common. *)
Theorem C61_no_reuse :
  forall P c d, C59.pair_of_ciphers c d ->
  forall n ps1 p ps2 q l1 b l2 c1 c2 c3,
  n < 2 ^ 64 -> len ps1 + 1 + len ps2 < 2 ^ 64 ->
  encrypt_all P c n ps1 l1 c1 ->
  Encrypt P c1 (seq_plus n (len ps1)) p = COk (c2, b) ->
  encrypt_all P c2 (seq_plus n (len ps1 + 1)) ps2 l2 c3 ->
  forall u, consumes c1 (seq_plus n (len ps1)) p u ->
            ~ consumes c3 (seq_plus n (len ps1 + 1 + len ps2)) q u.
Proof.
  intros P c d H n ps1 p ps2 q l1 b l2 c1 c2 c3 Hn Hl E1 E E2 u U1 U2.
  destruct (C59.pair_facts c d H) as (M & _ & _).
  exact (no_reuse P c n ps1 p ps2 q l1 b l2 c1 c2 c3 M Hn Hl E1 E E2 u U1 U2).
Qed.
Print Assumptions C61_no_reuse.

(** Witness: two packets with AES-CTR. *)
Example C61_witness :
  exists b c2 l2 c3 u,
    Encrypt C58.toy (new_running (C59.ctr128 true)) 7 (be32 12 ++ repeat 4 12) = COk (c2, b) /\
    encrypt_all C58.toy c2 8 [be32 28 ++ repeat 5 28] l2 c3 /\
    consumes (new_running (C59.ctr128 true)) 7 (be32 12 ++ repeat 4 12) u /\
    exists u', consumes c3 9 (be32 12 ++ repeat 4 12) u'.
Proof.
  do 4 eexists. exists (CtrByte (repeat 1 16) (repeat 2 16) 15). split; [vm_compute; reflexivity|].
  split; [econstructor; [vm_compute; reflexivity|constructor]|].
  split; [vm_compute; repeat split; discriminate|].
  exists (CtrByte (repeat 1 16) (repeat 2 16) 48). vm_compute. repeat split; discriminate.
Qed.
