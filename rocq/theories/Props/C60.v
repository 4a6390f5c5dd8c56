(** * C60: the sequence number used for authentication wraps at 2^32

    RFC 4253 6.4: the sequence number "wraps around to zero after every
    2^32 packets".  A peer which follows this uses [n mod 2^32] where this
    program uses its 64 bit counter [n]. *)

From Coq Require Import NArith List Bool Lia String.
From Verif.Base Require Import Bytes.
From Verif.Model Require Import Negotiate Ciphers.
From Verif.Spec Require Import CipherSpec.
From Verif.Proofs Require Import CipherFacts CipherMade.
From Verif.Props Require C58 C59.
Import ListNotations.
Open Scope N_scope.

(** [compatible P c d n]: whatever this program encrypts with the [n]-th
    sequence number is accepted by such a peer, and decrypted to the same
    packet. *)
Definition compatible (P : crypto) (c d : running) (n : N) : Prop :=
  forall p c' b, 4 <= len p -> Encrypt P c n p = COk (c', b) ->
  exists d1 d', DecryptHeader P d (n mod 2 ^ 32) (take 4 b) = COk (d1, take 4 p) /\
    DecryptPayload P d1 (n mod 2 ^ 32) b = COk (d', drop 4 p).

(** ... and the other way round. *)
Definition compatible' (P : crypto) (c d : running) (n : N) : Prop :=
  forall p c' b, 4 <= len p -> Encrypt P c (n mod 2 ^ 32) p = COk (c', b) ->
  exists d1 d', DecryptHeader P d n (take 4 b) = COk (d1, take 4 p) /\
    DecryptPayload P d1 n b = COk (d', drop 4 p).

Definition C60_full_statement : Prop :=
  forall P, tags_ok P -> forall c d, C59.pair_of_ciphers c d ->
  forall n, n < 2 ^ 64 -> compatible P c d n /\ compatible' P c d n.

(** It is false for chacha20-poly1305@openssh.com: the nonce contains all 64
    bits.  (Without "strict KEX" the counter is not reset by a new key
    exchange, so it reaches 2^32 in a long connection.) *)
Theorem C60_refuted : ~ C60_full_statement.
Proof.
  intros F. destruct C59.C59_witness_pairs as [_ H].
  set (P := {| chacha20 := fun k n i => nth 3 n 0; poly1305 := poly1305 C58.toy; aes_ctr := aes_ctr C58.toy;
               aes_gcm := aes_gcm C58.toy; gcm_tag := gcm_tag C58.toy; hmac_sha256 := hmac_sha256 C58.toy |}).
  assert (T : tags_ok P) by (destruct C58.toy_ok; split; assumption).
  destruct (F P T _ _ H (2 ^ 32) ltac:(reflexivity)) as [A _].
  destruct (A (be32 16 ++ repeat 1 16) _ _ ltac:(vm_compute; discriminate) ltac:(vm_compute; reflexivity))
    as (d1 & d' & D1 & D2).
  vm_compute in D1. discriminate.
Qed.
Print Assumptions C60_refuted.

Lemma be32_wrap : forall n, be32 (n mod 2 ^ 32) = be32 n.
Proof. exact be32_mod. Qed.

(** It holds for all other ciphers for any number of packets, and for
    ChaCha20 for the first 2^32 sequence numbers. *)
Theorem C60_wraps_partial :
  forall P, tags_ok P -> forall c d, C59.pair_of_ciphers c d ->
  forall n,
  run_block_size c = 16 \/ n < 2 ^ 32 ->
  compatible P c d n /\ compatible' P c d n.
Proof.
  intros P T c d H n [B|B].
  2:{ unfold compatible, compatible'. rewrite N.mod_small by exact B. destruct (C59.pair_facts c d H) as (_ & _ & R).
      split; intros p c' b Hp E; destruct (run_inverse1 P T _ _ _ _ _ _ R Hp E) as (_ & d1 & d' & X1 & _ & X3 & _); eauto. }
  destruct (C59.pair_facts c d H) as (M & _ & R).
  assert (S1 : forall m p, Encrypt P c (m mod 2 ^ 32) p = Encrypt P c m p).
  { intros m p. destruct c as [[]|[] ? ?]; try contradiction; try discriminate; cbn [Encrypt base_Encrypt].
    - reflexivity.
    - unfold InitState. rewrite be32_wrap. reflexivity. }
  assert (S2 : forall m x d1 h, (DecryptHeader P d (m mod 2 ^ 32) x = COk (d1, h) <-> DecryptHeader P d m x = COk (d1, h))).
  { intros m x d1 h. destruct c as [[]|[] ? ?]; try contradiction; try discriminate;
      destruct d as [[]|[] ? ?]; cbn [run_mirror base_mirror] in R; try contradiction; try tauto;
      cbn [DecryptHeader base_DecryptHeader]; unfold InitState; rewrite ?be32_wrap; tauto. }
  assert (S3 : forall m x d1 h y, DecryptHeader P d m x = COk (d1, h) ->
             DecryptPayload P d1 (m mod 2 ^ 32) y = DecryptPayload P d1 m y).
  { intros m x d1 h y E. destruct c as [[]|[] ? ?]; try contradiction; try discriminate;
      destruct d as [[]|[] ? ?]; cbn [run_mirror base_mirror] in R; try contradiction; try tauto;
      cbn [DecryptHeader base_DecryptHeader] in E;
      assert (X := f_equal (fun r => match r with COk (c, _) => c | _ => d1 end) E); cbv beta iota in X; subst d1; reflexivity. }
  split; intros p c' b Hp E; try rewrite S1 in E;
    destruct (run_inverse1 P T _ _ _ _ _ _ R Hp E) as (_ & d1 & d' & X1 & _ & X3 & _); exists d1, d'.
  - split; [apply S2; exact X1|]. erewrite S3 by exact X1. exact X3.
  - split; [exact X1|exact X3].
Qed.
Print Assumptions C60_wraps_partial.

(** Witness: AES-CTR with HMAC at sequence number 2^32 + 5. *)
Example C60_witness :
  C59.pair_of_ciphers (new_running (C59.ctr128 true)) (new_running (C59.ctr128 false)) /\
  run_block_size (new_running (C59.ctr128 true)) = 16 /\
  exists c' b, Encrypt C58.toy (new_running (C59.ctr128 true)) (2 ^ 32 + 5) (be32 12 ++ repeat 4 12) = COk (c', b).
Proof.
  split; [apply C59.C59_witness_pairs|]. split; [reflexivity|]. do 2 eexists. vm_compute. reflexivity.
Qed.
