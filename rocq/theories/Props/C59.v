(** * C59: the ciphers: what is encrypted at one end is decrypted at the
    other end, and nothing else is accepted

    [P] are the cryptographic primitives (any functions whose tags have the
    documented sizes).  [encrypt_all P c n ps l c']: the sender encrypts the
    packets [ps] one after another, from sequence number [n] on, to [l].
    [decrypt_all P d n l ps d']: the receiver decrypts [l] to [ps]. *)

From Coq Require Import NArith List Bool Lia String.
From Verif.Base Require Import Bytes.
From Verif.Model Require Import Negotiate Ciphers Frame.
From Verif.Spec Require Import FrameSpec CipherSpec InputSpec.
From Verif.Proofs Require Import CipherFacts CipherMade.
From Verif.Props Require C03 C58.
Import ListNotations.
Open Scope N_scope.

(** [c] and [d] are the objects which the two ends make for one direction,
    from the negotiated names and the derived keys (see C53 for why both
    ends have the same). *)
Definition pair_of_ciphers (c d : running) : Prop :=
  exists cipher_names mac_names key iv mac_key c0 d0,
  MakeCipher cipher_names mac_names key iv mac_key true = Some (Some c0) /\
  MakeCipher cipher_names mac_names key iv mac_key false = Some (Some d0) /\
  c = new_running c0 /\ d = new_running d0.

Lemma pair_facts : forall c d, pair_of_ciphers c d -> made c /\ sends c /\ run_mirror c d.
Proof.
  intros c d (ca & ma & key & iv & mk & c0 & d0 & H1 & H2 & -> & ->).
  destruct (made_cipher _ _ _ _ _ _ H1) as (M & S & d' & H3 & R).
  assert (d' = d0) by congruence. subst. auto.
Qed.

(** If the sender can make its object then so can the receiver. *)
Theorem C59_other_end_exists :
  forall cipher_names mac_names key iv mac_key c0,
  MakeCipher cipher_names mac_names key iv mac_key true = Some (Some c0) ->
  exists d0, MakeCipher cipher_names mac_names key iv mac_key false = Some (Some d0).
Proof.
  intros ca ma key iv mk c0 H. destruct (made_cipher _ _ _ _ _ _ H) as (_ & _ & d & H2 & _). eauto.
Qed.
Print Assumptions C59_other_end_exists.

(** Round trip, for any number of packets and any first sequence number:
    every packet is decrypted to itself, and the cipher text is longer by
    the size of the authentication tag. *)
Theorem C59_round_trip :
  forall P, tags_ok P -> forall c d, pair_of_ciphers c d ->
  forall n ps l c',
  Forall (fun p => 4 <= len p) ps ->
  encrypt_all P c n ps l c' ->
  (exists d', decrypt_all P d n l ps d') /\
  Forall2 (fun p b => len b = len p + run_auth_size d) ps l.
Proof.
  intros P T c d H n ps l c' Hp E. destruct (pair_facts c d H) as (_ & _ & M).
  split; [destruct (all_inverse P T _ _ _ _ _ _ M Hp E) as (d' & D & _); eauto|].
  clear H. revert d n l M Hp E. revert c. induction ps as [|p ps IH]; intros c d n l M Hp E.
  - inversion E; subst. constructor.
  - inversion E as [|? ? ? b c1 ? l' ? X1 X2]; subst. inversion Hp as [|? ? Hp1 Hp2]; subst.
    destruct (run_inverse1 P T _ _ _ _ _ _ M Hp1 X1) as (L & d1 & d2 & _ & A & H3 & M2).
    constructor; [exact L|].
    assert (A2 : run_auth_size d2 = run_auth_size d).
    { rewrite <- A. destruct d1 as [[]|[] ? ?]; cbn in H3;
        repeat match type of H3 with context [if ?x then _ else _] => destruct x; try discriminate end;
        match type of H3 with COk (?x, _) = _ => assert (Z : x = d2) by congruence; rewrite <- Z end; reflexivity. }
    rewrite <- A2. apply (IH c1 d2 (seq_plus n 1)); assumption.
Qed.
Print Assumptions C59_round_trip.

(** Encrypting never fails for a packet which Serializer::Finish() has
    padded for this cipher. *)
Theorem C59_padded_packets_encrypt :
  forall P c d, pair_of_ciphers c d ->
  forall rnd junk msg payload s0 s frame n,
  (forall n, len (rnd n) = n) -> len junk = 5 -> msg < 256 ->
  new_packet junk msg = Some s0 -> Wire.WriteN s0 payload = Some s ->
  FinishPacket rnd s (run_block_size c) (run_header_excluded c) = Some frame ->
  exists c' b, Encrypt P c n frame = COk (c', b) /\
    run_block_size c' = run_block_size c /\ run_header_excluded c' = run_header_excluded c.
Proof.
  intros P c d H rnd junk msg payload s0 s frame n Hr Hj Hm H0 H1 H2.
  destruct (pair_facts c d H) as (M & S & _).
  assert (B : run_block_size c = 8 \/ run_block_size c = 16) by (destruct c as [[]|[] ? ?]; cbn; auto).
  destruct (C03.C03_finish_well_formed _ _ _ _ _ _ _ _ _ Hr Hj Hm B H0 H1 H2) as (pad & _ & _ & A1 & A2 & _).
  destruct (encrypt_ok P c n frame S A1 A2) as (c' & b & E & (Q1 & Q2 & _)). eauto.
Qed.
Print Assumptions C59_padded_packets_encrypt.

(** Integrity.  The sender has encrypted [ps1 ++ p :: ps2]; the receiver has
    received the packets before [p] and now accepts any bytes [x] in place
    of the next packet [b].  Then [x] is [b], or [x] carries a valid tag for
    something which the sender has never authenticated with this key.
    (Within 2^32 packets, because the HMAC covers 32 bits of the sequence
    number.) *)
Theorem C59_integrity :
  forall P, tags_ok P -> forall c d, pair_of_ciphers c d ->
  forall n ps1 p ps2 l1 b l2 c' d',
  n < 2 ^ 64 -> len (ps1 ++ p :: ps2) <= 2 ^ 32 ->
  Forall (fun p => 4 <= len p) (ps1 ++ p :: ps2) ->
  encrypt_all P c n (ps1 ++ p :: ps2) (l1 ++ b :: l2) c' -> len l1 = len ps1 ->
  decrypt_all P d n l1 ps1 d' ->
  forall x d1 h d2 r,
  DecryptHeader P d' (seq_plus n (len ps1)) (take 4 x) = COk (d1, h) ->
  DecryptPayload P d1 (seq_plus n (len ps1)) x = COk (d2, r) ->
  x = b \/
  exists u, used d' (seq_plus n (len ps1)) (h ++ r) x = Some u /\
    tag P u = drop (len x - run_auth_size d') x /\ ~ sender_uses P c n (ps1 ++ p :: ps2) u.
Proof.
  intros P T c d H n ps1 p ps2 l1 b l2 c' d' Hn Hl Hp E L D x d1 h d2 r H1 H2.
  destruct (pair_facts c d H) as (M & _ & R).
  exact (integrity P T c d n ps1 p ps2 l1 b l2 c' d' M R Hn Hl Hp E L D x d1 h d2 r H1 H2).
Qed.
Print Assumptions C59_integrity.

(** ** No assertion fails on what a peer sends

    Full statement: class Input calls DecryptPayload() with a whole packet
    whose (decrypted) header announces an acceptable length. *)
Definition C59_no_assertion_full_statement : Prop :=
  forall P c d, pair_of_ciphers c d ->
  forall n x d1 h,
  DecryptHeader P d n (take 4 x) = COk (d1, h) ->
  acceptable (be32_at h) = true ->
  len x = 4 + be32_at h + run_auth_size d ->
  DecryptPayload P d1 n x <> CAssert.

Definition gcm128 (e : bool) : cipher :=
  {| c_alg := bs "aes128-gcm@openssh.com"; c_auth_size := 16; c_mac := None; c_key := repeat 1 16;
     c_iv := repeat 2 12; c_mac_key := []; c_encrypt := e |}.

Lemma gcm_pair : pair_of_ciphers (new_running (gcm128 true)) (new_running (gcm128 false)).
Proof.
  exists (bs "aes128-gcm@openssh.com"), [], (repeat 1 64), (repeat 2 64), [], (gcm128 true), (gcm128 false).
  split; [vm_compute; reflexivity|]. split; [vm_compute; reflexivity|]. split; reflexivity.
Qed.

(** It is false for AES: the length is not checked against the block size
    before the assertion, and with AES-GCM it is sent without encryption,
    so anybody who can send on this connection can end the process. *)
Theorem C59_no_assertion_refuted : ~ C59_no_assertion_full_statement.
Proof.
  intros F. specialize (F C58.toy _ _ gcm_pair 0 ([0; 0; 0; 17] ++ repeat 0 33)).
  refine (F _ _ _ _ _ _); vm_compute; reflexivity.
Qed.
Print Assumptions C59_no_assertion_refuted.

(** It holds for ChaCha20-Poly1305, and for AES if the length is right. *)
Theorem C59_no_assertion_partial :
  forall P c d, pair_of_ciphers c d ->
  forall n x d1 h,
  DecryptHeader P d n (take 4 x) = COk (d1, h) ->
  acceptable (be32_at h) = true ->
  len x = 4 + be32_at h + run_auth_size d ->
  (run_block_size d = 16 -> (len x - run_auth_size d - (if run_header_excluded d then 4 else 0)) mod 16 = 0) ->
  DecryptPayload P d1 n x <> CAssert.
Proof.
  intros P c d H n x d1 h E A L B. destruct (pair_facts c d H) as (M & _ & R).
  apply (made_mirror _ _ M) in R. unfold acceptable in A. apply andb_true_iff in A as [A _]. apply N.leb_le in A.
  destruct d as [[pk hk|k f m e|k iv pos]|[pk hk|k f m e|k iv pos] key st]; try contradiction;
    cbn [DecryptHeader base_DecryptHeader run_auth_size base_auth_size run_block_size base_block_size run_header_excluded base_header_excluded] in E, L, B.
  - assert (X := f_equal (fun r => match r with COk (c, _) => c | _ => d1 end) E). cbv beta iota in X. subst d1. cbn [DecryptPayload base_DecryptPayload].
    unfold header_size. replace (4 + 16 <? len x) with true by (symmetry; apply N.ltb_lt; lia). cbn [negb].
    destruct (negb _); discriminate.
  - assert (X := f_equal (fun r => match r with COk (c, _) => c | _ => d1 end) E). cbv beta iota in X. subst d1. cbn [DecryptPayload base_DecryptPayload].
    unfold header_size. replace (4 + 16 <=? len x) with true by (symmetry; apply N.leb_le; lia). cbn [negb].
    destruct e; [discriminate|]. rewrite len_drop, len_take by lia. rewrite (B eq_refl). cbn [N.eqb negb].
    destruct (negb _); discriminate.
  - assert (X := f_equal (fun r => match r with COk (c, _) => c | _ => d1 end) E). cbv beta iota in X. subst d1. cbn [DecryptPayload base_DecryptPayload].
    unfold header_size. replace (4 + 32 <=? len x) with true by (symmetry; apply N.leb_le; lia). cbn [negb].
    rewrite len_take by lia. replace (4 <=? len x - 32) with true by (symmetry; apply N.leb_le; lia). cbn [negb].
    rewrite N.sub_0_r in B. change (0 + 32) with 32 in B. rewrite (B eq_refl). cbn [N.eqb negb].
    destruct (negb _); discriminate.
Qed.
Print Assumptions C59_no_assertion_partial.

(** ** Witness: a sequence of packets, with each kind of cipher *)
Definition ctr128 (e : bool) : cipher :=
  {| c_alg := bs "aes128-ctr"; c_auth_size := 32; c_mac := Some (bs "hmac-sha2-256"); c_key := repeat 1 16;
     c_iv := repeat 2 16; c_mac_key := repeat 3 32; c_encrypt := e |}.
Definition chacha_c (e : bool) : cipher :=
  {| c_alg := bs "chacha20-poly1305@openssh.com"; c_auth_size := 16; c_mac := None; c_key := repeat 1 64;
     c_iv := []; c_mac_key := []; c_encrypt := e |}.

Example C59_witness_pairs :
  pair_of_ciphers (new_running (ctr128 true)) (new_running (ctr128 false)) /\
  pair_of_ciphers (new_running (chacha_c true)) (new_running (chacha_c false)).
Proof.
  split.
  - exists (bs "unknown,aes128-ctr"), (bs "hmac-sha2-256"), (repeat 1 64), (repeat 2 64), (repeat 3 64), (ctr128 true), (ctr128 false).
    split; [vm_compute; reflexivity|]. split; [vm_compute; reflexivity|]. split; reflexivity.
  - exists (bs "chacha20-poly1305@openssh.com"), [], (repeat 1 64), (repeat 2 64), [], (chacha_c true), (chacha_c false).
    split; [vm_compute; reflexivity|]. split; [vm_compute; reflexivity|]. split; reflexivity.
Qed.

Example C59_witness :
  exists l c', encrypt_all C58.toy (new_running (ctr128 true)) 7
    [be32 12 ++ repeat 4 12; be32 28 ++ repeat 5 28] l c' /\
    Forall (fun p => 4 <= len p) [be32 12 ++ repeat 4 12; be32 28 ++ repeat 5 28] /\ map len l = [48; 64].
Proof.
  do 2 eexists. split; [|split].
  - econstructor; [vm_compute; reflexivity|]. econstructor; [vm_compute; reflexivity|]. constructor.
  - repeat constructor; vm_compute; discriminate.
  - vm_compute. reflexivity.
Qed.
