(** * C09: multi-precision integers are canonical *)

From Coq Require Import NArith List Bool String Lia.
From Verif.Base Require Import Bytes.
From Verif.Model Require Import Wire Bignum.
From Verif.Spec Require Import WireSpec.
From Verif.Proofs Require Import WireFacts BignumFacts.
Import ListNotations.
Open Scope N_scope.

(** Copying (WriteBignum2) and in-place fixup (the library wrote the
    magnitude [m] directly into the buffer, then CommitBignum2) do the same,
    also at the end of the buffer. *)
Theorem C09_writers_agree : forall (s m s1 : bytes),
  len s <= 65536 ->
  WriteN s m = Some s1 ->
  CommitBignum2 s1 (len m) = WriteBignum2 s m.
Proof.
  intros s m s1 Hs H. apply WriteN_inv in H as [-> H]; [|assumption].
  rewrite len_app in H.
  rewrite CommitBignum2_spec by assumption. symmetry. now apply WriteBignum2_spec.
Qed.
Print Assumptions C09_writers_agree.

(** The bytes appended are the canonical encoding of the same value. *)
Theorem C09_canonical : forall (s m s' : bytes),
  len s <= 65536 -> bytes_ok m ->
  WriteBignum2 s m = Some s' ->
  exists e, s' = s ++ e /\ mpint_canonical e /\ be_value e = be_value m.
Proof.
  intros s m s' Hs Hm H. rewrite WriteBignum2_spec in H by assumption.
  destruct (_ <=? _); [|discriminate]. injection H as <-.
  exists (mpint m). split; [reflexivity|]. now apply mpint_is_canonical.
Qed.
Print Assumptions C09_canonical.

(** A value has only one canonical encoding. *)
Theorem C09_unique : forall a b,
  mpint_canonical a -> mpint_canonical b -> be_value a = be_value b -> a = b.
Proof. exact canonical_unique. Qed.
Print Assumptions C09_unique.

(** Serializing any number of at most 16384 bits (with enough room) succeeds,
    and reading the result back gives the number. *)
Theorem C09_serialize_roundtrip : forall (s : bytes) (n : N),
  n < 256 ^ 2048 -> len s + 2049 <= 65536 ->
  exists e, SerializeBN s n = Some (s ++ e) /\
            mpint_canonical e /\ be_value e = n /\
            DeserializeBIGNUM e = Some n.
Proof.
  intros s n Hn Hs. unfold SerializeBN, BN_num_bytes.
  destruct (BN_bn2bin_spec n) as (H1 & H2 & H3).
  assert (HL : len (BN_bn2bin n) <= 2048).
  { apply value_length; [exact H3|]. rewrite H2. exact Hn. }
  change MAX_BIGNUM with 2048.
  replace (2048 <? len (BN_bn2bin n)) with false by (symmetry; apply N.ltb_ge; assumption).
  rewrite WriteN_Some by (unfold BUFFER_SIZE; clear -Hs HL; lia). cbn [obind].
  rewrite CommitBignum2_spec by (unfold BUFFER_SIZE; clear -Hs HL; lia).
  destruct (mpint_is_canonical (BN_bn2bin n) H1) as [C1 C2]. rewrite H2 in C2.
  assert (HM : len (mpint (BN_bn2bin n)) <= 1 + len (BN_bn2bin n)).
  { unfold mpint. pose proof (Count_len (BN_bn2bin n)).
    destruct (LeadingMsb _); rewrite ?len_cons; clear -H; lia. }
  exists (mpint (BN_bn2bin n)).
  replace (_ <=? BUFFER_SIZE) with true by (symmetry; apply N.leb_le; unfold BUFFER_SIZE; clear -Hs HL HM; lia).
  split; [reflexivity|]. split; [exact C1|]. split; [exact C2|].
  unfold DeserializeBIGNUM, IsNegative. change MAX_BIGNUM with 2048.
  assert (HN : LeadingMsb (mpint (BN_bn2bin n)) = false).
  { destruct C1 as [Hok Hc]. destruct (mpint (BN_bn2bin n)) as [|b l]; [reflexivity|].
    rewrite LeadingMsb_spec by (now inversion Hok).
    apply N.leb_gt. destruct l; [apply Hc|apply Hc]. }
  rewrite HN.
  assert (HK : len (SkipLeadingZeroes (mpint (BN_bn2bin n))) <= 2048).
  { apply value_length; [apply Skip_head|]. rewrite Skip_value, C2. exact Hn. }
  replace (2048 <? _) with false by (symmetry; apply N.ltb_ge; assumption).
  rewrite BN_bin2bn_value, Skip_value. now rewrite C2.
Qed.
Print Assumptions C09_serialize_roundtrip.

(** The reader accepts exactly the non-negative numbers below 2^16384 and
    gives their value. *)
Theorem C09_deserialize_exact : forall (src : bytes) (n : N),
  bytes_ok src ->
  (DeserializeBIGNUM src = Some n <->
   (forall b rest, src = b :: rest -> b < 128) /\ be_value src = n /\ n < 256 ^ 2048).
Proof.
  intros src n Hok. unfold DeserializeBIGNUM, IsNegative. change MAX_BIGNUM with 2048.
  assert (HN : LeadingMsb src = false <-> (forall b rest, src = b :: rest -> b < 128)).
  { destruct src as [|b l].
    - split; [intros _ b r H; discriminate|reflexivity].
    - rewrite LeadingMsb_spec by (now inversion Hok). rewrite N.leb_gt. split.
      + intros H b' r E. injection E as <- <-. assumption.
      + intro H. now apply (H b l). }
  assert (HK : len (SkipLeadingZeroes src) <= 2048 <-> be_value src < 256 ^ 2048).
  { rewrite <- (Skip_value src). split; intro H.
    - apply length_value; [apply Skip_ok; exact Hok|exact H].
    - apply value_length; [apply Skip_head|exact H]. }
  rewrite BN_bin2bn_value, Skip_value.
  destruct (LeadingMsb src) eqn:E1.
  - split; [discriminate|]. intros (H & _). apply HN in H. discriminate.
  - destruct (2048 <? len (SkipLeadingZeroes src)) eqn:E2; rewrite ?N.ltb_lt, ?N.ltb_ge in E2.
    + split; [discriminate|]. intros (_ & <- & H). apply HK in H. clear -H E2. lia.
    + split.
      * intro H. apply Some_inj in H as <-. split; [now apply HN|]. split; [reflexivity|]. now apply HK.
      * intros (_ & <- & _). reflexivity.
Qed.
Print Assumptions C09_deserialize_exact.

Example C09_witness :
  WriteBignum2 [9] [0; 0; 128; 1] = Some [9; 0; 128; 1] /\
  CommitBignum2 [9; 0; 0; 128; 1] 4 = Some [9; 0; 128; 1] /\
  WriteBignum2 [9] [0; 127] = Some [9; 127] /\
  WriteBignum2 [9] [0; 0] = Some [9] /\
  CommitBignum2 [9; 0; 0] 2 = Some [9] /\
  DeserializeBIGNUM [0; 128; 1] = Some 32769 /\
  DeserializeBIGNUM [128; 1] = None /\
  SerializeBN [] 32769 = Some [0; 128; 1].
Proof. vm_compute. repeat split. Qed.
