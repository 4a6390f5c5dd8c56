(** Proofs about keys, signatures and key files (C66-C68). *)

From Coq Require Import NArith PeanoNat List Bool Lia String.
From Verif.Base Require Import Bytes.
From Verif.Spec Require Import WireSpec KeyFormatSpec.
From Verif.Model Require Import Wire Bignum KeyOptions Keys.
From Verif.Proofs Require Import WireFacts BignumFacts.
From Verif.Props Require C09.
Import ListNotations.
Open Scope N_scope.

Local Arguments bs : simpl never.
Local Arguments take : simpl never.
Local Arguments drop : simpl never.
Local Arguments be32 : simpl never.
Local Arguments string_enc : simpl never.

(** ** Numbers *)

Lemma is_mpint_mpint : forall n, is_mpint n (mpint (BN_bn2bin n)).
Proof.
  intro n. destruct (BN_bn2bin_spec n) as (H1 & H2 & _). destruct (mpint_is_canonical (BN_bn2bin n) H1) as [C1 C2].
  split; [exact C1|congruence].
Qed.

Lemma is_mpint_unique : forall n e e', is_mpint n e -> is_mpint n e' -> e = e'.
Proof. intros n e e' [A B] [A' B']. apply canonical_unique; congruence. Qed.

Lemma mpint_number : forall n e, is_mpint n e -> number_ok n -> DeserializeBIGNUM e = Some n /\ len e <= 2049.
Proof.
  intros n e M OK. assert (Z : len (@nil N) + 2049 <= 65536) by (rewrite len_nil; lia).
  destruct (C09.C09_serialize_roundtrip [] n OK Z) as (e' & _ & C & V & D).
  assert (e = e') by (eapply is_mpint_unique; [exact M|split; assumption]). subst e'. split; [exact D|].
  destruct C as [_ _]. destruct M as [C V']. clear D Z V.
  destruct e as [|x l]; [rewrite len_nil; lia|]. destruct (N.eq_dec x 0) as [->|NZ].
  - destruct l as [|y l]; [cbn in C; destruct C as [_ [X _]]; lia|]. destruct C as [_ [_ Y]]. specialize (Y eq_refl).
    rewrite be_value_cons, N.mul_0_l, N.add_0_l, be_value_cons in V'. rewrite !len_cons.
    destruct (N.le_gt_cases (len l) 2047) as [|G]; [lia|]. exfalso. unfold number_ok in OK.
    assert (256 ^ 2048 <= 256 ^ len l) by (apply N.pow_le_mono_r; lia). nia.
  - rewrite be_value_cons in V'. rewrite len_cons. destruct (N.le_gt_cases (len l) 2047) as [|G]; [lia|]. exfalso. unfold number_ok in OK.
    assert (256 ^ 2048 <= 256 ^ len l) by (apply N.pow_le_mono_r; lia). nia.
Qed.

(** reading back: the value only *)
Lemma DeserializeBIGNUM_value : forall e n, DeserializeBIGNUM e = Some n -> be_value e = n.
Proof.
  intros e n. unfold DeserializeBIGNUM. destruct (IsNegative e); [discriminate|]. cbv zeta. destruct (_ <? _); [discriminate|].
  intro H. injection H as <-. rewrite BN_bin2bn_value. symmetry. apply Skip_value.
Qed.

(** ** Writers which append *)

Definition appends (f : serializer -> option serializer) (P : bytes -> Prop) : Prop :=
  forall s s', len s <= BUFFER_SIZE -> f s = Some s' -> len s' <= BUFFER_SIZE /\ exists e, s' = s ++ e /\ P e.

Lemma appends_weaken : forall f (P Q : bytes -> Prop), appends f P -> (forall e, P e -> Q e) -> appends f Q.
Proof. intros f P Q A I s s' L E. destruct (A s s' L E) as (L' & e & X & Y). eauto. Qed.

Lemma appends_WriteN : forall x, appends (fun s => WriteN s x) (fun e => e = x).
Proof.
  intros x s s' L E. destruct (WriteN_inv s x s' L E) as [-> LE]. split; [exact LE|]. eauto.
Qed.

Lemma appends_WriteString : forall x, appends (fun s => WriteString s x) (fun e => e = string_enc x /\ len x < pow32).
Proof.
  intros x s s' L E. rewrite WriteString_spec in E by exact L. destruct (_ <=? _) eqn:G; [|discriminate]. apply N.leb_le in G.
  injection E as <-. rewrite len_app. split; [exact G|]. exists (string_enc x). split; [reflexivity|]. split; [reflexivity|].
  unfold string_enc in G. rewrite len_app in G. unfold BUFFER_SIZE, pow32 in *. lia.
Qed.

Lemma appends_bind : forall f g P Q, appends f P -> appends g Q ->
  appends (fun s => let* s := f s in g s) (fun e => exists a b, e = a ++ b /\ P a /\ Q b).
Proof.
  intros f g P Q A B s s' L E. destruct (f s) as [t|] eqn:F; [|discriminate]. cbn [obind] in E.
  destruct (A s t L F) as (L1 & a & -> & PA). destruct (B _ _ L1 E) as (L2 & b & -> & QB).
  split; [exact L2|]. exists (a ++ b). split; [now rewrite app_assoc|]. eauto.
Qed.

Lemma CommitLength_spec : forall s e, len e < pow32 -> CommitLength ((s ++ be32 0) ++ e) (len s) = s ++ string_enc e.
Proof.
  intros s e L. unfold CommitLength. rewrite !len_app. change (len (be32 0)) with 4.
  replace (len s + 4 + len e - len s - 4) with (len e) by lia.
  rewrite <- app_assoc, take_len. rewrite put_u32_be32. unfold string_enc. do 2 f_equal.
  rewrite app_assoc. replace (len s + 4) with (len (s ++ be32 0)) by (rewrite len_app; reflexivity). apply drop_len.
Qed.

Lemma appends_nested : forall f P, appends f P -> appends (fun s => WriteNested s f) (fun e => exists x, e = string_enc x /\ len x < pow32 /\ P x).
Proof.
  intros f P A s s' L E. unfold WriteNested, PrepareLength in E. cbv zeta in E. unfold WriteU32 in E.
  destruct (WriteN s (put_u32 0)) as [t|] eqn:W; [|discriminate]. cbn [obind] in E.
  destruct (WriteN_inv _ _ _ L W) as [-> LE]. rewrite put_u32_be32 in *. destruct (f (s ++ be32 0)) as [u|] eqn:F; [|discriminate].
  cbn [obind] in E. injection E as <-.
  assert (L1 : len (s ++ be32 0) <= BUFFER_SIZE) by exact LE.
  destruct (A _ _ L1 F) as (L2 & x & -> & PX).
  assert (LX : len x < pow32) by (rewrite !len_app in L2; unfold BUFFER_SIZE, pow32 in *; lia).
  rewrite CommitLength_spec by exact LX. split; [|exists (string_enc x); eauto].
  rewrite !len_app in *. unfold string_enc. rewrite len_app. change (len (be32 (len x))) with 4. change (len (be32 0)) with 4 in L2. lia.
Qed.

Lemma nested_some : forall f s e, len s + 4 <= BUFFER_SIZE -> len e < pow32 ->
  f (s ++ be32 0) = Some ((s ++ be32 0) ++ e) -> WriteNested s f = Some (s ++ string_enc e).
Proof.
  intros f s e L LE F. unfold WriteNested, PrepareLength. cbv zeta. unfold WriteU32. rewrite put_u32_be32.
  rewrite WriteN_Some by exact L. cbn [obind]. rewrite F. cbn [obind]. now rewrite CommitLength_spec.
Qed.

Lemma appends_BN : forall n, appends (fun s => SerializeBN s n) (fun e => is_mpint n e /\ number_ok n).
Proof.
  intros n s s' L E. unfold SerializeBN in E. cbv zeta in E. destruct (MAX_BIGNUM <? BN_num_bytes n) eqn:M; [discriminate|]. apply N.ltb_ge in M.
  destruct (WriteN s (BN_bn2bin n)) as [t|] eqn:W; [|discriminate]. cbn [obind] in E.
  destruct (WriteN_inv _ _ _ L W) as [-> LE]. unfold BN_num_bytes in E. rewrite len_app in LE. rewrite CommitBignum2_spec in E by exact LE.
  destruct (_ <=? _) eqn:G; [|discriminate]. apply N.leb_le in G. injection E as <-.
  rewrite len_app. split; [exact G|]. exists (mpint (BN_bn2bin n)). split; [reflexivity|]. split; [apply is_mpint_mpint|].
  destruct (BN_bn2bin_spec n) as (H1 & H2 & _). unfold number_ok. rewrite <- H2.
  eapply N.lt_le_trans; [apply be_value_lt; exact H1|]. apply N.pow_le_mono_r; [lia|]. exact M.
Qed.

Lemma BN_some : forall s n e, is_mpint n e -> number_ok n -> len s + 2049 <= BUFFER_SIZE -> SerializeBN s n = Some (s ++ e).
Proof.
  intros s n e M OK L. destruct (C09.C09_serialize_roundtrip s n OK L) as (e' & S & C & V & _).
  rewrite S. do 2 f_equal. eapply is_mpint_unique; [split; eassumption|exact M].
Qed.

(** ** Public keys *)

Lemma enc2 : forall a b, enc [FString a; FString b] = string_enc a ++ string_enc b.
Proof. intros. unfold enc. cbn [map enc_field List.concat]. now rewrite app_nil_r. Qed.
Lemma enc3 : forall a b c, enc [FString a; FString b; FString c] = string_enc a ++ string_enc b ++ string_enc c.
Proof. intros. unfold enc. cbn [map enc_field List.concat]. now rewrite app_nil_r. Qed.

Lemma len_string_enc : forall x, len (string_enc x) = 4 + len x.
Proof. intro x. unfold string_enc. rewrite len_app. reflexivity. Qed.

Lemma WriteString_some : forall s x, len s + 4 + len x <= BUFFER_SIZE -> WriteString s x = Some (s ++ string_enc x).
Proof.
  intros s x L. rewrite WriteString_spec by lia. rewrite len_string_enc.
  replace (len s + (4 + len x) <=? BUFFER_SIZE) with true by (symmetry; apply N.leb_le; lia). reflexivity.
Qed.

Lemma SerializePublic_some : forall s k, len s + 8192 <= BUFFER_SIZE -> public_ok k ->
  exists blob, SerializePublic s k = Some (s ++ blob) /\ public_blob k blob /\ len blob <= 8192.
Proof.
  intros s k L OK. destruct k as [p|e n|q]; cbn [SerializePublic public_ok public_blob GetType] in *.
  - exists (enc [FString (bs "ssh-ed25519"); FString p]). rewrite enc2. change (bs "ssh-ed25519") with SSH_ED25519.
    assert (LS : len SSH_ED25519 = 11) by reflexivity.
    rewrite WriteString_some by lia. cbn [obind].
    rewrite (nested_some _ _ p).
    + split; [now rewrite <- app_assoc|]. split; [reflexivity|]. rewrite len_app, !len_string_enc. lia.
    + rewrite len_app, len_string_enc. lia.
    + rewrite OK. reflexivity.
    + apply WriteN_Some. rewrite !len_app, len_string_enc, OK. change (len (be32 0)) with 4. lia.
  - destruct OK as [OE ON].
    pose proof (is_mpint_mpint e) as ME. pose proof (is_mpint_mpint n) as MN. set (e' := mpint (BN_bn2bin e)) in *. set (n' := mpint (BN_bn2bin n)) in *.
    destruct (mpint_number e e' ME OE) as [_ LE]. destruct (mpint_number n n' MN ON) as [_ LN].
    exists (enc [FString (bs "ssh-rsa"); FString e'; FString n']). rewrite enc3. change (bs "ssh-rsa") with SSH_RSA.
    assert (LS : len SSH_RSA = 7) by reflexivity.
    rewrite WriteString_some by lia. cbn [obind].
    rewrite (nested_some _ _ e'); cbn [obind]; [rewrite (nested_some _ _ n')| | |].
    + split; [now rewrite <- !app_assoc|]. split; [exists e', n'; rewrite enc3; auto|]. rewrite !len_app, !len_string_enc. lia.
    + rewrite !len_app, !len_string_enc. lia.
    + unfold pow32. lia.
    + apply BN_some; [exact MN|exact ON|]. rewrite !len_app, !len_string_enc. change (len (be32 0)) with 4. lia.
    + rewrite !len_app, !len_string_enc. lia.
    + unfold pow32. lia.
    + apply BN_some; [exact ME|exact OE|]. rewrite !len_app, !len_string_enc. change (len (be32 0)) with 4. lia.
  - exists (enc [FString (bs "ecdsa-sha2-nistp256"); FString (bs "nistp256"); FString q]). rewrite enc3.
    change (bs "ecdsa-sha2-nistp256") with ECDSA_P256. change (bs "nistp256") with NISTP256.
    assert (LS : len ECDSA_P256 = 19) by reflexivity. assert (LC : len NISTP256 = 8) by reflexivity.
    rewrite WriteString_some by lia. cbn [obind]. rewrite WriteString_some by (rewrite len_app, len_string_enc; lia). cbn [obind].
    rewrite (nested_some _ _ q).
    + split; [now rewrite <- !app_assoc|]. split; [reflexivity|]. rewrite !len_app, !len_string_enc. lia.
    + rewrite !len_app, !len_string_enc. lia.
    + unfold pow32. lia.
    + apply WriteN_Some. rewrite !len_app, !len_string_enc. change (len (be32 0)) with 4. lia.
Qed.

Lemma ReadString_enc' : forall x rest, len x < pow32 -> ReadString (string_enc x ++ rest) = Some (x, rest).
Proof. exact ReadString_enc. Qed.

Lemma ReadString_end : forall x, len x < pow32 -> ReadString (string_enc x) = Some (x, []).
Proof. intros x L. rewrite <- (app_nil_r (string_enc x)). now apply ReadString_enc. Qed.

Lemma ParsePublicKeyBlob_blob : forall c k blob rest, public_ok k -> supported c k -> public_blob k blob ->
  ParsePublicKeyBlob c (blob ++ rest) = Some k.
Proof.
  intros c k blob rest OK S B. unfold ParsePublicKeyBlob. destruct k as [p|e n|q]; cbn [public_ok supported public_blob] in *.
  - subst blob. rewrite enc2, <- app_assoc. rewrite ReadString_enc by reflexivity. cbn [obind]. 
    change (bytes_eqb (bs "ssh-ed25519") SSH_ED25519) with true. cbn iota. change ReadLengthEncoded with ReadString.
    rewrite ReadString_enc by (rewrite OK; reflexivity). cbn [obind]. now rewrite OK.
  - destruct B as (e' & n' & ME & MN & ->). destruct OK as [OE ON]. destruct S as [SO SA].
    destruct (mpint_number e e' ME OE) as [DE LE]. destruct (mpint_number n n' MN ON) as [DN LN].
    rewrite enc3, <- !app_assoc. rewrite ReadString_enc by reflexivity. cbn [obind].
    change (bytes_eqb (bs "ssh-rsa") SSH_ED25519) with false. cbn iota. rewrite SO. change (bytes_eqb (bs "ssh-rsa") SSH_RSA) with true. cbn [andb].
    change ReadLengthEncoded with ReadString.
    rewrite ReadString_enc by (unfold pow32; lia). cbn [obind]. rewrite ReadString_enc by (unfold pow32; lia). cbn [obind].
    rewrite DE. cbn [obind]. rewrite DN. cbn [obind]. now rewrite SA.
  - subst blob. destruct S as [SO SA]. rewrite enc3, <- !app_assoc. rewrite ReadString_enc by reflexivity. cbn [obind].
    change (bytes_eqb (bs "ecdsa-sha2-nistp256") SSH_ED25519) with false. cbn iota. rewrite SO.
    change (bytes_eqb (bs "ecdsa-sha2-nistp256") SSH_RSA) with false. change (bytes_eqb (bs "ecdsa-sha2-nistp256") ECDSA_P256) with true. cbn [andb].
    rewrite ReadString_enc by reflexivity. cbn [obind]. change (bytes_eqb (bs "nistp256") NISTP256) with true. cbn [negb].
    change ReadLengthEncoded with ReadString. rewrite ReadString_enc by (unfold pow32; lia). cbn [obind]. now rewrite SA.
Qed.

Lemma bytes_eqb_true : forall a b, bytes_eqb a b = true -> a = b.
Proof. intros a b H. now apply bytes_eqb_eq in H. Qed.

(** What an accepted blob looks like. *)
Lemma ParsePublicKeyBlob_inv : forall c blob k, bytes_ok blob -> ParsePublicKeyBlob c blob = Some k ->
  match k with
  | PubEd25519 public => len public = 32 /\ exists rest, blob = enc [FString (bs "ssh-ed25519"); FString public] ++ rest
  | PubRSA e n => c_openssl c = true /\ exists e' n' rest, be_value e' = e /\ be_value n' = n /\
      blob = enc [FString (bs "ssh-rsa"); FString e'; FString n'] ++ rest
  | PubEC q => c_openssl c = true /\ exists q' rest, c_ec_public c q' = Some q /\
      blob = enc [FString (bs "ecdsa-sha2-nistp256"); FString (bs "nistp256"); FString q'] ++ rest
  end.
Proof.
  intros c blob k OK. unfold ParsePublicKeyBlob. change ReadLengthEncoded with ReadString.
  destruct (ReadString blob) as [[a d]|] eqn:R1; [|discriminate]. cbn [obind].
  destruct (ReadString_inv _ _ _ OK R1) as (E1 & L1 & OK1 & OKa).
  destruct (bytes_eqb a SSH_ED25519) eqn:A1.
  { apply bytes_eqb_true in A1. destruct (ReadString d) as [[p d']|] eqn:R2; [|discriminate]. cbn [obind].
    destruct (ReadString_inv _ _ _ OK1 R2) as (E2 & _ & _ & _). destruct (len p =? 32) eqn:LP; [|discriminate]. apply N.eqb_eq in LP. cbn [negb].
    intro H. injection H as <-. split; [exact LP|]. exists d'. rewrite enc2, <- app_assoc, E1, E2, A1. reflexivity. }
  destruct (c_openssl c) eqn:SO; [|discriminate]. cbn [andb]. destruct (bytes_eqb a SSH_RSA) eqn:A2.
  { apply bytes_eqb_true in A2. destruct (ReadString d) as [[e d']|] eqn:R2; [|discriminate]. cbn [obind].
    destruct (ReadString_inv _ _ _ OK1 R2) as (E2 & _ & OK2 & _). destruct (ReadString d') as [[n d'']|] eqn:R3; [|discriminate]. cbn [obind].
    destruct (ReadString_inv _ _ _ OK2 R3) as (E3 & _ & _ & _).
    destruct (DeserializeBIGNUM e) as [e0|] eqn:DE; [|discriminate]. destruct (DeserializeBIGNUM n) as [n0|] eqn:DN; [|discriminate]. cbn [obind].
    destruct (c_rsa_public_ok c e0 n0); [|discriminate]. intro H. injection H as <-. split; [reflexivity|]. exists e, n, d''.
    split; [now apply DeserializeBIGNUM_value|]. split; [now apply DeserializeBIGNUM_value|]. rewrite enc3, <- !app_assoc, E1, E2, E3, A2. reflexivity. }
  destruct (bytes_eqb a ECDSA_P256) eqn:A3; [|discriminate]. apply bytes_eqb_true in A3.
  destruct (ReadString d) as [[cv d']|] eqn:R2; [|discriminate]. cbn [obind].
  destruct (ReadString_inv _ _ _ OK1 R2) as (E2 & _ & OK2 & _). destruct (bytes_eqb cv NISTP256) eqn:CV; [|discriminate]. apply bytes_eqb_true in CV. cbn [negb].
  destruct (ReadString d') as [[q d'']|] eqn:R3; [|discriminate]. cbn [obind].
  destruct (ReadString_inv _ _ _ OK2 R3) as (E3 & _ & _ & _).
  destruct (c_ec_public c q) as [q0|] eqn:EP; [|discriminate]. cbn [obind]. intro H. injection H as <-. split; [reflexivity|]. exists q, d''.
  split; [exact EP|]. rewrite enc3, <- !app_assoc, E1, E2, E3, A3, CV. reflexivity.
Qed.

(** ** Signatures *)

Lemma GetDigestAlgorithmRSA_hash : forall c a h, GetDigestAlgorithmRSA c a = Some h -> hash_of a h.
Proof.
  intros c a h. unfold GetDigestAlgorithmRSA, hash_of.
  destruct (bytes_eqb a (bs "rsa-sha2-256")) eqn:A; [apply bytes_eqb_true in A; intro H; injection H as <-; auto|].
  destruct (bytes_eqb a (bs "rsa-sha2-512")) eqn:B; [apply bytes_eqb_true in B; intro H; injection H as <-; auto|].
  destruct (c_libmd c && bytes_eqb a SSH_RSA) eqn:C; [|discriminate]. apply andb_prop in C as [_ C]. apply bytes_eqb_true in C.
  intro H; injection H as <-; auto.
Qed.

Lemma GetDigestAlgorithmRSA_algorithm : forall c a h e n, GetDigestAlgorithmRSA c a = Some h -> algorithm_of (PubRSA e n) a.
Proof.
  intros c a h e n. unfold GetDigestAlgorithmRSA, algorithm_of.
  destruct (bytes_eqb a (bs "rsa-sha2-256")) eqn:A; [apply bytes_eqb_true in A; auto|].
  destruct (bytes_eqb a (bs "rsa-sha2-512")) eqn:B; [apply bytes_eqb_true in B; auto|].
  destruct (c_libmd c && bytes_eqb a SSH_RSA) eqn:C; [|discriminate]. apply andb_prop in C as [_ C]. apply bytes_eqb_true in C. auto.
Qed.

Lemma GetDigestAlgorithmECDSA_inv : forall a h, GetDigestAlgorithmECDSA a = Some h -> a = bs "ecdsa-sha2-nistp256" /\ h = SHA256.
Proof.
  intros a h. unfold GetDigestAlgorithmECDSA. destruct (bytes_eqb a ECDSA_P256) eqn:A; [|discriminate].
  apply bytes_eqb_true in A. intro H. injection H as <-. auto.
Qed.

Lemma Since_app : forall s e, Since (s ++ e) (Mark s) = e.
Proof. intros. unfold Since, Mark. apply drop_len. Qed.
Lemma Rewind_app : forall s e, Rewind (s ++ e) (Mark s) = s.
Proof. intros. unfold Rewind, Mark. apply take_len. Qed.

(** What a signature made by lukko looks like. *)
Definition raw_signature (c : crypto) (k : secret_key) (message algorithm raw : bytes) : Prop :=
  match k with
  | SecEd25519 _ secret => raw = c_ed_sign c secret message
  | SecRSA _ => exists h, GetDigestAlgorithmRSA c algorithm = Some h /\ c_sign c k h (c_digest c h message) = Some raw
  | SecEC _ _ => exists der r s r' s', c_sign c k SHA256 (c_digest c SHA256 message) = Some der /\ c_d2i c der = Some (r, s) /\
      is_mpint r r' /\ number_ok r /\ is_mpint s s' /\ number_ok s /\ raw = enc [FString r'; FString s']
  end.

Lemma appends_sign : forall c k h m, appends (fun s => SignOpenSSL c s k h m) (fun e => c_sign c k h (c_digest c h m) = Some e).
Proof.
  intros c k h m s s' L E. unfold SignOpenSSL in E. destruct (c_sign c k h (c_digest c h m)) as [raw|] eqn:S; [|discriminate]. cbn [obind] in E.
  destruct (appends_WriteN raw s s' L E) as (L' & e & -> & ->). eauto.
Qed.

Lemma Sign_layout : forall c s k m alg s', len s <= BUFFER_SIZE -> 
  (forall public secret, k = SecEd25519 public secret -> len (c_ed_sign c secret m) = 64) ->
  Sign c s k m alg = Some s' ->
  exists raw, s' = s ++ enc [FString alg; FString raw] /\ len alg < pow32 /\ len raw < pow32 /\
    algorithm_of (public_of k) alg /\ raw_signature c k m alg raw.
Proof.
  intros c s k m alg s' L ED. destruct k as [pu se|k|q d]; cbn [Sign public_of raw_signature].
  - destruct (bytes_eqb alg SSH_ED25519) eqn:A; [|discriminate]. apply bytes_eqb_true in A. cbn [negb].
    destruct (WriteString s alg) as [t|] eqn:W; [|discriminate]. cbn [obind]. destruct (appends_WriteString alg s t L W) as (L1 & e & -> & -> & LA).
    unfold WriteU32. destruct (WriteN (s ++ string_enc alg) (put_u32 64)) as [t|] eqn:W2; [|discriminate]. cbn [obind].
    destruct (appends_WriteN _ _ _ L1 W2) as (L2 & e & -> & ->). intro W3.
    destruct (appends_WriteN _ _ _ L2 W3) as (L3 & e & -> & ->). exists (c_ed_sign c se m). specialize (ED _ _ eq_refl).
    rewrite enc2. unfold string_enc at 3. rewrite ED, <- !app_assoc, put_u32_be32. split; [reflexivity|]. split; [exact LA|].
    split; [reflexivity|]. split; [exact A|reflexivity].
  - destruct (GetDigestAlgorithmRSA c alg) as [h|] eqn:G; [|discriminate]. cbn [obind]. unfold SignGeneric.
    destruct (WriteString s alg) as [t|] eqn:W; [|discriminate]. cbn [obind]. destruct (appends_WriteString alg s t L W) as (L1 & e & -> & -> & LA).
    intro W2. destruct (appends_nested _ _ (appends_sign c (SecRSA k) h m) _ _ L1 W2) as (L2 & e & -> & raw & -> & LR & S).
    exists raw. rewrite enc2, app_assoc. split; [reflexivity|]. split; [exact LA|]. split; [exact LR|].
    split; [exact (GetDigestAlgorithmRSA_algorithm _ _ _ _ _ G)|]. eauto.
  - destruct (GetDigestAlgorithmECDSA alg) as [h|] eqn:G; [|discriminate]. apply GetDigestAlgorithmECDSA_inv in G as [A ->]. cbn [obind]. unfold SignECDSA. cbv zeta.
    destruct (SignOpenSSL c s (SecEC q d) SHA256 m) as [t|] eqn:W; [|discriminate]. cbn [obind].
    destruct (appends_sign _ _ _ _ _ _ L W) as (L1 & der & -> & S). rewrite Since_app, Rewind_app.
    destruct (c_d2i c der) as [[r v]|] eqn:D; [|discriminate]. cbn [obind].
    destruct (WriteString s ECDSA_P256) as [t|] eqn:W2; [|discriminate]. cbn [obind]. destruct (appends_WriteString _ s t L W2) as (L2 & e & -> & -> & LA).
    intro W3.
    pose proof (appends_nested _ _ (appends_bind _ _ _ _ (appends_nested _ _ (appends_BN r)) (appends_nested _ _ (appends_BN v)))) as AP.
    destruct (AP _ _ L2 W3) as (L3 & e & -> & raw & -> & LR & a & b & -> & (r' & -> & _ & MR & NR) & (v' & -> & _ & MV & NV)).
    exists (enc [FString r'; FString v']). rewrite !enc2, app_assoc. split; [rewrite A; reflexivity|]. split; [rewrite A; reflexivity|].
    split; [exact LR|]. split; [exact A|]. exists der, r, v, r', v'. rewrite enc2. exact (conj S (conj D (conj MR (conj NR (conj MV (conj NV eq_refl)))))).
Qed.

Lemma ReadString2 : forall a b rest, len a < pow32 -> len b < pow32 -> exists d,
  ReadString (enc [FString a; FString b] ++ rest) = Some (a, d) /\ ReadString d = Some (b, rest).
Proof.
  intros a b rest LA LB. exists (string_enc b ++ rest). rewrite enc2, <- app_assoc. now rewrite !ReadString_enc by assumption.
Qed.

(** lukko accepts its own signatures. *)
Lemma Sign_verifies : forall c k m alg sig, signs_well c k -> Sign c [] k m alg = Some sig ->
  Verify c (public_of k) m sig = Some true.
Proof.
  intros c k m alg sig [ED SW DER] S.
  assert (L0 : len (@nil N) <= BUFFER_SIZE) by discriminate.
  destruct (Sign_layout c [] k m alg sig L0) as (raw & E & LA & LR & A & R); [|exact S|].
  { intros pu se H. exact (proj1 (ED pu se m H)). }
  cbn [app] in E. rewrite <- (app_nil_r (enc _)) in E. destruct (ReadString2 alg raw [] LA LR) as (d & R1 & R2).
  unfold Verify. rewrite E, R1. cbn [obind]. change ReadLengthEncoded with ReadString.
  destruct k as [pu se|k|q d0]; cbn [public_of raw_signature] in *.
  - rewrite A. change (bytes_eqb (bs "ssh-ed25519") SSH_ED25519) with true. cbn [negb]. rewrite R2. cbn [obind].
    destruct (ED pu se m eq_refl) as [LE V]. rewrite R, LE, V. reflexivity.
  - rewrite R2. cbn [obind]. destruct R as (h & G & SG). rewrite G. cbn [obind]. exact (SW _ _ _ SG).
  - rewrite R2. cbn [obind]. destruct R as (der & r & v & r' & v' & SG & D & MR & NR & MV & NV & ->).
    rewrite A. change (GetDigestAlgorithmECDSA (bs "ecdsa-sha2-nistp256")) with (Some SHA256). cbn [obind].
    destruct (mpint_number _ _ MR NR) as [DR LRR]. destruct (mpint_number _ _ MV NV) as [DV LVV].
    unfold DeserializeECDSA_SIG. change ReadLengthEncoded with ReadString.
    destruct (ReadString2 r' v' []) as (d' & R3 & R4); [unfold pow32; lia|unfold pow32; lia|]. rewrite app_nil_r in R3.
    rewrite R3. cbn [obind]. rewrite DR. cbn [obind]. rewrite R4. cbn [obind]. rewrite DV. cbn [obind]. rewrite (DER _ _ D). exact (SW _ _ _ SG).
Qed.

(** What Verify() accepts. *)
Lemma Verify_inv : forall c k m sig, bytes_ok sig -> Verify c k m sig = Some true ->
  exists alg raw rest, sig = enc [FString alg; FString raw] ++ rest /\ algorithm_of k alg /\ raw_valid c k alg m raw.
Proof.
  intros c k m sig OK. unfold Verify. change ReadLengthEncoded with ReadString.
  destruct (ReadString sig) as [[alg d]|] eqn:R1; [|discriminate]. cbn [obind].
  destruct (ReadString_inv _ _ _ OK R1) as (E1 & _ & OK1 & _).
  destruct k as [pu|e n|q]; cbn [algorithm_of raw_valid].
  - destruct (bytes_eqb alg SSH_ED25519) eqn:A; [|discriminate]. apply bytes_eqb_true in A. cbn [negb].
    destruct (ReadString d) as [[raw rest]|] eqn:R2; [|discriminate]. cbn [obind].
    destruct (ReadString_inv _ _ _ OK1 R2) as (E2 & _ & _ & _). destruct (len raw =? 64) eqn:LE; [|discriminate]. apply N.eqb_eq in LE. cbn [negb].
    intro H. injection H as H. exists alg, raw, rest. rewrite enc2, <- app_assoc, E1, E2. auto.
  - destruct (ReadString d) as [[raw rest]|] eqn:R2; [|discriminate]. cbn [obind].
    destruct (ReadString_inv _ _ _ OK1 R2) as (E2 & _ & _ & _).
    destruct (GetDigestAlgorithmRSA c alg) as [h|] eqn:G; [|discriminate]. cbn [obind]. intro V.
    exists alg, raw, rest. rewrite enc2, <- app_assoc, E1, E2. split; [reflexivity|]. split; [exact (GetDigestAlgorithmRSA_algorithm _ _ _ e n G)|].
    exists h. split; [exact (GetDigestAlgorithmRSA_hash _ _ _ G)|exact V].
  - destruct (ReadString d) as [[raw rest]|] eqn:R2; [|discriminate]. cbn [obind].
    destruct (ReadString_inv _ _ _ OK1 R2) as (E2 & _ & _ & OKR).
    destruct (GetDigestAlgorithmECDSA alg) as [h|] eqn:G; [|discriminate]. apply GetDigestAlgorithmECDSA_inv in G as [A ->]. cbn [obind].
    unfold DeserializeECDSA_SIG. change ReadLengthEncoded with ReadString.
    destruct (ReadString raw) as [[r' d']|] eqn:R3; [|discriminate]. cbn [obind]. destruct (ReadString_inv _ _ _ OKR R3) as (E3 & _ & OK3 & _).
    destruct (DeserializeBIGNUM r') as [r|] eqn:DR; [|discriminate]. cbn [obind].
    destruct (ReadString d') as [[s' rest']|] eqn:R4; [|discriminate]. cbn [obind]. destruct (ReadString_inv _ _ _ OK3 R4) as (E4 & _ & _ & _).
    destruct (DeserializeBIGNUM s') as [v|] eqn:DV; [|discriminate]. cbn [obind]. intro V.
    exists alg, raw, rest. rewrite enc2, <- app_assoc, E1, E2. split; [reflexivity|]. split; [exact A|].
    exists SHA256, r, v, r', s', rest'. split; [right; right; right; auto|]. split; [now apply DeserializeBIGNUM_value|]. split; [now apply DeserializeBIGNUM_value|].
    split; [|exact V]. rewrite enc2, <- app_assoc, E3, E4. reflexivity.
Qed.

(** Sign() succeeds if the primitive does. *)
Lemma nested_fits : forall f s e, len s + 4 + len e <= BUFFER_SIZE ->
  (forall t, len t + len e <= BUFFER_SIZE -> f t = Some (t ++ e)) -> WriteNested s f = Some (s ++ string_enc e).
Proof.
  intros f s e L F. apply nested_some; [lia|unfold BUFFER_SIZE, pow32 in *; lia|]. apply F. rewrite len_app. change (len (be32 0)) with 4. lia.
Qed.

Definition fits (c : crypto) (k : secret_key) (m alg : bytes) : Prop :=
  match k with
  | SecEd25519 _ secret => len (c_ed_sign c secret m) <= 16384
  | SecRSA _ => forall h, hash_of alg h -> exists raw, c_sign c k h (c_digest c h m) = Some raw /\ len raw <= 16384
  | SecEC _ _ => exists raw r s, c_sign c k SHA256 (c_digest c SHA256 m) = Some raw /\ len raw <= 16384 /\
      c_d2i c raw = Some (r, s) /\ number_ok r /\ number_ok s
  end.

Lemma Sign_some : forall c k m alg, c_libmd c = true -> algorithm_of (public_of k) alg -> fits c k m alg -> Sign c [] k m alg <> None.
Proof.
  intros c k m alg MD A F. destruct k as [pu se|k|q d]; cbn [Sign public_of algorithm_of fits] in *.
  - subst alg. change (bytes_eqb (bs "ssh-ed25519") SSH_ED25519) with true. cbn [negb].
    assert (LA : len (bs "ssh-ed25519") = 11) by reflexivity.
    rewrite WriteString_some by (rewrite LA; discriminate). cbn [obind app]. unfold WriteU32.
    rewrite WriteN_Some by (rewrite len_string_enc, LA; discriminate). cbn [obind].
    rewrite WriteN_Some; [discriminate|]. rewrite len_app, len_string_enc, LA. change (len (put_u32 64)) with 4. unfold BUFFER_SIZE. lia.
  - assert (G : exists h, GetDigestAlgorithmRSA c alg = Some h).
    { unfold GetDigestAlgorithmRSA. rewrite MD. destruct A as [->|[->| ->]]; [exists SHA1|exists SHA256|exists SHA512]; reflexivity. }
    destruct G as (h & G). destruct (F h (GetDigestAlgorithmRSA_hash _ _ _ G)) as (raw & S & LR). rewrite G. cbn [obind]. unfold SignGeneric.
    assert (LA : len alg <= 12) by (destruct A as [->|[->| ->]]; discriminate).
    rewrite WriteString_some by (rewrite len_nil; unfold BUFFER_SIZE; lia). cbn [obind app].
    rewrite (nested_fits _ _ raw); [discriminate| |].
    + rewrite len_string_enc. unfold BUFFER_SIZE. lia.
    + intros t LT. unfold SignOpenSSL. rewrite S. cbn [obind]. now apply WriteN_Some.
  - destruct F as (raw & r & v & S & LR & D & NR & NV). subst alg. change (GetDigestAlgorithmECDSA (bs "ecdsa-sha2-nistp256")) with (Some SHA256). cbn [obind].
    unfold SignECDSA. cbv zeta. unfold SignOpenSSL. rewrite S. cbn [obind]. rewrite WriteN_Some by (rewrite len_nil; unfold BUFFER_SIZE; lia). cbn [obind].
    rewrite Since_app, Rewind_app, D. cbn [obind]. assert (LA : len ECDSA_P256 = 19) by reflexivity.
    rewrite WriteString_some by (rewrite LA; discriminate). cbn [obind app].
    pose proof (is_mpint_mpint r) as MR. pose proof (is_mpint_mpint v) as MV. set (r' := mpint (BN_bn2bin r)) in *. set (v' := mpint (BN_bn2bin v)) in *.
    destruct (mpint_number _ _ MR NR) as [_ LRR]. destruct (mpint_number _ _ MV NV) as [_ LVV].
    assert (LE : len (string_enc r' ++ string_enc v') <= 4106) by (rewrite len_app, !len_string_enc; lia).
    rewrite (nested_some _ _ (string_enc r' ++ string_enc v')); [discriminate| | |].
    + rewrite len_string_enc, LA. discriminate.
    + unfold pow32. lia.
    + set (t := string_enc ECDSA_P256 ++ be32 0). assert (LT : len t = 27) by reflexivity. clearbody t.
      rewrite (nested_some _ t r'); [|rewrite LT; discriminate|unfold pow32; lia|].
      * cbn [obind]. rewrite (nested_some _ _ v'); [now rewrite <- app_assoc| |unfold pow32; lia|].
        -- rewrite len_app, len_string_enc, LT. unfold BUFFER_SIZE. lia.
        -- apply BN_some; [exact MV|exact NV|]. rewrite !len_app, len_string_enc, LT. change (len (be32 0)) with 4. unfold BUFFER_SIZE. lia.
      * apply BN_some; [exact MR|exact NR|]. rewrite !len_app, LT. change (len (be32 0)) with 4. unfold BUFFER_SIZE. lia.
Qed.

(** ** Key files *)

(** the same key except for the exponents which follow from the others *)
Definition same_key (k k' : secret_key) : Prop :=
  match k, k' with
  | SecRSA k, SecRSA k' => rsa_n k' = rsa_n k /\ rsa_e k' = rsa_e k /\ rsa_d k' = rsa_d k /\ rsa_iqmp k' = rsa_iqmp k /\
      rsa_p k' = rsa_p k /\ rsa_q k' = rsa_q k
  | _, _ => k' = k
  end.

Lemma enc_cons : forall f fs, enc (f :: fs) = enc_field f ++ enc fs.
Proof. reflexivity. Qed.
Lemma enc_app : forall a b, enc (a ++ b) = enc a ++ enc b.
Proof. intros. unfold enc. now rewrite map_app, concat_app. Qed.

Lemma ParseSSHAgentKey_fields : forall c k fs rest, secret_ok k -> secret_supported c k -> private_fields k fs ->
  exists k', ParseSSHAgentKey c (enc fs ++ rest) = Some k' /\ same_key k k' /\
    (forall r r', k = SecRSA r -> k' = SecRSA r' -> rsa_dmp r' = rsa_p r mod (rsa_d r - 1) /\ rsa_dmq r' = rsa_q r mod (rsa_d r - 1)).
Proof.
  intros c k fs rest OK S P. unfold ParseSSHAgentKey. change ReadLengthEncoded with ReadString.
  destruct k as [pu se|k|q d]; cbn [secret_ok secret_supported private_fields same_key] in *.
  - subst fs. destruct OK as [LP LS]. rewrite !enc_cons. cbn [enc_field]. rewrite <- !app_assoc.
    rewrite ReadString_enc by reflexivity. cbn [obind]. change (bytes_eqb (bs "ssh-ed25519") SSH_ED25519) with true. cbn iota.
    rewrite ReadString_enc by (rewrite LP; reflexivity). cbn [obind]. rewrite ReadString_enc by (rewrite LS; reflexivity). cbn [obind].
    rewrite LP, LS. exists (SecEd25519 pu se). split; [reflexivity|]. split; [reflexivity|discriminate].
  - destruct P as (n & e & d & i & p & q & MN & ME & MD & MI & MP & MQ & ->).
    destruct OK as (ON & OE & OD & OI & OP & OQ & P1 & Q1 & D1 & _ & _). destruct S as [SO SA].
    destruct (mpint_number _ _ MN ON) as [DN LN]. destruct (mpint_number _ _ ME OE) as [DE LE]. destruct (mpint_number _ _ MD OD) as [DD LD].
    destruct (mpint_number _ _ MI OI) as [DI LI]. destruct (mpint_number _ _ MP OP) as [DP LP]. destruct (mpint_number _ _ MQ OQ) as [DQ LQ].
    rewrite !enc_cons. cbn [enc_field]. rewrite <- !app_assoc.
    rewrite ReadString_enc by reflexivity. cbn [obind]. change (bytes_eqb (bs "ssh-rsa") SSH_ED25519) with false. cbn iota. rewrite SO.
    change (bytes_eqb (bs "ssh-rsa") SSH_RSA) with true. cbn [andb].
    do 6 (rewrite ReadString_enc by (unfold pow32; lia); cbn [obind]).
    unfold DeserializeRSA. rewrite DN, DE, DD, DI, DP, DQ. cbn [obind]. unfold CalcFactorExponent. cbv zeta.
    replace (rsa_d k - 1 =? 0) with false by (symmetry; apply N.eqb_neq; lia). cbn [obind]. rewrite SA. cbn [option_map].
    eexists. split; [reflexivity|]. split; [repeat split|]. intros r r' H H'. injection H as <-. injection H' as <-. split; reflexivity.
  - destruct P as (d' & MD & ->). destruct OK as [LQ OD]. destruct S as [SO SA]. destruct (mpint_number _ _ MD OD) as [DD LD].
    rewrite !enc_cons. cbn [enc_field]. rewrite <- !app_assoc.
    rewrite ReadString_enc by reflexivity. cbn [obind]. change (bytes_eqb (bs "ecdsa-sha2-nistp256") SSH_ED25519) with false. cbn iota. rewrite SO.
    change (bytes_eqb (bs "ecdsa-sha2-nistp256") SSH_RSA) with false. change (bytes_eqb (bs "ecdsa-sha2-nistp256") ECDSA_P256) with true. cbn [andb].
    rewrite ReadString_enc by reflexivity. cbn [obind]. change (bytes_eqb (bs "nistp256") NISTP256) with true. cbn [negb].
    rewrite ReadString_enc by (unfold pow32; lia). cbn [obind]. rewrite ReadString_enc by (unfold pow32; lia). cbn [obind].
    rewrite DD. cbn [obind]. rewrite SA. cbn [obind]. exists (SecEC q d). split; [reflexivity|]. split; [reflexivity|discriminate].
Qed.

Lemma skip_keys_enc : forall l rest, Forall (fun x => len x < pow32) l ->
  skip_keys (List.length l) (enc (map FString l) ++ rest) = Some rest.
Proof.
  intros l rest F. induction F as [|x l LX F IH]; [reflexivity|]. cbn [List.length skip_keys map]. rewrite enc_cons. cbn [enc_field].
  rewrite <- app_assoc. change ReadLengthEncoded with ReadString. rewrite ReadString_enc by exact LX. cbn [obind]. exact IH.
Qed.

Lemma len_enc_strings : forall l, len l <= len (enc (map FString l)).
Proof.
  induction l as [|x l IH]; [reflexivity|]. cbn [map]. rewrite enc_cons, len_app, len_cons. cbn [enc_field]. rewrite len_string_enc. lia.
Qed.

Lemma SkipPrefix_app : forall p s, SkipPrefix (p ++ s) p = Some s.
Proof.
  intros p s. unfold SkipPrefix. rewrite take_len, drop_len. assert (bytes_eqb p p = true) as -> by (now apply bytes_eqb_eq). reflexivity.
Qed.

Lemma parse_secret_v1 : forall c fuel x, parse_secret c fuel (MAGIC ++ x) = ParseOpenSSHV1 c x.
Proof. intros c fuel x. destruct fuel; cbn [parse_secret]; now rewrite SkipPrefix_app. Qed.

Definition v1_body (cipher kdf options : bytes) (publics : list bytes) (private : bytes) : bytes :=
  enc ([FString cipher; FString kdf; FString options; FU32 (len publics)] ++ map FString publics ++ [FString private]).

Lemma v1_file_body : forall ci kdf o pu pr, v1_file ci kdf o pu pr = MAGIC ++ v1_body ci kdf o pu pr.
Proof. intros. unfold v1_file, MAGIC, v1_body. now rewrite <- app_assoc. Qed.

Lemma v1_body_enc : forall ci kdf o pu pr, v1_body ci kdf o pu pr =
  string_enc ci ++ string_enc kdf ++ string_enc o ++ be32 (len pu) ++ enc (map FString pu) ++ string_enc pr.
Proof. intros. unfold v1_body. cbn [app]. rewrite !enc_cons, enc_app, enc_cons. cbn [enc_field]. unfold enc at 2. cbn [map List.concat]. now rewrite app_nil_r. Qed.

Lemma ParseOpenSSHV1_plain : forall c pu pr rest, Forall (fun x => len x < pow32) pu -> len pu < pow32 -> len pr < pow32 ->
  ParseOpenSSHV1 c (v1_body (bs "none") (bs "none") [] pu pr ++ rest) = ParseOpenSSHV1PrivateKeys c pr.
Proof.
  intros c pu pr rest F LP LR. unfold ParseOpenSSHV1. rewrite v1_body_enc, <- !app_assoc. change ReadLengthEncoded with ReadString.
  rewrite ReadString_enc by reflexivity. cbn [obind]. change (bytes_eqb (bs "none") (bs "none")) with true. cbn [negb].
  rewrite ReadString_enc by reflexivity. cbn [obind]. change (bytes_eqb (bs "none") (bs "none")) with true. cbn [negb].
  rewrite ReadString_enc by reflexivity. cbn [obind is_nil negb]. rewrite ReadU32_be32 by exact LP. cbn [obind].
  rewrite N.min_l by (rewrite len_app; pose proof (len_enc_strings pu); lia).
  unfold len at 1. rewrite Nnat.Nat2N.id. rewrite skip_keys_enc by exact F. cbn [obind]. rewrite ReadString_enc by exact LR. reflexivity.
Qed.

Lemma plain_file_loads : forall c k file, secret_ok k -> secret_supported c k -> plain_file k file ->
  exists k', ParseSecretKey c file = Some k' /\ same_key k k' /\
    (forall r r', k = SecRSA r -> k' = SecRSA r' -> rsa_dmp r' = rsa_p r mod (rsa_d r - 1) /\ rsa_dmq r' = rsa_q r mod (rsa_d r - 1)).
Proof.
  intros c k file OK S (pu & check & fs & comment & padding & P & LC & LP & LM & LR & ->).
  unfold ParseSecretKey. rewrite v1_file_body, parse_secret_v1.
  rewrite <- (app_nil_r (v1_body _ _ _ _ _)). rewrite ParseOpenSSHV1_plain; [|constructor; [exact LP|constructor]|reflexivity|exact LR].
  unfold ParseOpenSSHV1PrivateKeys, private_section. rewrite enc_app, !enc_cons. cbn [enc_field]. unfold enc at 1. cbn [map List.concat]. rewrite app_nil_r, <- app_assoc.
  rewrite ReadU32_be32 by exact LC. cbn [obind]. rewrite ReadU32_be32 by exact LC. cbn [obind]. rewrite N.eqb_refl. cbn [negb].
  rewrite enc_app. apply ParseSSHAgentKey_fields; assumption.
Qed.

Lemma encrypted_refused : forall c ci kdf o pu pr rest, len ci < pow32 -> len kdf < pow32 -> len o < pow32 ->
  ci <> bs "none" \/ kdf <> bs "none" \/ o <> [] -> ParseSecretKey c (v1_file ci kdf o pu pr ++ rest) = None.
Proof.
  intros c ci kdf o pu pr rest L1 L2 L3 H. unfold ParseSecretKey. rewrite v1_file_body, <- app_assoc, parse_secret_v1. unfold ParseOpenSSHV1.
  rewrite v1_body_enc, <- !app_assoc. rewrite ReadString_enc by exact L1. cbn [obind].
  destruct (bytes_eqb ci (bs "none")) eqn:E1; [|reflexivity]. apply bytes_eqb_true in E1. cbn [negb].
  rewrite ReadString_enc by exact L2. cbn [obind]. destruct (bytes_eqb kdf (bs "none")) eqn:E2; [|reflexivity]. apply bytes_eqb_true in E2. cbn [negb].
  rewrite ReadString_enc by exact L3. cbn [obind]. destruct o as [|x o]; [|reflexivity]. exfalso. intuition congruence.
Qed.

(** What a file that is accepted looks like. *)
Lemma skip_keys_inv : forall n d d', bytes_ok d -> skip_keys n d = Some d' ->
  exists l, List.length l = n /\ d = enc (map FString l) ++ d' /\ bytes_ok d' /\ Forall (fun x => len x < pow32) l.
Proof.
  induction n as [|n IH]; intros d d' OK H.
  - injection H as <-. exists []. auto.
  - cbn [skip_keys] in H. change ReadLengthEncoded with ReadString in H. destruct (ReadString d) as [[x d1]|] eqn:R; [|discriminate]. cbn [obind] in H.
    destruct (ReadString_inv _ _ _ OK R) as (E & LX & OK1 & _). destruct (IH d1 d' OK1 H) as (l & LL & E1 & OK2 & F).
    exists (x :: l). split; [cbn [List.length]; now rewrite LL|]. split; [|split; [exact OK2|now constructor]].
    cbn [map]. rewrite enc_cons. cbn [enc_field]. rewrite <- app_assoc, <- E1. exact E.
Qed.

Lemma ParseOpenSSHV1_inv : forall c src k, bytes_ok src -> ParseOpenSSHV1 c src = Some k ->
  exists pu pr rest, src = v1_body (bs "none") (bs "none") [] pu pr ++ rest /\ bytes_ok pr /\ ParseOpenSSHV1PrivateKeys c pr = Some k.
Proof.
  intros c src k OK. unfold ParseOpenSSHV1. change ReadLengthEncoded with ReadString.
  destruct (ReadString src) as [[ci d1]|] eqn:R1; [|discriminate]. cbn [obind]. destruct (ReadString_inv _ _ _ OK R1) as (E1 & _ & OK1 & _).
  destruct (bytes_eqb ci (bs "none")) eqn:C1; [|discriminate]. apply bytes_eqb_true in C1. cbn [negb].
  destruct (ReadString d1) as [[kdf d2]|] eqn:R2; [|discriminate]. cbn [obind]. destruct (ReadString_inv _ _ _ OK1 R2) as (E2 & _ & OK2 & _).
  destruct (bytes_eqb kdf (bs "none")) eqn:C2; [|discriminate]. apply bytes_eqb_true in C2. cbn [negb].
  destruct (ReadString d2) as [[o d3]|] eqn:R3; [|discriminate]. cbn [obind]. destruct (ReadString_inv _ _ _ OK2 R3) as (E3 & _ & OK3 & _).
  destruct o as [|x o]; [|discriminate]. cbn [is_nil negb].
  destruct (ReadU32 d3) as [[n d4]|] eqn:R4; [|discriminate]. cbn [obind]. destruct (ReadU32_inv _ _ _ OK3 R4) as (E4 & LN & OK4).
  destruct (skip_keys _ d4) as [d5|] eqn:SK; [|discriminate]. cbn [obind]. destruct (skip_keys_inv _ _ _ OK4 SK) as (pu & LL & E5 & OK5 & F).
  destruct (ReadString d5) as [[pr d6]|] eqn:R6; [|discriminate]. cbn [obind]. destruct (ReadString_inv _ _ _ OK5 R6) as (E6 & _ & _ & OKP).
  intro H. exists pu, pr, d6. split; [|split; [exact OKP|exact H]].
  assert (LP : len pu = n).
  { assert (X : len pu = N.min n (len d4 + 1)) by (unfold len at 1; rewrite LL; apply Nnat.N2Nat.id).
    assert (Y : len pu <= len d4) by (rewrite E5, len_app; pose proof (len_enc_strings pu); lia). lia. }
  rewrite v1_body_enc, <- !app_assoc, LP. rewrite E1, C1, E2, C2, E3, E4, E5, E6. reflexivity.
Qed.

(** ** Text files *)

Lemma StripRight_ws : forall w, forallb is_ws w = true -> StripRight w = [].
Proof.
  induction w as [|c w IH]; [reflexivity|]. cbn [forallb StripRight]. intro H. apply andb_prop in H as [H1 H2]. now rewrite IH, H1.
Qed.
Lemma StripRight_app : forall x c w, is_ws c = false -> forallb is_ws w = true -> StripRight (x ++ c :: w) = x ++ [c].
Proof.
  intros x c w HC HW. induction x as [|y x IH]; cbn [app StripRight].
  - now rewrite StripRight_ws, HC.
  - rewrite IH. destruct (x ++ [c]) eqn:E; [destruct x; discriminate|reflexivity].
Qed.
Lemma StripLeft_ws : forall w s, forallb is_ws w = true -> StripLeft (w ++ s) = StripLeft s.
Proof. induction w as [|c w IH]; intros s H; [reflexivity|]. cbn [forallb] in H. apply andb_prop in H as [H1 H2]. cbn [app StripLeft]. rewrite H1. now apply IH. Qed.

Lemma RemoveSuffix_app : forall x suf, RemoveSuffix (x ++ suf) suf = Some x.
Proof.
  intros x suf. unfold RemoveSuffix. rewrite len_app. replace (len x + len suf - len suf) with (len x) by lia.
  rewrite drop_len, take_len. replace (len suf <=? len x + len suf) with true by (symmetry; apply N.leb_le; lia).
  assert (bytes_eqb suf suf = true) as -> by (now apply bytes_eqb_eq). reflexivity.
Qed.

Lemma armored_file : forall c x text before after, forallb is_ws before = true -> forallb is_ws after = true ->
  match text with ch :: _ => is_ws ch = false | [] => True end ->
  c_base64 c text = Some (MAGIC ++ x) ->
  ParseSecretKey c (BEGIN_KEY ++ before ++ text ++ END_KEY ++ after) = ParseSecretKey c (MAGIC ++ x).
Proof.
  intros c x text before after HB HA HT B. unfold ParseSecretKey. rewrite parse_secret_v1.
  assert (LB : exists n, List.length (BEGIN_KEY ++ before ++ text ++ END_KEY ++ after) = S n) by (eexists; reflexivity).
  destruct LB as (n & ->). cbn [parse_secret].
  assert (NM : SkipPrefix (BEGIN_KEY ++ before ++ text ++ END_KEY ++ after) MAGIC = None) by reflexivity.
  rewrite NM, SkipPrefix_app. unfold Strip. rewrite StripLeft_ws by exact HB.
  assert (SL : StripLeft (text ++ END_KEY ++ after) = text ++ END_KEY ++ after).
  { destruct text as [|ch text]; [reflexivity|]. cbn [app StripLeft]. now rewrite HT. }
  rewrite SL. assert (E : text ++ END_KEY ++ after = (text ++ bs "-----END OPENSSH PRIVATE KEY----") ++ 45 :: after).
  { rewrite <- app_assoc. reflexivity. }
  rewrite E, StripRight_app by (reflexivity || exact HA).
  assert (E' : (text ++ bs "-----END OPENSSH PRIVATE KEY----") ++ [45] = text ++ END_KEY) by (rewrite <- app_assoc; reflexivity).
  rewrite E', RemoveSuffix_app. cbn [obind]. rewrite B. cbn [obind]. apply parse_secret_v1.
Qed.
