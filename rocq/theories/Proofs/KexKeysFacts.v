(** Lemmas about the exchange hash, the derived keys and the ciphers. *)

From Coq Require Import NArith List Bool Lia String.
From Verif.Base Require Import Bytes.
From Verif.Spec Require Import WireSpec PacketSpec NamesSpec KexSpec.
From Verif.Model Require Import Wire StringList Negotiate KexKeys KexMachine.
From Verif.Proofs Require Import WireFacts NamesFacts.
Import ListNotations.
Open Scope N_scope.

Local Arguments bs : simpl never.
Local Arguments take : simpl never.

Lemma KexHashInput_spec : forall vc vs ic is ks qc qs k,
  KexHashInput vc vs ic is ks qc qs k =
  hash_input {| V_C := vc; V_S := vs; I_C := 20 :: ic; I_S := 20 :: is; K_S := ks;
                Q_C := qc; Q_S := qs; K := k |}.
Proof.
  intros. unfold KexHashInput, hash_input, string_enc. cbn [V_C V_S I_C I_S K_S Q_C Q_S K].
  rewrite !put_u32_be32, !len_cons, !(N.add_comm 1). cbn [app]. rewrite <- !app_assoc.
  rewrite <- !app_comm_cons. reflexivity.
Qed.

Lemma string_enc_inj : forall a b r s, len a < pow32 -> len b < pow32 ->
  string_enc a ++ r = string_enc b ++ s -> a = b /\ r = s.
Proof.
  intros a b r s Ha Hb H. unfold string_enc in H. rewrite <- !app_assoc in H.
  apply app_inj_len in H as [Hl H]; [|rewrite !len_be32; reflexivity].
  apply be32_inj in Hl; [|assumption|assumption]. apply app_inj_len in H; [tauto|assumption].
Qed.

Section Derive.

Variable HASH : bytes -> bytes.
Hypothesis H32 : forall x, len (HASH x) = 32.

Definition key2 (k h sid : bytes) (letter : N) : bytes := key_stream HASH k h sid letter 2.

Lemma loop_step : forall f need h k b, len b <? need = true ->
  DeriveKey_loop HASH (S f) need h k b =
  let d := HASH (k ++ h ++ b) in
  if 64 <? len b + len d then None else DeriveKey_loop HASH f need h k (b ++ d).
Proof. intros f need h k b E. cbn [DeriveKey_loop]. now rewrite E. Qed.

Lemma loop_done : forall f need h k b, len b <? need = false ->
  DeriveKey_loop HASH f need h k b = Some b.
Proof. intros f need h k b E. destruct f; cbn [DeriveKey_loop]; now rewrite E. Qed.

Lemma DeriveKey_64 : forall id h k sid, DeriveKey HASH id 64 h k sid = Some (key2 k h sid id).
Proof.
  intros. unfold DeriveKey. rewrite H32. change (64 <? 32) with false. cbv iota.
  assert (F : exists f, N.to_nat 64 = S (S f)) by (exists 62%nat; reflexivity).
  destruct F as (f & ->). rewrite loop_step by (rewrite H32; reflexivity). cbv zeta. rewrite !H32.
  change (64 <? 32 + 32) with false. cbv iota.
  rewrite loop_done by (rewrite len_app, !H32; reflexivity). reflexivity.
Qed.

Lemma len_key2 : forall k h sid l, len (key2 k h sid l) = 64.
Proof. intros. unfold key2. cbn [key_stream]. now rewrite len_app, !H32. Qed.

Lemma derive_all_ok : forall ids h k sid,
  derive_all HASH ids h k sid = Some (map (key2 k h sid) ids).
Proof.
  induction ids as [|i ids IH]; intros; cbn [derive_all map]; [reflexivity|].
  unfold we_need. rewrite DeriveKey_64. cbn [obind]. rewrite IH. reflexivity.
Qed.

Definition dir_keys (f : flow) (k h sid : bytes) : NewKey :=
  let '(iv, key, mac) := letters f in
  {| enc_iv := key2 k h sid iv; enc_key := key2 k h sid key; mac_key := key2 k h sid mac |}.

Lemma DeriveKeys_ok : forall sid h k role, h <> [] ->
  DeriveKeys HASH sid h k role (len sid =? 0) =
  let sid' := if len sid =? 0 then h else sid in
  Some (sid', {| nk_incoming := dir_keys (flow_of role INCOMING) k h sid';
                 nk_outgoing := dir_keys (flow_of role OUTGOING) k h sid' |}).
Proof.
  intros sid h k role Hh. unfold DeriveKeys.
  destruct (len sid =? 0) eqn:E; cbn [negb obind]; rewrite derive_all_ok; cbn [obind map];
    destruct role; reflexivity.
Qed.

Lemma derived_take : forall k h sid l n, derived_key HASH k h sid l (take n (key2 k h sid l)).
Proof.
  intros. exists 2%nat, (drop n (key2 k h sid l)). symmetry. apply take_drop.
Qed.

Lemma derived_nil : forall k h sid l, derived_key HASH k h sid l [].
Proof. intros. exists 0%nat, []. reflexivity. Qed.

Lemma derived_all : forall k h sid l, derived_key HASH k h sid l (key2 k h sid l).
Proof. intros. exists 2%nat, []. now rewrite app_nil_r. Qed.

End Derive.

(** ** Ciphers *)

Lemma take_take_le : forall A n m (l : list A), n <= m -> take n (take m l) = take n l.
Proof. intros. unfold take. rewrite firstn_firstn. f_equal. lia. Qed.

Definition auth_ok (c : cipher) (m : bytes) : Prop :=
  (aead (c_alg c) /\ c_mac c = None /\ c_mac_key c = []) \/ (c_mac c = Some m /\ m <> []).

Lemma MakeEnc_cases : forall l key iv d r, len key = 64 -> len iv = 64 ->
  MakeEncryptionCipher_loop l key iv d = r ->
  r = Some None \/
  exists c, r = Some (Some c) /\ In (c_alg c) l /\ c_encrypt c = d /\ c_mac c = None /\ c_mac_key c = [] /\
    In (c_alg c, (len (c_key c), len (c_iv c))) cipher_sizes /\
    (exists n, c_key c = take n key) /\ (exists n, c_iv c = take n iv) /\
    ((c_auth_size c = 0 /\ ~ aead (c_alg c)) \/ (aead (c_alg c) /\ c_auth_size c = 16)).
Proof.
  intros l key iv d r Hk Hi <-. induction l as [|a l IH]; cbn [MakeEncryptionCipher_loop]; [now left|].
  assert (Lk : forall n, n <= 64 -> len (take n key) = n) by (intros; apply len_take; lia).
  assert (Li : forall n, n <= 64 -> len (take n iv) = n) by (intros; apply len_take; lia).
  assert (Hos : forall alg au ks iz, ks <= 64 -> iz <= 64 ->
    OsslCipher alg au ks iz key iv d = Some {| c_alg := alg; c_auth_size := au; c_mac := None;
      c_key := take ks key; c_iv := take iz iv; c_mac_key := []; c_encrypt := d |}).
  { intros alg au ks iz H1 H2. unfold OsslCipher. rewrite Hi, Lk by assumption.
    destruct (64 <? iz) eqn:E; [apply N.ltb_lt in E; lia|]. now rewrite N.eqb_refl. }
  assert (Hos2 : forall alg au ks iz, ks <= 64 -> iz <= 64 ->
    OsslCipher alg au ks iz key (take iz iv) d = Some {| c_alg := alg; c_auth_size := au; c_mac := None;
      c_key := take ks key; c_iv := take iz iv; c_mac_key := []; c_encrypt := d |}).
  { intros alg au ks iz H1 H2. unfold OsslCipher. rewrite Li, Lk by assumption.
    rewrite N.ltb_irrefl, N.eqb_refl, take_take_le by lia. reflexivity. }
  repeat match goal with
  | |- context [if bytes_eqb a ?n then _ else _] =>
      destruct (bytes_eqb a n) eqn:Ea;
      [right; rewrite ?Hos, ?Hos2 by lia; unfold ChaCha20Poly1305Cipher; rewrite ?Hk, ?N.eqb_refl;
       cbn [option_map]; eexists; split; [reflexivity|];
       apply bytes_eqb_eq in Ea; cbn [c_alg c_mac c_mac_key c_key c_iv c_auth_size c_encrypt];
       split; [left; exact Ea|]; split; [reflexivity|]; split; [reflexivity|]; split; [reflexivity|];
       split; [unfold cipher_sizes; rewrite ?Hk, ?Lk, ?Li by lia; cbn [cipher_sizes In]; tauto|];
       split; [|split; [|first [left; split; [reflexivity|intro Hx; vm_compute in Hx; repeat (destruct Hx as [Hx|Hx]; [discriminate|]); exact Hx]|right; split; [unfold aead; cbn [In]; tauto|reflexivity]]]]|clear Ea]
  end.
  all: try (eexists; reflexivity).
  - exists 64. rewrite <- Hk. symmetry. apply take_all.
  - exists 0. now rewrite take_0.
  - destruct IH as [IH|(c & E & Hin & R)]; [left; exact IH|]. right. exists c. split; [assumption|].
    split; [now right|assumption].
Qed.

Lemma MakeMac_cases : forall l c key r, len key = 64 -> MakeMacCipher_loop l c key = r ->
  (r = Some None /\ ~ In (bs "hmac-sha2-256") l) \/
  (In (bs "hmac-sha2-256") l /\
   r = Some (Some {| c_alg := c_alg c; c_auth_size := c_auth_size c + 32;
                     c_mac := Some (bs "hmac-sha2-256"); c_key := c_key c; c_iv := c_iv c;
                     c_mac_key := take 32 key; c_encrypt := c_encrypt c |})).
Proof.
  intros l c key r Hk <-. induction l as [|a l IH]; cbn [MakeMacCipher_loop]; [left; tauto|].
  destruct (bytes_eqb a (bs "hmac-sha2-256")) eqn:E.
  - apply bytes_eqb_eq in E. right. split; [left; exact E|]. unfold HmacSHA256Cipher. rewrite Hk. reflexivity.
  - apply bytes_eqb_neq in E. destruct IH as [(H1 & H2)|(H1 & H2)]; [left|right]; cbn [In]; tauto.
Qed.
