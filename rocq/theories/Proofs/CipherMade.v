(** The cipher objects which the factory makes for the two ends. *)

From Coq Require Import NArith List Bool Lia String.
From Verif.Base Require Import Bytes.
From Verif.Model Require Import StringList Negotiate Ciphers.
From Verif.Spec Require Import CipherSpec.
From Verif.Proofs Require Import CipherFacts.
Import ListNotations.
Open Scope N_scope.
Local Arguments bs : simpl never.
Local Arguments take : simpl never.
Local Arguments drop : simpl never.

(** the same cipher for the other direction *)
Definition other_end (c : cipher) (e : bool) : cipher :=
  {| c_alg := c_alg c; c_auth_size := c_auth_size c; c_mac := c_mac c; c_key := c_key c; c_iv := c_iv c;
     c_mac_key := c_mac_key c; c_encrypt := e |}.

(** what MakeEncryptionCipher() returns *)
Definition enc_made (c : cipher) (e : bool) : Prop :=
  c_encrypt c = e /\ c_mac c = None /\
  ((exists pk hk, new_base c = ChaCha pk hk /\ c_auth_size c = 16) \/
   (exists k f n, new_base c = Gcm k f n e /\ c_auth_size c = 16) \/
   (exists k iv, new_base c = Ctr k iv 0 /\ c_auth_size c = 0)).

Lemma enc_loop : forall l key iv e c, MakeEncryptionCipher_loop l key iv e = Some (Some c) ->
  enc_made c e /\ forall e', MakeEncryptionCipher_loop l key iv e' = Some (Some (other_end c e')).
Proof.
  induction l as [|a l IH]; intros key iv e c H; cbn [MakeEncryptionCipher_loop] in *; [discriminate|].
  destruct (bytes_eqb a (bs "chacha20-poly1305@openssh.com")).
  { unfold ChaCha20Poly1305Cipher in *. destruct (len key =? 64); [|discriminate]. cbn [option_map] in *.
    assert (X := f_equal (fun x => match x with Some (Some y) => y | _ => c end) H). cbn in X. subst c.
    split; [|intros e'; reflexivity]. split; [reflexivity|]. split; [reflexivity|]. left.
    do 2 eexists. split; reflexivity. }
  assert (G : forall alg auth ks ivs iv,
    (alg = bs "aes128-gcm@openssh.com" \/ alg = bs "aes256-gcm@openssh.com") /\ auth = 16 \/
    (alg = bs "aes128-ctr" \/ alg = bs "aes192-ctr" \/ alg = bs "aes256-ctr") /\ auth = 0 ->
    option_map Some (OsslCipher alg auth ks ivs key iv e) = Some (Some c) ->
    enc_made c e /\ forall e', option_map Some (OsslCipher alg auth ks ivs key iv e') = Some (Some (other_end c e'))).
  { clear iv H. intros alg auth ks ivs iv HA HO. unfold OsslCipher in *. destruct (len iv <? ivs); [discriminate|].
    destruct (negb (len (take ks key) =? ks)); [discriminate|]. cbn [option_map] in *.
    assert (X := f_equal (fun x => match x with Some (Some y) => y | _ => c end) HO). cbn in X. subst c.
    split; [|intros e'; reflexivity]. split; [reflexivity|]. split; [reflexivity|]. right.
    destruct HA as [[[->| ->] ->]|[[->|[->| ->]] ->]];
      [left; do 3 eexists; split; reflexivity|left; do 3 eexists; split; reflexivity
      |right; do 2 eexists; split; reflexivity|right; do 2 eexists; split; reflexivity|right; do 2 eexists; split; reflexivity]. }
  destruct (bytes_eqb a (bs "aes128-ctr")); [apply G; auto|].
  destruct (bytes_eqb a (bs "aes192-ctr")); [apply G; auto|].
  destruct (bytes_eqb a (bs "aes256-ctr")); [apply G; auto|].
  destruct (bytes_eqb a (bs "aes128-gcm@openssh.com")); [apply G; auto|].
  destruct (bytes_eqb a (bs "aes256-gcm@openssh.com")); [apply G; auto|].
  apply IH; exact H.
Qed.

Lemma mac_loop : forall l c key c2, MakeMacCipher_loop l c key = Some (Some c2) ->
  exists k, len k = 32 /\ new_base c2 = new_base c /\ c_mac c2 <> None /\ c_mac_key c2 = k /\ c_encrypt c2 = c_encrypt c /\
    forall e', MakeMacCipher_loop l (other_end c e') key = Some (Some (other_end c2 e')).
Proof.
  induction l as [|a l IH]; intros c key c2 H; cbn [MakeMacCipher_loop] in *; [discriminate|].
  destruct (bytes_eqb a (bs "hmac-sha2-256")).
  - unfold HmacSHA256Cipher in *. destruct (len key <? 32) eqn:L; [discriminate|]. apply N.ltb_ge in L. cbn [option_map] in *.
    assert (X := f_equal (fun x => match x with Some (Some y) => y | _ => c end) H). cbn in X. subst c2.
    exists (take 32 key). split; [apply len_take; exact L|]. split; [reflexivity|]. split; [discriminate|].
    split; [reflexivity|]. split; [reflexivity|]. intros e'; reflexivity.
  - destruct (IH _ _ _ H) as (k & A). exists k. exact A.
Qed.

Theorem made_cipher : forall ca ma key iv mk c,
  MakeCipher ca ma key iv mk true = Some (Some c) ->
  made (new_running c) /\ sends (new_running c) /\
  exists d, MakeCipher ca ma key iv mk false = Some (Some d) /\ run_mirror (new_running c) (new_running d).
Proof.
  intros ca ma key iv mk c H. unfold MakeCipher in *.
  destruct (MakeEncryptionCipher_loop (split 44 ca) key iv true) as [[c0|]|] eqn:E; try discriminate.
  destruct (enc_loop _ _ _ _ _ E) as [(Ee & Em & K) O]. rewrite (O false).
  assert (M : base_mirror (new_base c0) (new_base (other_end c0 false)) /\ base_sends (new_base c0)).
  { unfold new_base, other_end; cbn [c_alg c_key c_iv c_encrypt].
    destruct (bytes_eqb (c_alg c0) (bs "chacha20-poly1305@openssh.com")); [cbn; auto|].
    destruct (_ || _); cbn; [rewrite Ee|]; auto. }
  destruct M as [M Sd].
  change (c_auth_size (other_end c0 false)) with (c_auth_size c0).
  destruct (c_auth_size c0 =? 0) eqn:A.
  - apply N.eqb_eq in A. destruct (mac_loop _ _ _ _ H) as (k & Lk & B1 & B2 & B3 & B4 & O2).
    destruct K as [(? & ? & _ & X)|[(? & ? & ? & _ & X)|(k1 & iv1 & X & _)]]; try congruence.
    specialize (O2 false).
    assert (R1 : new_running c = Hmac (new_base c0) k []).
    { unfold new_running. destruct (c_mac c) eqn:Z; [|congruence]. rewrite B1, B3. reflexivity. }
    assert (R2 : new_running (other_end c false) = Hmac (new_base (other_end c0 false)) k []).
    { unfold new_running. change (c_mac (other_end c false)) with (c_mac c).
      change (c_mac_key (other_end c false)) with (c_mac_key c). destruct (c_mac c) eqn:Z; [|congruence].
      rewrite B3. f_equal. destruct (mac_loop _ _ _ _ O2) as (_ & _ & Y & _). exact Y. }
    rewrite R1. split; [rewrite X; exact Logic.I|]. split; [exact Sd|].
    exists (other_end c false). split; [exact O2|]. rewrite R2. cbn [run_mirror]. auto.
  - apply N.eqb_neq in A. assert (c = c0) by congruence. subst c.
    assert (R1 : new_running c0 = Plain (new_base c0)) by (unfold new_running; rewrite Em; reflexivity).
    assert (R2 : new_running (other_end c0 false) = Plain (new_base (other_end c0 false))).
    { unfold new_running. change (c_mac (other_end c0 false)) with (c_mac c0). rewrite Em. reflexivity. }
    rewrite R1. split.
    { destruct K as [(? & ? & X & _)|[(? & ? & ? & X & _)|(? & ? & _ & X)]]; try (rewrite X; exact Logic.I). congruence. }
    split; [exact Sd|]. exists (other_end c0 false). split; [reflexivity|]. rewrite R2. exact M.
Qed.
