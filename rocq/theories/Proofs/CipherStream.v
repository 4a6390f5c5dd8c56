(** Which bytes of the key stream are used for which packet. *)

From Coq Require Import NArith List Bool Lia.
From Verif.Base Require Import Bytes.
From Verif.Model Require Import Ciphers.
From Verif.Spec Require Import CipherSpec.
From Verif.Proofs Require Import CipherFacts.
Import ListNotations.
Open Scope N_scope.
Local Arguments take : simpl never.
Local Arguments drop : simpl never.

Definition base_of (c : running) : base := match c with Plain b => b | Hmac b _ _ => b end.

(** the key stream bytes for packet [p] with sequence number [n] *)
Definition consumes (c : running) (n : N) (p : bytes) (u : stream_byte) : Prop :=
  match base_of c, u with
  | ChaCha pk hk, ChaChaByte k nonce i =>
      nonce = be64 n /\
      (k = hk /\ i < 4 \/                          (* the length *)
       k = pk /\ i < 32 \/                         (* the key for Poly1305 *)
       k = pk /\ 64 <= i < 64 + (len p - 4))       (* the rest of the packet *)
  | Gcm key f counter _, GcmByte k iv i => k = key /\ iv = f ++ be64 counter /\ i < len p - 4
  | Ctr key iv0 pos, CtrByte k iv i => k = key /\ iv = iv0 /\ pos <= i < pos + len p
  | _, _ => False
  end.

(** [P] and [P'] may differ only in key stream bytes which are not in [U] *)
Record agree (P P' : crypto) (U : stream_byte -> Prop) : Prop := {
  ag_poly : poly1305 P = poly1305 P';
  ag_tag : gcm_tag P = gcm_tag P';
  ag_hmac : hmac_sha256 P = hmac_sha256 P';
  ag_chacha : forall k n i, U (ChaChaByte k n i) -> chacha20 P k n i = chacha20 P' k n i;
  ag_ctr : forall k n i, U (CtrByte k n i) -> aes_ctr P k n i = aes_ctr P' k n i;
  ag_gcm : forall k n i, U (GcmByte k n i) -> aes_gcm P k n i = aes_gcm P' k n i
}.

Lemma xor_agree : forall ks ks' l pos, (forall i, pos <= i < pos + len l -> ks i = ks' i) ->
  xor_stream ks pos l = xor_stream ks' pos l.
Proof.
  intros ks ks'; induction l as [|b l IH]; intros pos H; [reflexivity|]. cbn [xor_stream].
  rewrite len_cons in H. rewrite (H pos) by lia. f_equal. apply IH. intros i Hi. apply H. lia.
Qed.

Lemma base_depends : forall P P' b n p, agree P P' (consumes (Plain b) n p) ->
  base_Encrypt P b n p = base_Encrypt P' b n p.
Proof.
  intros P P' b n p [A1 A2 A3 A4 A5 A6]. destruct b as [pk hk|k f m e|k iv pos]; cbn [base_Encrypt].
  - destruct (header_size <? len p) eqn:L; [|reflexivity]. apply N.ltb_lt in L. unfold header_size in *. cbn [negb].
    assert (X1 : xor_stream (chacha20 P hk (be64 n)) 0 (take 4 p) = xor_stream (chacha20 P' hk (be64 n)) 0 (take 4 p)).
    { apply xor_agree. intros i Hi. rewrite len_take in Hi by lia. apply A4. cbn [consumes base_of]. split; [reflexivity|]. left. split; [reflexivity|lia]. }
    assert (X2 : xor_stream (chacha20 P pk (be64 n)) 64 (drop 4 p) = xor_stream (chacha20 P' pk (be64 n)) 64 (drop 4 p)).
    { apply xor_agree. intros i Hi. rewrite len_drop in Hi. apply A4. cbn [consumes base_of]. split; [reflexivity|]. right; right. split; [reflexivity|lia]. }
    assert (X3 : poly_key P (be64 n) pk = poly_key P' (be64 n) pk).
    { unfold poly_key. apply xor_agree. intros i Hi. change (len (zeroes 32)) with 32 in Hi. apply A4. cbn [consumes base_of]. split; [reflexivity|].
      right; left. split; [reflexivity|lia]. }
    rewrite X1, X2, X3, A1. reflexivity.
  - destruct (header_size <=? len p) eqn:L; [|reflexivity]. apply N.leb_le in L. unfold header_size in *. cbn [negb].
    destruct (negb e); [reflexivity|]. destruct (negb _); [reflexivity|].
    assert (X : xor_stream (aes_gcm P k (gcm_iv f m)) 0 (drop 4 p) = xor_stream (aes_gcm P' k (gcm_iv f m)) 0 (drop 4 p)).
    { apply xor_agree. intros i Hi. rewrite len_drop in Hi. apply A6. cbn [consumes base_of]. split; [reflexivity|]. split; [reflexivity|lia]. }
    rewrite X, A2. reflexivity.
  - destruct (negb _); [reflexivity|]. destruct (negb _); [reflexivity|].
    assert (X : xor_stream (aes_ctr P k iv) pos p = xor_stream (aes_ctr P' k iv) pos p).
    { apply xor_agree. intros i Hi. apply A5. cbn [consumes base_of]. auto. }
    rewrite X. reflexivity.
Qed.

Lemma depends : forall P P' c n p, agree P P' (consumes c n p) -> Encrypt P c n p = Encrypt P' c n p.
Proof.
  intros P P' c n p A. assert (B := base_depends P P' (base_of c) n p A). destruct A as [_ _ A3 _ _ _].
  destruct c as [b|b k st]; cbn [Encrypt base_of] in *; rewrite B, ?A3; reflexivity.
Qed.

(** the position only grows *)
Definition ctr_after (b b' : base) (k : N) : Prop :=
  match b, b' with Ctr _ _ pos, Ctr _ _ pos' => pos + k <= pos' | Ctr _ _ _, _ => False | _, _ => True end.

Lemma step_pos : forall P c n p c' b, made c -> Encrypt P c n p = COk (c', b) -> ctr_after (base_of c) (base_of c') (len p).
Proof.
  intros P [[pk hk|k f m e|k iv pos]|[pk hk|k f m e|k iv pos] key st] n p c' b M E; try contradiction; cbn [Encrypt base_Encrypt] in E; cbn [base_of ctr_after]; auto.
  destruct (negb _); [discriminate|]. destruct (negb (len p mod 16 =? 0)); [discriminate|].
  assert (X : c' = Hmac (Ctr k iv (pos + len p)) key (InitState n ++ p)) by congruence. subst c'. cbn. lia.
Qed.

Lemma all_pos : forall P ps c n l c', made c -> encrypt_all P c n ps l c' -> ctr_after (base_of c) (base_of c') 0.
Proof.
  intros P; induction ps as [|p ps IH]; intros c n l c' M E.
  - inversion E; subst. destruct (base_of c'); cbn; auto. lia.
  - inversion E as [|? ? ? b c1 ? l' ? X1 X2]; subst. destruct (encrypt_after _ _ _ _ _ _ M X1) as [M1 _].
    apply step_pos in X1; [|exact M]. apply IH in X2; [|exact M1].
    destruct (base_of c), (base_of c1); cbn in *; auto; try contradiction.
    destruct (base_of c'); cbn in *; auto. lia.
Qed.

Lemma made_kind : forall c k c', after c k c' ->
  match base_of c, base_of c' with
  | ChaCha a b, ChaCha a' b' => True
  | Gcm a f n _, Gcm a' f' n' _ => f = f' /\ n' mod pow64 = (n + k) mod pow64
  | Ctr _ _ _, Ctr _ _ _ => True
  | _, _ => False
  end.
Proof. intros [[]|[]] k [[]|[]]; cbn; try contradiction; intuition congruence. Qed.

Lemma no_reuse : forall P c n ps1 p ps2 q l1 b l2 c1 c2 c3,
  made c -> n < pow64 -> len ps1 + 1 + len ps2 < pow64 ->
  encrypt_all P c n ps1 l1 c1 ->
  Encrypt P c1 (seq_plus n (len ps1)) p = COk (c2, b) ->
  encrypt_all P c2 (seq_plus n (len ps1 + 1)) ps2 l2 c3 ->
  forall u, consumes c1 (seq_plus n (len ps1)) p u ->
            consumes c3 (seq_plus n (len ps1 + 1 + len ps2)) q u -> False.
Proof.
  intros P c n ps1 p ps2 q l1 b l2 c1 c2 c3 M Hn Hl E1 E E2 u U1 U2.
  destruct (encrypt_all_after _ _ _ _ _ _ M E1) as [M1 A1].
  destruct (encrypt_after _ _ _ _ _ _ M1 E) as [M2 A2].
  destruct (encrypt_all_after _ _ _ _ _ _ M2 E2) as [M3 A3].
  pose proof (after_trans _ _ _ _ _ A2 A3) as A. apply made_kind in A.
  pose proof (step_pos _ _ _ _ _ _ M1 E) as P1. pose proof (all_pos _ _ _ _ _ _ M2 E2) as P2.
  unfold consumes in U1, U2. unfold seq_plus in *.
  destruct (base_of c1) as [pk hk|k f m e|k iv pos], (base_of c3) as [pk' hk'|k' f' m' e'|k' iv' pos']; try contradiction;
    destruct u as [ku nu iu|ku nu iu|ku nu iu]; try contradiction.
  - destruct U1 as [U1 _], U2 as [U2 _]. rewrite U1 in U2. apply be64_eq in U2. rewrite !N.mod_mod in U2 by discriminate.
    replace (n + (len ps1 + 1 + len ps2)) with (n + len ps1 + (1 + len ps2)) in U2 by lia.
    rewrite <- (N.add_0_r (n + len ps1)) in U2 at 1. apply add_mod_inj in U2; [lia|reflexivity|reflexivity|].
    lia.
  - destruct U1 as (_ & U1 & _), U2 as (_ & U2 & _). destruct A as [A0 A]. subst f'. rewrite U1 in U2. apply app_inv_head, be64_eq in U2.
    rewrite A in U2. rewrite <- (N.add_0_r m) in U2 at 1. apply add_mod_inj in U2; [lia|reflexivity|reflexivity|].
    lia.
  - destruct (base_of c2); cbn in P1, P2; try contradiction.
    destruct U1 as (_ & _ & U1), U2 as (_ & _ & U2). lia.
Qed.
