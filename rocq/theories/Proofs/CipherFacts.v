(** Facts about the ciphers. *)

From Coq Require Import NArith List Bool Lia String.
From Verif.Base Require Import Bytes.
From Verif.Model Require Import Negotiate Ciphers.
From Verif.Spec Require Import CipherSpec.
Import ListNotations.
Open Scope N_scope.
Local Arguments take : simpl never.
Local Arguments drop : simpl never.
Local Arguments be64 : simpl never.
Local Arguments be32 : simpl never.

Lemma len_xor : forall ks l pos, len (xor_stream ks pos l) = len l.
Proof. induction l as [|b l IH]; intros pos; [reflexivity|]. cbn [xor_stream]. rewrite !len_cons, IH. reflexivity. Qed.

Lemma xor_xor : forall ks l pos, xor_stream ks pos (xor_stream ks pos l) = l.
Proof.
  induction l as [|b l IH]; intros pos; [reflexivity|]. cbn [xor_stream].
  rewrite N.lxor_assoc, N.lxor_nilpotent, N.lxor_0_r, IH. reflexivity.
Qed.

Lemma xor_app : forall ks a b pos, xor_stream ks pos (a ++ b) = xor_stream ks pos a ++ xor_stream ks (pos + len a) b.
Proof.
  induction a as [|x a IH]; intros b pos; [cbn; rewrite N.add_0_r; reflexivity|].
  cbn [xor_stream app]. rewrite IH, len_cons. do 3 f_equal. lia.
Qed.

Lemma xor_inj : forall ks a b pos, xor_stream ks pos a = xor_stream ks pos b -> a = b.
Proof. intros ks a b pos H. rewrite <- (xor_xor ks a pos), H, xor_xor. reflexivity. Qed.

Lemma xor_take : forall ks n l pos, take n (xor_stream ks pos l) = xor_stream ks pos (take n l).
Proof.
  intros ks n; unfold take; induction (N.to_nat n) as [|m IH]; intros [|b l] pos; try reflexivity.
  cbn [xor_stream firstn]. rewrite IH. reflexivity.
Qed.

Lemma xor_drop : forall ks n l pos, n <= len l ->
  drop n (xor_stream ks pos l) = xor_stream ks (pos + n) (drop n l).
Proof.
  intros ks n l pos H.
  rewrite <- (take_drop _ n l) at 1. rewrite xor_app, len_take by exact H.
  rewrite <- (len_take _ n l H) at 1. rewrite <- (len_xor ks (take n l) pos). rewrite drop_len. reflexivity.
Qed.

(** The sizes of the tags *)
Record tags_ok (P : crypto) : Prop := {
  poly_len : forall k m, len (poly1305 P k m) = 16;
  gcm_len : forall k iv a c, len (gcm_tag P k iv a c) = 16;
  hmac_len : forall k m, len (hmac_sha256 P k m) = 32
}.

(** The two ends of a direction: the same object except for the direction
    flag; the HMAC state of a previous packet does not matter. *)
Definition base_mirror (c d : base) : Prop :=
  match c, d with
  | ChaCha pk hk, ChaCha pk' hk' => pk = pk' /\ hk = hk'
  | Gcm k f n enc, Gcm k' f' n' enc' => k = k' /\ f = f' /\ n = n' /\ enc' = false
  | Ctr k iv pos, Ctr k' iv' pos' => k = k' /\ iv = iv' /\ pos = pos'
  | _, _ => False
  end.

Definition run_mirror (c d : running) : Prop :=
  match c, d with
  | Plain b, Plain b' => base_mirror b b'
  | Hmac b k _, Hmac b' k' _ => base_mirror b b' /\ k = k'
  | _, _ => False
  end.

Lemma base_mirror_auth : forall c d, base_mirror c d -> base_auth_size c = base_auth_size d.
Proof. intros [] []; cbn; intros H; try contradiction; reflexivity. Qed.

Lemma drop_take_4 : forall (l : bytes) n, 4 <= n -> n <= len l -> drop 4 (take n l) = take (n - 4) (drop 4 l).
Proof.
  intros l n H1 H2. unfold drop, take. rewrite firstn_skipn_comm. f_equal. f_equal. lia.
Qed.

Lemma cut_tag : forall (a t : bytes) n, len t = n -> take (len (a ++ t) - n) (a ++ t) = a /\ drop (len (a ++ t) - n) (a ++ t) = t.
Proof.
  intros a t n H. rewrite len_app, H. replace (len a + n - n) with (len a) by lia.
  split; [apply take_len|apply drop_len].
Qed.

Lemma split_4 : forall (p : bytes), take 4 p ++ drop 4 p = p.
Proof. intros p; apply take_drop. Qed.

Lemma len_4 : forall (p : bytes), 4 <= len p -> len (take 4 p) = 4.
Proof. intros p H; apply len_take; exact H. Qed.

Lemma take_4_app : forall (a b : bytes), len a = 4 -> take 4 (a ++ b) = a.
Proof. intros a b H; rewrite <- H; apply take_len. Qed.
Lemma drop_4_app : forall (a b : bytes), len a = 4 -> drop 4 (a ++ b) = b.
Proof. intros a b H; rewrite <- H; apply drop_len. Qed.

(** ** One packet *)
Lemma base_inverse : forall P, tags_ok P -> forall c d seq p c' b,
  base_mirror c d -> 4 <= len p -> base_Encrypt P c seq p = COk (c', b) ->
  len b = len p + base_auth_size d /\
  exists d1 d', base_DecryptHeader P d seq (take 4 b) = COk (d1, take 4 p) /\
    base_auth_size d1 = base_auth_size d /\
    base_DecryptPayload P d1 seq b = COk (d', drop 4 p) /\ base_mirror c' d'.
Proof.
  intros P T c d seq p c' b M Hp E.
  destruct c as [pk hk|k f n enc|k iv pos], d as [pk' hk'|k' f' n' enc'|k' iv' pos']; try contradiction.
  - destruct M as [<- <-]. cbn [base_Encrypt] in E. unfold header_size in E.
    destruct (4 <? len p) eqn:L; cbn [negb] in E; [|discriminate]. apply N.ltb_lt in L.
    set (h := xor_stream (chacha20 P hk (be64 seq)) 0 (take 4 p)) in *.
    set (q := xor_stream (chacha20 P pk (be64 seq)) 64 (drop 4 p)) in *.
    set (t := poly1305 P (poly_key P (be64 seq) pk) (h ++ q)) in *.
    assert (c' = ChaCha pk hk) by congruence. assert (b = (h ++ q) ++ t) by congruence. subst c' b.
    assert (Lh : len h = 4) by (unfold h; rewrite len_xor; apply len_4; exact Hp).
    assert (Lq : len q = len p - 4) by (unfold q; rewrite len_xor, len_drop; lia).
    assert (Lt : len t = 16) by (apply poly_len; exact T).
    split; [rewrite !len_app, Lh, Lq, Lt; cbn [base_auth_size]; lia|].
    exists (ChaCha pk hk), (ChaCha pk hk). cbn [base_DecryptHeader base_DecryptPayload base_auth_size].
    split; [|split; [reflexivity|split; [|split; reflexivity]]].
    + rewrite <- app_assoc, take_4_app by exact Lh. unfold h. rewrite xor_xor. reflexivity.
    + unfold header_size. destruct (cut_tag (h ++ q) t 16 Lt) as [C1 C2]. rewrite C1, C2.
      replace (4 + 16 <? len ((h ++ q) ++ t)) with true
        by (symmetry; apply N.ltb_lt; rewrite !len_app, Lh, Lq, Lt; lia).
      cbn [negb]. fold t. rewrite bytes_eqb_refl. cbn [negb].
      rewrite drop_4_app by exact Lh. unfold q. rewrite xor_xor. reflexivity.
  - destruct M as (<- & <- & <- & ->). cbn [base_Encrypt] in E. unfold header_size in E.
    replace (4 <=? len p) with true in E by (symmetry; apply N.leb_le; exact Hp). cbn [negb] in E.
    destruct enc; cbn [negb] in E; [|discriminate].
    destruct (len (drop 4 p) mod 16 =? 0) eqn:L; cbn [negb] in E; [|discriminate].
    set (iv := gcm_iv f n) in *. set (q := xor_stream (aes_gcm P k iv) 0 (drop 4 p)) in *.
    set (t := gcm_tag P k iv (take 4 p) q) in *.
    assert (c' = Gcm k f (gcm_next n) true) by congruence.
    assert (b = take 4 p ++ q ++ t) by congruence. subst c' b.
    assert (Lh : len (take 4 p) = 4) by (apply len_4; exact Hp).
    assert (Lq : len q = len p - 4) by (unfold q; rewrite len_xor, len_drop; lia).
    assert (Lt : len t = 16) by (apply gcm_len; exact T).
    split; [rewrite !len_app, Lh, Lq, Lt; cbn [base_auth_size]; lia|].
    exists (Gcm k f n false), (Gcm k f (gcm_next n) false).
    cbn [base_DecryptHeader base_DecryptPayload base_auth_size].
    split; [|split; [reflexivity|split; [|repeat split]]].
    + rewrite take_4_app by exact Lh. reflexivity.
    + unfold header_size. rewrite (app_assoc (take 4 p) q t).
      destruct (cut_tag (take 4 p ++ q) t 16 Lt) as [C1 C2]. rewrite C1, C2.
      replace (4 + 16 <=? len ((take 4 p ++ q) ++ t)) with true
        by (symmetry; apply N.leb_le; rewrite !len_app, Lh, Lq, Lt; lia).
      cbn [negb]. rewrite drop_4_app, take_4_app by exact Lh.
      replace (len q) with (len (drop 4 p)) by (unfold q; rewrite len_xor; reflexivity).
      rewrite L; cbn [negb]. fold iv. fold t. rewrite bytes_eqb_refl; cbn [negb].
      unfold q. rewrite xor_xor. reflexivity.
  - destruct M as (<- & <- & <-). cbn [base_Encrypt] in E. unfold header_size in E.
    replace (4 <=? len p) with true in E by (symmetry; apply N.leb_le; exact Hp). cbn [negb] in E.
    destruct (len p mod 16 =? 0) eqn:L; cbn [negb] in E; [|discriminate].
    assert (c' = Ctr k iv (pos + len p)) by congruence.
    assert (b = xor_stream (aes_ctr P k iv) pos p) by congruence. subst c' b.
    split; [rewrite len_xor; cbn [base_auth_size]; lia|].
    exists (Ctr k iv (pos + 4)), (Ctr k iv (pos + len p)).
    cbn [base_DecryptHeader base_DecryptPayload base_auth_size].
    split; [|split; [reflexivity|split; [|repeat split]]].
    + rewrite len_take by (rewrite len_xor; exact Hp). rewrite xor_take, xor_xor. reflexivity.
    + unfold header_size. rewrite len_xor.
      replace (4 <=? len p) with true by (symmetry; apply N.leb_le; exact Hp). cbn [negb]. rewrite L; cbn [negb].
      rewrite xor_drop by exact Hp. rewrite xor_xor, len_xor, len_drop.
      do 3 f_equal. lia.
Qed.

Lemma run_inverse : forall P, tags_ok P ->
  inverse running running (out_encrypt P) run_auth_size (in_header P) (in_payload P) run_mirror.
Proof.
  intros P T c d seq p c' b M Hp E. unfold out_encrypt, returned in E.
  destruct c as [c|c k st], d as [d|d k' st']; try contradiction; cbn [run_mirror Encrypt] in M, E.
  - destruct (base_Encrypt P c seq p) as [[c1 b1]| |] eqn:Eb; try discriminate.
    assert (c' = Plain c1) by congruence. assert (b1 = b) by congruence. subst c' b1.
    destruct (base_inverse P T _ _ _ _ _ _ M Hp Eb) as (L & d1 & d' & H1 & H2 & H3 & H4).
    split; [exact L|]. exists (Plain d1), (Plain d'). unfold in_header, in_payload.
    cbn [DecryptHeader DecryptPayload run_auth_size run_mirror]. rewrite H1, H3. auto.
  - destruct M as [M <-]. destruct (negb (header_size <=? len p)); [discriminate|].
    destruct (base_Encrypt P c seq p) as [[c1 b1]| |] eqn:Eb; try discriminate.
    assert (c' = Hmac c1 k (InitState seq ++ p)) by congruence.
    assert (b = b1 ++ hmac_sha256 P k (InitState seq ++ p)) by congruence. subst c' b.
    destruct (base_inverse P T _ _ _ _ _ _ M Hp Eb) as (L & d1 & d' & H1 & H2 & H3 & H4).
    set (t := hmac_sha256 P k (InitState seq ++ p)) in *.
    assert (Lt : len t = 32) by (apply hmac_len; exact T).
    split; [rewrite len_app, L, Lt; cbn [run_auth_size]; lia|].
    exists (Hmac d1 k (InitState seq ++ take 4 p)), (Hmac d' k ((InitState seq ++ take 4 p) ++ drop 4 p)).
    unfold in_header, in_payload. cbn [DecryptHeader DecryptPayload run_auth_size run_mirror].
    assert (Hb1 : 4 <= len b1) by (rewrite L; lia).
    rewrite take_app_le by exact Hb1. rewrite H1.
    split; [reflexivity|]. split; [rewrite H2; reflexivity|]. split; [|split; [exact H4|reflexivity]].
    unfold header_size. replace (4 + 32 <=? len (b1 ++ t)) with true
      by (symmetry; apply N.leb_le; rewrite len_app, Lt; lia). cbn [negb].
    destruct (cut_tag b1 t 32 Lt) as [C1 C2]. rewrite C1, C2, H3.
    rewrite <- app_assoc, split_4. fold t. rewrite bytes_eqb_refl. reflexivity.
Qed.

(** ** Numbers *)
Lemma div_mod_mod : forall n a m, a <> 0 -> m <> 0 -> (n mod (a * m)) / a mod m = n / a mod m.
Proof.
  intros n a m Ha Hm. rewrite N.mod_mul_r by assumption.
  rewrite N.add_comm, N.mul_comm, N.div_add_l by assumption.
  rewrite (N.div_small (n mod a) a) by (apply N.mod_lt; exact Ha). rewrite N.add_0_r.
  apply N.mod_mod; exact Hm.
Qed.

Lemma be32_mod : forall n, be32 (n mod pow32) = be32 n.
Proof.
  intros n; unfold be32, pow32.
  assert (E0 : (n mod 4294967296) mod 256 = n mod 256).
  { change 4294967296 with (256 * 16777216). rewrite N.mod_mul_r by discriminate.
    rewrite N.add_mod by discriminate. rewrite N.mul_comm, N.mod_mul by discriminate.
    rewrite N.add_0_r, !N.mod_mod by discriminate. reflexivity. }
  assert (E1 : (n mod 4294967296) / 256 mod 256 = n / 256 mod 256).
  { change 4294967296 with (256 * 16777216). rewrite N.mod_mul_r by discriminate.
    rewrite N.add_comm, N.mul_comm, N.div_add_l by discriminate.
    rewrite (N.div_small (n mod 256)) by (apply N.mod_lt; discriminate). rewrite N.add_0_r.
    change 16777216 with (256 * 65536). rewrite N.mod_mul_r by discriminate.
    rewrite N.add_mod by discriminate. rewrite (N.mul_comm 256), N.mod_mul by discriminate.
    rewrite N.add_0_r, !N.mod_mod by discriminate. reflexivity. }
  assert (E2 : (n mod 4294967296) / 65536 mod 256 = n / 65536 mod 256).
  { change 4294967296 with (65536 * 65536). rewrite N.mod_mul_r by discriminate.
    rewrite N.add_comm, N.mul_comm, N.div_add_l by discriminate.
    rewrite (N.div_small (n mod 65536)) by (apply N.mod_lt; discriminate). rewrite N.add_0_r.
    change 65536 with (256 * 256) at 2. rewrite N.mod_mul_r by discriminate.
    rewrite N.add_mod by discriminate. rewrite (N.mul_comm 256), N.mod_mul by discriminate.
    rewrite N.add_0_r, !N.mod_mod by discriminate. reflexivity. }
  assert (E3 : (n mod 4294967296) / 16777216 mod 256 = n / 16777216 mod 256).
  { apply (div_mod_mod n 16777216 256); discriminate. }
  rewrite E0, E1, E2, E3. reflexivity.
Qed.

Lemma be32_eq : forall m n, be32 m = be32 n <-> m mod pow32 = n mod pow32.
Proof.
  intros m n; split; intros H.
  - apply be32_inj; [apply N.mod_lt; discriminate|apply N.mod_lt; discriminate|].
    rewrite !be32_mod; exact H.
  - rewrite <- (be32_mod m), H. apply be32_mod.
Qed.

Lemma digits_eq : forall B a b x y, a < B -> b < B -> a + B * x = b + B * y -> a = b /\ x = y.
Proof.
  intros B a b x y Ha Hb H.
  destruct (N.lt_trichotomy x y) as [L|[->|L]]; [exfalso; nia|split; lia|exfalso; nia].
Qed.

Lemma be64_eq : forall m n, be64 m = be64 n <-> m mod pow64 = n mod pow64.
Proof.
  intros m n; unfold be64.
  assert (Z : forall x, x mod pow64 = x mod pow32 + pow32 * ((x / pow32) mod pow32))
    by (intros x; change pow64 with (pow32 * pow32); apply N.mod_mul_r; discriminate).
  split; intros H.
  - apply app_inj_len in H as [H1 H2]; [|reflexivity]. apply be32_eq in H1, H2.
    rewrite !N.mod_mod in H2 by discriminate. rewrite !Z, H1, H2. reflexivity.
  - rewrite !Z in H.
    assert (Hm : m mod pow32 < pow32) by (apply N.mod_lt; discriminate).
    assert (Hn : n mod pow32 < pow32) by (apply N.mod_lt; discriminate).
    destruct (digits_eq _ _ _ _ _ Hm Hn H) as [E2 E1].
    rewrite E2. f_equal. apply be32_eq; exact E1.
Qed.

Lemma len_be64 : forall n, len (be64 n) = 8.
Proof. reflexivity. Qed.

(** ** Many packets *)

Definition seq_plus (seq k : N) : N := (seq + k) mod pow64.

(** The sender encrypts one packet after another: [encrypt_all c seq ps l
    c'] with the encrypted packets [l]. *)
Inductive encrypt_all (P : crypto) : running -> N -> list bytes -> list bytes -> running -> Prop :=
| ea_nil : forall c seq, encrypt_all P c seq [] [] c
| ea_cons : forall c seq p b c1 ps l c2,
    Encrypt P c seq p = COk (c1, b) ->
    encrypt_all P c1 (seq_plus seq 1) ps l c2 ->
    encrypt_all P c seq (p :: ps) (b :: l) c2.

(** The receiver decrypts one packet after another. *)
Inductive decrypt_all (P : crypto) : running -> N -> list bytes -> list bytes -> running -> Prop :=
| da_nil : forall d seq, decrypt_all P d seq [] [] d
| da_cons : forall d seq b d1 h r d2 l ps d3,
    DecryptHeader P d seq (take 4 b) = COk (d1, h) ->
    DecryptPayload P d1 seq b = COk (d2, r) ->
    decrypt_all P d2 (seq_plus seq 1) l ps d3 ->
    decrypt_all P d seq (b :: l) ((h ++ r) :: ps) d3.

Lemma returned_ok : forall A (r : cresult A) a, returned r = Some a <-> r = COk a.
Proof. intros A [x| |] a; cbn; split; intros H; congruence. Qed.

Lemma run_inverse1 : forall P, tags_ok P -> forall c d seq p c' b,
  run_mirror c d -> 4 <= len p -> Encrypt P c seq p = COk (c', b) ->
  len b = len p + run_auth_size d /\
  exists d1 d', DecryptHeader P d seq (take 4 b) = COk (d1, take 4 p) /\ run_auth_size d1 = run_auth_size d /\
    DecryptPayload P d1 seq b = COk (d', drop 4 p) /\ run_mirror c' d'.
Proof.
  intros P T c d seq p c' b M Hp E.
  destruct (run_inverse P T c d seq p c' b M Hp) as (L & d1 & d' & H1 & H2 & H3 & H4).
  - unfold out_encrypt; apply returned_ok; exact E.
  - split; [exact L|]. exists d1, d'. unfold in_header, in_payload in *.
    rewrite <- returned_ok, <- returned_ok. auto.
Qed.

Lemma all_inverse : forall P, tags_ok P -> forall ps c d seq l c',
  run_mirror c d -> Forall (fun p => 4 <= len p) ps -> encrypt_all P c seq ps l c' ->
  exists d', decrypt_all P d seq l ps d' /\ run_mirror c' d'.
Proof.
  intros P T; induction ps as [|p ps IH]; intros c d seq l c' M Hp E.
  - inversion E; subst. exists d; split; [constructor|exact M].
  - inversion E as [|? ? ? b c1 ? l' ? X1 X2]; subst. inversion Hp as [|? ? Hp1 Hp2]; subst.
    destruct (run_inverse1 P T _ _ _ _ _ _ M Hp1 X1) as (_ & d1 & d2 & H1 & _ & H3 & M2).
    destruct (IH _ _ _ _ _ M2 Hp2 X2) as (d3 & D & M3).
    exists d3; split; [|exact M3]. rewrite <- (split_4 p). econstructor; eassumption.
Qed.

(** decryption is a function *)
Lemma decrypt_all_det : forall P l d seq ps d1, decrypt_all P d seq l ps d1 ->
  forall ps' d2, decrypt_all P d seq l ps' d2 -> ps = ps' /\ d1 = d2.
Proof.
  intros P l d seq ps dx H; induction H as [|d seq b d1 h r d2 l ps d3 H1 H2 H3 IH]; intros ps' d' H'.
  - inversion H'; auto.
  - inversion H' as [|? ? ? e1 h' r' e2 ? ps0 ? X1 X2 X3]; subst. rewrite H1 in X1.
    assert (e1 = d1) by congruence. assert (h' = h) by congruence. subst.
    rewrite H2 in X2. assert (e2 = d2) by congruence. assert (r' = r) by congruence. subst.
    destruct (IH _ _ X3) as [-> ->]. auto.
Qed.

Lemma seq_plus_plus : forall seq a b, seq_plus (seq_plus seq a) b = seq_plus seq (a + b).
Proof. intros seq a b; unfold seq_plus. rewrite N.add_mod_idemp_l by discriminate. f_equal. lia. Qed.

Lemma seq_plus_0 : forall seq, seq < pow64 -> seq_plus seq 0 = seq.
Proof. intros seq H; unfold seq_plus; rewrite N.add_0_r; apply N.mod_small; exact H. Qed.

Lemma seq_plus_lt : forall seq k, seq_plus seq k < pow64.
Proof. intros; apply N.mod_lt; discriminate. Qed.

Lemma encrypt_all_app : forall P ps1 ps2 c seq l c', seq < pow64 -> encrypt_all P c seq (ps1 ++ ps2) l c' ->
  exists l1 l2 c1, l = l1 ++ l2 /\ encrypt_all P c seq ps1 l1 c1 /\ len l1 = len ps1 /\
    encrypt_all P c1 (seq_plus seq (len ps1)) ps2 l2 c'.
Proof.
  induction ps1 as [|p ps1 IH]; intros ps2 c seq l c' Hs H.
  - exists [], l, c. split; [reflexivity|]. split; [constructor|]. split; [reflexivity|].
    rewrite len_nil, seq_plus_0 by exact Hs. exact H.
  - cbn [app] in H. inversion H; subst.
    match goal with X : encrypt_all _ _ _ (ps1 ++ ps2) _ _ |- _ =>
      destruct (IH _ _ _ _ _ (seq_plus_lt seq 1) X) as (l1 & l2 & c2 & -> & D1 & D2 & D3) end.
    exists (b :: l1), l2, c2. split; [reflexivity|]. split; [econstructor; eassumption|].
    split; [rewrite !len_cons, D2; reflexivity|]. rewrite seq_plus_plus in D3. rewrite len_cons. exact D3.
Qed.

Lemma take_take_le : forall A n m (l : list A), n <= m -> take n (take m l) = take n l.
Proof. intros A n m l H. unfold take. rewrite firstn_firstn. f_equal. lia. Qed.

(** ** Integrity *)

(** The tag which belongs to the use of a message authentication code. *)
Definition tag (P : crypto) (u : mac_use) : bytes :=
  match u with
  | UsePoly1305 key nonce m =>
      poly1305 P (map (fun i => chacha20 P key nonce (N.of_nat i)) (seq 0 32)) m
  | UseGcm key iv a ct => gcm_tag P key iv a ct
  | UseHmac key m => hmac_sha256 P key m
  end.

(** How the packet [p], sent or received as [b] with sequence number [n],
    is authenticated.  [None]: a cipher without authentication (never made,
    see C12). *)
Definition used (c : running) (n : N) (p b : bytes) : option mac_use :=
  match c with
  | Plain (ChaCha pk _) => Some (UsePoly1305 pk (be64 n) (take (len b - 16) b))
  | Plain (Gcm k f counter _) =>
      Some (UseGcm k (f ++ be64 counter) (take 4 b) (drop 4 (take (len b - 16) b)))
  | Plain (Ctr _ _ _) => None
  | Hmac _ k _ => Some (UseHmac k (be32 n ++ p))
  end.

(** The ciphers which the factory makes: authenticated encryption, or a
    counter mode with HMAC. *)
Definition made (c : running) : Prop :=
  match c with
  | Plain (ChaCha _ _) | Plain (Gcm _ _ _ _) | Hmac (Ctr _ _ _) _ _ => True
  | _ => False
  end.

Lemma poly_key_tag : forall P nonce key,
  poly_key P nonce key = map (fun i => chacha20 P key nonce (N.of_nat i)) (seq 0 32).
Proof.
  intros P nonce key. unfold poly_key, zeroes. cbn [repeat xor_stream seq map].
  rewrite !N.lxor_0_l. reflexivity.
Qed.

(** the state after [k] packets *)
Definition after (c : running) (k : N) (c' : running) : Prop :=
  match c, c' with
  | Plain (ChaCha a b), Plain (ChaCha a' b') => a' = a /\ b' = b
  | Plain (Gcm a f n e), Plain (Gcm a' f' n' e') => a' = a /\ f' = f /\ n' mod pow64 = (n + k) mod pow64
  | Hmac (Ctr a iv _) key _, Hmac (Ctr a' iv' _) key' _ => a' = a /\ iv' = iv /\ key' = key
  | _, _ => False
  end.

Lemma after_trans : forall a j b k c, after a j b -> after b k c -> after a (j + k) c.
Proof.
  intros [[]|[]] j [[]|[]] k [[]|[]]; cbn; try contradiction.
  - intros [-> ->] [-> ->]; auto.
  - intros (-> & -> & H) (-> & -> & H'). split; [reflexivity|split; [reflexivity|]].
    rewrite H'. rewrite <- N.add_mod_idemp_l, H, N.add_mod_idemp_l by discriminate. f_equal; lia.
  - intros (-> & -> & ->) (-> & -> & ->). auto.
Qed.

Lemma encrypt_after : forall P c n p c' b, made c -> Encrypt P c n p = COk (c', b) -> made c' /\ after c 1 c'.
Proof.
  intros P [[pk hk|k f m e|k iv pos]|[pk hk|k f m e|k iv pos] key st] n p c' b M E; try contradiction; cbn [Encrypt base_Encrypt] in E.
  - destruct (negb (header_size <? len p)); [discriminate|].
    assert (c' = Plain (ChaCha pk hk)) by congruence. subst; cbn; auto.
  - destruct (negb (header_size <=? len p)); [discriminate|]. destruct e; [|discriminate]. cbn [negb] in E.
    destruct (negb (len (drop header_size p) mod 16 =? 0)); [discriminate|].
    assert (c' = Plain (Gcm k f (gcm_next m) true)) by congruence. subst; cbn.
    unfold gcm_next. rewrite N.mod_mod by discriminate. auto.
  - destruct (negb (header_size <=? len p)); [discriminate|]. destruct (negb (len p mod 16 =? 0)); [discriminate|].
    assert (c' = Hmac (Ctr k iv (pos + len p)) key (InitState n ++ p)) by congruence. subst; cbn. auto.
Qed.

Lemma after_0 : forall c, made c -> after c 0 c.
Proof. intros [[]|[]]; cbn; try contradiction; rewrite ?N.add_0_r; auto. Qed.

Lemma encrypt_all_after : forall P ps c n l c', made c -> encrypt_all P c n ps l c' -> made c' /\ after c (len ps) c'.
Proof.
  intros P; induction ps as [|p ps IH]; intros c n l c' M E.
  - inversion E; subst. split; [exact M|apply after_0; exact M].
  - inversion E as [|? ? ? b c1 ? l' ? X1 X2]; subst. destruct (encrypt_after _ _ _ _ _ _ M X1) as [M1 A1].
    destruct (IH _ _ _ _ M1 X2) as [M2 A2]. split; [exact M2|]. rewrite len_cons. eapply after_trans; eassumption.
Qed.

Lemma encrypt_all_det : forall P ps c n l c', encrypt_all P c n ps l c' ->
  forall l2 c2, encrypt_all P c n ps l2 c2 -> l = l2 /\ c' = c2.
Proof.
  intros P ps c n l c' H; induction H as [|c n p b c1 ps l c2 H1 H2 IH]; intros l' e H'.
  - inversion H'; auto.
  - inversion H' as [|? ? ? b' e1 ? l'' ? X1 X2]; subst. rewrite H1 in X1.
    assert (e1 = c1) by congruence. assert (b' = b) by congruence. subst.
    destruct (IH _ _ X2) as [-> ->]. auto.
Qed.

(** the uses by the sender *)
Inductive sender_uses (P : crypto) (c : running) (n : N) (ps : list bytes) (u : mac_use) : Prop :=
| sender_use : forall ps1 p ps2 l1 c1 b c2,
    ps = ps1 ++ p :: ps2 -> encrypt_all P c n ps1 l1 c1 ->
    Encrypt P c1 (seq_plus n (len ps1)) p = COk (c2, b) ->
    used c1 (seq_plus n (len ps1)) p b = Some u -> sender_uses P c n ps u.

Lemma mod_mod_pow32 : forall n, (n mod pow64) mod pow32 = n mod pow32.
Proof.
  intros n. change pow64 with (pow32 * pow32). rewrite N.mod_mul_r by discriminate.
  rewrite N.mul_comm, N.mod_add by discriminate. apply N.mod_mod; discriminate.
Qed.

Lemma add_mod_inj : forall n i j m, 0 < m -> i < m -> j < m -> (n + i) mod m = (n + j) mod m -> i = j.
Proof.
  intros n i j m Hm Hi Hj H.
  pose proof (N.div_mod (n + i) m ltac:(lia)) as A. pose proof (N.div_mod (n + j) m ltac:(lia)) as B.
  rewrite H in A. set (x := (n + i) / m) in *. set (y := (n + j) / m) in *. set (z := (n + j) mod m) in *.
  destruct (N.lt_trichotomy x y) as [L|[E|L]]; [exfalso; nia|rewrite E in A; lia|exfalso; nia].
Qed.

(** whatever the receiver accepts carries the right tag *)
Lemma accepted_tag : forall P d n x d1 h d2 r, made d ->
  DecryptHeader P d n (take 4 x) = COk (d1, h) -> DecryptPayload P d1 n x = COk (d2, r) ->
  exists u, used d n (h ++ r) x = Some u /\ tag P u = drop (len x - run_auth_size d) x.
Proof.
  intros P [[pk hk|k f m e|k iv pos]|[pk hk|k f m e|k iv pos] key st] n x d1 h d2 r M H1 H2; try contradiction;
    cbn [DecryptHeader base_DecryptHeader] in H1.
  - assert (d1 = Plain (ChaCha pk hk)) by congruence. subst d1. cbn [DecryptPayload base_DecryptPayload] in H2.
    destruct (negb (header_size + 16 <? len x)); [discriminate|].
    destruct (bytes_eqb _ _) eqn:E; cbn [negb] in H2; [|discriminate]. apply bytes_eqb_eq in E.
    eexists; split; [reflexivity|]. cbn [tag run_auth_size base_auth_size]. rewrite E, poly_key_tag. reflexivity.
  - assert (d1 = Plain (Gcm k f m e)) by congruence. subst d1. cbn [DecryptPayload base_DecryptPayload] in H2.
    destruct (negb (header_size + 16 <=? len x)) eqn:L; [discriminate|].
    apply negb_false_iff, N.leb_le in L. unfold header_size in L.
    destruct e; [discriminate|].
    destruct (negb (_ mod 16 =? 0)); [discriminate|].
    destruct (bytes_eqb _ _) eqn:E; cbn [negb] in H2; [|discriminate]. apply bytes_eqb_eq in E.
    eexists; split; [reflexivity|]. cbn [tag run_auth_size base_auth_size]. rewrite E. unfold gcm_iv, header_size.
    f_equal. rewrite <- (take_drop _ (len x - 16) x) at 1. rewrite take_app_le; [reflexivity|].
    rewrite len_take by lia. lia.
  - set (h0 := xor_stream (aes_ctr P k iv) pos (take 4 x)) in *.
    assert (h = h0) by congruence. subst h.
    assert (d1 = Hmac (Ctr k iv (pos + len (take 4 x))) key (InitState n ++ h0)) by congruence. subst d1.
    cbn [DecryptPayload] in H2. destruct (negb (header_size + 32 <=? len x)); [discriminate|].
    destruct (base_DecryptPayload _ _ _ _) as [[b' dest]| |]; try discriminate.
    destruct (bytes_eqb _ _) eqn:E; cbn [negb] in H2; [|discriminate]. apply bytes_eqb_eq in E.
    assert (r = dest) by congruence. subst dest.
    eexists; split; [reflexivity|]. cbn [tag run_auth_size base_auth_size].
    rewrite N.add_0_l, E. unfold InitState. rewrite <- app_assoc. reflexivity.
Qed.

Lemma split_at : forall (x y : bytes) n, n <= len x -> n <= len y ->
  take (len x - n) x = take (len y - n) y -> drop (len x - n) x = drop (len y - n) y -> x = y.
Proof.
  intros x y n Hx Hy H1 H2. rewrite <- (take_drop _ (len x - n) x), <- (take_drop _ (len y - n) y), H1, H2. reflexivity.
Qed.

(** the same use at the same place: the same bytes *)
Lemma same_use_same_bytes : forall P, tags_ok P -> forall c d n p c' b x d1 h d2 r u,
  made c -> run_mirror c d -> 4 <= len p -> Encrypt P c n p = COk (c', b) ->
  DecryptHeader P d n (take 4 x) = COk (d1, h) -> DecryptPayload P d1 n x = COk (d2, r) ->
  used c n p b = Some u -> used d n (h ++ r) x = Some u -> x = b.
Proof.
  intros P T c d n p c' b x d1 h d2 r u M Mi Hp He H1 H2 U1 U2.
  assert (Md : made d) by (destruct c as [[]|[]], d as [[]|[]]; cbn in *; auto; tauto).
  destruct (accepted_tag P d n x d1 h d2 r Md H1 H2) as (v & V & Tg).
  rewrite U2 in V. assert (v = u) by congruence. subst v. clear V.
  destruct (run_inverse1 P T _ _ _ _ _ _ Mi Hp He) as (Lb & e1 & e2 & G1 & _ & G2 & _).
  assert (U3 : used d n (take 4 p ++ drop 4 p) b = Some u).
  { rewrite split_4. destruct c as [[]|[]], d as [[]|[]]; try contradiction; cbn [run_mirror base_mirror used] in *; try exact U1.
    - destruct Mi as [<- <-]. exact U1.
    - destruct Mi as (<- & <- & <- & _). exact U1.
    - destruct Mi as [_ <-]. exact U1. }
  destruct (accepted_tag P d n b e1 _ e2 _ Md G1 G2) as (v & V & Tb).
  rewrite U3 in V. assert (v = u) by congruence. subst v. clear V.
  destruct d as [[pk hk|k f m e|k iv pos]|[pk hk|k f m e|k iv pos] key st]; try contradiction;
    cbn [DecryptHeader base_DecryptHeader] in H1; cbn [used] in U2, U3; cbn [run_auth_size base_auth_size] in *.
  - assert (d1 = Plain (ChaCha pk hk)) by congruence. subst d1. cbn [DecryptPayload base_DecryptPayload] in H2.
    destruct (negb (header_size + 16 <? len x)) eqn:L; [discriminate|].
    apply negb_false_iff, N.ltb_lt in L. unfold header_size in L.
    apply (split_at x b 16); [lia|lia|congruence|congruence].
  - assert (d1 = Plain (Gcm k f m e)) by congruence. subst d1. cbn [DecryptPayload base_DecryptPayload] in H2.
    destruct (negb (header_size + 16 <=? len x)) eqn:L; [discriminate|].
    apply negb_false_iff, N.leb_le in L. unfold header_size in L.
    assert (A : take 4 x = take 4 b) by congruence.
    assert (B : drop 4 (take (len x - 16) x) = drop 4 (take (len b - 16) b)) by congruence.
    apply (split_at x b 16); [lia|lia| |congruence].
    rewrite <- (take_drop _ 4 (take (len x - 16) x)), <- (take_drop _ 4 (take (len b - 16) b)), B. f_equal.
    rewrite !take_take_le by lia. exact A.
  - assert (E : h ++ r = p).
    { assert (X : be32 n ++ h ++ r = be32 n ++ take 4 p ++ drop 4 p) by congruence.
      apply app_inj_len in X as [_ X]; [|reflexivity]. rewrite split_4 in X. exact X. }
    set (h0 := xor_stream (aes_ctr P k iv) pos (take 4 x)) in *.
    assert (h = h0) by congruence. subst h.
    assert (d1 = Hmac (Ctr k iv (pos + len (take 4 x))) key (InitState n ++ h0)) by congruence. subst d1.
    cbn [DecryptPayload base_DecryptPayload] in H2.
    destruct (negb (header_size + 32 <=? len x)) eqn:L; [discriminate|].
    apply negb_false_iff, N.leb_le in L. unfold header_size in L, H2.
    rewrite len_take in H2 by lia.
    destruct (negb (4 <=? len x - 32)); [discriminate|].
    destruct (negb ((len x - 32) mod 16 =? 0)); [discriminate|].
    destruct (negb (bytes_eqb _ _)); [discriminate|].
    assert (Er : r = xor_stream (aes_ctr P k iv) (pos + len (take 4 x)) (drop 4 (take (len x - 32) x))) by congruence.
    assert (Hx : xor_stream (aes_ctr P k iv) pos (take (len x - 32) x) = p).
    { rewrite <- E, Er. unfold h0. rewrite <- (take_drop _ 4 (take (len x - 32) x)) at 1.
      rewrite take_take_le by lia. apply xor_app. }
    destruct c as [[]|[c1 c2|c1 c2 c3 c4|ck civ cpos] ckey cst]; try contradiction. cbn [run_mirror base_mirror] in Mi.
    destruct Mi as [(-> & -> & ->) ->]. cbn [Encrypt base_Encrypt] in He.
    destruct (negb (header_size <=? len p)); [discriminate|].
    destruct (negb (len p mod 16 =? 0)); [discriminate|].
    assert (Eb : b = xor_stream (aes_ctr P k iv) pos p ++ hmac_sha256 P key (InitState n ++ p)) by congruence.
    rewrite N.add_0_l in Tg. rewrite <- (take_drop _ (len x - 32) x), <- Tg.
    assert (Eu : u = UseHmac key (be32 n ++ p)) by (cbn [used] in U1; congruence).
    rewrite Eu, Eb. cbn [tag]. unfold InitState. f_equal. rewrite <- Hx, xor_xor. reflexivity.
Qed.

Lemma app_cons_same : forall A (a b : list A) x y c d, a ++ x :: c = b ++ y :: d -> len a = len b ->
  a = b /\ x = y /\ c = d.
Proof.
  intros A a b x y c d H L. apply app_inj_len in H as [-> H]; [|exact L].
  split; [reflexivity|]. split; congruence.
Qed.

Lemma used_same_index : forall c i c1 j c2 n p b q x u,
  made c -> after c i c1 -> after c j c2 -> i < pow32 -> j < pow32 ->
  used c1 (seq_plus n i) p b = Some u -> used c2 (seq_plus n j) q x = Some u -> i = j.
Proof.
  intros c i c1 j c2 n p b q x u M A1 A2 Hi Hj U1 U2.
  assert (W : forall k, k < pow32 -> k < pow64) by (unfold pow32, pow64; intros; lia).
  destruct c as [[pk hk|k f m e|k iv pos]|[pk hk|k f m e|k iv pos] key st]; try contradiction;
  destruct c1 as [[]|[]]; try contradiction; destruct c2 as [[]|[]]; try contradiction; cbn [used after] in *.
  - assert (E : be64 (seq_plus n i) = be64 (seq_plus n j)) by congruence.
    apply be64_eq in E. unfold seq_plus in E. rewrite !N.mod_mod in E by discriminate.
    apply add_mod_inj in E; auto. reflexivity.
  - destruct A1 as (_ & -> & A1), A2 as (_ & -> & A2).
    assert (E : f ++ be64 counter = f ++ be64 counter0) by congruence.
    apply app_inv_head in E. apply be64_eq in E. rewrite A1, A2 in E.
    apply add_mod_inj in E; auto. reflexivity.
  - assert (E : be32 (seq_plus n i) ++ p = be32 (seq_plus n j) ++ q) by congruence.
    apply app_inj_len in E as [E _]; [|reflexivity]. apply be32_eq in E.
    unfold seq_plus in E. rewrite !mod_mod_pow32 in E. apply add_mod_inj in E; auto. reflexivity.
Qed.

Lemma made_mirror : forall c d, made c -> run_mirror c d -> made d.
Proof. intros [[]|[]] [[]|[]]; cbn; tauto. Qed.

Lemma used_mirror : forall c d n p b, run_mirror c d -> used c n p b = used d n p b.
Proof.
  intros [b1|b1 k1 s1] [b2|b2 k2 s2] n p b H; try contradiction; cbn [run_mirror] in H.
  - destruct b1, b2; cbn [base_mirror used] in *; try contradiction.
    + destruct H as [<- <-]; reflexivity.
    + destruct H as (<- & <- & <- & _); reflexivity.
    + reflexivity.
  - destruct H as [_ <-]; reflexivity.
Qed.

Lemma integrity : forall P, tags_ok P -> forall c d n ps1 p ps2 l1 b l2 c' d',
  made c -> run_mirror c d -> n < pow64 -> len (ps1 ++ p :: ps2) <= pow32 ->
  Forall (fun p => 4 <= len p) (ps1 ++ p :: ps2) ->
  encrypt_all P c n (ps1 ++ p :: ps2) (l1 ++ b :: l2) c' -> len l1 = len ps1 ->
  decrypt_all P d n l1 ps1 d' ->
  forall x d1 h d2 r,
  DecryptHeader P d' (seq_plus n (len ps1)) (take 4 x) = COk (d1, h) ->
  DecryptPayload P d1 (seq_plus n (len ps1)) x = COk (d2, r) ->
  x = b \/
  exists u, used d' (seq_plus n (len ps1)) (h ++ r) x = Some u /\
    tag P u = drop (len x - run_auth_size d') x /\ ~ sender_uses P c n (ps1 ++ p :: ps2) u.
Proof.
  intros P T c d n ps1 p ps2 l1 b l2 c' d' M Mi Hn Hl Hp E L D x d1 h d2 r H1 H2.
  destruct (encrypt_all_app _ _ _ _ _ _ _ Hn E) as (m1 & m2 & c1 & El & E1 & L1 & E2).
  inversion E2 as [|? ? ? b' c2 ? m3 ? X1 X2]; subst.
  apply app_cons_same in El as (<- & <- & <-); [|etransitivity; [exact L|symmetry; exact L1]].
  apply Forall_app in Hp as [Hp1 Hp2]. inversion Hp2 as [|? ? Hp3 Hp4]; subst.
  destruct (all_inverse P T _ _ _ _ _ _ Mi Hp1 E1) as (e & D' & Mi').
  destruct (decrypt_all_det _ _ _ _ _ _ D _ _ D') as [_ <-].
  destruct (encrypt_all_after _ _ _ _ _ _ M E1) as [M1 A1].
  pose proof (made_mirror _ _ M1 Mi') as Md.
  destruct (accepted_tag P d' _ x d1 h d2 r Md H1 H2) as (u & U & Tg).
  destruct (used c1 (seq_plus n (len ps1)) p b) as [v|] eqn:Uc.
  2: { exfalso. destruct c1 as [[]|[]]; cbn in *; try contradiction; discriminate. }
  destruct (bytes_eq_dec x b) as [->|Hx]; [left; reflexivity|right].
  exists u. split; [exact U|]. split; [exact Tg|].
  intros [q1 q q2 k1 g1 y g2 Eq F1 F2 F3].
  destruct (encrypt_all_after _ _ _ _ _ _ M F1) as [M2 A2].
  assert (U' : used c1 (seq_plus n (len ps1)) (h ++ r) x = Some u) by (rewrite (used_mirror c1 d'); assumption).
  assert (Lq : len ps1 = len q1).
  { assert (Z : len (ps1 ++ p :: ps2) = len (q1 ++ q :: q2)) by (rewrite Eq; reflexivity).
    rewrite len_app, len_cons in Hl. assert (len q1 < pow32) by (rewrite !len_app, !len_cons in Z; lia).
    eapply used_same_index; [exact M|exact A1|exact A2|lia|assumption|exact U'|exact F3]. }
  apply app_cons_same in Eq as (<- & <- & <-); [|exact Lq].
  destruct (encrypt_all_det _ _ _ _ _ _ E1 _ _ F1) as [<- <-].
  rewrite X1 in F2. assert (y = b) by congruence. subst y.
  apply Hx. eapply same_use_same_bytes; eassumption.
Qed.

(** ** What class Output and class Input rely on *)

Lemma encrypt_nonempty : forall P, tags_ok P -> forall c n p c' b, out_encrypt P c n p = Some (c', b) -> b <> [].
Proof.
  intros P T c n p c' b H. unfold out_encrypt in H. apply returned_ok in H.
  assert (B : forall c c' b, base_Encrypt P c n p = COk (c', b) -> b <> []).
  { clear c c' b H. intros [pk hk|k f m e|k iv pos] c' b H; cbn [base_Encrypt] in H.
    - destruct (negb (header_size <? len p)); [discriminate|]. intros ->.
      match type of H with COk (_, ?a ++ ?t) = _ => assert (X : a ++ t = []) by congruence end.
      apply app_eq_nil in X as [_ X]. pose proof (poly_len P T (poly_key P (be64 n) pk)) as L.
      match type of X with poly1305 _ _ ?m = _ => specialize (L m) end. rewrite X in L. discriminate.
    - destruct (negb (header_size <=? len p)) eqn:L; [discriminate|]. destruct (negb e); [discriminate|].
      destruct (negb (_ mod 16 =? 0)); [discriminate|]. intros ->.
      match type of H with COk (_, ?a ++ ?t) = _ => assert (X : a ++ t = []) by congruence end.
      apply app_eq_nil in X as [X _]. apply negb_false_iff, N.leb_le in L. unfold header_size in *.
      pose proof (len_4 p L) as Y. rewrite X in Y. discriminate.
    - destruct (negb (header_size <=? len p)) eqn:L; [discriminate|].
      destruct (negb (_ mod 16 =? 0)); [discriminate|]. intros ->.
      match type of H with COk (_, ?a) = _ => assert (X : a = []) by congruence end.
      apply negb_false_iff, N.leb_le in L. unfold header_size in *.
      pose proof (len_xor (aes_ctr P k iv) p pos) as Y. rewrite X, len_nil in Y. lia. }
  destruct c as [c|c k st]; cbn [Encrypt] in H.
  - destruct (base_Encrypt P c n p) as [[c1 b1]| |] eqn:E; try discriminate.
    assert (b1 = b) by congruence. subst. eapply B; exact E.
  - destruct (negb _); [discriminate|]. destruct (base_Encrypt P c n p) as [[c1 b1]| |] eqn:E; try discriminate.
    intros ->. assert (X : b1 ++ hmac_sha256 P k (InitState n ++ p) = []) by congruence.
    apply app_eq_nil in X as [X _]. eapply B; [exact E|exact X].
Qed.

Lemma payload_size : forall P c n src c' r, in_payload P c n src = Some (c', r) ->
  len r + 4 + run_auth_size c = len src.
Proof.
  intros P c n src c' r H. unfold in_payload in H. apply returned_ok in H.
  assert (B : forall c src c' r, base_DecryptPayload P c n src = COk (c', r) -> len r + 4 + base_auth_size c = len src).
  { clear. intros [pk hk|k f m e|k iv pos] src c' r H; cbn [base_DecryptPayload base_auth_size] in *.
    - destruct (negb (header_size + 16 <? len src)) eqn:L; [discriminate|]. apply negb_false_iff, N.ltb_lt in L.
      unfold header_size in *. destruct (negb _); [discriminate|].
      match type of H with COk (_, ?a) = _ => assert (X : r = a) by congruence end. rewrite X, len_xor, len_drop, len_take by lia. lia.
    - destruct (negb (header_size + 16 <=? len src)) eqn:L; [discriminate|]. apply negb_false_iff, N.leb_le in L.
      unfold header_size in *. destruct e; [discriminate|]. destruct (negb (_ mod 16 =? 0)); [discriminate|].
      destruct (negb _); [discriminate|].
      match type of H with COk (_, ?a) = _ => assert (X : r = a) by congruence end. rewrite X, len_xor, len_drop, len_take by lia. lia.
    - destruct (negb (header_size <=? len src)) eqn:L; [discriminate|]. apply negb_false_iff, N.leb_le in L.
      unfold header_size in *. destruct (negb (_ mod 16 =? 0)); [discriminate|].
      match type of H with COk (_, ?a) = _ => assert (X : r = a) by congruence end. rewrite X, len_xor, len_drop. lia. }
  destruct c as [c|c k st]; cbn [DecryptPayload run_auth_size] in *.
  - destruct (base_DecryptPayload P c n src) as [[c1 b1]| |] eqn:E; try discriminate.
    assert (b1 = r) by congruence. subst. eapply B; exact E.
  - destruct (negb (header_size + 32 <=? len src)) eqn:L; [discriminate|]. apply negb_false_iff, N.leb_le in L.
    unfold header_size in *. destruct (base_DecryptPayload P c n _) as [[c1 b1]| |] eqn:E; try discriminate.
    destruct (negb _); [discriminate|]. assert (b1 = r) by congruence. subst. apply B in E.
    rewrite len_take in E by lia. lia.
Qed.

Lemma header_auth : forall P c n src c' h, in_header P c n src = Some (c', h) -> run_auth_size c' = run_auth_size c.
Proof.
  intros P c n src c' h H. unfold in_header in H. apply returned_ok in H.
  destruct c as [[]|[] k st]; cbn in H; assert (X := f_equal (fun r => match r with COk (c, _) => run_auth_size c | _ => 0 end) H);
    cbn in X; exact (eq_sym X).
Qed.

(** ** Encrypting a packet which is padded for the cipher *)

Definition base_sends (c : base) : Prop := match c with Gcm _ _ _ e => e = true | _ => True end.
Definition sends (c : running) : Prop := match c with Plain b => base_sends b | Hmac b _ _ => base_sends b end.

(** the same settings *)
Definition alike (c c' : running) : Prop :=
  run_block_size c' = run_block_size c /\ run_header_excluded c' = run_header_excluded c /\ (sends c -> sends c').

Lemma base_encrypt_ok : forall P c seq p,
  base_sends c ->
  (len p - (if base_header_excluded c then 4 else 0)) mod base_block_size c = 0 ->
  16 <= len p - (if base_header_excluded c then 4 else 0) ->
  exists c' b, base_Encrypt P c seq p = COk (c', b) /\ base_block_size c' = base_block_size c /\
    base_header_excluded c' = base_header_excluded c /\ base_sends c'.
Proof.
  intros P c seq p Hs H1 H2. destruct c as [pk hk|k f m e|k iv pos];
    cbn [base_Encrypt base_block_size base_header_excluded base_sends] in *; unfold header_size.
  - replace (4 <? len p) with true by (symmetry; apply N.ltb_lt; lia). cbn [negb]. do 2 eexists. split; [reflexivity|]. repeat split; auto.
  - replace (4 <=? len p) with true by (symmetry; apply N.leb_le; lia). subst e. cbn [negb].
    rewrite len_drop, H1. cbn [N.eqb negb]. do 2 eexists. split; [reflexivity|]. repeat split; auto.
  - replace (4 <=? len p) with true by (symmetry; apply N.leb_le; lia). cbn [negb].
    rewrite N.sub_0_r in H1. rewrite H1. cbn [N.eqb negb]. do 2 eexists. split; [reflexivity|]. repeat split; auto.
Qed.

Lemma encrypt_ok : forall P c seq p,
  sends c ->
  (len p - (if run_header_excluded c then 4 else 0)) mod run_block_size c = 0 ->
  16 <= len p - (if run_header_excluded c then 4 else 0) ->
  exists c' b, Encrypt P c seq p = COk (c', b) /\ alike c c'.
Proof.
  intros P c seq p Hs H1 H2. destruct c as [c|c k st]; cbn [Encrypt sends run_header_excluded run_block_size] in *.
  - destruct (base_encrypt_ok P c seq p Hs H1 H2) as (c' & b & -> & A & B & D). do 2 eexists.
    split; [reflexivity|]. repeat split; auto.
  - unfold header_size. replace (4 <=? len p) with true by (symmetry; apply N.leb_le; lia). cbn [negb].
    destruct (base_encrypt_ok P c seq p Hs H1 H2) as (c' & b & -> & A & B & D). do 2 eexists.
    split; [reflexivity|]. repeat split; auto.
Qed.
