(** The cipher objects produce the format of Spec/CipherFormat.v. *)

From Coq Require Import NArith List Bool Lia String.
From Verif.Base Require Import Bytes.
From Verif.Model Require Import StringList Negotiate Ciphers.
From Verif.Spec Require Import NamesSpec CipherSpec CipherFormat.
From Verif.Proofs Require Import NamesFacts CipherFacts CipherMade.
Import ListNotations.
Open Scope N_scope.
Local Arguments bs : simpl never.
Local Arguments take : simpl never.
Local Arguments drop : simpl never.

Lemma be32_big : forall n, be32 n = big_endian 4 n.
Proof.
  intros n. cbn [big_endian app]. unfold be32. rewrite !N.div_div by discriminate. reflexivity.
Qed.

Lemma be64_big : forall n, be64 n = big_endian 8 n.
Proof.
  intros n. unfold be64. rewrite (be32_mod n). rewrite !be32_big.
  cbn [big_endian app]. unfold pow32. rewrite !N.div_div by discriminate. reflexivity.
Qed.

Lemma big_endian_mod : forall m n, m mod 2 ^ 64 = n mod 2 ^ 64 -> big_endian 8 m = big_endian 8 n.
Proof. intros m n H. rewrite <- !be64_big. apply be64_eq. exact H. Qed.

Lemma number_fold : forall l a, fold_left (fun n b => n * 256 + b) l a = a * 256 ^ len l + number l.
Proof.
  induction l as [|b l IH]; intros a.
  - cbn [fold_left number]. rewrite len_nil. lia.
  - cbn [fold_left number]. rewrite IH, len_cons, N.add_1_l, N.pow_succ_r'. lia.
Qed.

Lemma xor_stream_eq : forall ks l pos, xor_stream ks pos l = enciphered ks pos l.
Proof.
  intros ks l. unfold enciphered, xor, stream. induction l as [|b l IH]; intros pos; [reflexivity|].
  cbn [xor_stream List.length seq map combine fst snd]. rewrite N.add_0_r. f_equal.
  rewrite IH. rewrite <- seq_shift, map_map. do 2 f_equal. apply map_ext. intros i. f_equal. lia.
Qed.

Lemma xor_zeroes : forall ks n pos, xor_stream ks pos (zeroes n) = stream ks pos n.
Proof.
  intros ks n. unfold stream, zeroes. induction n as [|n IH]; intros pos; [reflexivity|].
  cbn [repeat xor_stream seq map]. rewrite N.add_0_r, N.lxor_0_l. f_equal.
  rewrite IH, <- seq_shift, map_map. apply map_ext. intros i. f_equal. lia.
Qed.

(** the object before its [k]-th packet *)
Definition ready (m : kind) (size : N) (key iv mac_key : bytes) (k total : N) (c : running) : Prop :=
  match m with
  | ChaChaPoly => c = Plain (ChaCha (take 32 key) (take 32 (drop 32 key)))
  | AesGcm => exists n, c = Plain (Gcm (take size key) (take 4 iv) n true) /\
      n mod 2 ^ 64 = (number (take 8 (drop 4 iv)) + k) mod 2 ^ 64
  | AesCtrHmac => exists st, c = Hmac (Ctr (take size key) (take 16 iv) total) (take 32 mac_key) st
  end.

Lemma ready_step : forall P m size key iv mk n k total c p c' b,
  ready m size key iv mk k total c -> Encrypt P c n p = COk (c', b) ->
  b = sealed P m size key iv mk n k total p /\ ready m size key iv mk (k + 1) (total + len p) c'.
Proof.
  intros P m size key iv mk n k total c p c' b R E. destruct m; cbn [ready sealed] in *.
  - subst c. cbn [Encrypt base_Encrypt] in E. destruct (negb (header_size <? len p)); [discriminate|].
    unfold poly_key in E. rewrite !xor_stream_eq, be64_big in E. unfold header_size in E.
    assert (E1 := f_equal (fun r => match r with COk (c, _) => c | _ => c' end) E).
    assert (E2 := f_equal (fun r => match r with COk (_, b) => b | _ => b end) E).
    cbv beta iota in E1, E2. split; [|auto]. rewrite <- E2. rewrite <- (xor_zeroes _ 32), xor_stream_eq. reflexivity.
  - destruct R as (i & -> & Hi). cbn [Encrypt base_Encrypt] in E. destruct (negb (header_size <=? len p)); [discriminate|].
    cbn [negb] in E. destruct (negb (len (drop header_size p) mod 16 =? 0)); [discriminate|].
    unfold header_size, gcm_iv in E. rewrite xor_stream_eq, be64_big in E.
    rewrite (big_endian_mod _ _ Hi) in E.
    assert (E1 := f_equal (fun r => match r with COk (c, _) => c | _ => c' end) E).
    assert (E2 := f_equal (fun r => match r with COk (_, b) => b | _ => b end) E).
    cbv beta iota in E1, E2. split; [auto|]. exists (gcm_next i). split; [auto|].
    unfold gcm_next. change pow64 with (2 ^ 64). rewrite N.mod_mod by discriminate.
    rewrite N.add_assoc. rewrite <- (N.add_mod_idemp_l i) by discriminate. rewrite Hi.
    apply N.add_mod_idemp_l. discriminate.
  - destruct R as (st & ->). cbn [Encrypt] in E. destruct (negb (header_size <=? len p)) eqn:L; [discriminate|].
    cbn [base_Encrypt] in E. rewrite L in E. destruct (negb (len p mod 16 =? 0)); [discriminate|].
    unfold InitState in E. rewrite xor_stream_eq, be32_big in E.
    assert (E1 := f_equal (fun r => match r with COk (c, _) => c | _ => c' end) E).
    assert (E2 := f_equal (fun r => match r with COk (_, b) => b | _ => b end) E).
    cbv beta iota in E1, E2. split; [auto|]. eexists. symmetry. exact E1.
Qed.

Lemma ready_all : forall P m size key iv mk ps n k total c l c',
  ready m size key iv mk k total c -> encrypt_all P c n ps l c' ->
  l = sealed_all P m size key iv mk n k total ps.
Proof.
  intros P m size key iv mk. induction ps as [|p ps IH]; intros n k total c l c' R E; inversion E; subst; [reflexivity|].
  destruct (ready_step _ _ _ _ _ _ _ _ _ _ _ _ _ R H3) as [-> R2]. cbn [sealed_all]. f_equal.
  eapply IH; [exact R2|]. exact H6.
Qed.

Lemma ready_padded : forall m size key iv mk k total c p, ready m size key iv mk k total c -> padded m p ->
  (len p - (if run_header_excluded c then 4 else 0)) mod run_block_size c = 0 /\
  16 <= len p - (if run_header_excluded c then 4 else 0) /\ sends c.
Proof.
  intros m size key iv mk k total c p R H. destruct m; cbn [ready padded] in *.
  - subst c. cbn [run_header_excluded run_block_size base_header_excluded base_block_size sends base_sends]. repeat split; [tauto|lia].
  - destruct R as (i & -> & _). cbn [run_header_excluded run_block_size base_header_excluded base_block_size sends base_sends]. repeat split; [tauto|lia].
  - destruct R as (st & ->). cbn [run_header_excluded run_block_size base_header_excluded base_block_size sends base_sends].
    rewrite N.sub_0_r. repeat split; tauto.
Qed.

Lemma ready_encrypts : forall P m size key iv mk ps n k total c,
  ready m size key iv mk k total c -> Forall (padded m) ps ->
  exists l c', encrypt_all P c n ps l c'.
Proof.
  intros P m size key iv mk. induction ps as [|p ps IH]; intros n k total c R H; [do 2 eexists; constructor|].
  inversion H; subst. destruct (ready_padded _ _ _ _ _ _ _ _ _ R H2) as (A & B & C).
  destruct (encrypt_ok P c n p C A B) as (c1 & b & E & _).
  destruct (ready_step _ _ _ _ _ _ _ _ _ _ _ _ _ R E) as [_ R2].
  destruct (IH (seq_plus n 1) _ _ _ R2 H3) as (l & c' & E2). do 2 eexists. econstructor; eassumption.
Qed.

(** ** What the factory makes *)

Lemma take_take_min : forall A n m (l : list A), n <= m -> take n (take m l) = take n l.
Proof. intros. apply take_take_le. exact H. Qed.

Lemma first_known : forall l key iv e c,
  MakeEncryptionCipher_loop l key iv e = Some (Some c) ->
  exists alg m size, In (alg, (m, size)) methods /\ first_common l (map fst methods) alg /\
    c_alg c = alg /\ c_encrypt c = e /\ c_mac c = None /\
    (c_auth_size c =? 0) = (match m with AesCtrHmac => true | _ => false end) /\
    (m = ChaChaPoly -> c_key c = key /\ len key = 64) /\
    (m <> ChaChaPoly -> c_key c = take size key) /\
    (m = AesGcm -> c_iv c = take 12 iv) /\ (m = AesCtrHmac -> c_iv c = take 16 iv).
Proof.
  induction l as [|a l IH]; intros key iv e c H; cbn [MakeEncryptionCipher_loop] in H; [discriminate|].
  assert (F : forall x, bytes_eqb a x = true -> In x (map fst methods) -> first_common (a :: l) (map fst methods) x).
  { intros x Hx Hin. apply bytes_eqb_eq in Hx. subst x. exists [], l. split; [reflexivity|]. split; [exact Hin|]. intros n []. }
  assert (G : forall x m size auth ivs iv', bytes_eqb a x = true -> In (x, (m, size)) methods -> m <> ChaChaPoly ->
    (auth =? 0) = (match m with AesCtrHmac => true | _ => false end) ->
    take ivs iv' = take (match m with AesCtrHmac => 16 | _ => 12 end) iv ->
    option_map Some (OsslCipher x auth size ivs key iv' e) = Some (Some c) ->
    exists alg m size, In (alg, (m, size)) methods /\ first_common (a :: l) (map fst methods) alg /\
    c_alg c = alg /\ c_encrypt c = e /\ c_mac c = None /\
    (c_auth_size c =? 0) = (match m with AesCtrHmac => true | _ => false end) /\
    (m = ChaChaPoly -> c_key c = key /\ len key = 64) /\
    (m <> ChaChaPoly -> c_key c = take size key) /\
    (m = AesGcm -> c_iv c = take 12 iv) /\ (m = AesCtrHmac -> c_iv c = take 16 iv)).
  { intros x m size auth ivs iv' Hx Hin Hm Ha Hiv HO. exists x, m, size.
    unfold OsslCipher in HO. destruct (len iv' <? ivs); [discriminate|].
    destruct (negb (len (take size key) =? size)); [discriminate|]. cbn [option_map] in HO.
    assert (X := f_equal (fun x => match x with Some (Some y) => y | _ => c end) HO). cbv beta iota in X. subst c.
    cbn [c_alg c_encrypt c_mac c_auth_size c_key c_iv].
    split; [exact Hin|]. split; [apply F; [exact Hx|apply in_map_iff; exists (x, (m, size)); auto]|].
    split; [reflexivity|]. split; [reflexivity|]. split; [reflexivity|]. split; [exact Ha|].
    split; [intros ->; contradiction|]. split; [reflexivity|]. rewrite Hiv. split; intros ->; reflexivity. }
  destruct (bytes_eqb a (bs "chacha20-poly1305@openssh.com")) eqn:E0.
  { clear G. unfold ChaCha20Poly1305Cipher in H. destruct (len key =? 64) eqn:L; [|discriminate]. apply N.eqb_eq in L.
    cbn [option_map] in H. assert (X := f_equal (fun x => match x with Some (Some y) => y | _ => c end) H). cbv beta iota in X. subst c.
    exists (bs "chacha20-poly1305@openssh.com"), ChaChaPoly, 64.
    split; [left; reflexivity|]. split; [apply F; [exact E0|left; reflexivity]|].
    cbn [c_alg c_encrypt c_mac c_auth_size c_key c_iv]. repeat split; try discriminate; auto. congruence. }
  destruct (bytes_eqb a (bs "aes128-ctr")) eqn:E1.
  { apply (G (bs "aes128-ctr") AesCtrHmac 16 0 16 iv E1); [unfold methods; cbn [In]; auto 8|discriminate|reflexivity|reflexivity|exact H]. }
  destruct (bytes_eqb a (bs "aes192-ctr")) eqn:E2.
  { apply (G (bs "aes192-ctr") AesCtrHmac 24 0 16 iv E2); [unfold methods; cbn [In]; auto 8|discriminate|reflexivity|reflexivity|exact H]. }
  destruct (bytes_eqb a (bs "aes256-ctr")) eqn:E3.
  { apply (G (bs "aes256-ctr") AesCtrHmac 32 0 16 iv E3); [unfold methods; cbn [In]; auto 8|discriminate|reflexivity|reflexivity|exact H]. }
  destruct (bytes_eqb a (bs "aes128-gcm@openssh.com")) eqn:E4.
  { apply (G (bs "aes128-gcm@openssh.com") AesGcm 16 16 12 (take 12 iv) E4); [unfold methods; cbn [In]; auto 9|discriminate|reflexivity| |exact H].
    apply take_take_le. apply N.le_refl. }
  destruct (bytes_eqb a (bs "aes256-gcm@openssh.com")) eqn:E5.
  { apply (G (bs "aes256-gcm@openssh.com") AesGcm 32 16 12 (take 12 iv) E5); [unfold methods; cbn [In]; auto 9|discriminate|reflexivity| |exact H].
    apply take_take_le. apply N.le_refl. }
  destruct (IH _ _ _ _ H) as (alg & m & size & A1 & (bf & af & -> & A2 & A3) & A4).
  exists alg, m, size. split; [exact A1|]. split; [|exact A4].
  exists (a :: bf), af. split; [reflexivity|]. split; [exact A2|]. intros n [<-|Hn]; [|apply A3; exact Hn].
  intros [X|[X|[X|[X|[X|[X|[]]]]]]]; cbn [fst] in X; subst a; rewrite bytes_eqb_refl in *; discriminate.
Qed.

Lemma mac_known : forall l c key c2, MakeMacCipher_loop l c key = Some (Some c2) ->
  In (bs "hmac-sha2-256") l /\ 32 <= len key /\ new_running c2 = Hmac (new_base c) (take 32 key) [].
Proof.
  induction l as [|a l IH]; intros c key c2 H; cbn [MakeMacCipher_loop] in H; [discriminate|].
  destruct (bytes_eqb a (bs "hmac-sha2-256")) eqn:E.
  - apply bytes_eqb_eq in E. unfold HmacSHA256Cipher in H. destruct (len key <? 32) eqn:L; [discriminate|]. apply N.ltb_ge in L.
    cbn [option_map] in H. assert (X := f_equal (fun x => match x with Some (Some y) => y | _ => c end) H). cbv beta iota in X. subst c2.
    split; [left; exact E|]. split; [exact L|]. reflexivity.
  - destruct (IH _ _ _ H) as (A & B). split; [right; exact A|exact B].
Qed.

Lemma ready_made : forall ca ma key iv mk c,
  MakeCipher ca ma key iv mk true = Some (Some c) ->
  exists alg m size, In (alg, (m, size)) methods /\ first_common (split 44 ca) (map fst methods) alg /\
    (m = AesCtrHmac -> In (bs "hmac-sha2-256") (split 44 ma)) /\
    ready m size key iv mk 0 0 (new_running c).
Proof.
  intros ca ma key iv mk c H. unfold MakeCipher in H.
  destruct (MakeEncryptionCipher_loop (split 44 ca) key iv true) as [[c0|]|] eqn:E; try discriminate.
  destruct (first_known _ _ _ _ _ E) as (alg & m & size & A1 & A2 & A3 & A4 & A5 & A6 & A7 & A8 & A9 & A10).
  exists alg, m, size. split; [exact A1|]. split; [exact A2|]. rewrite A6 in H.
  assert (B : match m with
    | ChaChaPoly => new_base c0 = ChaCha (take 32 key) (take 32 (drop 32 key))
    | AesGcm => new_base c0 = Gcm (take size key) (take 4 iv) (number (take 8 (drop 4 iv))) true
    | AesCtrHmac => new_base c0 = Ctr (take size key) (take 16 iv) 0 end).
  { destruct m.
    - destruct A1 as [X|[X|[X|[X|[X|[X|[]]]]]]]; inversion X; subst.
      destruct (A7 eq_refl) as [K L]. unfold new_base. rewrite <- H1, bytes_eqb_refl, K, L. f_equal.
      change (64 - 32) with 32. symmetry. apply take_ge. rewrite len_drop, L. discriminate.
    - specialize (A9 eq_refl). specialize (A8 ltac:(discriminate)).
      assert (G : new_base c0 = Gcm (c_key c0) (take 4 (c_iv c0)) (fold_left (fun n b => n * 256 + b) (drop 4 (c_iv c0)) 0) (c_encrypt c0)).
      { unfold new_base. rewrite A3. destruct A1 as [X|[X|[X|[X|[X|[X|[]]]]]]]; inversion X; subst; reflexivity. }
      rewrite G, A8, A9, A4. f_equal.
      + apply take_take_le. discriminate.
      + rewrite number_fold, N.mul_0_l, N.add_0_l. f_equal. unfold take, drop. rewrite skipn_firstn_comm. reflexivity.
    - specialize (A10 eq_refl). specialize (A8 ltac:(discriminate)).
      assert (G : new_base c0 = Ctr (c_key c0) (c_iv c0) 0).
      { unfold new_base. rewrite A3. destruct A1 as [X|[X|[X|[X|[X|[X|[]]]]]]]; inversion X; subst; reflexivity. }
      rewrite G, A8, A10. reflexivity. }
  destruct m.
  - assert (c = c0) by congruence. subst c. split; [discriminate|].
    unfold new_running. rewrite A5, B. reflexivity.
  - assert (c = c0) by congruence. subst c. split; [discriminate|].
    unfold new_running. rewrite A5, B. eexists. split; [reflexivity|]. rewrite N.add_0_r. reflexivity.
  - destruct (mac_known _ _ _ _ H) as (M1 & _ & M2). split; [auto|]. rewrite M2, B. eexists. reflexivity.
Qed.

(** ** When it makes one *)

Lemma enc_loop_makes : forall bf alg m size af key iv e, In (alg, (m, size)) methods ->
  (forall n, In n bf -> ~ In n (map fst methods)) -> len key = 64 -> 16 <= len iv ->
  exists c, MakeEncryptionCipher_loop (bf ++ alg :: af) key iv e = Some (Some c).
Proof.
  intros bf alg m size af key iv e A1 A3 Lk Li. induction bf as [|a bf IH].
  - cbn [app]. assert (Z : forall x auth ks ivs iv', ks <= 64 -> ivs <= len iv' ->
      exists c, option_map Some (OsslCipher x auth ks ivs key iv' e) = Some (Some c)).
    { intros x auth ks ivs iv' H1 H2. unfold OsslCipher. replace (len iv' <? ivs) with false by (symmetry; apply N.ltb_ge; exact H2).
      rewrite len_take by lia. rewrite N.eqb_refl. eexists. reflexivity. }
    assert (L12 : 12 <= len (take 12 iv)) by (rewrite len_take; lia).
    destruct A1 as [X|[X|[X|[X|[X|[X|[]]]]]]]; assert (EA := f_equal fst X); cbn [fst] in EA; subst alg;
      cbn [MakeEncryptionCipher_loop];
      repeat match goal with |- context [bytes_eqb (bs ?x) (bs ?y)] =>
        let v := eval vm_compute in (bytes_eqb (bs x) (bs y)) in replace (bytes_eqb (bs x) (bs y)) with v by (vm_compute; reflexivity) end;
      try (apply Z; [lia|first [exact Li|exact L12]]).
    unfold ChaCha20Poly1305Cipher. rewrite Lk. eexists. reflexivity.
  - destruct IH as (c & IH); [intros n Hn; apply A3; right; exact Hn|]. exists c.
    cbn [app MakeEncryptionCipher_loop].
    assert (N0 : forall x, In x (map fst methods) -> bytes_eqb a x = false).
    { intros x Hx. destruct (bytes_eqb a x) eqn:Q; [|reflexivity]. apply bytes_eqb_eq in Q. subst x.
      exfalso. apply (A3 a); [left; reflexivity|exact Hx]. }
    rewrite !N0 by (unfold methods; cbn [map fst In]; auto 8). exact IH.
Qed.

Lemma mac_loop_makes : forall l c key, In (bs "hmac-sha2-256") l -> 32 <= len key ->
  exists c2, MakeMacCipher_loop l c key = Some (Some c2).
Proof.
  induction l as [|a l IH]; intros c key H L; [destruct H|]. cbn [MakeMacCipher_loop].
  destruct (bytes_eqb a (bs "hmac-sha2-256")) eqn:E.
  - unfold HmacSHA256Cipher. replace (len key <? 32) with false by (symmetry; apply N.ltb_ge; exact L). eexists. reflexivity.
  - destruct H as [->|H]; [rewrite bytes_eqb_refl in E; discriminate|]. apply IH; assumption.
Qed.

Lemma methods_unique : forall alg x y, In (alg, x) methods -> In (alg, y) methods -> x = y.
Proof.
  intros alg x y H1 H2. destruct H1 as [X|[X|[X|[X|[X|[X|[]]]]]]]; inversion X; subst;
    destruct H2 as [Y|[Y|[Y|[Y|[Y|[Y|[]]]]]]]; inversion Y; reflexivity.
Qed.

Lemma first_common_unique : forall l s x y, first_common l s x -> first_common l s y -> x = y.
Proof.
  intros l s x y (b1 & a1 & E1 & I1 & N1) (b2 & a2 & E2 & I2 & N2). subst l. revert b2 N2 E2.
  induction b1 as [|h b1 IH]; intros [|h2 b2] N2 E2; cbn [app] in E2; injection E2 as Eh Et.
  - exact Eh.
  - exfalso. apply (N2 x); [left; auto|exact I1].
  - exfalso. apply (N1 y); [left; auto|exact I2].
  - apply (IH ltac:(intros n Hn; apply N1; right; exact Hn) b2); [intros n Hn; apply N2; right; exact Hn|exact Et].
Qed.

Lemma makes : forall ca ma key iv mk e alg m size, In (alg, (m, size)) methods ->
  first_common (split 44 ca) (map fst methods) alg -> (m = AesCtrHmac -> In (bs "hmac-sha2-256") (split 44 ma)) ->
  len key = 64 -> 16 <= len iv -> 32 <= len mk ->
  exists c, MakeCipher ca ma key iv mk e = Some (Some c).
Proof.
  intros ca ma key iv mk e alg m size A1 A2 A3 L1 L2 L3. unfold MakeCipher.
  destruct A2 as (bf & af & E & I & NB). destruct (enc_loop_makes bf alg m size af key iv e A1 NB L1 L2) as (c & H).
  rewrite E, H. rewrite <- E in H. destruct (first_known _ _ _ _ _ H) as (alg' & m' & size' & B1 & B2 & _ & _ & _ & B6 & _).
  assert (alg' = alg) by (eapply first_common_unique; [exact B2|]; exists bf, af; auto). subst alg'.
  assert (X := methods_unique _ _ _ A1 B1). injection X as <- <-. rewrite B6.
  destruct m; try (eexists; reflexivity). apply mac_loop_makes; auto.
Qed.
