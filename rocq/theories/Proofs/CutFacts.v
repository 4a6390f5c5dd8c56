(** What somebody in between can do to an encrypted connection. *)

From Coq Require Import NArith List Bool Lia PeanoNat.
From Verif.Base Require Import Bytes.
From Verif.Model Require Import Ciphers.
From Verif.Spec Require Import FrameSpec CipherSpec InputSpec CutSpec.
From Verif.Proofs Require Import CipherFacts InputFacts.
Import ListNotations.
Open Scope N_scope.

(** Nothing is accepted after the last packet of the sender. *)
Lemma integrity_end : forall P, tags_ok P -> forall c d n ps l c' d',
  made c -> run_mirror c d -> n < pow64 -> len ps < pow32 ->
  Forall (fun p => 4 <= len p) ps -> encrypt_all P c n ps l c' -> decrypt_all P d n l ps d' ->
  forall x d1 h d2 r,
  DecryptHeader P d' (seq_plus n (len ps)) (take 4 x) = COk (d1, h) ->
  DecryptPayload P d1 (seq_plus n (len ps)) x = COk (d2, r) ->
  exists u, used d' (seq_plus n (len ps)) (h ++ r) x = Some u /\
    tag P u = drop (len x - run_auth_size d') x /\ ~ sender_uses P c n ps u.
Proof.
  intros P T c d n ps l c' d' M Mi Hn Hl Hp E D x d1 h d2 r H1 H2.
  destruct (all_inverse P T _ _ _ _ _ _ Mi Hp E) as (e & D' & Mi').
  destruct (decrypt_all_det _ _ _ _ _ _ D _ _ D') as [_ <-].
  destruct (encrypt_all_after _ _ _ _ _ _ M E) as [M1 A1].
  pose proof (made_mirror _ _ M1 Mi') as Md.
  destruct (accepted_tag P d' _ x d1 h d2 r Md H1 H2) as (u & U & Tg).
  exists u. split; [exact U|]. split; [exact Tg|].
  intros [q1 q q2 k1 g1 y g2 Eq F1 F2 F3].
  destruct (encrypt_all_after _ _ _ _ _ _ M F1) as [M2 A2].
  assert (U' : used c' (seq_plus n (len ps)) (h ++ r) x = Some u) by (rewrite (used_mirror c' d'); assumption).
  assert (Z : len ps = len q1 + len (q :: q2)) by (rewrite Eq, len_app; reflexivity). rewrite len_cons in Z.
  assert (len ps = len q1); [|lia].
  eapply used_same_index; [exact M|exact A1|exact A2|assumption|lia|exact U'|exact F3].
Qed.

Lemma decrypt_all_snoc : forall P l d n ps d', n < pow64 -> decrypt_all P d n l ps d' ->
  forall b d1 h d2 r, DecryptHeader P d' (seq_plus n (len ps)) (take 4 b) = COk (d1, h) ->
  DecryptPayload P d1 (seq_plus n (len ps)) b = COk (d2, r) ->
  decrypt_all P d n (l ++ [b]) (ps ++ [h ++ r]) d2.
Proof.
  intros P l d n ps d' Hn D. induction D as [d n|d n b0 e1 h0 r0 e2 l ps e3 X1 X2 D IH]; intros b d1 h d2 r H1 H2.
  - rewrite len_nil, seq_plus_0 in H1, H2 by exact Hn. cbn [app]. econstructor; [exact H1|exact H2|constructor].
  - cbn [app]. econstructor; [exact X1|exact X2|]. apply (IH (seq_plus_lt n 1) b d1); rewrite seq_plus_plus; rewrite len_cons in H1, H2; assumption.
Qed.

Lemma len_length : forall (A : Type) (l : list A), len l = N.of_nat (List.length l).
Proof. reflexivity. Qed.

Lemma packets_sizes : forall ms ps, packets ms ps -> Forall (fun p => 4 <= len p) ps.
Proof.
  intros ms ps H. induction H as [|m p ms ps (padding & F & _) _ IH]; constructor; [|exact IH].
  rewrite F, len_app. change (len (be32 _)) with 4. lia.
Qed.

Lemma packets_len : forall ms ps, packets ms ps -> len ms = len ps.
Proof. intros ms ps H. induction H; [reflexivity|]. rewrite !len_cons. congruence. Qed.

(** What the receiver gets out of a genuine packet *)
Lemma carried_parts : forall m p, carried m p ->
  be32_at (take 4 p) = len p - 4 /\ acceptable (be32_at (take 4 p)) = true /\ unpad (drop 4 p) = Some m /\ 4 <= len p.
Proof.
  intros m p (padding & F & Hm & Hp & Hl). unfold framed in F. set (k := 1 + len m + len padding) in *.
  assert (T4 : take 4 p = be32 k) by (rewrite F; reflexivity).
  assert (D4 : drop 4 p = len padding :: m ++ padding) by (rewrite F; reflexivity).
  assert (L : len p = 4 + k).
  { rewrite F, !len_app. change (len (be32 k)) with 4. change (len [len padding]) with 1. unfold k. lia. }
  assert (B : be32_at (be32 k) = k).
  { unfold be32_at, be32. apply un_be32_be32. unfold pow32. lia. }
  rewrite T4, D4, B. split; [lia|]. assert (1 <= len m) by (destruct m; [congruence|rewrite len_cons; lia]).
  split; [unfold acceptable; apply andb_true_iff; split; apply N.leb_le; unfold k; lia|]. split; [|lia].
  unfold unpad. rewrite len_app. replace (len padding + 1 <=? len m + len padding) with true by (symmetry; apply N.leb_le; lia).
  f_equal. replace (len m + len padding - len padding) with (len m) by lia. unfold take, len. rewrite Nat2N.id.
  rewrite firstn_app, firstn_all, PeanoNat.Nat.sub_diag. cbn [firstn]. apply app_nil_r.
Qed.

Lemma received_from_snoc : forall (C : Type) ms n m,
  n < pow64 -> @received_from C n (ms ++ [m]) = received_from n ms ++ [Message (seq_plus n (len ms)) m].
Proof.
  induction ms as [|x ms IH]; intros n m Hn; cbn [app received_from].
  - rewrite len_nil, seq_plus_0 by exact Hn. reflexivity.
  - rewrite IH by (apply N.mod_lt; discriminate). cbn [app]. do 3 f_equal. change ((n + 1) mod 2 ^ 64) with (seq_plus n 1).
    rewrite seq_plus_plus, len_cons. reflexivity.
Qed.

Lemma forged_more : forall P c d n ps stream more, forged P c d n ps stream -> forged P c d n ps (stream ++ more).
Proof.
  intros P c d n ps stream more (ps1 & ps2 & l1 & d' & x & d1 & h & d2 & r & u & E & D & (front & back & S) & R).
  exists ps1, ps2, l1, d', x, d1, h, d2, r, u. split; [exact E|]. split; [exact D|]. split; [|exact R].
  exists front, (back ++ more). rewrite S, <- !app_assoc. reflexivity.
Qed.

Lemma encrypt_all_len : forall P c n ps l c', encrypt_all P c n ps l c' -> len l = len ps.
Proof. intros P c n ps l c' H. induction H; [reflexivity|]. rewrite !len_cons. congruence. Qed.

(** The receiver has installed the cipher [d] and reads any stream. *)
Lemma cut : forall P, tags_ok P -> forall c d n ms ps l c',
  made c -> run_mirror c d -> n < pow64 -> len ps < pow32 -> packets ms ps -> encrypt_all P c n ps l c' ->
  forall r0 after r, InputSpec.reads_all running run_auth_size (in_header P) (in_payload P) r0 after r ->
  r_cipher running r0 = Some d -> r_seq running r0 = n -> Forall is_message after ->
  forged P c d n ps (r_rest running r0) \/
  exists ms1 ms2 ps1 ps2 l1 l2 d', ms = ms1 ++ ms2 /\ ps = ps1 ++ ps2 /\ l = l1 ++ l2 /\
    packets ms1 ps1 /\ packets ms2 ps2 /\ after = received_from n ms1 /\ len l1 = len ps1 /\
    decrypt_all P d n l1 ps1 d' /\ r_cipher running r = Some d' /\ r_seq running r = seq_plus n (len ps1) /\
    r_rest running r0 = List.concat l1 ++ r_rest running r.
Proof.
  intros P T c d n ms ps l c' M Mi Hn Hl Hp E r0 after r H. induction H as [r|r0 t r1 e r2 H IH Hr]; intros Hc Hs Hm.
  - right. exists [], ms, [], ps, [], l, d. rewrite len_nil, seq_plus_0 by exact Hn.
    repeat split; try reflexivity; try assumption; constructor.
  - apply Forall_app in Hm as [Hm He]. inversion He as [|? ? (k & m & Ee) _]; subst.
    destruct (IH Hc eq_refl Hm) as [F|(ms1 & ms2 & ps1 & ps2 & l1 & l2 & d' & Em & Ep & El & P1 & P2 & Ea & Ll & D & Rc & Rs & Rr)]; [left; exact F|].
    clear IH. inversion Hr as [? m' cipher rest W Dc Er Ek Ex|]; subst m' k.
    unfold decode in Dc. rewrite Rc in Dc. set (s := r_rest running r1) in *.
    destruct (len s <? 4) eqn:L4; [discriminate|]. apply N.ltb_ge in L4. rewrite Rs in Dc.
    destruct (in_header P d' _ (take 4 s)) as [[d1 h]|] eqn:Hh; [|discriminate]. unfold in_header in Hh. apply returned_ok in Hh.
    cbv zeta in Dc. destruct (negb (acceptable (be32_at h))); [discriminate|].
    set (total := 4 + be32_at h + run_auth_size d1) in *.
    destruct (len s <? total) eqn:Lt; [discriminate|]. apply N.ltb_ge in Lt.
    destruct (in_payload P d1 _ (take total s)) as [[d2 body]|] eqn:Hb; [|discriminate]. unfold in_payload in Hb. apply returned_ok in Hb.
    destruct (unpad body) as [m2|] eqn:U; [|discriminate].
    assert (X1 : m2 = m) by congruence. assert (X2 : cipher = Some d2) by congruence. assert (X3 : rest = drop total s) by congruence.
    clear Dc. subst m2 cipher rest.
    set (x := take total s) in *.
    assert (Tx : take 4 x = take 4 s) by (unfold x; apply take_take_le; unfold total; lia).
    rewrite <- Tx in Hh.
    assert (Sx : s = x ++ drop total s) by (unfold x, take, drop; now rewrite firstn_skipn).
    assert (Fx : exists front back, r_rest running r0 = front ++ x ++ back) by (exists (List.concat l1), (drop total s); rewrite Rr, <- Sx; reflexivity).
    pose proof (packets_sizes _ _ Hp) as Sz.
    assert (Forge : forall u, used d' (seq_plus (r_seq running r0) (len ps1)) (h ++ body) x = Some u ->
      tag P u = drop (len x - run_auth_size d') x -> ~ sender_uses P c (r_seq running r0) ps u ->
      forged P c d (r_seq running r0) ps (r_rest running r0)).
    { intros u U1 U2 U3. exists ps1, ps2, l1, d', x, d1, h, d2, body, u. repeat split; assumption. }
    inversion P2 as [Q1 Q2|m3 p ms3 ps3 C3 P3 Q1 Q2]; subst ms2 ps2.
    + rewrite app_nil_r in Ep. subst ps1. assert (l2 = []).
      { pose proof (encrypt_all_len _ _ _ _ _ _ E) as Z. rewrite El, len_app, Ll in Z. destruct l2; [reflexivity|rewrite len_cons in Z; lia]. }
      subst l2. rewrite app_nil_r in El. subst l1.
      destruct (integrity_end P T _ _ _ _ _ _ _ M Mi Hn Hl Sz E D x d1 h d2 body Hh Hb) as (u & U1 & U2 & U3).
      left. exact (Forge u U1 U2 U3).
    + assert (exists b l3, l2 = b :: l3) as (b & l3 & ->).
      { pose proof (encrypt_all_len _ _ _ _ _ _ E) as Z. rewrite El, Ep, !len_app, Ll, len_cons in Z. destruct l2 as [|b l3]; [rewrite len_nil in Z; lia|eauto]. }
      rewrite Ep, El in E. rewrite Ep in Sz.
      assert (Hl' : len (ps1 ++ p :: ps3) <= pow32) by (rewrite <- Ep; lia).
      destruct (integrity P T _ _ _ _ _ _ _ _ _ _ _ M Mi Hn Hl' Sz E Ll D x d1 h d2 body Hh Hb) as [Xb|(u & U1 & U2 & U3)].
      2: { left. apply (Forge u U1 U2). rewrite Ep. exact U3. }
      right.
      (* the packet is genuine *)
      destruct (encrypt_all_app _ _ _ _ _ _ _ Hn E) as (g1 & g2 & c1 & Eg & E1 & G1 & E2).
      inversion E2 as [|? ? ? b' c2 ? g3 ? Y1 Y2]; subst g2.
      apply app_cons_same in Eg as (<- & <- & <-); [|congruence].
      apply Forall_app in Sz as [Sz1 Sz2].
      destruct (all_inverse P T _ _ _ _ _ _ Mi Sz1 E1) as (e & D' & Mi').
      destruct (decrypt_all_det _ _ _ _ _ _ D _ _ D') as [_ <-].
      destruct (carried_parts _ _ C3) as (B1 & B2 & B3 & B4).
      destruct (run_inverse1 P T _ _ _ _ _ _ Mi' B4 Y1) as (Lb & e1 & e2 & Z1 & Z2 & Z3 & Mi2).
      rewrite Xb in Hh, Hb. rewrite Hh in Z1. assert (e1 = d1) by congruence. assert (h = take 4 p) by congruence. subst e1 h.
      rewrite Hb in Z3. assert (e2 = d2) by congruence. assert (body = drop 4 p) by congruence. subst e2 body.
      assert (m = m3) by congruence. subst m3.
      exists (ms1 ++ [m]), ms3, (ps1 ++ [p]), ps3, (l1 ++ [b]), l3, d2.
      assert (Lms : len ms1 = len ps1) by exact (packets_len _ _ P1).
      split; [rewrite <- app_assoc; exact Em|]. split; [rewrite <- app_assoc; exact Ep|]. split; [rewrite <- app_assoc; exact El|].
      split; [apply Forall2_app; [exact P1|repeat constructor; exact C3]|]. split; [exact P3|].
      split; [rewrite received_from_snoc by exact Hn; rewrite <- Ea, Lms, Rs; reflexivity|].
      split; [rewrite !len_app, Ll; reflexivity|].
      split.
      { replace [p] with [take 4 p ++ drop 4 p] by (unfold take, drop; now rewrite firstn_skipn).
        eapply decrypt_all_snoc; [exact Hn|exact D|exact Hh|exact Hb]. }
      split; [reflexivity|]. cbn [r_seq r_rest]. split.
      { rewrite Rs, len_app. change ((seq_plus (r_seq running r0) (len ps1) + 1) mod 2 ^ 64) with (seq_plus (seq_plus (r_seq running r0) (len ps1)) 1).
        rewrite seq_plus_plus. reflexivity. }
      rewrite List.concat_app. cbn [List.concat]. rewrite app_nil_r, <- app_assoc, <- Xb, <- Sx. exact Rr.
Qed.

(** ** The attack on connections which do not start the sequence numbers again *)

Section Reading.
Variable P : crypto.
Hypothesis T : tags_ok P.
Notation reads := (InputSpec.reads running run_auth_size (in_header P) (in_payload P)).
Notation reads_all := (InputSpec.reads_all running run_auth_size (in_header P) (in_payload P)).

Lemma reads_all_one : forall l r e r1 r2, reads r e r1 -> reads_all r1 l r2 -> reads_all r (e :: l) r2.
Proof.
  intros l r e r1 r2 H H2. induction H2 as [r1|r1 l r2 e2 r3 H2 IH H3].
  - change [e] with ([] ++ [e]). econstructor; [constructor|exact H].
  - change (e :: l ++ [e2]) with ((e :: l) ++ [e2]). econstructor; [exact (IH H)|exact H3].
Qed.

Lemma reads_all_app : forall a r b r1 r2, reads_all r a r1 -> reads_all r1 b r2 -> reads_all r (a ++ b) r2.
Proof.
  intros a r b r1 r2 H H2. induction H2 as [r1|r1 l r2 e2 r3 H2 IH H3]; [rewrite app_nil_r; exact H|].
  rewrite app_assoc. econstructor; [exact (IH H)|exact H3].
Qed.

Lemma take_app_exact : forall (A : Type) n (a b : list A), len a = n -> take n (a ++ b) = a.
Proof.
  intros A n a b <-. unfold take, len. rewrite Nat2N.id, firstn_app, firstn_all, PeanoNat.Nat.sub_diag. cbn [firstn]. apply app_nil_r.
Qed.

Lemma drop_app_exact : forall (A : Type) n (a b : list A), len a = n -> drop n (a ++ b) = b.
Proof.
  intros A n a b <-. unfold drop, len. rewrite Nat2N.id, skipn_app, skipn_all, PeanoNat.Nat.sub_diag. reflexivity.
Qed.

Lemma be32_at_take : forall s, be32_at (take 4 s) = be32_at s.
Proof. intros [|a [|b [|c [|d s]]]]; reflexivity. Qed.

Definition at_ (c : option running) (n : N) (s : bytes) (w : bool) : reader running :=
  {| r_cipher := c; r_seq := n; r_rest := s; r_waiting := w |}.

Lemma plain_read : forall m p n rest, carried m p ->
  reads (at_ None n (p ++ rest) false) (Message n m) (at_ None ((n + 1) mod 2 ^ 64) rest (hd 0 m =? 21)).
Proof.
  intros m p n rest C. destruct (carried_parts _ _ C) as (B1 & B2 & B3 & B4).
  refine (reads_message running run_auth_size (in_header P) (in_payload P) (at_ None n (p ++ rest) false) m None rest eq_refl _).
  unfold decode. cbn [r_cipher r_seq r_rest at_]. rewrite len_app. replace (len p + len rest <? 4) with false by (symmetry; apply N.ltb_ge; lia).
  assert (Tk : take 4 (p ++ rest) = take 4 p) by (unfold take; rewrite firstn_app; replace (N.to_nat 4 - List.length p)%nat with 0%nat by (unfold len in B4; lia); cbn [firstn]; apply app_nil_r).
  rewrite <- be32_at_take, Tk, B2. cbv zeta. cbn [negb]. rewrite B1. replace (4 + (len p - 4)) with (len p) by lia.
  replace (len p + len rest <? len p) with false by (symmetry; apply N.ltb_ge; lia).
  replace (take (len p - 4) (drop 4 (p ++ rest))) with (drop 4 p).
  - rewrite B3. rewrite drop_app_exact by reflexivity. reflexivity.
  - replace (drop 4 (p ++ rest)) with (drop 4 p ++ rest).
    + rewrite take_app_exact; [reflexivity|]. rewrite len_drop. lia.
    + unfold drop. rewrite skipn_app. replace (N.to_nat 4 - List.length p)%nat with 0%nat by (unfold len in B4; lia). reflexivity.
Qed.

Lemma plain_reads : forall ms ps n rest, packets ms ps -> Forall (fun m => hd 0 m <> 21) ms ->  n < 2 ^ 64 ->
  reads_all (at_ None n (List.concat ps ++ rest) false) (received_from n ms) (at_ None (seq_plus n (len ms)) rest false).
Proof.
  intros ms ps n rest H. revert n. induction H as [|m p ms ps C H IH]; intros n F Hn.
  - cbn [List.concat app received_from]. rewrite len_nil, seq_plus_0 by exact Hn. constructor.
  - inversion F as [|? ? F1 F2]; subst. cbn [List.concat received_from]. rewrite <- app_assoc.
    eapply reads_all_one; [apply plain_read; exact C|]. replace (hd 0 m =? 21) with false by (symmetry; apply N.eqb_neq; exact F1).
    rewrite len_cons. rewrite <- seq_plus_plus. apply (IH _ F2). apply N.mod_lt. discriminate.
Qed.

Lemma cipher_read : forall c d n m p b c' rest, run_mirror c d -> carried m p -> Encrypt P c n p = COk (c', b) ->
  exists d', run_mirror c' d' /\
  reads (at_ (Some d) n (b ++ rest) false) (Message n m) (at_ (Some d') ((n + 1) mod 2 ^ 64) rest (hd 0 m =? 21)).
Proof.
  intros c d n m p b c' rest Mi C E. destruct (carried_parts _ _ C) as (B1 & B2 & B3 & B4).
  destruct (run_inverse1 P T _ _ _ _ _ _ Mi B4 E) as (Lb & d1 & d' & Z1 & Z2 & Z3 & Mi2). exists d'. split; [exact Mi2|].
  refine (reads_message running run_auth_size (in_header P) (in_payload P) (at_ (Some d) n (b ++ rest) false) m (Some d') rest eq_refl _).
  unfold decode. cbn [r_cipher r_seq r_rest at_]. rewrite len_app. replace (len b + len rest <? 4) with false by (symmetry; apply N.ltb_ge; lia).
  assert (Tk : take 4 (b ++ rest) = take 4 b) by (unfold take; rewrite firstn_app; replace (N.to_nat 4 - List.length b)%nat with 0%nat by (unfold len in *; lia); cbn [firstn]; apply app_nil_r).
  rewrite Tk. unfold in_header at 1. rewrite Z1. cbn [returned]. cbv zeta. rewrite B2. cbn [negb]. rewrite B1, Z2.
  replace (4 + (len p - 4) + run_auth_size d) with (len b) by lia. replace (len b + len rest <? len b) with false by (symmetry; apply N.ltb_ge; lia).
  rewrite take_app_exact by reflexivity. unfold in_payload at 1. rewrite Z3. cbn [returned]. rewrite B3, drop_app_exact by reflexivity. reflexivity.
Qed.

Lemma cipher_reads : forall ms ps c d n l c' rest, packets ms ps -> run_mirror c d -> encrypt_all P c n ps l c' -> n < 2 ^ 64 ->
  Forall (fun m => hd 0 m <> 21) ms ->
  exists r, reads_all (at_ (Some d) n (List.concat l ++ rest) false) (received_from n ms) r.
Proof.
  intros ms ps c d n l c' rest H. revert c d n l c'. induction H as [|m p ms ps C H IH]; intros c d n l c' Mi E Hn F.
  - eexists. constructor.
  - inversion F as [|? ? F1 F2]; subst. inversion E as [|? ? ? b c1 ? l' ? X1 X2]; subst. cbn [List.concat received_from]. rewrite <- app_assoc.
    destruct (cipher_read c d n m p b c1 (List.concat l' ++ rest) Mi C X1) as (d' & Mi' & R).
    replace (hd 0 m =? 21) with false in R by (symmetry; apply N.eqb_neq; exact F1).
    destruct (IH _ _ _ _ _ Mi' X2 (seq_plus_lt n 1) F2) as (r & Rs). exists r. eapply reads_all_one; [exact R|exact Rs].
Qed.

End Reading.

(** ChaCha20-Poly1305 has no state but the sequence number. *)
Lemma chacha_tail : forall P a b n p ps x l c', encrypt_all P (Plain (ChaCha a b)) n (p :: ps) (x :: l) c' ->
  encrypt_all P (Plain (ChaCha a b)) (seq_plus n 1) ps l c'.
Proof.
  intros P a b n p ps x l c' H. inversion H as [|? ? ? ? c1 ? ? ? X1 X2]; subst.
  assert (c1 = Plain (ChaCha a b)); [|now subst]. cbn [Encrypt base_Encrypt] in X1. destruct (negb _); [discriminate|]. congruence.
Qed.

(** AES-GCM does not use the sequence number at all. *)
Lemma gcm_any : forall P ps k f m e n l c' n', encrypt_all P (Plain (Gcm k f m e)) n ps l c' ->
  encrypt_all P (Plain (Gcm k f m e)) n' ps l c'.
Proof.
  intros P. induction ps as [|p ps IH]; intros k f m e n l c' n' H; inversion H as [|? ? ? b c1 ? l' ? X1 X2]; subst; [constructor|].
  assert (exists m', c1 = Plain (Gcm k f m' e)) as [m' ->].
  { cbn [Encrypt base_Encrypt] in X1. destruct (negb _); [discriminate|]. destruct (negb e); [discriminate|].
    destruct (negb _); [discriminate|]. eexists. injection X1 as <- _. reflexivity. }
  econstructor; [exact X1|]. eapply IH. exact X2.
Qed.
