(** Facts about two connected endpoints. *)

From Coq Require Import NArith List Bool Lia.
From Verif.Base Require Import Bytes.
From Verif.Spec Require Import FrameSpec OutputSpec InputSpec CipherSpec EndToEndSpec.
From Verif.Proofs Require Import InputFacts.
Import ListNotations.
Open Scope N_scope.
Local Arguments take : simpl never.
Local Arguments drop : simpl never.
Local Arguments be32 : simpl never.

Section Facts.
Variables S R : Type.
Variable mirror : S -> R -> Prop.
Variable encrypt : S -> N -> bytes -> option (S * bytes).
Variable auth_size : R -> N.
Variable dec_header : R -> N -> bytes -> option (R * bytes).
Variable dec_payload : R -> N -> bytes -> option (R * bytes).
Notation decode := (InputSpec.decode R auth_size dec_header dec_payload).
Notation reads := (InputSpec.reads R auth_size dec_header dec_payload).
Notation reads_all := (InputSpec.reads_all R auth_size dec_header dec_payload).
Notation wire := (OutputSpec.wire S encrypt).

Lemma be32_at_be32 : forall n l, n < pow32 -> be32_at (be32 n ++ l) = n.
Proof. intros n l H. unfold be32. cbn [app be32_at]. apply un_be32_be32; exact H. Qed.

Lemma carries_facts : forall p m, carries p m ->
  exists n, 4 <= len p /\ len p = 4 + n /\ be32_at p = n /\ be32_at (take 4 p) = n /\ acceptable n = true /\
    len (drop 4 p) = n /\ unpad (drop 4 p) = Some m.
Proof.
  intros p m (pad & F & Hm & Hpad & Hl). unfold framed in F.
  assert (L : len p = 4 + (1 + len m + len pad)).
  { rewrite F, len_app, len_be32, !len_app. change (len [len pad]) with 1. lia. }
  assert (D4 : drop 4 p = [len pad] ++ m ++ pad) by (rewrite F; exact (drop_len _ (be32 _) _)).
  assert (T4 : take 4 p = be32 (1 + len m + len pad)) by (rewrite F; exact (take_len _ (be32 _) _)).
  assert (B : 1 + len m + len pad < pow32) by (unfold pow32; lia).
  exists (1 + len m + len pad). split; [lia|]. split; [exact L|].
  split; [rewrite F; apply be32_at_be32; exact B|].
  split; [rewrite T4, <- (app_nil_r (be32 _)); apply be32_at_be32; exact B|].
  split; [unfold acceptable; apply andb_true_iff; split; apply N.leb_le; lia|].
  split; [rewrite D4, !len_app; change (len [len pad]) with 1; lia|].
  rewrite D4. cbn [app unpad]. rewrite len_app.
  replace (len pad + 1 <=? len m + len pad) with true by (symmetry; apply N.leb_le; lia).
  f_equal. replace (len m + len pad - len pad) with (len m) by lia. apply take_len.
Qed.

Variable inv : inverse S R encrypt auth_size dec_header dec_payload mirror.

Definition ciphers_rel (c : option S) (d : option R) : Prop :=
  match c, d with None, None => True | Some c, Some d => mirror c d | _, _ => False end.

(** the receiver decodes a packet which was sent *)
Lemma decode_sent : forall c d seq p m more, ciphers_rel c d -> carries p m ->
  match c with
  | None => decode d seq (p ++ more) = Got R m None more
  | Some c => forall c' b, encrypt c seq p = Some (c', b) ->
      exists d', decode d seq (b ++ more) = Got R m (Some d') more /\ mirror c' d'
  end.
Proof.
  intros c d seq p m more Rel Hc. destruct (carries_facts p m Hc) as (n & H4 & L & B1 & B2 & A & D & U).
  unfold InputSpec.decode. destruct c as [c|], d as [d|]; try contradiction.
  - intros c' b E. destruct (inv _ _ _ _ _ _ Rel H4 E) as (Lb & d1 & d' & H1 & H2 & H3 & H5).
    exists d'. split; [|exact H5].
    replace (len (b ++ more) <? 4) with false by (symmetry; apply N.ltb_ge; rewrite len_app; lia).
    rewrite take_app_le by lia. rewrite H1, B2, A; cbn [negb]. rewrite H2.
    replace (4 + n + auth_size d) with (len b) by lia.
    replace (len (b ++ more) <? len b) with false by (symmetry; apply N.ltb_ge; rewrite len_app; lia).
    rewrite take_len, H3, U, drop_len. reflexivity.
  - replace (len (p ++ more) <? 4) with false by (symmetry; apply N.ltb_ge; rewrite len_app; lia).
    rewrite be32_at_app by exact H4. rewrite B1, A; cbn [negb].
    replace (4 + n) with (len p) by lia.
    replace (len (p ++ more) <? len p) with false by (symmetry; apply N.ltb_ge; rewrite len_app; lia).
    rewrite (drop_app_le _ 4) by exact H4.
    rewrite <- D at 1. rewrite take_len, U, drop_len. reflexivity.
Qed.

(** [r] is a receiver which still expects the items [sub]; [rest] are the
    bytes which have not yet arrived; [en]: nothing fails to be encrypted *)
Definition tracks (en : bool) (c : option S) (seq : N) (sub : list (submitted S)) (r : reader R) (rest : bytes) : Prop :=
  ciphers_rel c (r_cipher R r) /\ r_seq R r = seq /\ proper S (r_waiting R r) sub /\
  r_rest R r ++ rest = wire c seq sub /\ (en = true -> encryptable S encrypt c seq sub = true).

Lemma tracks_start : forall en sub stream rest,
  proper S false sub -> stream ++ rest = wire None 0 sub ->
  (en = true -> encryptable S encrypt None 0 sub = true) ->
  tracks en None 0 sub (start R stream) rest.
Proof.
  intros en sub stream rest H1 H2 H3. split; [exact I|]. split; [reflexivity|]. split; [exact H1|].
  split; [exact H2|exact H3].
Qed.

Lemma proper_false_cipher : forall c reset l, ~ proper S false (NewCipher c reset :: l).
Proof. intros c reset l [H _]; discriminate. Qed.

Lemma app_prefix_inj : forall (a b x y : bytes), a ++ x = b ++ y -> len b <= len a -> exists z, a = b ++ z /\ z ++ x = y.
Proof.
  intros a b x y H L. exists (drop (len b) a).
  assert (T : take (len b) a = b).
  { assert (X : take (len b) (a ++ x) = take (len b) (b ++ y)) by (rewrite H; reflexivity).
    rewrite take_app_le in X by exact L. rewrite take_len in X. exact X. }
  assert (E : a = b ++ drop (len b) a) by (rewrite <- T at 1; symmetry; apply take_drop).
  split; [exact E|]. rewrite E, <- app_assoc in H. apply app_inv_head in H. exact H.
Qed.

Lemma decode_rest_len : forall d seq s m d' rest, decode d seq s = Got R m d' rest -> len rest <= len s.
Proof.
  intros d seq s m d' rest H. unfold InputSpec.decode in H.
  destruct (len s <? 4); [discriminate|]. destruct d as [d|].
  - destruct (dec_header _ _ _) as [[d1 h]|]; [|discriminate].
    destruct (negb _); [discriminate|]. destruct (len s <? _); [discriminate|].
    destruct (dec_payload _ _ _) as [[d2 body]|]; [|discriminate].
    destruct (unpad body); [|discriminate].
    match type of H with Got _ _ _ ?x = _ => assert (rest = x) by congruence end. subst. rewrite len_drop. lia.
  - destruct (negb _); [discriminate|]. destruct (len s <? _); [discriminate|].
    destruct (unpad _); [|discriminate].
    match type of H with Got _ _ _ ?x = _ => assert (rest = x) by congruence end. subst. rewrite len_drop. lia.
Qed.

(** one event *)
Lemma tracks_step : forall en c seq sub r rest e r',
  tracks en c seq sub r rest -> reads r e r' ->
  (forall d reset, e = Cipher d reset ->
     exists c0, nth_error (sender_ciphers S sub) 0 = Some (c0, reset) /\ mirror c0 d) ->
  (exists p m sub' c', sub = Packet p :: sub' /\ e = Message seq m /\ carries p m /\
     tracks en c' ((seq + 1) mod 2 ^ 64) sub' r' rest) \/
  (exists c0 d reset sub', sub = NewCipher c0 reset :: sub' /\ e = Cipher d reset /\ mirror c0 d /\
     tracks en (Some c0) (if reset : bool then 0 else seq) sub' r' rest).
Proof.
  intros en c seq sub r rest e r' (Rel & Hs & Pr & W & En) H K.
  inversion H as [r0 m d' rest' Hw D|r0 d reset Hw]; subst.
  - rewrite Hw in Pr. left. destruct sub as [|[p|c0 reset] sub'].
    + exfalso. cbn [OutputSpec.wire] in W. destruct (r_rest R r) eqn:Er; [|discriminate].
      unfold InputSpec.decode in D. rewrite len_nil in D. discriminate.
    + cbn [proper] in Pr. destruct Pr as (_ & m' & Hc & Pr').
      pose proof (decode_more R auth_size dec_header dec_payload (r_cipher R r) (r_seq R r) (r_rest R r) rest) as DM.
      rewrite D in DM. rewrite W in DM. cbn [OutputSpec.wire] in DM, W. cbn [encryptable] in En. destruct c as [c|].
      * destruct (encrypt c (r_seq R r) p) as [[c' b]|] eqn:Ec.
        2:{ exfalso. unfold InputSpec.decode in DM. rewrite len_nil in DM. discriminate. }
        pose proof (decode_sent (Some c) (r_cipher R r) (r_seq R r) p m' (wire (Some c') ((r_seq R r + 1) mod 2 ^ 64) sub') Rel Hc) as DS.
        destruct (DS c' b Ec) as (d2 & DS1 & DS2). rewrite DS1 in DM.
        assert (m' = m) by congruence. subst m'. assert (Some d2 = d') by congruence. subst d'.
        assert (Er : wire (Some c') ((r_seq R r + 1) mod 2 ^ 64) sub' = rest' ++ rest) by congruence.
        exists p, m, sub', (Some c'). split; [reflexivity|]. split; [reflexivity|]. split; [exact Hc|].
        split; [exact DS2|]. split; [reflexivity|]. split; [exact Pr'|]. split; [symmetry; exact Er|exact En].
      * pose proof (decode_sent None (r_cipher R r) (r_seq R r) p m' (wire None ((r_seq R r + 1) mod 2 ^ 64) sub') Rel Hc) as DS.
        cbv iota beta in DS. rewrite DS in DM.
        assert (m' = m) by congruence. subst m'. assert (None = d') by congruence. subst d'.
        assert (Er : wire None ((r_seq R r + 1) mod 2 ^ 64) sub' = rest' ++ rest) by congruence.
        exists p, m, sub', None. split; [reflexivity|]. split; [reflexivity|]. split; [exact Hc|].
        split; [exact I|]. split; [reflexivity|]. split; [exact Pr'|]. split; [symmetry; exact Er|exact En].
    + exfalso. eapply proper_false_cipher; exact Pr.
  - rewrite Hw in Pr. destruct (K d reset eq_refl) as (c1 & K0 & K1). destruct sub as [|[p|c0 reset0] sub'].
    + discriminate.
    + exfalso. cbn [proper] in Pr. destruct Pr as [X _]; discriminate.
    + right. destruct Pr as [_ Pr]. cbn in K0.
      assert (c0 = c1) by congruence. assert (reset0 = reset) by congruence. subst c1 reset0. exists c0, d, reset, sub'. split; [reflexivity|]. split; [reflexivity|]. split; [exact K1|].
      split; [exact K1|]. split; [reflexivity|]. split; [exact Pr|]. split; [exact W|exact En].
Qed.

Lemma tracks_run : forall seen en c seq sub r rest r',
  tracks en c seq sub r rest -> reads_all r seen r' ->
  keys_match S R mirror sub seen ->
  exists sub1 sub2 c' seq', sub = sub1 ++ sub2 /\ same S R mirror seq sub1 seen /\ tracks en c' seq' sub2 r' rest.
Proof.
  induction seen as [|e seen IH]; intros en c seq sub r rest r' T H K.
  - apply reads_all_nil in H. subst r'. exists [], sub, c, seq. split; [reflexivity|]. split; [constructor|exact T].
  - apply reads_all_cons in H as (r1 & H1 & H2).
    destruct (tracks_step _ _ _ _ _ _ _ _ T H1) as [C|C].
    + intros d reset ->. apply (K 0%nat d reset). reflexivity.
    + destruct C as (p & m & sub' & c' & -> & -> & Hc & T').
      destruct (IH _ _ _ _ _ _ _ T' H2) as (s1 & s2 & c2 & q2 & -> & S1 & T2).
      { intros i d0 b Hj. exact (K i d0 b Hj). }
      exists (Packet p :: s1), s2, c2, q2. split; [reflexivity|]. split; [constructor; assumption|exact T2].
    + destruct C as (c0 & d & reset & sub' & -> & -> & M & T').
      destruct (IH _ _ _ _ _ _ _ T' H2) as (s1 & s2 & c2 & q2 & -> & S1 & T2).
      { intros i d1 b Hj. exact (K (Datatypes.S i) d1 b Hj). }
      exists (NewCipher c0 reset :: s1), s2, c2, q2. split; [reflexivity|]. split; [constructor; assumption|exact T2].
Qed.

(** the receiver never meets a bad packet *)
Lemma tracks_not_bad : forall en c seq sub r rest,
  tracks en c seq sub r rest -> r_waiting R r = false ->
  decode (r_cipher R r) (r_seq R r) (r_rest R r) <> Bad R.
Proof.
  intros en c seq sub r rest (Rel & Hs & Pr & W & En) Hw B. rewrite Hw in Pr.
  pose proof (decode_more R auth_size dec_header dec_payload (r_cipher R r) (r_seq R r) (r_rest R r) rest) as DM.
  rewrite B, W in DM. destruct sub as [|[p|c0 reset] sub'].
  - unfold InputSpec.decode in DM. cbn [OutputSpec.wire] in DM. rewrite len_nil in DM. discriminate.
  - cbn [proper] in Pr. destruct Pr as (_ & m & Hc & _). cbn [OutputSpec.wire] in DM. subst seq. destruct c as [c|].
    + destruct (encrypt c (r_seq R r) p) as [[c' b]|] eqn:Ec.
      2:{ unfold InputSpec.decode in DM. rewrite len_nil in DM. discriminate. }
      pose proof (decode_sent (Some c) (r_cipher R r) (r_seq R r) p m (wire (Some c') ((r_seq R r + 1) mod 2 ^ 64) sub') Rel Hc) as DS.
      destruct (DS c' b Ec) as (d2 & DS1 & DS2). congruence.
    + pose proof (decode_sent None (r_cipher R r) (r_seq R r) p m (wire None ((r_seq R r + 1) mod 2 ^ 64) sub') Rel Hc) as DS.
      cbv iota beta in DS. congruence.
  - eapply proper_false_cipher; exact Pr.
Qed.

(** when everything has arrived and the receiver needs more, then there is
    nothing left *)
Lemma tracks_end : forall c seq sub r,
  tracks true c seq sub r [] -> r_waiting R r = false ->
  decode (r_cipher R r) (r_seq R r) (r_rest R r) = NeedMore R -> sub = [].
Proof.
  intros c seq sub r (Rel & Hs & Pr & E & En) Hw B. rewrite app_nil_r in E. specialize (En eq_refl). rewrite Hw in Pr. rewrite E in B.
  destruct sub as [|[p|c0 reset] sub']; [reflexivity| |exfalso; eapply proper_false_cipher; exact Pr].
  exfalso. cbn [proper] in Pr. destruct Pr as (_ & m & Hc & _). cbn [OutputSpec.wire encryptable] in B, En. subst seq. destruct c as [c|].
  - destruct (encrypt c (r_seq R r) p) as [[c' b]|] eqn:Ec; [|discriminate].
    pose proof (decode_sent (Some c) (r_cipher R r) (r_seq R r) p m (wire (Some c') ((r_seq R r + 1) mod 2 ^ 64) sub') Rel Hc) as DS.
    destruct (DS c' b Ec) as (d2 & DS1 & DS2). congruence.
  - pose proof (decode_sent None (r_cipher R r) (r_seq R r) p m (wire None ((r_seq R r + 1) mod 2 ^ 64) sub') Rel Hc) as DS.
    cbv iota beta in DS. congruence.
Qed.

End Facts.

From Verif.Model Require Import Ciphers.
From Verif.Proofs Require Import CipherFacts.

Lemma padded_alike : forall l c c', alike c c' -> sends c ->
  padded running run_block_size run_header_excluded sends (Some c) l ->
  padded running run_block_size run_header_excluded sends (Some c') l.
Proof.
  induction l as [|[p|c0 reset] l IH]; intros c c' A Hs H; cbn [padded] in *; auto.
  destruct H as [H1 H2]. split; [|eapply IH; eauto].
  destruct A as (A1 & A2 & A3). unfold padded_for in *. rewrite A1, A2. exact H1.
Qed.

Lemma padded_encryptable : forall P l c seq,
  match c with Some c => sends c | None => True end ->
  padded running run_block_size run_header_excluded sends c l ->
  encryptable running (out_encrypt P) c seq l = true.
Proof.
  intros P. induction l as [|[p|c0 reset] l IH]; intros c seq Hs H; cbn [padded encryptable] in *; auto.
  - destruct H as [H1 H2]. destruct c as [c|]; [|apply IH; auto].
    destruct (encrypt_ok P c seq p Hs (proj1 H1) (proj2 H1)) as (c' & b & E & A).
    unfold out_encrypt. rewrite E. cbn [returned]. apply IH; [apply A; exact Hs|].
    eapply padded_alike; eauto.
  - destruct H as [H1 H2]. apply IH; auto.
Qed.
