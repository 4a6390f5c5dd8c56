(** Multi-precision integers. *)

From Coq Require Import NArith List Bool Lia.
From Verif.Base Require Import Bytes.
From Verif.Model Require Import Wire Bignum.
From Verif.Spec Require Import WireSpec.
From Verif.Proofs Require Import WireFacts.
Import ListNotations.
Open Scope N_scope.

(** *** be_value *)

Lemma be_value_acc : forall l acc,
  fold_left (fun a b => a * 256 + b) l acc = acc * 256 ^ len l + be_value l.
Proof.
  unfold be_value. induction l as [|x l IH]; intro acc.
  - cbn. lia.
  - simpl fold_left. rewrite IH. rewrite (IH x). rewrite len_cons.
    rewrite N.pow_add_r. change (256 ^ 1) with 256. lia.
Qed.

Lemma be_value_cons : forall x l, be_value (x :: l) = x * 256 ^ len l + be_value l.
Proof. intros. unfold be_value at 1. simpl fold_left. apply be_value_acc. Qed.

Lemma be_value_app : forall a b, be_value (a ++ b) = be_value a * 256 ^ len b + be_value b.
Proof. intros. unfold be_value at 1. rewrite fold_left_app. apply be_value_acc. Qed.

Lemma be_value_lt : forall l, bytes_ok l -> be_value l < 256 ^ len l.
Proof.
  induction l as [|x l IH]; intro H.
  - reflexivity.
  - inversion H; subst. rewrite be_value_cons, len_cons, N.pow_add_r.
    change (256 ^ 1) with 256. specialize (IH H3). nia.
Qed.

Lemma pow256_pos : forall n, 0 < 256 ^ n.
Proof. intro n. apply N.neq_0_lt_0. now apply N.pow_nonzero. Qed.

(** *** stripping zeroes *)

Lemma Skip_split : forall m, exists z, m = repeat 0 z ++ SkipLeadingZeroes m /\
  CountLeadingZeroes m = N.of_nat z.
Proof.
  induction m as [|x m [z [H1 H2]]].
  - exists O. split; reflexivity.
  - cbn [SkipLeadingZeroes CountLeadingZeroes]. destruct (x =? 0) eqn:E.
    + apply N.eqb_eq in E. subst x. exists (S z). cbn [repeat app]. rewrite <- H1. split; [reflexivity|].
      rewrite H2. lia.
    + exists O. split; reflexivity.
Qed.

Lemma Skip_head : forall m, match SkipLeadingZeroes m with [] => True | x :: _ => x <> 0 end.
Proof.
  induction m as [|x m IH]; simpl; [exact I|].
  destruct (x =? 0) eqn:E; [assumption|]. now apply N.eqb_neq in E.
Qed.

Lemma Skip_ok : forall m, bytes_ok m -> bytes_ok (SkipLeadingZeroes m).
Proof.
  induction m as [|x m IH]; simpl; intro H; [constructor|].
  inversion H; subst. destruct (x =? 0); auto.
Qed.

Lemma be_value_repeat0 : forall z l, be_value (repeat 0 z ++ l) = be_value l.
Proof.
  induction z as [|z IH]; intro l; [reflexivity|].
  simpl. rewrite be_value_cons, IH. lia.
Qed.

Lemma Skip_value : forall m, be_value (SkipLeadingZeroes m) = be_value m.
Proof.
  intro m. destruct (Skip_split m) as (z & H & _).
  rewrite H at 2. now rewrite be_value_repeat0.
Qed.

Lemma Count_drop : forall m, drop (CountLeadingZeroes m) m = SkipLeadingZeroes m.
Proof.
  intro m. destruct (Skip_split m) as (z & H & Hc). rewrite Hc.
  rewrite H at 1. replace (N.of_nat z) with (len (repeat 0 z)).
  - apply drop_len.
  - unfold len. now rewrite repeat_length.
Qed.

Lemma Count_len : forall m, len m - CountLeadingZeroes m = len (SkipLeadingZeroes m).
Proof.
  intro m. destruct (Skip_split m) as (z & H & Hc). rewrite Hc.
  rewrite H at 1. rewrite len_app. unfold len at 1. rewrite repeat_length. lia.
Qed.

Lemma LeadingMsb_spec : forall x l, x < 256 -> LeadingMsb (x :: l) = (128 <=? x).
Proof.
  intros x l H. simpl.
  assert (A : forall n, n < 256 -> negb (N.land n 128 =? 0) = (128 <=? n)).
  { intros n Hn.
    assert (F : forallb (fun k => Bool.eqb (negb (N.land k 128 =? 0)) (128 <=? k))
                  (map N.of_nat (seq 0 256)) = true) by (vm_compute; reflexivity).
    rewrite forallb_forall in F. apply Bool.eqb_prop. apply F.
    apply in_map_iff. exists (N.to_nat n). split; [apply Nnat.N2Nat.id|].
    apply in_seq. lia. }
  now apply A.
Qed.

(** *** the two writers *)

(** what both of them append *)
Definition mpint (m : bytes) : bytes :=
  let m' := SkipLeadingZeroes m in
  if LeadingMsb m' then 0 :: m' else m'.

Lemma WriteBignum2_spec : forall s m, len s <= BUFFER_SIZE ->
  WriteBignum2 s m = if len s + len (mpint m) <=? BUFFER_SIZE then Some (s ++ mpint m) else None.
Proof.
  intros s m Hs. unfold WriteBignum2, mpint.
  set (m' := SkipLeadingZeroes m).
  destruct (LeadingMsb m') eqn:E.
  - unfold WriteU8. change (0 mod 256) with 0.
    rewrite len_cons.
    destruct (len s + (1 + len m') <=? BUFFER_SIZE) eqn:L; rewrite ?N.leb_le, ?N.leb_gt in L.
    + rewrite WriteN_Some by (change (len [0]) with 1; lia). cbn [obind].
      rewrite WriteN_Some by (rewrite len_app; change (len [0]) with 1; lia).
      now rewrite <- app_assoc.
    + destruct (N.le_gt_cases (len s + 1) BUFFER_SIZE).
      * rewrite WriteN_Some by (change (len [0]) with 1; lia). cbn [obind].
        apply WriteN_None; rewrite len_app; change (len [0]) with 1; lia.
      * rewrite WriteN_None; [reflexivity|assumption|change (len [0]) with 1; lia].
  - cbn [obind]. destruct (len s + len m' <=? BUFFER_SIZE) eqn:L; rewrite ?N.leb_le, ?N.leb_gt in L.
    + now apply WriteN_Some.
    + now apply WriteN_None.
Qed.

Lemma Last_app : forall a b, Last (a ++ b) (len b) = b.
Proof.
  intros. unfold Last. rewrite len_app. replace (len a + len b - len b) with (len a) by lia.
  apply drop_len.
Qed.

Lemma CommitBignum2_spec : forall s m, len s + len m <= BUFFER_SIZE ->
  CommitBignum2 (s ++ m) (len m) =
    if len s + len (mpint m) <=? BUFFER_SIZE then Some (s ++ mpint m) else None.
Proof.
  intros s m Hl. cbv beta iota zeta delta [CommitBignum2 StripTail]. rewrite Last_app.
  rewrite (len_app _ s m). replace (len s + len m - len m) with (len s) by lia.
  rewrite take_len, Count_drop, Count_len.
  set (m' := SkipLeadingZeroes m).
  assert (Hm' : len m' <= len m).
  { unfold m'. rewrite <- Count_len. lia. }
  rewrite len_app. replace (len s + len m' - len m') with (len s) by lia.
  rewrite drop_len. unfold mpint. fold m'.
  destruct m' as [|x r] eqn:Em.
  - cbn [LeadingMsb]. rewrite app_nil_r. rewrite len_nil. change (0 <? 0) with false. cbn [andb].
    replace (len s + 0 <=? BUFFER_SIZE) with true; [reflexivity|].
    symmetry. apply N.leb_le. lia.
  - replace (0 <? len (x :: r)) with true by (symmetry; apply N.ltb_lt; rewrite len_cons; lia).
    cbn [andb]. destruct (LeadingMsb (x :: r)).
    + unfold InsertNullByte. rewrite Last_app. rewrite len_app.
      rewrite (len_cons _ 0 (x :: r)).
      destruct (BUFFER_SIZE <=? len s + len (x :: r)) eqn:E1;
      destruct (len s + (1 + len (x :: r)) <=? BUFFER_SIZE) eqn:E2;
        rewrite ?N.leb_le, ?N.leb_gt in *; try lia; [reflexivity|].
      replace (len s + len (x :: r) - len (x :: r)) with (len s) by lia.
      now rewrite take_len.
    + replace (len s + len (x :: r) <=? BUFFER_SIZE) with true; [reflexivity|].
      symmetry. apply N.leb_le. lia.
Qed.

Lemma mpint_is_canonical : forall m, bytes_ok m ->
  mpint_canonical (mpint m) /\ be_value (mpint m) = be_value m.
Proof.
  intros m H. unfold mpint. pose proof (Skip_head m) as Hh.
  pose proof (Skip_ok m H) as Ho. pose proof (Skip_value m) as Hv.
  destruct (SkipLeadingZeroes m) as [|x r] eqn:E.
  - simpl. split; [split; [constructor|exact I]|assumption].
  - inversion Ho as [|? ? Hx Hr]; subst. rewrite LeadingMsb_spec by assumption.
    destruct (128 <=? x) eqn:L; rewrite ?N.leb_le, ?N.leb_gt in L.
    + split.
      * split; [constructor; [reflexivity|assumption]|]. split; [reflexivity|]. auto.
      * rewrite be_value_cons. rewrite Hv. lia.
    + split; [|assumption]. split; [assumption|].
      destruct r; [split; lia|]. split; [assumption|]. intro; contradiction.
Qed.

(** canonical encodings are unique *)
Lemma be_value_inj_len : forall a b, bytes_ok a -> bytes_ok b -> len a = len b ->
  be_value a = be_value b -> a = b.
Proof.
  induction a as [|x a IH]; intros b Ha Hb Hl Hv.
  - symmetry in Hl. apply len_0 in Hl. now subst.
  - destruct b as [|y b]; [rewrite len_cons, len_nil in Hl; lia|].
    rewrite !len_cons in Hl. assert (Hl' : len a = len b) by lia.
    inversion Ha; inversion Hb; subst.
    rewrite !be_value_cons, Hl' in Hv.
    pose proof (be_value_lt a H2) as La. pose proof (be_value_lt b H6) as Lb. rewrite Hl' in La.
    assert (x = y) by nia. subst y. f_equal. apply IH; auto. lia.
Qed.

Lemma canonical_lower : forall x l, mpint_canonical (x :: l) -> x <> 0 ->
  256 ^ len l <= be_value (x :: l).
Proof.
  intros x l _ Hx. rewrite be_value_cons. nia.
Qed.

(** value bounds of canonical encodings: the length is determined *)
Lemma canonical_bounds : forall l, mpint_canonical l -> l <> [] ->
  128 * 256 ^ (len l - 1) <= be_value l * 256 /\ be_value l < 128 * 256 ^ (len l - 1).
Proof.
  intros l [Hok Hc] Hne. destruct l as [|b [|c r]]; [contradiction| |].
  - rewrite be_value_cons. change (be_value []) with 0. rewrite len_cons, len_nil.
    change (1 + 0 - 1) with 0. change (256 ^ 0) with 1. lia.
  - destruct Hc as [H1 H2]. inversion Hok as [|? ? Hb Hok']; subst.
    inversion Hok' as [|? ? Hcb Hr]; subst.
    rewrite be_value_cons. rewrite (len_cons _ b). replace (1 + len (c :: r) - 1) with (len (c :: r)) by lia.
    pose proof (be_value_lt _ Hok') as Lc.
    split; [|nia].
    destruct (N.eq_dec b 0) as [->|Hb0].
    + specialize (H2 eq_refl). rewrite be_value_cons. rewrite len_cons, N.pow_add_r.
      change (256 ^ 1) with 256. nia.
    + nia.
Qed.

Lemma canonical_unique : forall a b, mpint_canonical a -> mpint_canonical b ->
  be_value a = be_value b -> a = b.
Proof.
  intros a b Ha Hb Hv.
  assert (Hz : forall l, mpint_canonical l -> l <> [] -> 0 < be_value l).
  { intros l Hl Hne. destruct (canonical_bounds l Hl Hne) as [L _].
    pose proof (pow256_pos (len l - 1)). lia. }
  destruct a as [|x a]; [destruct b as [|y b]; [reflexivity|]|].
  - specialize (Hz _ Hb ltac:(discriminate)). rewrite <- Hv in Hz. cbn in Hz. lia.
  - destruct b as [|y b].
    + specialize (Hz _ Ha ltac:(discriminate)). rewrite Hv in Hz. cbn in Hz. lia.
    + destruct (canonical_bounds _ Ha ltac:(discriminate)) as [A1 A2].
      destruct (canonical_bounds _ Hb ltac:(discriminate)) as [B1 B2].
      rewrite Hv in A1, A2.
      apply be_value_inj_len; try (apply Ha || apply Hb); [|assumption].
      assert (HL : forall p q, 128 * 256 ^ p <= be_value (y :: b) * 256 ->
                   be_value (y :: b) < 128 * 256 ^ q -> p <= q).
      { intros p q P Q. destruct (N.le_gt_cases p q) as [|G]; [assumption|].
        assert (256 ^ (q + 1) <= 256 ^ p) by (apply N.pow_le_mono_r; lia).
        rewrite N.pow_add_r in H. change (256 ^ 1) with 256 in H. nia. }
      pose proof (HL _ _ A1 B2). pose proof (HL _ _ B1 A2).
      rewrite !len_cons in *. lia.
Qed.

(** *** OpenSSL contracts *)

Lemma BN_bin2bn_value : forall l, BN_bin2bn l = be_value l.
Proof.
  intro l. unfold BN_bin2bn, be_value.
  assert (H : forall l acc, BN_bin2bn_acc acc l = fold_left (fun a b => a * 256 + b) l acc).
  { induction l0 as [|x l0 IH]; intro acc; simpl; [reflexivity|apply IH]. }
  apply H.
Qed.

Lemma bn2bin_aux_spec : forall fuel n, n < 2 ^ N.of_nat fuel ->
  bytes_ok (bn2bin_aux fuel n) /\ be_value (bn2bin_aux fuel n) = n /\
  match bn2bin_aux fuel n with [] => True | x :: _ => x <> 0 end.
Proof.
  induction fuel as [|fuel IH]; intros n Hn.
  - simpl in Hn. simpl. repeat split; [constructor|]. cbn. lia.
  - cbn [bn2bin_aux]. destruct (n =? 0) eqn:E.
    + apply N.eqb_eq in E. subst. repeat split. constructor.
    + apply N.eqb_neq in E.
      assert (Hd : n / 256 < 2 ^ N.of_nat fuel).
      { rewrite Nnat.Nat2N.inj_succ, N.pow_succ_r' in Hn.
        assert (n / 256 <= n / 2).
        { apply N.div_le_compat_l. lia. }
        assert (n / 2 < 2 ^ N.of_nat fuel) by (apply N.div_lt_upper_bound; lia). lia. }
      destruct (IH _ Hd) as (H1 & H2 & H3).
      split; [|split].
      * apply bytes_ok_app. split; [assumption|]. constructor; [|constructor].
        now apply N.mod_lt.
      * rewrite be_value_app, H2. change (be_value [n mod 256]) with (n mod 256).
        change (len [n mod 256]) with 1. change (256 ^ 1) with 256.
        pose proof (N.div_mod n 256 ltac:(discriminate)). lia.
      * destruct (bn2bin_aux fuel (n / 256)) as [|x r] eqn:Eb; [|assumption].
        cbn [app]. change (be_value []) with 0 in H2.
        pose proof (N.div_mod n 256 ltac:(discriminate)). rewrite <- H2 in H. lia.
Qed.

Lemma size_nat_gt : forall n, n < 2 ^ N.of_nat (N.size_nat n).
Proof.
  intro n. replace (N.of_nat (N.size_nat n)) with (N.size n).
  - apply N.size_gt.
  - destruct n as [|p]; [reflexivity|]. simpl.
    induction p; cbn [Pos.size Pos.size_nat]; try reflexivity;
      rewrite Nnat.Nat2N.inj_succ, <- IHp; reflexivity.
Qed.

Lemma BN_bn2bin_spec : forall n,
  bytes_ok (BN_bn2bin n) /\ be_value (BN_bn2bin n) = n /\
  match BN_bn2bin n with [] => True | x :: _ => x <> 0 end.
Proof. intro n. apply bn2bin_aux_spec. apply size_nat_gt. Qed.

(** The length of a number without leading zeroes; for any bound, so that the
    bound is never computed. *)
Lemma value_length : forall k l, match l with [] => True | x :: _ => x <> 0 end -> be_value l < 256 ^ k -> len l <= k.
Proof.
  intros k [|x r] H L; [rewrite len_nil; lia|]. rewrite be_value_cons in L. rewrite len_cons.
  destruct (N.le_gt_cases (1 + len r) k) as [|G]; [assumption|].
  assert (256 ^ k <= 256 ^ len r) by (apply N.pow_le_mono_r; lia). nia.
Qed.
Lemma length_value : forall k l, bytes_ok l -> len l <= k -> be_value l < 256 ^ k.
Proof. intros k l H L. pose proof (be_value_lt _ H). assert (256 ^ len l <= 256 ^ k) by (apply N.pow_le_mono_r; lia). lia. Qed.
