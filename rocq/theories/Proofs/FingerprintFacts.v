(** Proofs about fingerprints of keys (C92). *)

From Coq Require Import NArith PeanoNat List Bool Lia String.
From Verif.Base Require Import Bytes.
From Verif.Spec Require Import WireSpec KeyFormatSpec FingerprintSpec.
From Verif.Model Require Import Wire Bignum KeyOptions Keys Fingerprint.
From Verif.Proofs Require Import WireFacts BignumFacts KeyFormatFacts.
Import ListNotations.
Open Scope N_scope.

Local Arguments bs : simpl never.

(** ** The alphabet *)

Definition below (n : nat) : list N := map N.of_nat (seq 0 n).

Lemma in_below : forall n d, d < N.of_nat n -> In d (below n).
Proof.
  intros n d L. unfold below. apply in_map_iff. exists (N.to_nat d). split; [apply N2Nat.id|]. apply in_seq. lia.
Qed.

Lemma symbol_char : forall d, d < 64 -> base64_char d = symbol d.
Proof.
  intros d L. apply N.eqb_eq. apply (in_below 64) in L. revert d L. apply forallb_forall. vm_compute. reflexivity.
Qed.

Lemma symbol_inj : forall a b, a < 64 -> b < 64 -> symbol a = symbol b -> a = b.
Proof.
  assert (C : forallb (fun a => forallb (fun b => negb (symbol a =? symbol b) || (a =? b)) (below 64)) (below 64) = true)
    by (vm_compute; reflexivity).
  intros a b LA LB E. rewrite forallb_forall in C. specialize (C a (in_below 64 a LA)). rewrite forallb_forall in C.
  specialize (C b (in_below 64 b LB)). rewrite E, N.eqb_refl in C. cbn [negb orb] in C. now apply N.eqb_eq.
Qed.

Lemma symbol_fill : forall a, a < 64 -> symbol a <> 61.
Proof.
  intros a L E. apply (in_below 64) in L.
  assert (C : forallb (fun a => negb (symbol a =? 61)) (below 64) = true) by (vm_compute; reflexivity).
  rewrite forallb_forall in C. specialize (C a L). rewrite E in C. discriminate.
Qed.

Lemma symbol_plain : forall a, a < 64 -> 43 <= symbol a < 123.
Proof.
  intros a L. apply (in_below 64) in L.
  assert (C : forallb (fun a => (43 <=? symbol a) && (symbol a <? 123)) (below 64) = true) by (vm_compute; reflexivity).
  rewrite forallb_forall in C. specialize (C a L). apply andb_true_iff in C as [A B]. apply N.leb_le in A. apply N.ltb_lt in B. auto.
Qed.

(** ** The digits *)

Lemma value64_acc : forall l acc, fold_left (fun a d => a * 64 + d) l acc = acc * 64 ^ len l + value64 l.
Proof.
  unfold value64. induction l as [|x l IH]; intro acc; [cbn; lia|]. cbn [fold_left]. rewrite IH, (IH (0 * 64 + x)), len_cons, N.pow_add_r.
  change (64 ^ 1) with 64. lia.
Qed.
Lemma value64_cons : forall x l, value64 (x :: l) = x * 64 ^ len l + value64 l.
Proof. intros. unfold value64 at 1. cbn [fold_left]. rewrite value64_acc. lia. Qed.

Fixpoint digits64 (src : bytes) : list N :=
  match src with
  | a :: b :: c :: rest => a / 4 :: a mod 4 * 16 + b / 16 :: b mod 16 * 4 + c / 64 :: c mod 64 :: digits64 rest
  | [a; b] => [a / 4; a mod 4 * 16 + b / 16; b mod 16 * 4]
  | [a] => [a / 4; a mod 4 * 16]
  | [] => []
  end.

Lemma three : forall (P : bytes -> Prop), P [] -> (forall a, P [a]) -> (forall a b, P [a; b]) ->
  (forall a b c r, P r -> P (a :: b :: c :: r)) -> forall l, P l.
Proof.
  intros P H0 H1 H2 H3. fix F 1. intros [|a [|b [|c r]]]; [exact H0|apply H1|apply H2|]. apply H3. apply F.
Qed.

Lemma div_small : forall a n k, a < n * k -> k <> 0 -> a / k < n.
Proof. intros a n k L K. apply N.div_lt_upper_bound; lia. Qed.

Ltac bnd x k := pose proof (N.mod_lt x k ltac:(discriminate)); pose proof (N.div_mod x k ltac:(discriminate));
  pose proof (N.le_0_l (x mod k)); pose proof (N.le_0_l (x / k)).

Lemma digits64_lt : forall l, bytes_ok l -> Forall (fun d => d < 64) (digits64 l).
Proof.
  apply (three (fun l => bytes_ok l -> Forall (fun d => d < 64) (digits64 l))).
  - constructor.
  - intros a F. inversion_clear F as [|? ? A _]. bnd a 4. cbn [digits64]. do 2 (constructor; [cbv beta; lia|]). constructor.
  - intros a b F. inversion_clear F as [|? ? A F']. inversion_clear F' as [|? ? B _]. bnd a 4. bnd b 16. cbn [digits64]. do 3 (constructor; [cbv beta; lia|]). constructor.
  - intros a b c r IH F. inversion_clear F as [|? ? A F']. inversion_clear F' as [|? ? B F]. inversion_clear F as [|? ? C F'].
    bnd a 4. bnd b 16. bnd c 64. cbn [digits64]. do 3 (constructor; [cbv beta; lia|]). constructor; [cbv beta; lia|]. now apply IH.
Qed.

Lemma digits64_len : forall l, 8 * len l <= 6 * len (digits64 l) < 8 * len l + 6.
Proof.
  apply three; intros; cbn [digits64]; rewrite ?len_cons, ?len_nil; lia.
Qed.

Lemma digits64_value : forall l, value64 (digits64 l) = be_value l * 2 ^ (6 * len (digits64 l) - 8 * len l).
Proof.
  apply three.
  - reflexivity.
  - intro a. cbn [digits64]. rewrite !value64_cons, be_value_cons, !len_cons, !len_nil. cbn [value64 be_value fold_left].
    change (2 ^ (6 * (1 + (1 + 0)) - 8 * (1 + 0))) with 16. change (64 ^ (1 + 0)) with 64. change (64 ^ 0) with 1. change (256 ^ 0) with 1.
    bnd a 4. lia.
  - intros a b. cbn [digits64]. rewrite !value64_cons, !be_value_cons, !len_cons, !len_nil. cbn [value64 be_value fold_left].
    change (2 ^ (6 * (1 + (1 + (1 + 0))) - 8 * (1 + (1 + 0)))) with 4. change (64 ^ (1 + (1 + 0))) with 4096. change (64 ^ (1 + 0)) with 64.
    change (64 ^ 0) with 1. change (256 ^ (1 + 0)) with 256. change (256 ^ 0) with 1. bnd a 4. bnd b 16. lia.
  - intros a b c r IH. cbn [digits64]. rewrite !value64_cons, !be_value_cons, IH. pose proof (digits64_len r) as [L1 L2].
    rewrite !len_cons. set (n := len (digits64 r)) in *. set (m := len r) in *. set (s := 6 * n - 8 * m).
    replace (6 * (1 + (1 + (1 + (1 + n)))) - 8 * (1 + (1 + (1 + m)))) with s by lia.
    assert (P : 64 ^ n = 256 ^ m * 2 ^ s).
    { change 64 with (2 ^ 6). change 256 with (2 ^ 8). rewrite <- !N.pow_mul_r, <- N.pow_add_r. f_equal. lia. }
    rewrite !N.pow_add_r. change (64 ^ 1) with 64. change (256 ^ 1) with 256. rewrite P.
    bnd a 4. bnd b 16. bnd c 64. set (p := 256 ^ m) in *. set (q := 2 ^ s) in *. set (v := be_value r).
    assert (E : a / 4 * (64 * (64 * (64 * (p * q)))) + ((a mod 4 * 16 + b / 16) * (64 * (64 * (p * q))) + ((b mod 16 * 4 + c / 64) * (64 * (p * q)) + (c mod 64 * (p * q) + v * q)))
      = (a / 4 * 262144 + (a mod 4 * 16 + b / 16) * 4096 + (b mod 16 * 4 + c / 64) * 64 + c mod 64) * (p * q) + v * q) by ring.
    rewrite E. replace (a / 4 * 262144 + (a mod 4 * 16 + b / 16) * 4096 + (b mod 16 * 4 + c / 64) * 64 + c mod 64)
      with (a * 65536 + b * 256 + c) by lia. ring.
Qed.

Lemma base64_digits : forall padded l, bytes_ok l -> exists fill,
  base64 padded l = map symbol (digits64 l) ++ repeat 61 fill /\
  if padded then (len (base64 padded l) mod 4 = 0 /\ (fill < 4)%nat) else fill = O.
Proof.
  intros padded l OK. pose proof (digits64_lt l OK) as D. revert OK D.
  apply (three (fun l => bytes_ok l -> Forall (fun d => d < 64) (digits64 l) -> exists fill,
    base64 padded l = map symbol (digits64 l) ++ repeat 61 fill /\
    if padded then (len (base64 padded l) mod 4 = 0 /\ (fill < 4)%nat) else fill = O)).
  - intros _ _. exists 0%nat. split; [reflexivity|]. destruct padded; [split; [reflexivity|lia]|reflexivity].
  - intros a _ D. cbn [digits64] in D. inversion_clear D as [|? ? D1 D']. inversion_clear D' as [|? ? D2 _].
    exists (if padded then 2%nat else 0%nat). cbn [base64 digits64 map]. rewrite !symbol_char by assumption.
    destruct padded; (split; [reflexivity|]); [split; [reflexivity|lia]|reflexivity].
  - intros a b _ D. cbn [digits64] in D. inversion_clear D as [|? ? D1 D']. inversion_clear D' as [|? ? D2 D]. inversion_clear D as [|? ? D3 _].
    exists (if padded then 1%nat else 0%nat). cbn [base64 digits64 map]. rewrite !symbol_char by assumption.
    destruct padded; (split; [reflexivity|]); [split; [reflexivity|lia]|reflexivity].
  - intros a b c r IH OK D. cbn [digits64] in D. inversion_clear D as [|? ? D1 D']. inversion_clear D' as [|? ? D2 D]. inversion_clear D as [|? ? D3 D'].
    inversion_clear D' as [|? ? D4 D]. inversion_clear OK as [|? ? _ F]. inversion_clear F as [|? ? _ F']. inversion_clear F' as [|? ? _ F].
    destruct (IH F D) as (fill & E & X). exists fill. cbn [base64 digits64 map]. rewrite !symbol_char by assumption. rewrite E at 1.
    split; [reflexivity|]. destruct padded; [|exact X]. destruct X as [X1 X2]. split; [|exact X2]. rewrite !len_cons.
    replace (1 + (1 + (1 + (1 + len (base64 true r))))) with (len (base64 true r) + 1 * 4) by lia. rewrite N.mod_add by discriminate. exact X1.
Qed.

Lemma base64_ok : forall padded l, bytes_ok l -> base64_text padded l (base64 padded l).
Proof.
  intros padded l OK. destruct (base64_digits padded l OK) as (fill & E & X). exists (digits64 l), fill.
  repeat split; try apply digits64_len; [now apply digits64_lt|apply digits64_value|exact E|exact X].
Qed.

(** ** Reading *)

Lemma fill_cut : forall a b n m, Forall (fun d => d < 64) a -> Forall (fun d => d < 64) b ->
  map symbol a ++ repeat 61 n = map symbol b ++ repeat 61 m -> a = b.
Proof.
  induction a as [|x a IH]; intros [|y b] n m FA FB E; cbn [map app] in E.
  - reflexivity.
  - exfalso. inversion_clear FB as [|? ? Y _]. destruct n; [discriminate|]. cbn [repeat] in E. injection E as E _. exact (symbol_fill y Y (eq_sym E)).
  - exfalso. inversion_clear FA as [|? ? X _]. destruct m; [discriminate|]. cbn [repeat] in E. injection E as E _. exact (symbol_fill x X E).
  - inversion_clear FA as [|? ? X FA']. inversion_clear FB as [|? ? Y FB']. injection E as E1 E2.
    f_equal; [now apply symbol_inj|]. exact (IH b n m FA' FB' E2).
Qed.

Lemma base64_unique : forall p q a b t, bytes_ok a -> bytes_ok b -> base64_text p a t -> base64_text q b t -> a = b.
Proof.
  intros p q a b t OA OB (da & fa & DA & LA & VA & TA & _) (db & fb & DB & LB & VB & TB & _).
  assert (da = db) by (rewrite TA in TB; exact (fill_cut _ _ _ _ DA DB TB)). subst db.
  assert (L : len a = len b) by lia. apply be_value_inj_len; try assumption.
  rewrite <- L, VA in VB. apply N.mul_cancel_r in VB; [exact VB|]. apply N.pow_nonzero. discriminate.
Qed.

Lemma base64_len : forall p a t, base64_text p a t -> len a = 32 -> 43 <= len t <= 46.
Proof.
  intros p a t (d & f & D & L & V & T & X) E. rewrite E in L. assert (LD : len d = 43) by lia.
  assert (LT : len t = 43 + N.of_nat f).
  { rewrite T, len_app. unfold len in *. rewrite map_length, repeat_length, LD. reflexivity. }
  destruct p; [destruct X as [_ X]; lia|subst f; lia].
Qed.

(** ** Blobs *)

Lemma public_blob_inj : forall k k' b, public_ok k -> public_ok k' -> public_blob k b -> public_blob k' b -> k = k'.
Proof.
  assert (SI : forall a b x y, len a < pow32 -> len b < pow32 -> string_enc a ++ x = string_enc b ++ y -> a = b /\ x = y).
  { intros a b x y Ha Hb H. pose proof (ReadString_enc a x Ha) as A. rewrite H, (ReadString_enc b y Hb) in A. split; congruence. }
  assert (MP : forall n e, is_mpint n e -> number_ok n -> len e < pow32).
  { intros n e M O. destruct (mpint_number n e M O) as [_ L]. eapply N.le_lt_trans; [exact L|reflexivity]. }
  assert (L1 : len (bs "ssh-ed25519") < pow32) by reflexivity. assert (L2 : len (bs "ssh-rsa") < pow32) by reflexivity.
  assert (L3 : len (bs "ecdsa-sha2-nistp256") < pow32) by reflexivity. assert (L4 : len (bs "nistp256") < pow32) by reflexivity.
  intros [p|e n|q] [p'|e' n'|q'] b OK OK'; cbn [public_blob public_ok] in *.
  - intros -> E. rewrite !enc2 in E. apply SI in E as [_ E]; [|assumption|assumption].
    rewrite <- (app_nil_r (string_enc p)), <- (app_nil_r (string_enc p')) in E. apply SI in E as [-> _]; [reflexivity| |]; [rewrite OK|rewrite OK']; reflexivity.
  - intros -> (x & y & _ & _ & E). rewrite enc2, enc3 in E. apply SI in E as [E _]; [discriminate E|assumption|assumption].
  - intros -> E. rewrite enc2, enc3 in E. apply SI in E as [E _]; [discriminate E|assumption|assumption].
  - intros (x & y & _ & _ & ->) E. rewrite enc2, enc3 in E. apply SI in E as [E _]; [discriminate E|assumption|assumption].
  - intros (x & y & X & Y & ->) (x' & y' & X' & Y' & E). destruct OK as [O1 O2]. destruct OK' as [O1' O2'].
    rewrite !enc3 in E. apply SI in E as [_ E]; [|assumption|assumption]. apply SI in E as [E1 E]; [|eapply MP; eassumption|eapply MP; eassumption].
    rewrite <- (app_nil_r (string_enc y)), <- (app_nil_r (string_enc y')) in E. apply SI in E as [E2 _]; [|eapply MP; eassumption|eapply MP; eassumption].
    subst x' y'. destruct X as [_ <-]. destruct X' as [_ <-]. destruct Y as [_ <-]. destruct Y' as [_ <-]. reflexivity.
  - intros (x & y & _ & _ & ->) E. rewrite !enc3 in E. apply SI in E as [E _]; [discriminate E|assumption|assumption].
  - intros -> E. rewrite enc2, enc3 in E. apply SI in E as [E _]; [discriminate E|assumption|assumption].
  - intros -> (x & y & _ & _ & E). rewrite !enc3 in E. apply SI in E as [E _]; [discriminate E|assumption|assumption].
  - intros -> E. rewrite !enc3 in E. apply SI in E as [_ E]; [|assumption|assumption]. apply SI in E as [_ E]; [|assumption|assumption].
    rewrite <- (app_nil_r (string_enc q)), <- (app_nil_r (string_enc q')) in E. apply SI in E as [-> _]; [reflexivity| |];
      eapply N.le_lt_trans; [exact OK|reflexivity|exact OK'|reflexivity].
Qed.

Lemma number_of : forall e n, DeserializeBIGNUM e = Some n -> bytes_ok e -> number_ok n.
Proof.
  intros e n. unfold DeserializeBIGNUM. destruct (IsNegative e); [discriminate|]. cbv zeta. destruct (_ <? _) eqn:L; [discriminate|].
  apply N.ltb_ge in L. intros H OK. injection H as <-. rewrite BN_bin2bn_value. unfold number_ok.
  apply length_value; [now apply Skip_ok|exact L].
Qed.

Lemma parsed_ok : forall c blob k, small_points c -> bytes_ok blob -> ParsePublicKeyBlob c blob = Some k -> public_ok k.
Proof.
  intros c blob k SP OK H. unfold ParsePublicKeyBlob in H.
  destruct (ReadString blob) as [[alg d]|] eqn:R; [|discriminate]. cbn [obind] in H.
  assert (D : bytes_ok d) by (destruct (ReadString_inv _ _ _ OK R) as (_ & _ & D & _); exact D).
  destruct (bytes_eqb alg SSH_ED25519).
  - destruct (ReadLengthEncoded d) as [[p d']|]; [|discriminate]. cbn [obind] in H. destruct (len p =? 32) eqn:L; [|discriminate].
    cbn [negb] in H. injection H as <-. now apply N.eqb_eq.
  - destruct (c_openssl c && bytes_eqb alg SSH_RSA).
    + destruct (ReadLengthEncoded d) as [[e d']|] eqn:R1; [|discriminate]. cbn [obind] in H.
      destruct (ReadLengthEncoded d') as [[n d'']|] eqn:R2; [|discriminate]. cbn [obind] in H.
      destruct (DeserializeBIGNUM e) as [e'|] eqn:B1; [|discriminate]. cbn [obind] in H.
      destruct (DeserializeBIGNUM n) as [n'|] eqn:B2; [|discriminate]. cbn [obind] in H.
      destruct (c_rsa_public_ok c e' n'); [|discriminate]. injection H as <-.
      destruct (ReadString_inv d e d' D R1) as (_ & _ & D' & DE). destruct (ReadString_inv d' n d'' D' R2) as (_ & _ & _ & DN).
      split; eapply number_of; eassumption.
    + destruct (c_openssl c && bytes_eqb alg ECDSA_P256); [|discriminate].
      destruct (ReadString d) as [[cu d']|]; [|discriminate]. cbn [obind] in H. destruct (negb _); [discriminate|].
      destruct (ReadLengthEncoded d') as [[q d'']|]; [|discriminate]. cbn [obind] in H.
      destruct (c_ec_public c q) as [q'|] eqn:Q; [|discriminate]. cbn [obind] in H. injection H as <-. exact (SP q q' Q).
Qed.

(** ** Fingerprints *)

Lemma fingerprint_ok : forall c padded k, hash32 (c_digest c SHA256) -> public_ok k ->
  fingerprint (c_digest c SHA256) padded k (GetFingerprint c padded k).
Proof.
  intros c padded k H OK. destruct (SerializePublic_some [] k) as (blob & E & B & _); [rewrite len_nil; unfold BUFFER_SIZE; lia|exact OK|].
  unfold GetFingerprint. rewrite E. cbn [app]. exists blob, (base64 padded (c_digest c SHA256 blob)). split; [exact B|]. split; [|reflexivity].
  apply base64_ok. apply H.
Qed.

Lemma fingerprint_same : forall hash p q k k' t, hash32 hash -> public_ok k -> public_ok k' ->
  fingerprint hash p k t -> fingerprint hash q k' t -> k = k' \/ colliding hash.
Proof.
  intros hash p q k k' t H OK OK' (b & u & B & T & ->) (b' & u' & B' & T' & E). apply app_inv_head in E. subst u'.
  assert (X : hash b = hash b') by (eapply base64_unique; [apply H|apply H|exact T|exact T']).
  destruct (list_eq_dec N.eq_dec b b') as [<-|NE]; [left; eapply public_blob_inj; eassumption|right; exists b, b'; auto].
Qed.

Lemma fingerprint_text : forall hash p k t, hash32 hash -> fingerprint hash p k t -> 50 <= len t <= 53 /\ Forall (fun c => 43 <= c < 123) t.
Proof.
  intros hash p k t H (b & u & _ & T & ->). pose proof (base64_len _ _ _ T (proj1 (H b))) as L.
  rewrite len_app. change (len (bs "SHA256:")) with 7. split; [lia|]. apply Forall_app. split.
  - change (bs "SHA256:") with [83; 72; 65; 50; 53; 54; 58]. repeat constructor; vm_compute; congruence.
  - destruct T as (d & f & D & _ & _ & -> & _). apply Forall_app. split.
    + apply Forall_forall. intros c I. apply in_map_iff in I as (x & <- & I). rewrite Forall_forall in D. apply symbol_plain. now apply D.
    + apply Forall_forall. intros c I. apply repeat_spec in I. subst c. split; [|reflexivity]. discriminate.
Qed.

(** ** The lines of the log *)

From Verif.Spec Require Import AuthSpec AuditSpec.
From Verif.Model Require Import Packets Auth Session Server AuditLog.
From Verif.Proofs Require Import PacketFacts AuthFacts ServerFacts AuditFacts.

Lemma told_supported : forall cfg x sid peer dom ops d l user, Forall gop_ok ops ->
  In (d, l) (au_lines (grun cfg x sid peer dom ops)) -> accepted_user l = [user] ->
  exists w payload, bytes_ok payload /\ valid_name user /\ supports cfg sid w payload l.
Proof.
  intros cfg x sid peer dom ops d l user F I A. induction ops as [|op ops IH] using rev_ind; [destruct I|].
  apply Forall_app in F as [F FO]. rewrite grun_snoc in I. specialize (IH F). set (s := grun cfg x sid peer dom ops) in *.
  pose proof (ok_good _ _ _ (grun_ok cfg x sid peer dom ops F)) as G. fold s in G.
  destruct (gstep_tells cfg x sid op s) as [[tail [S [NT _]]]].
  assert (EX : exists added, au_lines (gstep cfg x sid op s) = au_lines s ++ added /\ map snd added = step_lines cfg sid op s ++ tail).
  { change (au_lines (gstep cfg x sid op s)) with (snd (seen (gstep cfg x sid op s))). rewrite S.
    destruct (seen s) as [dd ll] eqn:SE. assert (ll = au_lines s) by (change (au_lines s) with (snd (seen s)); now rewrite SE). subst ll.
    rewrite talk_snd. eexists. split; [reflexivity|]. rewrite talk_lines. reflexivity. }
  destruct EX as (added & E & M). rewrite E in I. apply in_app_or in I as [I|I]; [exact (IH I)|].
  assert (IL : In l (step_lines cfg sid op s ++ tail)) by (rewrite <- M; change l with (snd (d, l)); now apply in_map).
  assert (IS : In l (step_lines cfg sid op s)).
  { apply in_app_or in IL as [IL|IL]; [exact IL|]. exfalso. rewrite Forall_forall in NT. specialize (NT l IL). destruct l; cbn in *; discriminate. }
  unfold step_lines in IS. destruct (au_gone s); [destruct IS|]. destruct op as [op fault| | |]; try destruct IS.
  destruct (checking_dec op (au_server s)) as [(w & payload & -> & AL & B)|N].
  - destruct (checking_facts cfg (au_server s) payload G AL B) as [OK _]. unfold op_lines in IS. rewrite AL, B in IS.
    destruct G as [_ LV]. specialize (LV AL). destruct LV as [LB LBE _]. rewrite B in LB. destruct LB as [_ AU]. destruct (LBE AU) as (BL & _).
    exists w, payload. split; [exact OK|].
    pose proof (request_lines cfg w sid payload (sv_account (au_server s)) OK) as AG. unfold agree in AG.
    destruct (OnUserAuthRequest cfg w sid payload (sv_account (au_server s))) as [b out] eqn:OU. cbn [fst snd] in AG. destruct out as [m|alg blob| |p].
    1-3: exfalso; destruct AG as [Q _]; rewrite Forall_forall in Q; destruct (Q l IS) as [Z _]; rewrite Z in A; discriminate.
    destruct AG as (pre & l' & EQ & Q & AC & _ & SP). rewrite EQ in IS. apply in_app_or in IS as [IS|[<-|[]]].
    { exfalso. rewrite Forall_forall in Q. destruct (Q l IS) as [Z _]. rewrite Z in A. discriminate. }
    split; [|exact SP]. destruct (accepted_proves _ _ _ _ _ _ _ BL OK OU) as (u & c & so & V & _ & LG).
    rewrite AC in A. injection A as <-. rewrite (lg_name _ _ _ _ _ _ _ _ LG). exact V.
  - exfalso. destruct (op_lines_other cfg sid op (au_server s) N) as [Q _]. rewrite Forall_forall in Q. destruct (Q l IS) as [Z _].
    rewrite Z in A. discriminate.
Qed.

(** ** The length of a line *)

Lemma escape_len : forall x c, len (escape x c) <= 4.
Proof.
  intros x c. unfold escape.
  repeat match goal with |- context [if ?b then _ else _] => destruct b end; vm_compute; discriminate.
Qed.

Lemma quote_len : forall x s, len (quote x s) <= 4 * len s + 2.
Proof.
  intros x s. unfold quote. rewrite len_cons, len_app. change (len [34]) with 1.
  enough (len (flat_map (escape x) s) <= 4 * len s) by lia.
  induction s as [|c s IH]; [vm_compute; discriminate|]. cbn [flat_map]. rewrite len_app, len_cons. pose proof (escape_len x c). lia.
Qed.
