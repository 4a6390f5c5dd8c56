(** * C101: somebody in between can only cut an encrypted connection short

    The sender (lukko or another implementation) frames the messages [ms] as
    packets [ps] and encrypts them with its cipher object [c], the first one
    with sequence number [n].  The receiver is class Input with its two
    threads, in any interleaving; it has received the bytes [stream], which
    somebody in between has composed at will, before and after the keys were
    taken into use, and its connection has seen [trace].  [d] is the object
    made from the same keys; the flag of [Cipher d _] says whether the sequence
    number was set to zero then, which is the case if both ends support strict
    key exchange (C18).  See Spec/CutSpec.v for [forged]. *)

From Coq Require Import NArith List Bool Lia.
From Verif.Base Require Import Bytes.
From Verif.Model Require Import Ciphers.
From Verif.Model Require Input.
From Verif.Spec Require Import FrameSpec CipherSpec InputSpec CutSpec.
From Verif.Proofs Require Import CipherFacts CutFacts.
From Verif.Proofs Require InputFacts.
From Verif.Props Require C05 C58 C59.
Import ListNotations.
Open Scope N_scope.

Notation receives P := (InputFacts.iruns running run_auth_size (in_header P) (in_payload P)).

(** The full statement: whether or not key exchange is strict, somebody who
    inserts clear text ([clear]) and removes encrypted packets ([kept] is what is
    left of [l]) cannot make the receiver see anything but the first messages of
    the sender, in order. *)
Inductive some_of {A} : list A -> list A -> Prop :=
| some_nil : some_of [] []
| some_keep : forall x a b, some_of a b -> some_of (x :: a) (x :: b)
| some_drop : forall x a b, some_of a b -> some_of a (x :: b).

Definition C101_full_statement : Prop :=
  forall P, tags_ok P -> forall c d, C59.pair_of_ciphers c d ->
  forall n ms ps l c', n < 2 ^ 64 -> len ps < 2 ^ 32 -> packets ms ps -> encrypt_all P c n ps l c' ->
  forall clear kept ops s trace, some_of kept l -> receives P ops s (clear ++ List.concat kept) trace ->
  forall before reset messages, trace = before ++ Cipher d reset :: messages -> Forall is_message before -> Forall is_message messages ->
  exists ms1 ms2 k, ms = ms1 ++ ms2 /\ messages = received_from k ms1.

(** The same for all streams: between one cipher and the next one, the
    receiver gets the first messages of the sender, in order; or a MAC was
    forged. *)
Definition C101_claim (P : crypto) (c d : running) (n : N) (ms ps : list bytes) (stream : bytes) (messages : list (revent running)) : Prop :=
  (exists ms1 ms2 k, ms = ms1 ++ ms2 /\ messages = received_from k ms1) \/ exists k, forged P c d k ps stream.

Lemma epoch : forall P, tags_ok P -> forall c d, made c -> run_mirror c d ->
  forall n ms ps l c', n < pow64 -> len ps < pow32 -> packets ms ps -> encrypt_all P c n ps l c' ->
  forall ops s stream trace, receives P ops s stream trace ->
  forall before reset messages later, trace = before ++ Cipher d reset :: messages ++ later -> Forall is_message messages ->
  (forall r, InputSpec.reads_all running run_auth_size (in_header P) (in_payload P) (start running stream) before r -> reset = true \/ r_seq running r = n) ->
  (reset = true -> n = 0) ->
  (exists ms1 ms2, ms = ms1 ++ ms2 /\ messages = received_from n ms1) \/ forged P c d n ps stream.
Proof.
  intros P T c d M Mi n ms ps l c' Hn Hl Hp E ops s stream trace H before reset messages later Et Hm Sq Z.
  apply InputFacts.inv_runs in H; [|exact (payload_size P)]. destruct H as (r & H & _). rewrite Et in H.
  apply InputFacts.reads_all_split in H as (r1 & H1 & H2). apply InputFacts.reads_all_cons in H2 as (r2 & H2 & H3).
  apply InputFacts.reads_all_split in H3 as (r3 & H3 & _).
  assert (Suffix : exists front, stream = front ++ r_rest running r1).
  { assert (G : forall r0 t r, InputSpec.reads_all running run_auth_size (in_header P) (in_payload P) r0 t r -> exists front, r_rest running r0 = front ++ r_rest running r).
    { clear. intros r0 t r H. induction H as [r|r0 t r1 e r2 H IH Hr]; [now exists []|]. destruct IH as [f F].
      inversion Hr as [? m cipher rest W D|? ? ? W]; subst; cbn [r_rest]; [|now exists f].
      assert (exists k, rest = drop k (r_rest running r1)) as [k ->].
      { unfold decode in D. destruct (_ <? 4); [discriminate|]. destruct (r_cipher running r1) as [c|].
        - destruct (in_header P c _ _) as [[c2 h]|]; [|discriminate]. cbv zeta in D. destruct (negb _); [discriminate|].
          destruct (_ <? _); [discriminate|]. destruct (in_payload P c2 _ _) as [[c3 body]|]; [|discriminate]. destruct (unpad body); [|discriminate].
          eexists. injection D as _ _ <-. reflexivity.
        - cbv zeta in D. destruct (negb _); [discriminate|]. destruct (_ <? _); [discriminate|]. destruct (unpad _); [|discriminate].
          eexists. injection D as _ _ <-. reflexivity. }
      exists (f ++ take k (r_rest running r1)). rewrite F, <- app_assoc. unfold take, drop. now rewrite firstn_skipn. }
    exact (G _ _ _ H1). }
  destruct Suffix as [front Sf].
  inversion H2 as [|? ? ? W]; subst. specialize (Sq _ H1).
  assert (S2 : (if reset then 0 else r_seq running r1) = n) by (destruct reset; [symmetry; auto|destruct Sq; [discriminate|assumption]]).
  destruct (cut P T c d n ms ps l c' M Mi Hn Hl Hp E _ _ _ H3 eq_refl S2 Hm) as [F|(ms1 & ms2 & ps1 & ps2 & l1 & l2 & d' & Em & _ & _ & _ & _ & Ea & _)].
  - right. cbn [r_rest] in F. destruct F as (q1 & q2 & k1 & e & x & e1 & h & e2 & b & u & F1 & F2 & (fr & bk & F3) & F4).
    exists q1, q2, k1, e, x, e1, h, e2, b, u. split; [exact F1|]. split; [exact F2|]. split; [|exact F4].
    exists (front ++ fr), bk. rewrite F3, <- app_assoc. reflexivity.
  - left. exists ms1, ms2. now split.
Qed.

(** With strict key exchange, for all ciphers, all streams and all schedules:
    no message can be changed, inserted, repeated, moved or removed unless all
    the later ones are removed, too. *)
Theorem C101_strict_partial : forall P, tags_ok P -> forall c d, C59.pair_of_ciphers c d ->
  forall ms ps l c', len ps < 2 ^ 32 -> packets ms ps -> encrypt_all P c 0 ps l c' ->
  forall ops s stream trace, receives P ops s stream trace ->
  forall before messages later, trace = before ++ Cipher d true :: messages ++ later -> Forall is_message messages ->
  (exists ms1 ms2, ms = ms1 ++ ms2 /\ messages = received_from 0 ms1) \/ forged P c d 0 ps stream.
Proof.
  intros P T c d H ms ps l c' Hl Hp E ops s stream trace R before messages later Et Hm. destruct (C59.pair_facts c d H) as (M & _ & Mi).
  eapply (epoch P T c d M Mi 0 ms ps l c'); try eassumption; [reflexivity|auto|auto].
Qed.
Print Assumptions C101_strict_partial.

(** If the connection goes on with other keys, then nothing was lost: the
    sender's last message with the old keys is NEWKEYS. *)
Theorem C101_complete_partial : forall P, tags_ok P -> forall c d, C59.pair_of_ciphers c d ->
  forall ms newkeys ps l c', len ps < 2 ^ 32 -> packets (ms ++ [newkeys]) ps -> Forall (fun m => hd 0 m <> 21) ms -> encrypt_all P c 0 ps l c' ->
  forall ops s stream trace, receives P ops s stream trace ->
  forall before messages d2 reset later, trace = before ++ Cipher d true :: messages ++ Cipher d2 reset :: later -> Forall is_message messages ->
  messages = received_from 0 (ms ++ [newkeys]) \/ forged P c d 0 ps stream.
Proof.
  intros P T c d H ms nk ps l c' Hl Hp F E ops s stream trace R before messages d2 reset later Et Hm.
  destruct (C101_strict_partial P T c d H _ ps l c' Hl Hp E ops s stream trace R before messages _ Et Hm) as [(ms1 & ms2 & E1 & E2)|G]; [|right; exact G].
  left. destruct ms2 as [|x ms2 _] using rev_ind; [rewrite app_nil_r in E1; now subst|]. exfalso.
  rewrite app_assoc in E1. apply app_inj_tail in E1 as [E1 _].
  (* the last message before the new cipher is NEWKEYS *)
  apply InputFacts.inv_runs in R; [|exact (payload_size P)]. destruct R as (r & R & _). rewrite Et in R.
  replace (before ++ Cipher d true :: messages ++ Cipher d2 reset :: later) with ((before ++ [Cipher d true]) ++ messages ++ Cipher d2 reset :: later) in R
    by (rewrite <- app_assoc; reflexivity).
  apply InputFacts.reads_all_split in R as (r1 & R1 & R2). apply InputFacts.reads_all_split in R2 as (r2 & R2 & R3).
  apply InputFacts.reads_all_cons in R3 as (r3 & R3 & _). inversion R3 as [|? ? ? W]; subst.
  assert (W1 : r_waiting running r1 = false).
  { apply InputFacts.reads_all_inv in R1 as [[X _]|(l0 & q & e & X & _ & Y)]; [destruct before; discriminate|].
    apply app_inj_tail in X as [_ <-]. inversion Y; reflexivity. }
  destruct ms1 as [|m ms1 _] using rev_ind.
  - cbn [received_from] in R2. apply InputFacts.reads_all_nil in R2. congruence.
  - rewrite received_from_snoc in R2 by reflexivity.
    apply InputFacts.reads_all_inv in R2 as [[X _]|(l0 & q & e & X & _ & Y)]; [destruct (received_from 0 ms1); discriminate|].
    apply app_inj_tail in X as [_ <-]. inversion Y as [? ? ? ? W2 D X1 X2 X3|]; subst. cbn [r_waiting] in W. apply N.eqb_eq in W.
    rewrite !Forall_app in F. destruct F as [[_ F] _]. inversion F. congruence.
Qed.
Print Assumptions C101_complete_partial.

(** With AES-GCM, even without strict key exchange *)
Theorem C101_gcm_partial : forall P, tags_ok P -> forall k f m e d, let c := Plain (Gcm k f m e) in C59.pair_of_ciphers c d ->
  forall n ms ps l c', n < 2 ^ 64 -> len ps < 2 ^ 32 -> packets ms ps -> encrypt_all P c n ps l c' ->
  forall ops s stream trace, receives P ops s stream trace ->
  forall before reset messages later, trace = before ++ Cipher d reset :: messages ++ later -> Forall is_message messages ->
  C101_claim P c d n ms ps stream messages.
Proof.
  intros P T k f m e d c H n ms ps l c' Hn Hl Hp E ops s stream trace R before reset messages later Et Hm. destruct (C59.pair_facts c d H) as (M & _ & Mi).
  assert (R' := R). apply InputFacts.inv_runs in R'; [|exact (payload_size P)]. destruct R' as (r & R' & _). rewrite Et in R'.
  apply InputFacts.reads_all_split in R' as (r1 & R1 & _). set (n' := if reset then 0 else r_seq running r1).
  assert (B : n' < pow64).
  { unfold n'. destruct reset; [reflexivity|]. assert (G : forall r0 t r, InputSpec.reads_all running run_auth_size (in_header P) (in_payload P) r0 t r ->
      r_seq running r0 < pow64 -> r_seq running r < pow64).
    { clear. intros r0 t r G. induction G as [|r0 t r1 e r2 G IH Hr]; [auto|]. intro X. specialize (IH X).
      inversion Hr as [|? ? reset]; subst; cbn [r_seq]; [apply N.mod_lt; discriminate|]. destruct reset; [reflexivity|exact IH]. }
    apply (G _ _ _ R1). reflexivity. }
  destruct (epoch P T c d M Mi n' ms ps l c' B Hl Hp (gcm_any P ps k f m e n l c' n' E) ops s stream trace R before reset messages later Et Hm) as [(ms1 & ms2 & E1 & E2)|F].
  - intros r0 Y. destruct reset; [now left|right]. unfold n'. now rewrite (InputFacts.reads_all_det _ _ _ _ _ _ _ _ Y R1).
  - unfold n'. intros ->. reflexivity.
  - left. exists ms1, ms2, n'. now split.
  - right. now exists n'.
Qed.
Print Assumptions C101_gcm_partial.

(** Without strict key exchange, and with ChaCha20-Poly1305, the first
    encrypted messages can be removed, whatever the primitives are: the sender
    sends [qs] and NEWKEYS in clear text and then [m1 :: ms]; the receiver,
    which gets a message IGNORE of somebody in between first and then all of
    the sender's own packets but one, sees [ms], and none of it was forged. *)
Theorem C101_not_strict_refuted : forall P, tags_ok P -> forall a b d, let c := Plain (ChaCha a b) in C59.pair_of_ciphers c d ->
  forall ignore ignore_packet qs newkeys qps,
  carried ignore ignore_packet -> hd 0 ignore = 2 -> packets (qs ++ [newkeys]) qps -> Forall (fun m => hd 0 m <> 21) qs -> hd 0 newkeys = 21 ->
  len qps < 2 ^ 32 ->
  forall m1 ms p1 ps b1 l c', packets (m1 :: ms) (p1 :: ps) -> Forall (fun m => hd 0 m <> 21) ms ->
  encrypt_all P c (len qps) (p1 :: ps) (b1 :: l) c' ->
  exists r, InputSpec.reads_all running run_auth_size (in_header P) (in_payload P)
    (start running (ignore_packet ++ List.concat qps ++ List.concat l))
    (Message 0 ignore :: received_from 1 (qs ++ [newkeys]) ++ Cipher d false :: received_from (len qps + 1) ms) r.
Proof.
  intros P T a b d c H ignore ip qs nk qps Ci Hi Hq Fq Hk Lq m1 ms p1 ps b1 l c' Hp Fm E. destruct (C59.pair_facts c d H) as (_ & _ & Mi).
  apply Forall2_app_inv_l in Hq as (q1 & q2 & Q1 & Q2 & ->). inversion Q2 as [|? kp ? ? Ck Q3]; subst. inversion Q3; subst. clear Q2 Q3.
  inversion Hp as [|? ? ? ? _ Hp2]; subst. apply chacha_tail in E.
  assert (Lk : len (q1 ++ [kp]) = len qs + 1) by (rewrite len_app, <- (packets_len _ _ Q1); reflexivity). rewrite Lk in *.
  assert (Sm : forall x, x < 2 ^ 33 -> x mod 2 ^ 64 = x) by (intros x X; apply N.mod_small; etransitivity; [exact X|reflexivity]).
  assert (Bq : len qs + 1 < 2 ^ 33) by (etransitivity; [exact Lq|reflexivity]).
  assert (Bq2 : len qs + 1 + 1 < 2 ^ 33) by (change (2 ^ 33) with (2 ^ 32 + 2 ^ 32); assert (1 < 2 ^ 32) by reflexivity; lia).
  unfold seq_plus in E. change pow64 with (2 ^ 64) in E. rewrite (Sm (len qs + 1 + 1) Bq2) in E.
  rewrite List.concat_app. cbn [List.concat]. rewrite app_nil_r, <- app_assoc.
  destruct (cipher_reads P T ms ps c d (len qs + 1 + 1) l c' [] Hp2 Mi E) as (r & R); [rewrite <- (Sm _ Bq2); apply N.mod_lt; discriminate|exact Fm|].
  rewrite app_nil_r in R. exists r.
  eapply reads_all_one; [exact (plain_read P ignore ip 0 _ Ci)|]. rewrite Hi. change ((0 + 1) mod 2 ^ 64) with 1. change (2 =? 21) with false.
  rewrite received_from_snoc by reflexivity. rewrite <- app_assoc.
  eapply reads_all_app; [exact (plain_reads P qs q1 1 _ Q1 Fq eq_refl)|]. cbn [app].
  assert (Sq : seq_plus 1 (len qs) = len qs + 1) by (unfold seq_plus; change pow64 with (2 ^ 64); rewrite N.add_comm; apply (Sm _ Bq)). rewrite Sq.
  eapply reads_all_one; [exact (plain_read P nk kp (len qs + 1) _ Ck)|]. rewrite Hk, (Sm _ Bq2). change (21 =? 21) with true.
  eapply reads_all_one; [|exact R]. exact (reads_cipher running run_auth_size (in_header P) (in_payload P) (at_ None (len qs + 1 + 1) (List.concat l) true) d false eq_refl).
Qed.
Print Assumptions C101_not_strict_refuted.

(** ** Examples *)

Definition enc_of (c : running) (n : N) (p : bytes) : bytes := match Encrypt C58.toy c n p with COk (_, b) => b | _ => [] end.
Definition cc : running := new_running (C59.chacha_c true).
Definition cd : running := new_running (C59.chacha_c false).

Lemma cc_pair : C59.pair_of_ciphers cc cd.
Proof. exact (proj2 C59.C59_witness_pairs). Qed.

Lemma pk_carried : forall m, 1 <= len m -> len m <= 31 -> carried m (C58.pk m).
Proof.
  intros m H1 H2. exists (repeat 7 (N.to_nat (31 - len m))). unfold C58.pk, framed. rewrite C58.len_repeat, N2Nat.id.
  replace (1 + len m + (31 - len m)) with 32 by lia. split; [reflexivity|]. split; [intros ->; now apply H1|]. lia.
Qed.

(** lukko's peer sends KEXINIT, NEWKEYS and two messages, the first of which
    lukko never gets. *)
Definition cipher2 : list bytes := [enc_of cc 2 (C58.pk [5; 1]); enc_of cc 3 (C58.pk [50; 2])].
Definition attack_stream : bytes := (C58.pk [2] ++ C58.pk [20] ++ C58.pk [21]) ++ List.concat [enc_of cc 3 (C58.pk [50; 2])].
Definition attack_ops : list (Input.iop running) :=
  [Input.Feed _ attack_stream; Input.Read _; Input.Consume _; Input.Read _; Input.Consume _; Input.Read _; Input.SetCipher _ cd; Input.Consume _;
   Input.RunBegin _ 200; Input.RunLoop _; Input.RunLoop _; Input.RunEnd _ 0; Input.Wakeup _; Input.Read _; Input.Consume _].

Lemma cipher2_sent : encrypt_all C58.toy cc 2 [C58.pk [5; 1]; C58.pk [50; 2]] cipher2 cc.
Proof. repeat (econstructor; [vm_compute; reflexivity|]). constructor. Qed.

Lemma packets2 : packets [[5; 1]; [50; 2]] [C58.pk [5; 1]; C58.pk [50; 2]].
Proof. repeat constructor; apply pk_carried; vm_compute; discriminate. Qed.

Example C101_demo_attack : exists s, receives C58.toy attack_ops s attack_stream
  ([Message 0 [2]; Message 1 [20]; Message 2 [21]] ++ Cipher cd false :: [Message 3 [50; 2]]).
Proof.
  eexists. change attack_ops with ([] ++ attack_ops). eapply C58.iexec_runs; [apply InputFacts.iruns_nil|]. vm_compute. reflexivity.
Qed.

Theorem C101_refuted : ~ C101_full_statement.
Proof.
  intro F. destruct C101_demo_attack as [s H].
  assert (K : some_of [enc_of cc 3 (C58.pk [50; 2])] cipher2) by (unfold cipher2; apply some_drop, some_keep, some_nil).
  destruct (F C58.toy C58.toy_ok cc cd cc_pair 2 [[5; 1]; [50; 2]] [C58.pk [5; 1]; C58.pk [50; 2]] cipher2 cc eq_refl eq_refl packets2 cipher2_sent _ _ _ _ _ K H _ _ _ eq_refl) as (ms1 & ms2 & k & E & M).
  - repeat (constructor; [eexists; eexists; reflexivity|]). constructor.
  - repeat (constructor; [eexists; eexists; reflexivity|]). constructor.
  - destruct ms1 as [|m ms1]; [discriminate|]. injection E as <- _. discriminate.
Qed.
Print Assumptions C101_refuted.

(** With strict key exchange: the two messages are received if nobody
    interferes; the same packets without the first one end the connection. *)
Definition cipher0 : list bytes := [enc_of cc 0 (C58.pk [5; 1]); enc_of cc 1 (C58.pk [50; 2])].
Definition strict_ops (more : bytes) : list (Input.iop running) :=
  [Input.AutoResetSeq _; Input.Feed _ (C58.pk [21] ++ more); Input.Read _; Input.SetCipher _ cd; Input.Consume _;
   Input.RunBegin _ 200; Input.RunLoop _; Input.RunLoop _; Input.RunLoop _; Input.RunEnd _ 0; Input.Wakeup _; Input.Read _; Input.Consume _; Input.Read _; Input.Consume _].

Lemma cipher0_sent : encrypt_all C58.toy cc 0 [C58.pk [5; 1]; C58.pk [50; 2]] cipher0 cc.
Proof. repeat (econstructor; [vm_compute; reflexivity|]). constructor. Qed.

Example C101_demo_strict :
  (exists s, receives C58.toy (strict_ops (List.concat cipher0)) s (C58.pk [21] ++ List.concat cipher0)
     ([Message 0 [21]] ++ Cipher cd true :: received_from 0 [[5; 1]; [50; 2]] ++ [])) /\
  (exists s, receives C58.toy
     [Input.AutoResetSeq _; Input.Feed _ (C58.pk [21] ++ List.concat (tl cipher0)); Input.Read _; Input.SetCipher _ cd; Input.Consume _;
      Input.RunBegin _ 200; Input.RunLoop _; Input.Wakeup _; Input.Read _] s
     (C58.pk [21] ++ List.concat (tl cipher0)) ([Message 0 [21]] ++ Cipher cd true :: [] ++ []) /\ Input.i_closed running s = true).
Proof.
  split; [eexists|eexists; split].
  - change (strict_ops (List.concat cipher0)) with ([] ++ strict_ops (List.concat cipher0)). eapply C58.iexec_runs; [apply InputFacts.iruns_nil|]. vm_compute. reflexivity.
  - match goal with |- receives _ ?o _ _ _ => change o with ([] ++ o) end. eapply C58.iexec_runs; [apply InputFacts.iruns_nil|]. vm_compute. reflexivity.
  - vm_compute. reflexivity.
Qed.

(** AES-GCM, after two messages in clear text: nobody interferes. *)
Definition gc : running := new_running (C59.gcm128 true).
Definition gd : running := new_running (C59.gcm128 false).
Example C101_demo_gcm :
  exists k f m e l c' s ops,
  gc = Plain (Gcm k f m e) /\ C59.pair_of_ciphers gc gd /\ encrypt_all C58.toy gc 1 [C58.pk [5; 1]] l c' /\
  receives C58.toy ops s (C58.pk [21] ++ List.concat l) ([Message 0 [21]] ++ Cipher gd false :: received_from 1 [[5; 1]] ++ []).
Proof.
  do 6 eexists. eexists. exists
    [Input.Feed _ (C58.pk [21] ++ enc_of gc 1 (C58.pk [5; 1])); Input.Read _; Input.SetCipher _ gd; Input.Consume _;
     Input.RunBegin _ 200; Input.RunLoop _; Input.RunLoop _; Input.RunEnd _ 0; Input.Wakeup _; Input.Read _; Input.Consume _].
  split; [reflexivity|]. split; [exact C59.gcm_pair|]. split; [econstructor; [vm_compute; reflexivity|constructor]|].
  match goal with |- receives _ ?o _ _ _ => change o with ([] ++ o) end. eapply C58.iexec_runs; [apply InputFacts.iruns_nil|]. vm_compute. reflexivity.
Qed.
