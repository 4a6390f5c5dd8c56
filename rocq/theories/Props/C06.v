(** * C06: incoming packet size limits *)

From Coq Require Import NArith List Bool Lia.
From Verif.Base Require Import Bytes.
From Verif.Model Require Import Input.
From Verif.Spec Require Import InputSpec.
From Verif.Proofs Require Import InputFacts.
From Verif.Props Require Import C05.
Import ListNotations.
Open Scope N_scope.

(** Every delivered message has between 1 and 34999 bytes. *)
Theorem C06_message_sizes :
  forall (C : Type) auth_size dec_header dec_payload, contract auth_size dec_payload ->
  forall ops s stream trace n m,
  iruns C auth_size dec_header dec_payload ops s stream trace ->
  In (Message n m) trace -> 1 <= len m <= 34999.
Proof.
  intros C a dh dp K ops s stream trace n m H. apply inv_runs in H; [|exact K].
  destruct H as (r & H & _). intro Hin. eapply reads_all_sizes; eauto.
Qed.
Print Assumptions C06_message_sizes.

(** When is a packet bad?  In plain text: exactly if the announced length
    is not within 2..35000 or the complete packet has a padding length that
    leaves no room for the message number. *)
Theorem C06_bad_plain_packet :
  forall (C : Type) auth_size dec_header dec_payload n stream,
  decode C auth_size dec_header dec_payload None n stream = Bad C <->
  exists h rest, stream = h ++ rest /\ len h = 4 /\
    let length := be32_at h in
    length < 2 \/ 35000 < length \/
    (2 <= length <= 35000 /\ length <= len rest /\ length - 2 < hd 0 rest).
Proof.
  intros C a dh dp n stream. unfold decode. split.
  - destruct (len stream <? 4) eqn:E4; [discriminate|]. apply N.ltb_ge in E4. intro H.
    exists (take 4 stream), (drop 4 stream). split; [symmetry; apply take_drop|].
    assert (L4 : len (take 4 stream) = 4) by (apply len_take; assumption). split; [exact L4|].
    assert (EB : be32_at (take 4 stream) = be32_at stream).
    { rewrite <- (take_drop _ 4 stream) at 2. rewrite be32_at_app; [reflexivity|lia]. }
    cbv zeta. rewrite EB. destruct (acceptable (be32_at stream)) eqn:Ea; cbn [negb] in H.
    + apply acceptable_ge in Ea. right. right. split; [assumption|].
      destruct (len stream <? 4 + be32_at stream) eqn:EL; [discriminate|]. apply N.ltb_ge in EL.
      split; [rewrite len_drop; lia|].
      pose proof (unpad_model (be32_at stream) (take (be32_at stream) (drop 4 stream))) as U.
      rewrite len_take in U by (rewrite len_drop; lia). specialize (U eq_refl ltac:(lia)).
      assert (Hhd : hd 0 (take (be32_at stream) (drop 4 stream)) = hd 0 (drop 4 stream)).
      { destruct (drop 4 stream) as [|x l]; [unfold take; rewrite firstn_nil; reflexivity|].
        unfold take. replace (N.to_nat (be32_at stream)) with (S (N.to_nat (be32_at stream - 1))) by lia.
        reflexivity. }
      rewrite Hhd in U. destruct (be32_at stream - 2 <? hd 0 (drop 4 stream)) eqn:EP; [now apply N.ltb_lt|].
      destruct U as [U _]. rewrite U in H. discriminate.
    + unfold acceptable in Ea. apply andb_false_iff in Ea as [Ea|Ea]; apply N.leb_gt in Ea; lia.
  - intros (h & rest & -> & Lh & H). cbv zeta in H.
    assert (X : len (h ++ rest) <? 4 = false) by (apply N.ltb_ge; rewrite len_app; lia). rewrite X.
    rewrite be32_at_app by lia.
    destruct (acceptable (be32_at h)) eqn:Ea; cbn [negb]; [|reflexivity].
    apply acceptable_ge in Ea. destruct H as [H|[H|(_ & H1 & H2)]]; [lia|lia|].
    assert (Y : len (h ++ rest) <? 4 + be32_at h = false) by (apply N.ltb_ge; rewrite len_app; lia).
    rewrite Y. rewrite drop_app_ge by lia. rewrite Lh. change (4 - 4) with 0. rewrite drop_0.
    pose proof (unpad_model (be32_at h) (take (be32_at h) rest)) as U.
    rewrite len_take in U by assumption. specialize (U eq_refl ltac:(lia)).
    assert (Hhd : hd 0 (take (be32_at h) rest) = hd 0 rest).
    { destruct rest as [|x l]; [unfold take; rewrite firstn_nil; reflexivity|].
      unfold take. replace (N.to_nat (be32_at h)) with (S (N.to_nat (be32_at h - 1))) by lia. reflexivity. }
    rewrite Hhd in U. apply N.ltb_lt in H2. rewrite H2 in U. now rewrite U.
Qed.
Print Assumptions C06_bad_plain_packet.

(** With a cipher: exactly if the cipher rejects the header or the packet,
    or length or padding length are unacceptable. *)
Theorem C06_bad_encrypted_packet :
  forall (C : Type) auth_size dec_header dec_payload, contract auth_size dec_payload ->
  forall c n stream,
  decode C auth_size dec_header dec_payload (Some c) n stream = Bad C <->
  4 <= len stream /\
  (dec_header c n (take 4 stream) = None \/
   exists c1 h, dec_header c n (take 4 stream) = Some (c1, h) /\
     let length := be32_at h in
     let total := 4 + length + auth_size c1 in
     length < 2 \/ 35000 < length \/
     (2 <= length <= 35000 /\ total <= len stream /\
      (dec_payload c1 n (take total stream) = None \/
       exists c2 body, dec_payload c1 n (take total stream) = Some (c2, body) /\ length - 2 < hd 0 body))).
Proof.
  intros C a dh dp K c n stream. unfold decode. cbv zeta.
  destruct (len stream <? 4) eqn:E4.
  { apply N.ltb_lt in E4. split; [discriminate|]. intros [X _]. lia. }
  apply N.ltb_ge in E4.
  destruct (dh c n (take 4 stream)) as [[c1 h]|] eqn:EH; [|split; auto].
  assert (XX : forall P : N -> Prop, (4 <= len stream /\ (Some (c1, h) = None \/
     exists c3 h3, Some (c1, h) = Some (c3, h3) /\
     (be32_at h3 < 2 \/ 35000 < be32_at h3 \/ (2 <= be32_at h3 <= 35000 /\ 4 + be32_at h3 + a c3 <= len stream /\
      (dp c3 n (take (4 + be32_at h3 + a c3) stream) = None \/
       exists c2 body, dp c3 n (take (4 + be32_at h3 + a c3) stream) = Some (c2, body) /\ be32_at h3 - 2 < hd 0 body))))) <->
     (be32_at h < 2 \/ 35000 < be32_at h \/ (2 <= be32_at h <= 35000 /\ 4 + be32_at h + a c1 <= len stream /\
      (dp c1 n (take (4 + be32_at h + a c1) stream) = None \/
       exists c2 body, dp c1 n (take (4 + be32_at h + a c1) stream) = Some (c2, body) /\ be32_at h - 2 < hd 0 body)))).
  { intros _. split.
    - intros [_ [X|(c3 & h3 & X & Y)]]; [discriminate|].
      assert (c3 = c1 /\ h3 = h) as [-> ->] by (split; congruence). exact Y.
    - intro Y. split; [assumption|]. right. exists c1, h. split; [reflexivity|exact Y]. }
  rewrite (XX (fun _ => True)). clear XX.
  destruct (acceptable (be32_at h)) eqn:Ea; cbn [negb].
  2:{ split; [|reflexivity]. intros _. unfold acceptable in Ea.
      apply andb_false_iff in Ea as [Ea|Ea]; apply N.leb_gt in Ea; lia. }
  apply acceptable_ge in Ea.
  destruct (len stream <? 4 + be32_at h + a c1) eqn:EL.
  { apply N.ltb_lt in EL. split; [discriminate|]. intros [X|[X|(_ & X & _)]]; lia. }
  apply N.ltb_ge in EL.
  destruct (dp c1 n (take (4 + be32_at h + a c1) stream)) as [[c2 body]|] eqn:ED.
  2:{ split; [|reflexivity]. intros _. right. right. auto. }
  assert (LB : len body = be32_at h).
  { apply K in ED. rewrite len_take in ED by assumption. lia. }
  pose proof (unpad_model (be32_at h) body LB ltac:(lia)) as U.
  destruct (be32_at h - 2 <? hd 0 body) eqn:EP.
  - apply N.ltb_lt in EP. rewrite U. split; [|reflexivity]. intros _. right. right. split; [assumption|].
    split; [assumption|]. right. eauto.
  - apply N.ltb_ge in EP. destruct U as [U _]. rewrite U. split; [discriminate|].
    intros [X|[X|(_ & _ & [X|(c4 & b4 & X & Y)])]]; [lia|lia|discriminate|].
    assert (b4 = body) as -> by congruence. lia.
Qed.
Print Assumptions C06_bad_encrypted_packet.

(** Nothing after a bad packet is delivered: if the sequential reader has
    reached a bad packet after the part [pre] of the trace, then that was
    all. *)
Theorem C06_nothing_after_bad_packet :
  forall (C : Type) auth_size dec_header dec_payload, contract auth_size dec_payload ->
  forall ops s stream pre post r,
  iruns C auth_size dec_header dec_payload ops s stream (pre ++ post) ->
  reads_all C auth_size dec_header dec_payload (start C stream) pre r ->
  r_waiting C r = false ->
  decode C auth_size dec_header dec_payload (r_cipher C r) (r_seq C r) (r_rest C r) = Bad C ->
  post = [].
Proof.
  intros C a dh dp K ops s stream pre post r H H1 H2 H3. apply inv_runs in H; [|exact K].
  destruct H as (r' & H & _). apply reads_all_split in H as (r1 & X1 & X2).
  assert (r1 = r) by (eapply reads_all_det; eauto). subst r1.
  destruct post as [|e post]; [reflexivity|].
  apply reads_all_cons in X2 as (r3 & X3 & _). inversion X3; subst; congruence.
Qed.
Print Assumptions C06_nothing_after_bad_packet.

(** Reception fails at the bad packet: if everything before it has been
    handled and the worker is idle, the next ReadPacket() closes the
    connection. *)
Theorem C06_bad_packet_fails :
  forall (C : Type) auth_size dec_header dec_payload, contract auth_size dec_payload ->
  forall ops s stream trace r,
  iruns C auth_size dec_header dec_payload ops s stream trace ->
  i_job C s = IInitial -> i_cur C s = None -> i_closed C s = false ->
  reads_all C auth_size dec_header dec_payload (start C stream) trace r ->
  decode C auth_size dec_header dec_payload (r_cipher C r) (r_seq C r) (r_rest C r) = Bad C ->
  exists s', istep C auth_size dec_header dec_payload s (Read C) = IOk C s' [] /\ i_closed C s' = true.
Proof.
  intros C a dh dp K ops s stream trace r H J Cu Cl H1 H2.
  assert (I0 := H). apply inv_runs in I0; [|exact K].
  destruct (Read_cases _ _ _ _ _ _ _ I0 Cl Cu) as (r' & R1 & Rw & s1 & e & E1 & O).
  assert (r' = r) by (eapply reads_all_det; eauto). subst r'.
  destruct O as [(n & m & O & O2)|[(O & O2 & _)|(_ & _ & O)]].
  - exfalso. subst e. pose proof (iruns_snoc _ _ _ _ _ _ _ _ _ _ _ H E1) as HX.
    cbn [map seen] in HX. rewrite app_nil_r in HX.
    pose proof (C06_nothing_after_bad_packet C a dh dp K _ _ _ _ _ r HX H1 Rw H2) as Y. discriminate Y.
  - exists s1. subst e. auto.
  - rewrite (O J) in H2. discriminate.
Qed.
Print Assumptions C06_bad_packet_fails.

(** ** Witnesses *)
Example C06_witness_plain :
  decode N toy_auth toy_header toy_payload None 0 [0;0;136;185] = Bad N /\ (* 35001 *)
  decode N toy_auth toy_header toy_payload None 0 [0;0;0;1] = Bad N /\
  decode N toy_auth toy_header toy_payload None 0 [0;0;0;2;1;42] = Bad N /\
  decode N toy_auth toy_header toy_payload None 0 [0;0;136;184] = NeedMore N. (* 35000 *)
Proof. repeat split. Qed.

Example C06_witness_encrypted :
  decode N toy_auth toy_header toy_payload (Some 5) 3 [0;0;0;2;0;42;9] = Bad N /\
  decode N toy_auth toy_header toy_payload (Some 5) 3 [0;0;0;2;0;42;8] = Got N [42] (Some 15) [].
Proof. split; vm_compute; reflexivity. Qed.

(** a run that meets the hypotheses of [C06_bad_packet_fails] *)
Example C06_witness_fails :
  exists s stream, iruns N toy_auth toy_header toy_payload
    [Feed N [0;0;0;2; 0;42; 0;0;0;1]; Read N; Consume N] s stream [Message 0 [42]] /\
    i_job N s = IInitial /\ i_cur N s = None /\ i_closed N s = false /\
    exists r, reads_all N toy_auth toy_header toy_payload (start N stream) [Message 0 [42]] r /\
      decode N toy_auth toy_header toy_payload (r_cipher N r) (r_seq N r) (r_rest N r) = Bad N.
Proof.
  do 2 eexists. split.
  - match goal with |- iruns _ _ _ _ ?l _ _ _ => change l with ([] ++ l) end.
    eapply iexec_runs; [constructor|]. vm_compute. reflexivity.
  - repeat split. eexists. split.
    + change [@Message N 0 [42]] with ([] ++ [@Message N 0 [42]]). eapply reads_snoc; [constructor|].
      match goal with |- reads _ _ _ _ ?r _ _ => change 0 with (r_seq N r) end.
      apply reads_message; vm_compute; reflexivity.
    + vm_compute. reflexivity.
Qed.
