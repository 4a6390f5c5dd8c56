(** Invariants of the input pipeline: the model refines the sequential
    reader of Spec/InputSpec.v. *)

From Coq Require Import NArith List Bool Lia.
From Verif.Base Require Import Bytes.
From Verif.Model Require Import Input.
From Verif.Spec Require Import InputSpec.
Import ListNotations.
Open Scope N_scope.

Local Arguments take : simpl never.
Local Arguments drop : simpl never.
Local Arguments inc : simpl never.

Section Input.
Variable C : Type.
Variable auth_size : C -> N.
Variable dec_header : C -> N -> bytes -> option (C * bytes).
Variable dec_payload : C -> N -> bytes -> option (C * bytes).

Notation istate := (istate C).
Notation istep := (istep C auth_size dec_header dec_payload).
Notation decode := (decode C auth_size dec_header dec_payload).
Notation reads := (reads C auth_size dec_header dec_payload).
Notation reads_all := (reads_all C auth_size dec_header dec_payload).
Notation reader := (reader C).
Notation start := (start C).

(** what the connection sees, in terms of the specification *)
Definition seen (e : event C) : revent C :=
  match e with
  | Deliver _ n m => Message n m
  | NewCipher _ c reset => Cipher c reset
  end.

Definition fed (o : iop C) : bytes := match o with Feed _ l => l | _ => [] end.

(** All histories: [ops] leads to state [s]; [stream] is everything that was
    received and [trace] everything the connection has seen and done. *)
Inductive iruns : list (iop C) -> istate -> bytes -> list (revent C) -> Prop :=
| iruns_nil : iruns [] (new_input C) [] []
| iruns_snoc : forall ops s stream trace o s' e,
    iruns ops s stream trace -> istep s o = IOk C s' e ->
    iruns (ops ++ [o]) s' (stream ++ fed o) (trace ++ map seen e).

(** ** Lists *)

Lemma is_newkeys_hd : forall p, is_newkeys p = (hd 0 p =? 21).
Proof. intros [|x p]; reflexivity. Qed.

Lemma be32_at_app : forall a b, 4 <= len a -> be32_at (a ++ b) = be32_at a.
Proof.
  intros a b H. destruct a as [|x0 [|x1 [|x2 [|x3 a]]]]; rewrite ?len_cons, ?len_nil in H; try lia.
  reflexivity.
Qed.

Lemma header_length_be32_at : forall l, header_length l = be32_at l.
Proof. reflexivity. Qed.

Lemma length_ok_acceptable : forall n, length_ok n = acceptable n.
Proof.
  intro n. unfold length_ok, acceptable, MAX_PACKET_SIZE.
  rewrite !N.leb_antisym. reflexivity.
Qed.

Lemma acceptable_ge : forall n, acceptable n = true -> 2 <= n <= 35000.
Proof. intros n H. unfold acceptable in H. apply andb_true_iff in H as [H1 H2]. apply N.leb_le in H1, H2. lia. Qed.

(** ** The padding *)

Lemma unpad_model : forall n r, len r = n -> 2 <= n ->
  if n - 2 <? hd 0 r then unpad r = None
  else unpad r = Some (take (n - hd 0 r - 1) (drop 1 r)) /\
       drop 1 (take (n - hd 0 r) r) = take (n - hd 0 r - 1) (drop 1 r).
Proof.
  intros n r L H2. destruct r as [|p l]; [rewrite len_nil in L; lia|].
  rewrite len_cons in L. cbn [hd]. destruct (n - 2 <? p) eqn:E.
  - apply N.ltb_lt in E. cbn [unpad]. destruct (p + 1 <=? len l) eqn:E2; [|reflexivity].
    apply N.leb_le in E2. lia.
  - apply N.ltb_ge in E. cbn [unpad]. destruct (p + 1 <=? len l) eqn:E2.
    + apply N.leb_le in E2. change (drop 1 (p :: l)) with l.
      replace (n - p - 1) with (len l - p) by lia. split; [reflexivity|].
      unfold take, drop. replace (N.to_nat (n - p)) with (S (N.to_nat (len l - p))) by lia. reflexivity.
    + apply N.leb_gt in E2. lia.
Qed.

(** ** The specification is monotone in the stream *)

Lemma decode_more : forall c n s x,
  match decode c n s with
  | NeedMore _ => True
  | Bad _ => decode c n (s ++ x) = Bad C
  | Got _ m c' rest => decode c n (s ++ x) = Got C m c' (rest ++ x)
  end.
Proof.
  intros c n s x. unfold InputSpec.decode.
  destruct (len s <? 4) eqn:E4; [exact I|]. apply N.ltb_ge in E4.
  assert (X4 : len (s ++ x) <? 4 = false) by (apply N.ltb_ge; rewrite len_app; lia).
  rewrite X4. destruct c as [c|].
  - rewrite take_app_le by assumption.
    destruct (dec_header c n (take 4 s)) as [[c1 h]|]; [|reflexivity].
    destruct (acceptable (be32_at h)); cbn [negb]; [|reflexivity].
    destruct (len s <? _) eqn:E; [exact I|]. apply N.ltb_ge in E.
    assert (X : len (s ++ x) <? 4 + be32_at h + auth_size c1 = false)
      by (apply N.ltb_ge; rewrite len_app; lia).
    rewrite X, take_app_le by assumption.
    destruct (dec_payload _ _ _) as [[c2 body]|]; [|reflexivity].
    destruct (unpad body); [|reflexivity].
    rewrite drop_app_le by assumption. reflexivity.
  - rewrite be32_at_app by assumption.
    destruct (acceptable (be32_at s)); cbn [negb]; [|reflexivity].
    destruct (len s <? _) eqn:E; [exact I|]. apply N.ltb_ge in E.
    assert (X : len (s ++ x) <? 4 + be32_at s = false)
      by (apply N.ltb_ge; rewrite len_app; lia).
    rewrite X, (drop_app_le _ 4) by assumption.
    rewrite (take_app_le _ (be32_at s)) by (rewrite len_drop; lia).
    destruct (unpad _); [|reflexivity].
    rewrite drop_app_le by assumption. reflexivity.
Qed.

Definition more (r : reader) (x : bytes) : reader :=
  {| r_cipher := r_cipher C r; r_seq := r_seq C r; r_rest := r_rest C r ++ x;
     r_waiting := r_waiting C r |}.

Lemma more_nil : forall r, more r [] = r.
Proof. intros [c n l w]. unfold more. cbn. now rewrite app_nil_r. Qed.

Lemma reads_more : forall r e r' x, reads r e r' -> reads (more r x) e (more r' x).
Proof.
  intros r e r' x H. destruct H as [r m cipher rest Hw Hd|r c reset Hw].
  - pose proof (decode_more (r_cipher C r) (r_seq C r) (r_rest C r) x) as M. rewrite Hd in M.
    unfold more at 2. cbn [r_cipher r_seq r_rest r_waiting].
    change (r_seq C r) with (r_seq C (more r x)).
    apply reads_message; assumption.
  - unfold more at 2. cbn [r_cipher r_seq r_rest r_waiting].
    change (r_seq C r) with (r_seq C (more r x)).
    change (r_rest C r ++ x) with (r_rest C (more r x)).
    apply reads_cipher. assumption.
Qed.

Lemma reads_all_more : forall r l r' x, reads_all r l r' -> reads_all (more r x) l (more r' x).
Proof.
  intros r l r' x H. induction H as [r|r l r1 e r2 H IH H2]; [constructor|].
  eapply reads_snoc; [exact IH|]. now apply reads_more.
Qed.

(** ** A chain of messages *)

Definition next (r : reader) (m : bytes) (r' : reader) : Prop := reads r (Message (r_seq C r) m) r'.

Inductive chain : reader -> list bytes -> reader -> Prop :=
| chain_nil : forall r, chain r [] r
| chain_cons : forall r d r1 l r2, next r (drop 1 d) r1 -> chain r1 l r2 -> chain r (d :: l) r2.

Lemma chain_app : forall a r b r2, chain r (a ++ b) r2 <-> exists r1, chain r a r1 /\ chain r1 b r2.
Proof.
  induction a as [|d a IH]; intros r b r2; cbn [app].
  - split; [intro H; exists r; split; [constructor|assumption]|].
    intros (r1 & H1 & H2). now inversion H1; subst.
  - split.
    + intro H. inversion H; subst. apply IH in H5 as (r4 & H6 & H7).
      exists r4. split; [|assumption]. econstructor; eassumption.
    + intros (r1 & H1 & H2). inversion H1; subst. econstructor; [eassumption|].
      apply IH. eauto.
Qed.

Lemma chain_more : forall r l r' x, chain r l r' -> chain (more r x) l (more r' x).
Proof.
  intros r l r' x H. induction H as [r|r d r1 l r2 H1 H2 IH]; [constructor|].
  econstructor; [|exact IH]. unfold next. change (r_seq C (more r x)) with (r_seq C r).
  now apply reads_more.
Qed.

Lemma next_not_waiting : forall r m r', next r m r' -> r_waiting C r = false.
Proof. intros r m r' H. now inversion H. Qed.

(** [fails r]: the reader reaches a bad packet *)
Definition fails (r : reader) : Prop :=
  exists l r', chain r l r' /\ r_waiting C r' = false /\
    decode (r_cipher C r') (r_seq C r') (r_rest C r') = Bad C.

Lemma fails_more : forall r x, fails r -> fails (more r x).
Proof.
  intros r x (l & r' & H1 & H2 & H3). exists l, (more r' x).
  split; [now apply chain_more|]. split; [exact H2|].
  pose proof (decode_more (r_cipher C r') (r_seq C r') (r_rest C r') x) as M. rewrite H3 in M. exact M.
Qed.

(** ** The invariant *)

Definition cur_rel (s : istate) (r : reader) : Prop :=
  match i_cur C s with
  | None => i_read_seq C s = r_seq C r /\ r_waiting C r = false
  | Some p => inc (i_read_seq C s) = r_seq C r /\
      r_waiting C r = is_newkeys p && negb (i_set C s) /\
      (i_consumed_encrypted C s = true -> i_list C s <> [])
  end.

Record plain_rel (s : istate) (r : reader) : Prop := {
  p_cipher : r_cipher C r = None;
  p_waiting : r_waiting C r = i_waiting C s;
  p_list : i_list C s = [];
  p_unprot : i_unprot C s = [];
  p_error : i_error C s = false;
  p_job : i_job C s = IInitial;
  p_consumed : i_consumed_encrypted C s = false;
  p_set : i_set C s = false;
  p_wait0 : i_waiting C s = true -> i_packet_length C s = 0;
  p_rest : (i_packet_length C s = 0 /\ r_rest C r = i_raw C s) \/
           (i_packet_length C s <> 0 /\ acceptable (i_packet_length C s) = true /\
            exists h, len h = 4 /\ be32_at h = i_packet_length C s /\ r_rest C r = h ++ i_raw C s)
}.

(** the decrypted packets which the main thread has not yet seen *)
Definition unseen (s : istate) : list bytes :=
  match i_cur C s with
  | Some _ => if i_consumed_encrypted C s then tl (i_list C s) else i_list C s
  | None => i_list C s
  end.

Definition local (j : ijob) : list bytes := match j with IBusy l _ _ => l | _ => [] end.
Definition local_newkeys (j : ijob) : bool := match j with IBusy _ nk _ => nk | _ => false end.

(** the worker's position is that of the reader [r] *)
Record work_rel (s : istate) (r : reader) : Prop := {
  w_waiting : r_waiting C r = i_waiting C s || local_newkeys (i_job C s);
  w_seq : r_seq C r = i_decrypt_seq C s;
  w_rest : r_rest C r = i_unprot C s ++ i_raw C s;
  w_wait0 : r_waiting C r = true -> i_packet_length C s = 0;
  w_cipher : exists c0, r_cipher C r = Some c0 /\
    ((i_packet_length C s = 0 /\ i_cipher C s = Some c0) \/
     (i_packet_length C s <> 0 /\ acceptable (i_packet_length C s) = true /\ 4 <= len (i_unprot C s) /\
      exists c1 h, dec_header c0 (i_decrypt_seq C s) (take 4 (i_unprot C s)) = Some (c1, h) /\
        be32_at h = i_packet_length C s /\ i_cipher C s = Some c1));
  w_idle : (i_job C s = IInitial \/ i_job C s = IDone /\ i_again C s = false) ->
    i_waiting C s = false ->
    decode (r_cipher C r) (r_seq C r) (r_rest C r) = NeedMore C;
  w_found : forall l st, i_job C s = IBusy l true st -> l <> [];
  w_loop : forall l nk, i_job C s = IBusy l nk false -> nk = false;
  w_stop : forall l, i_job C s = IBusy l false true ->
    decode (r_cipher C r) (r_seq C r) (i_unprot C s) = NeedMore C
}.

Record enc_rel (s : istate) (r : reader) : Prop := {
  e_waiting_busy : i_waiting C s = true -> busy (i_job C s) = false;
  e_error_busy : i_error C s = true -> busy (i_job C s) = false /\ i_waiting C s = false;
  e_main : exists r1, chain r (unseen s) r1 /\
    (i_error C s = true -> r_waiting C r1 = false /\ fails r1) /\
    (i_error C s = false -> exists r2, chain r1 (local (i_job C s)) r2 /\ work_rel s r2)
}.

Record rel (s : istate) (r : reader) : Prop := {
  rel_cur : cur_rel s r;
  rel_mode : if i_encrypted C s then enc_rel s r else plain_rel s r;
  rel_closed : i_closed C s = true -> fails r
}.

Definition inv (s : istate) (stream : bytes) (trace : list (revent C)) : Prop :=
  exists r, reads_all (start stream) trace r /\ rel s r.

Lemma inv_new : inv (new_input C) [] [].
Proof.
  exists (start []). split; [constructor|]. constructor; cbn.
  - split; reflexivity.
  - constructor; cbn; try reflexivity; try discriminate. left. split; reflexivity.
  - discriminate.
Qed.

(** The contract of DecryptPayload(): the result has the size that the
    caller expects. *)
Hypothesis dec_payload_len : forall c n src c' r,
  dec_payload c n src = Some (c', r) -> len r + 4 + auth_size c = len src.

Definition good (s : istate) (stream : bytes) (trace : list (revent C)) (o : iop C) (res : iresult C) : Prop :=
  match res with
  | IOk _ s' e => inv s' (stream ++ fed o) (trace ++ map seen e)
  | IDisabled _ => True
  | _ => False
  end.

Ltac dest_enc E :=
  let r1 := fresh "r1" in
  destruct E as [Ewb Eeb (r1 & Ech & Eerr & Eok)].

Lemma good_Feed : forall s stream trace l,
  inv s stream trace -> i_closed C s = false ->
  good s stream trace (Feed C l) (do_Feed C s l).
Proof.
  intros s stream trace l (r & HR & [Hc Hm Hcl]) Hnc. unfold do_Feed.
  destruct (i_cur C s) eqn:Ecur; [exact I|].
  pose proof (reads_all_more _ _ _ l HR) as HR'. change (more (start stream) l) with (start (stream ++ l)) in HR'.
  destruct (i_encrypted C s) eqn:Een.
  - dest_enc Hm.
    destruct (if negb match i_raw C s ++ l with [] => true | _ => false end && negb (i_waiting C s)
              then add_job (i_job C s) (i_again C s) else (i_job C s, i_again C s)) as [job again] eqn:EJ.
    assert (J : busy job = busy (i_job C s) /\ local job = local (i_job C s) /\
                local_newkeys job = local_newkeys (i_job C s) /\
                (forall a b c, job = IBusy a b c -> i_job C s = IBusy a b c) /\
                ((job = IInitial \/ job = IDone /\ again = false) -> i_waiting C s = false ->
                 (i_job C s = IInitial \/ i_job C s = IDone /\ i_again C s = false) /\
                 i_raw C s ++ l = [])).
    { destruct (negb _ && negb _) eqn:EB.
      - destruct (i_job C s); cbn in EJ; injection EJ as <- <-;
          (refine (conj _ (conj _ (conj _ (conj _ _))));
          [reflexivity|reflexivity|reflexivity|intros a0 b0 c0 X; congruence|intros [X|[X Y]]; discriminate]).
      - injection EJ as <- <-. refine (conj _ (conj _ (conj _ (conj _ _)))); auto.
        intros X Y. split; [exact X|].
        destruct (i_raw C s ++ l); [reflexivity|]. cbn in EB. rewrite Y in EB. discriminate. }
    destruct J as (J1 & J2 & J3 & J4 & J5).
    cbn [good map fed]. rewrite app_nil_r. exists (more r l). split; [exact HR'|].
    constructor; cbn [i_encrypted upd].
    + unfold cur_rel in *. cbn. rewrite Ecur in *. exact Hc.
    + constructor; cbn [i_waiting i_job i_error upd].
      * rewrite J1. exact Ewb.
      * rewrite J1. exact Eeb.
      * exists (more r1 l). split; [|split].
        -- unfold unseen in *. cbn. rewrite Ecur in *. now apply chain_more.
        -- intro E. destruct (Eerr E) as [X1 X2]. split; [exact X1|now apply fails_more].
        -- intro E. destruct (Eok E) as (r2 & X1 & X2). exists (more r2 l). rewrite J2.
           split; [now apply chain_more|]. destruct X2.
           constructor; cbn; auto.
           ++ now rewrite J3.
           ++ rewrite w_rest0. now rewrite app_assoc.
           ++ intros X Y. destruct (J5 X Y) as [X1' X2'].
              rewrite <- (w_idle0 X1' Y).
              apply app_eq_nil in X2' as [_ ->]. now rewrite app_nil_r.
           ++ intros a b X. eapply w_found0; eauto.
           ++ intros a b X. eapply w_loop0; eauto.
           ++ intros a X. eapply w_stop0; eauto.
    + cbn. congruence.
  - destruct Hm. rewrite p_job0. cbn [idle negb].
    cbn [good map fed]. rewrite app_nil_r. exists (more r l). split; [exact HR'|].
    constructor; cbn [i_encrypted upd].
    + unfold cur_rel in *. cbn. rewrite Ecur in *. exact Hc.
    + constructor; cbn; auto.
      destruct p_rest0 as [[X1 X2]|(X1 & X2 & h & X3 & X4 & X5)]; [left|right].
      * split; congruence.
      * repeat split; auto. exists h. repeat split; auto. rewrite X5. now rewrite app_assoc.
    + cbn. congruence.
Qed.

Lemma good_close : forall s stream trace r o,
  reads_all (start stream) trace r -> rel s r -> fails r -> fed o = [] ->
  good s stream trace o (close C s).
Proof.
  intros s stream trace r o HR [Hc Hm Hcl] HF Ho. cbn [good close map]. rewrite Ho, !app_nil_r.
  exists r. split; [exact HR|]. constructor; cbn.
  - exact Hc.
  - destruct (i_encrypted C s); [|destruct Hm; constructor; auto].
    dest_enc Hm. constructor; cbn; auto. exists r1. split; [exact Ech|]. split; [exact Eerr|].
    intro E. destruct (Eok E) as (r2 & X1 & X2). exists r2. split; [exact X1|].
    destruct X2; constructor; cbn; auto.
  - auto.
Qed.

(** the second half of ReadUnencryptedPacket() *)
Lemma good_read_body : forall s stream trace r n raw h,
  reads_all (start stream) trace r -> rel s r ->
  i_closed C s = false -> i_cur C s = None -> i_encrypted C s = false ->
  acceptable n = true -> len h = 4 -> be32_at h = n -> r_rest C r = h ++ raw ->
  good s stream trace (Read C) (read_body C s n raw).
Proof.
  intros s stream trace r n raw h HR HRel Hnc Ecur Een Ha Lh Hh Hrest.
  assert (HRel' := HRel). destruct HRel' as [Hc Hm _]. rewrite Een in Hm. destruct Hm.
  unfold cur_rel in Hc. rewrite Ecur in Hc. destruct Hc as [Hseq Hw].
  pose proof (acceptable_ge _ Ha) as Hn.
  assert (D : decode (r_cipher C r) (r_seq C r) (r_rest C r) =
    if len raw <? n then NeedMore C
    else match unpad (take n raw) with Some m => Got C m None (drop n raw) | None => Bad C end).
  { unfold InputSpec.decode. rewrite p_cipher0, Hrest.
    assert (X : len (h ++ raw) <? 4 = false) by (apply N.ltb_ge; rewrite len_app; lia). rewrite X.
    rewrite be32_at_app by lia. rewrite Hh, Ha. cbn [negb].
    assert (Y : len (h ++ raw) <? 4 + n = (len raw <? n)).
    { rewrite len_app, Lh. destruct (len raw <? n) eqn:E; [apply N.ltb_lt in E; apply N.ltb_lt; lia|].
      apply N.ltb_ge in E. apply N.ltb_ge. lia. }
    rewrite Y. rewrite drop_app_ge by lia. rewrite Lh. change (4 - 4) with 0. rewrite drop_0.
    rewrite drop_app_ge by lia. rewrite Lh. replace (4 + n - 4) with n by lia. reflexivity. }
  unfold read_body. destruct (len raw <? n) eqn:EL.
  - cbn [good map fed]. rewrite !app_nil_r. exists r. split; [exact HR|]. constructor; cbn.
    + unfold cur_rel. cbn. split; assumption.
    + rewrite Een. constructor; cbn; auto.
      * intro X. congruence.
      * right. split; [lia|]. split; [assumption|]. exists h. repeat split; assumption.
    + congruence.
  - apply N.ltb_ge in EL. pose proof (unpad_model n (take n raw)) as U.
    rewrite len_take in U by assumption. specialize (U eq_refl ltac:(lia)).
    assert (Hhd : hd 0 (take n raw) = hd 0 raw).
    { destruct raw as [|x raw]; [rewrite len_nil in EL; lia|].
      unfold take. replace (N.to_nat n) with (S (N.to_nat (n - 1))) by lia. reflexivity. }
    rewrite Hhd in U. destruct (n - 2 <? hd 0 raw) eqn:EP.
    + rewrite U in D. eapply good_close; eauto. exists [], r. repeat split; [constructor|assumption|exact D].
    + destruct U as [U _]. rewrite U in D.
      set (m := take (n - hd 0 raw - 1) (drop 1 (take n raw))) in *.
      cbn [good map fed seen]. rewrite app_nil_r. eexists. split.
      * eapply reads_snoc; [exact HR|]. rewrite Hseq. apply reads_message; eassumption.
      * constructor; cbn.
        -- unfold cur_rel. cbn. rewrite Hseq. split; [reflexivity|]. rewrite is_newkeys_hd, andb_true_r.
           split; [reflexivity|]. congruence.
        -- rewrite Een. constructor; cbn; auto.
           rewrite is_newkeys_hd. destruct (hd 0 m =? 21); [reflexivity|congruence].
        -- congruence.
Qed.

Lemma good_Read : forall s stream trace,
  inv s stream trace -> i_closed C s = false -> good s stream trace (Read C) (do_Read C s).
Proof.
  intros s stream trace (r & HR & HRel) Hnc. unfold do_Read.
  destruct (i_cur C s) eqn:Ecur; [exact I|].
  assert (HRel' := HRel). destruct HRel' as [Hc Hm Hcl].
  unfold cur_rel in Hc. rewrite Ecur in Hc. destruct Hc as [Hseq Hw].
  destruct (i_encrypted C s) eqn:Een.
  - dest_enc Hm. unfold unseen in Ech. rewrite Ecur in Ech.
    destruct (i_error C s) eqn:Eer.
    + eapply good_close; eauto. destruct (Eerr eq_refl) as [_ (l & r' & F1 & F2 & F3)].
      exists (i_list C s ++ l), r'. split; [|auto]. apply chain_app. eauto.
    + destruct (Eok eq_refl) as (r2 & X1 & X2).
      destruct (i_list C s) as [|d l] eqn:El.
      * inversion Ech; subst r1. 
        destruct (i_waiting C s) eqn:Ew.
        { specialize (Ewb eq_refl). assert (HLJ : local (i_job C s) = []) by (destruct (i_job C s); try reflexivity; discriminate).
          rewrite HLJ in X1. inversion X1; subst. destruct X2. rewrite Ew in w_waiting0.
          cbn in w_waiting0. congruence. }
        cbn [good map fed]. rewrite !app_nil_r. exists r. split; [exact HR|]. constructor; cbn.
        -- unfold cur_rel. cbn. split; assumption.
        -- rewrite Een. constructor; cbn; auto; try congruence.
           exists r. split; [unfold unseen; cbn; rewrite El; constructor|].
           split; [congruence|]. intros _. exists r2. split; [exact X1|].
           destruct X2; constructor; cbn; rewrite ?Ew in *; auto.
        -- congruence.
      * inversion Ech as [|? ? r3 ? ? N1 N2]; subst. cbn [good map fed seen]. rewrite app_nil_r.
        assert (N1' := N1). unfold next in N1'. inversion N1' as [? ? cc rest W1 D1|]; subst.
        eexists. split.
        -- eapply reads_snoc; [exact HR|]. rewrite Hseq. exact N1.
        -- constructor; cbn.
           ++ unfold cur_rel. cbn. rewrite Hseq. split; [reflexivity|].
              rewrite is_newkeys_hd, andb_true_r. split; [reflexivity|]. rewrite El. discriminate.
           ++ rewrite Een. constructor; cbn; auto; try congruence.
              eexists. split; [unfold unseen; cbn; rewrite El; cbn; exact N2|].
              split; [congruence|]. intros _. exists r2. split; [exact X1|].
              destruct X2; constructor; cbn; auto.
           ++ congruence.
  - assert (Hm' := Hm). destruct Hm'. rewrite p_job0. cbn [idle negb].
    assert (Ew : i_waiting C s = false) by congruence. rewrite Ew.
    destruct p_rest0 as [[X1 X2]|(X1 & X2 & h & X3 & X4 & X5)].
    + rewrite X1. cbn [N.eqb]. destruct (len (i_raw C s) <? 4) eqn:E4.
      * cbn [good map fed]. rewrite !app_nil_r. exists r. split; [exact HR|]. constructor; cbn.
        -- unfold cur_rel. cbn. split; assumption.
        -- rewrite Een. constructor; cbn; auto; congruence.
        -- congruence.
      * apply N.ltb_ge in E4. rewrite length_ok_acceptable, header_length_be32_at.
        destruct (acceptable (be32_at (i_raw C s))) eqn:Ea.
        -- eapply good_read_body with (h := take 4 (i_raw C s)); eauto.
           ++ apply len_take. assumption.
           ++ rewrite <- (take_drop _ 4 (i_raw C s)) at 2. rewrite be32_at_app; [reflexivity|].
              rewrite len_take; lia.
           ++ rewrite X2. symmetry. apply take_drop.
        -- eapply good_close; eauto. exists [], r. split; [constructor|]. split; [assumption|].
           unfold InputSpec.decode. rewrite X2, p_cipher0. apply N.ltb_ge in E4. rewrite E4, Ea. reflexivity.
    + apply N.eqb_neq in X1. rewrite X1. eapply good_read_body; eauto.
Qed.

Lemma good_AutoResetSeq : forall s stream trace,
  inv s stream trace -> good s stream trace (AutoResetSeq C) (do_AutoResetSeq C s).
Proof.
  intros s stream trace (r & HR & [Hc Hm Hcl]). cbn [good do_AutoResetSeq map fed]. rewrite !app_nil_r.
  exists r. split; [exact HR|]. constructor; cbn; auto.
  destruct (i_encrypted C s); [|destruct Hm; constructor; auto].
  dest_enc Hm. constructor; cbn; auto. exists r1. split; [exact Ech|]. split; [exact Eerr|].
  intro E. destruct (Eok E) as (r2 & X1 & X2). exists r2. split; [exact X1|].
  destruct X2; constructor; cbn; auto.
Qed.

Lemma add_job_local : forall j a j' a', add_job j a = (j', a') ->
  local j' = local j /\ local_newkeys j' = local_newkeys j /\ busy j' = busy j /\
  (forall a b c, j' = IBusy a b c -> j = IBusy a b c) /\
  ~ (j' = IInitial \/ j' = IDone /\ a' = false).
Proof.
  intros j a j' a' H. destruct j; cbn in H; injection H as <- <-;
    (refine (conj _ (conj _ (conj _ (conj _ _))));
    [reflexivity|reflexivity|reflexivity|intros a0 b0 c0 X; congruence|intros [X|[X Y]]; discriminate]).
Qed.


Lemma good_SetCipher : forall s stream trace c,
  inv s stream trace -> i_closed C s = false ->
  good s stream trace (SetCipher C c) (do_SetCipher C s c).
Proof.
  intros s stream trace c (r & HR & [Hc Hm Hcl]) Hnc. unfold do_SetCipher.
  destruct (i_cur C s) as [p|] eqn:Ecur; [|exact I].
  destruct (negb (is_newkeys p) || i_set C s) eqn:Enk; [exact I|].
  apply orb_false_iff in Enk as [Enk Eset]. apply negb_false_iff in Enk.
  unfold cur_rel in Hc. rewrite Ecur, Enk, Eset in Hc. destruct Hc as (Hseq & Hw & Hl). cbn in Hw.
  destruct (add_job (i_job C s) (i_again C s)) as [job again] eqn:EJ.
  apply add_job_local in EJ as (J1 & J2 & J3 & J4 & J5).
  destruct (i_encrypted C s) eqn:Een.
  - dest_enc Hm.
    (* the whole chain is empty, because the reader waits for the cipher *)
    assert (U : unseen s = [] /\ r1 = r).
    { inversion Ech as [|? ? ? ? ? N1 N2]; subst; [split; reflexivity|].
      apply next_not_waiting in N1. congruence. }
    destruct U as [U ->].
    destruct (i_error C s) eqn:Eer.
    { destruct (Eerr eq_refl). congruence. }
    destruct (Eok eq_refl) as (r2 & X1 & X2).
    assert (L : local (i_job C s) = [] /\ r2 = r).
    { inversion X1 as [|? ? ? ? ? N1 N2]; subst; [split; reflexivity|].
      apply next_not_waiting in N1. congruence. }
    destruct L as [L ->]. destruct X2.
    assert (B : local_newkeys (i_job C s) = false).
    { destruct (i_job C s) as [| |l nk st|] eqn:EJb; try reflexivity.
      cbn in L |- *. subst l. destruct nk; [|reflexivity]. now specialize (w_found0 _ _ eq_refl). }
    rewrite B, orb_false_r in w_waiting0. rewrite <- w_waiting0, Hw. cbn [negb].
    rewrite (Ewb ltac:(congruence)). rewrite (w_wait1 Hw). cbn [N.eqb negb].
    cbn [good map fed seen]. rewrite app_nil_r. eexists. split.
    { eapply reads_snoc; [exact HR|]. apply reads_cipher. exact Hw. }
    constructor; cbn.
    + unfold cur_rel. cbn. rewrite ?Ecur, Enk. cbn.
      destruct (i_auto_reset_seq C s); split; auto.
    + constructor; cbn.
      * discriminate.
      * congruence.
      * eexists. split; [unfold unseen in *; cbn; rewrite ?Ecur in U; rewrite U; constructor|].
        split; [congruence|]. intros _. rewrite J1, L. eexists. split; [constructor|].
        constructor; cbn; auto.
        -- now rewrite J2, B.
        -- destruct (i_auto_reset_seq C s); [reflexivity|assumption].
        -- exists c. split; [reflexivity|]. left. split; reflexivity.
        -- intros X _. contradiction.
        -- intros l st X. apply J4 in X. eauto.
        -- intros l nk X. apply J4 in X. eauto.
        -- intros l X. apply J4 in X.
           specialize (Ewb ltac:(congruence)). rewrite X in Ewb. discriminate.
    + congruence.
  - destruct Hm. rewrite p_job0. cbn [busy].
    assert (Ew : i_waiting C s = true) by congruence. rewrite Ew. cbn [negb].
    rewrite (p_wait1 Ew). cbn [N.eqb negb].
    rewrite p_job0 in J1, J2, J3, J4. cbn in J1, J2, J3.
    cbn [good map fed seen]. rewrite app_nil_r. eexists. split.
    { eapply reads_snoc; [exact HR|]. apply reads_cipher. exact Hw. }
    constructor; cbn.
    + unfold cur_rel. cbn. rewrite ?Ecur, Enk. cbn.
      destruct (i_auto_reset_seq C s); split; auto.
    + constructor; cbn.
      * discriminate.
      * congruence.
      * eexists. split; [unfold unseen; cbn; rewrite ?Ecur, p_consumed0, p_list0; constructor|].
        split; [congruence|]. intros _. rewrite J1. eexists. split; [constructor|].
        constructor; cbn; auto.
        -- destruct (i_auto_reset_seq C s); [reflexivity|]. now rewrite <- Hseq.
        -- rewrite p_unprot0. destruct p_rest0 as [[_ X]|[X _]]; [exact X|]. specialize (p_wait1 Ew). contradiction.
        -- exists c. split; [reflexivity|]. left. split; reflexivity.
        -- intros X _. contradiction.
        -- intros l st X. apply J4 in X. discriminate.
        -- intros l nk X. apply J4 in X. discriminate.
        -- intros l X. apply J4 in X. discriminate.
    + congruence.
Qed.

Lemma good_Consume : forall s stream trace,
  inv s stream trace -> i_closed C s = false ->
  good s stream trace (Consume C) (do_Consume C s).
Proof.
  intros s stream trace (r & HR & [Hc Hm Hcl]) Hnc. unfold do_Consume.
  destruct (i_cur C s) as [p|] eqn:Ecur; [|exact I].
  destruct (is_newkeys p && negb (i_set C s)) eqn:Enk; [exact I|].
  unfold cur_rel in Hc. rewrite Ecur, Enk in Hc. destruct Hc as (Hseq & Hw & Hl).
  assert (K : forall l, unseen s = l -> good s stream trace (Consume C)
    (IOk C {| i_read_seq := inc (i_read_seq C s); i_decrypt_seq := i_decrypt_seq C s;
               i_packet_length := i_packet_length C s; i_cipher := i_cipher C s; i_raw := i_raw C s;
               i_unprot := i_unprot C s; i_list := l; i_error := i_error C s;
               i_encrypted := i_encrypted C s; i_waiting := i_waiting C s;
               i_consumed_encrypted := i_consumed_encrypted C s;
               i_auto_reset_seq := i_auto_reset_seq C s; i_job := i_job C s; i_again := i_again C s;
               i_cur := None; i_set := false; i_closed := i_closed C s |} [])).
  { intros l U. cbn [good map fed]. rewrite !app_nil_r. exists r. split; [exact HR|]. constructor; cbn.
    - unfold cur_rel. cbn. split; assumption.
    - destruct (i_encrypted C s) eqn:Een.
      + dest_enc Hm. constructor; cbn; auto. exists r1. rewrite U in Ech. split; [exact Ech|].
        split; [exact Eerr|]. intro E. destruct (Eok E) as (r2 & X1 & X2). exists r2.
        split; [exact X1|]. destruct X2; constructor; cbn; auto.
      + destruct Hm. constructor; cbn; auto.
        rewrite <- U. unfold unseen. now rewrite Ecur, p_consumed0.
    - congruence. }
  unfold unseen in K. rewrite Ecur in K. destruct (i_consumed_encrypted C s) eqn:Ece.
  - destruct (i_list C s) as [|d l] eqn:El; [now apply Hl|]. apply K. reflexivity.
  - apply K. reflexivity.
Qed.

(** the steps of the worker only matter to [enc_rel] *)
Lemma good_worker : forall s stream trace o s' ,
  inv s stream trace -> fed o = [] ->
  i_cur C s' = i_cur C s -> i_set C s' = i_set C s -> i_closed C s' = i_closed C s ->
  i_read_seq C s' = i_read_seq C s -> i_consumed_encrypted C s' = i_consumed_encrypted C s ->
  i_encrypted C s' = i_encrypted C s -> i_job C s <> IInitial ->
  (i_list C s <> [] -> i_list C s' <> []) ->
  (forall r, i_encrypted C s = true -> (match i_cur C s with Some _ => i_consumed_encrypted C s = true -> i_list C s <> [] | None => True end) -> enc_rel s r -> enc_rel s' r) ->
  good s stream trace o (IOk C s' []).
Proof.
  intros s stream trace o s' (r & HR & [Hc Hm Hcl]) Ho H1 H2 H3 H4 H5 H6 H7 H8 H9.
  cbn [good map]. rewrite Ho, !app_nil_r. exists r. split; [exact HR|]. constructor.
  - unfold cur_rel in *. rewrite H1, H2, H4, H5. destruct (i_cur C s); [|assumption].
    destruct Hc as (A & B & D). repeat split; auto.
  - rewrite H6. destruct (i_encrypted C s) eqn:Een.
    + apply H9; auto. unfold cur_rel in Hc. destruct (i_cur C s); [|exact I]. apply Hc.
    + destruct Hm. contradiction.
  - rewrite H3. exact Hcl.
Qed.

Lemma good_RunBegin : forall s stream trace k,
  inv s stream trace -> good s stream trace (RunBegin C k) (do_RunBegin C s k).
Proof.
  intros s stream trace k H. unfold do_RunBegin.
  destruct (i_job C s) eqn:EJ; try exact I.
  destruct (i_error C s || i_waiting C s) eqn:EE.
  - apply good_worker; auto; cbn; try congruence.
    intros r Een _ Hm. dest_enc Hm. constructor; cbn; auto.
    + intro E. split; [reflexivity|]. now apply Eeb.
    + exists r1. split; [exact Ech|]. split; [exact Eerr|]. intro E. rewrite E in EE. cbn in EE.
      destruct (Eok E) as (r2 & X1 & X2). rewrite EJ in X1. exists r2. split; [exact X1|].
      destruct X2. rewrite EJ in *. constructor; cbn; auto; try discriminate. congruence.
  - apply orb_false_iff in EE as [Ee Ew]. apply good_worker; auto; cbn; try congruence.
    intros r Een _ Hm. dest_enc Hm. constructor; cbn; try congruence.
    exists r1. split; [exact Ech|]. split; [exact Eerr|]. intro E.
    destruct (Eok E) as (r2 & X1 & X2). rewrite EJ in X1. exists r2. split; [exact X1|].
    destruct X2. rewrite EJ in *. constructor; cbn; auto; try discriminate.
    + rewrite <- app_assoc, take_drop. assumption.
    + destruct w_cipher0 as (c0 & Y1 & Y2). exists c0. split; [exact Y1|].
      destruct Y2 as [Y2|(Y2 & Y3 & Y4 & c1 & h & Y5 & Y6 & Y7)]; [now left|right].
      repeat split; auto.
      * rewrite len_app. lia.
      * exists c1, h. rewrite take_app_le by assumption. auto.
    + intros [X|[X _]]; discriminate.
    + intros l nk X. injection X as _ <- . reflexivity.
Qed.

Lemma good_RunEnd : forall s stream trace k,
  inv s stream trace -> good s stream trace (RunEnd C k) (do_RunEnd C s k).
Proof.
  intros s stream trace k H. unfold do_RunEnd.
  destruct (i_job C s) as [| |l nk [|]|] eqn:EJ; try exact I.
  assert (Hm : i_encrypted C s = true /\ i_waiting C s = false).
  { destruct H as (r & _ & [_ Hm _]). destruct (i_encrypted C s).
    - split; [reflexivity|]. dest_enc Hm. destruct (i_waiting C s); [|reflexivity].
      rewrite EJ in Ewb. now specialize (Ewb eq_refl).
    - destruct Hm. congruence. }
  destruct Hm as [Een Ew]. rewrite Ew.
  apply good_worker; auto; cbn; try congruence.
  { intros X Y. apply app_eq_nil in Y as [Y _]. contradiction. }
  intros r _ Hcur Hm. dest_enc Hm.
  destruct (i_error C s) eqn:Ee.
  { rewrite EJ in Eeb. destruct (Eeb eq_refl). discriminate. }
  destruct (Eok eq_refl) as (r2 & X1 & X2). rewrite EJ in X1. cbn in X1.
  constructor; cbn; try congruence; auto.
  exists r2. split.
  - assert (U : unseen (upd C s (i_read_seq C s) (i_decrypt_seq C s) (i_packet_length C s) (i_cipher C s)
               (drop k (i_raw C s)) (i_unprot C s ++ take k (i_raw C s)) (i_list C s ++ l) false
               (i_encrypted C s) nk IDone
               (match i_raw C s with [] => i_again C s | _ => true end)) = unseen s ++ l).
    { unfold unseen. cbn. destruct (i_cur C s); [|reflexivity].
      destruct (i_consumed_encrypted C s); [|reflexivity].
      destruct (i_list C s); [now specialize (Hcur eq_refl)|reflexivity]. }
    rewrite U. apply chain_app. eauto.
  - split; [congruence|]. intros _. exists r2. split; [constructor|].
    destruct X2. rewrite EJ, Ew in *. cbn in w_waiting0.
    constructor; cbn; auto; try discriminate.
    + now rewrite orb_false_r.
    + rewrite <- app_assoc, take_drop. assumption.
    + destruct w_cipher0 as (c0 & Y1 & Y2). exists c0. split; [exact Y1|].
      destruct Y2 as [Y2|(Y2 & Y3 & Y4 & c1 & h & Y5 & Y6 & Y7)]; [now left|right].
      repeat split; auto.
      * rewrite len_app. lia.
      * exists c1, h. rewrite take_app_le by assumption. auto.
    + intros [X|[_ X]] Hnk; [discriminate|]. subst nk.
      destruct (i_raw C s) eqn:ER; [|discriminate].
      rewrite w_rest0, app_nil_r. eapply (w_stop0 l). congruence.
Qed.

Lemma good_Wakeup : forall s stream trace,
  inv s stream trace -> good s stream trace (Wakeup C) (do_Wakeup C s).
Proof.
  intros s stream trace H. unfold do_Wakeup.
  destruct (i_job C s) eqn:EJ; try exact I.
  apply good_worker; auto; cbn; try congruence.
  intros r Een _ Hm. dest_enc Hm.
  assert (B : busy (if i_again C s then IWaiting else IInitial) = false) by (destruct (i_again C s); reflexivity).
  constructor; cbn; rewrite ?B; auto.
  - intro E. split; [reflexivity|]. now apply Eeb.
  - exists r1. split; [exact Ech|]. split; [exact Eerr|]. intro E.
    destruct (Eok E) as (r2 & X1 & X2). rewrite EJ in X1. exists r2.
    split; [destruct (i_again C s); exact X1|].
    destruct X2. rewrite EJ in *. destruct (i_again C s) eqn:EA; constructor; cbn; auto; try discriminate.
    intros [X|[X _]]; discriminate.
Qed.

(** one iteration of the loop in Run() *)
Lemma good_RunLoop : forall s stream trace,
  inv s stream trace ->
  good s stream trace (RunLoop C) (do_RunLoop C auth_size dec_header dec_payload s).
Proof.
  intros s stream trace H. unfold do_RunLoop.
  destruct (i_job C s) as [| |l nk [|]|] eqn:EJ; try exact I.
  (* first: the facts for the current reader *)
  assert (Hm : i_encrypted C s = true /\ i_waiting C s = false /\ i_error C s = false /\
               exists r r1 r2, enc_rel s r /\ chain r (unseen s) r1 /\ chain r1 l r2 /\ work_rel s r2).
  { destruct H as (r & _ & [_ Hm _]). destruct (i_encrypted C s).
    - assert (Hm' := Hm). dest_enc Hm'. rewrite EJ in *. split; [reflexivity|].
      destruct (i_waiting C s) eqn:Ew; [now specialize (Ewb eq_refl)|].
      destruct (i_error C s) eqn:Ee; [destruct (Eeb eq_refl); discriminate|].
      destruct (Eok eq_refl) as (r2 & X1 & X2). repeat split. exists r, r1, r2. auto.
    - destruct Hm. congruence. }
  destruct Hm as (Een & Ew & Ee & _).
  (* generic continuations *)
  assert (STOP : forall n c, (forall r2, work_rel s r2 ->
      (exists c0, r_cipher C r2 = Some c0 /\
       ((n = 0 /\ c = c0) \/
        (n <> 0 /\ acceptable n = true /\ 4 <= len (i_unprot C s) /\
         exists h, dec_header c0 (i_decrypt_seq C s) (take 4 (i_unprot C s)) = Some (c, h) /\ be32_at h = n))) /\
      decode (r_cipher C r2) (r_seq C r2) (i_unprot C s) = NeedMore C) ->
    good s stream trace (RunLoop C) (run_stop C s l false n c)).
  { intros n c HS. unfold run_stop. apply good_worker; auto; cbn; try congruence.
    intros r _ _ Hm. dest_enc Hm. constructor; cbn; try congruence.
    exists r1. split; [exact Ech|]. split; [exact Eerr|]. intro E.
    destruct (Eok E) as (r2 & X1 & X2). exists r2. rewrite EJ in X1. split; [exact X1|].
    destruct (HS r2 X2) as [(c0 & Y1 & Y2) Y3]. assert (X2' := X2). destruct X2. rewrite EJ in *.
    specialize (w_loop0 _ _ eq_refl). subst nk.
    constructor; cbn; auto; try discriminate.
    - rewrite w_waiting0, Ew. discriminate.
    - exists c0. split; [exact Y1|]. destruct Y2 as [[-> ->]|(Y4 & Y5 & Y6 & h & Y7 & Y8)].
      + left. split; reflexivity.
      + right. repeat split; auto. exists c, h. auto.
    - intros [X|[X _]]; discriminate. }
  assert (ERR : forall n c u, (forall r2, work_rel s r2 ->
      decode (r_cipher C r2) (r_seq C r2) (i_unprot C s) = Bad C) ->
    good s stream trace (RunLoop C) (run_error C s n c u)).
  { intros n c u HS. unfold run_error. apply good_worker; auto; cbn; try congruence.
    intros r _ _ Hm. dest_enc Hm. constructor; cbn; auto.
    exists r1. split; [exact Ech|]. split; [|congruence]. intros _.
    destruct (Eok Ee) as (r2 & X1 & X2). rewrite EJ in X1. cbn in X1.
    assert (W2 : r_waiting C r2 = false).
    { destruct X2. rewrite EJ, Ew in w_waiting0. cbn in w_waiting0.
      rewrite EJ in w_loop0. specialize (w_loop0 _ _ eq_refl). congruence. }
    split.
    - inversion X1; subst; [assumption|]. now apply next_not_waiting in H0.
    - exists l, r2. split; [exact X1|]. split; [exact W2|].
      specialize (HS r2 X2). destruct X2. rewrite w_rest0.
      pose proof (decode_more (r_cipher C r2) (r_seq C r2) (i_unprot C s) (i_raw C s)) as M.
      rewrite HS in M. exact M. }
  assert (PAY : forall n c, acceptable n = true -> 4 <= len (i_unprot C s) ->
    (forall r2, work_rel s r2 -> exists c0 h, r_cipher C r2 = Some c0 /\ be32_at h = n /\
       dec_header c0 (i_decrypt_seq C s) (take 4 (i_unprot C s)) = Some (c, h)) ->
    good s stream trace (RunLoop C) (run_payload C auth_size dec_payload s l n c)).
  { intros n c Ha L4 HP. pose proof (acceptable_ge _ Ha) as Hn. unfold run_payload.
    set (need := 4 + n + auth_size c).
    assert (D : forall r2, work_rel s r2 ->
      decode (r_cipher C r2) (r_seq C r2) (i_unprot C s) =
      if len (i_unprot C s) <? need then NeedMore C
      else match dec_payload c (i_decrypt_seq C s) (take need (i_unprot C s)) with
           | None => Bad C
           | Some (c, body) => match unpad body with
                               | Some m => Got C m (Some c) (drop need (i_unprot C s))
                               | None => Bad C
                               end
           end).
    { intros r2 X2. destruct (HP r2 X2) as (c0 & h & Y1 & Y2 & Y3). destruct X2.
      unfold InputSpec.decode. apply N.ltb_ge in L4. rewrite L4, Y1, w_seq0, Y3, Y2, Ha. reflexivity. }
    destruct (len (i_unprot C s) <? need) eqn:EL.
    - apply STOP. intros r2 X2. split; [|now apply D].
      destruct (HP r2 X2) as (c0 & h & Y1 & Y2 & Y3). exists c0. split; [exact Y1|]. right.
      split; [lia|]. repeat split; auto. eauto.
    - destruct (dec_payload c (i_decrypt_seq C s) (take need (i_unprot C s))) as [[c2 body]|] eqn:ED.
      + apply N.ltb_ge in EL.
        assert (LB : len body = n).
        { apply dec_payload_len in ED. rewrite len_take in ED by assumption. unfold need in ED. lia. }
        rewrite LB, N.eqb_refl. cbn [negb].
        pose proof (unpad_model n body LB ltac:(lia)) as U.
        destruct (n - 2 <? hd 0 body) eqn:EP.
        * apply ERR. intros r2 X2. rewrite (D r2 X2), U. reflexivity.
        * destruct U as [U1 U2]. rewrite U2.
          set (m := take (n - hd 0 body - 1) (drop 1 body)) in *.
          apply good_worker; auto; cbn; try congruence.
          intros r _ _ Hm. dest_enc Hm. constructor; cbn; try congruence.
          exists r1. split; [exact Ech|]. split; [congruence|]. intros _.
          destruct (Eok Ee) as (r2 & X1 & X2). rewrite EJ in X1. cbn in X1.
          specialize (D r2 X2). rewrite U1 in D.
          assert (W2 : r_waiting C r2 = false).
          { destruct X2. rewrite EJ, Ew in w_waiting0. cbn in w_waiting0.
            rewrite EJ in w_loop0. specialize (w_loop0 _ _ eq_refl). congruence. }
          pose proof (decode_more (r_cipher C r2) (r_seq C r2) (i_unprot C s) (i_raw C s)) as M.
          rewrite D in M. destruct X2. rewrite <- w_rest0 in M.
          pose proof (reads_message C auth_size dec_header dec_payload r2 m _ _ W2 M) as NX.
          eexists. split.
          { apply chain_app. exists r2. split; [exact X1|].
            econstructor; [|constructor]. unfold next. rewrite U2. exact NX. }
          constructor; cbn; auto.
          -- now rewrite Ew, is_newkeys_hd.
          -- now rewrite w_seq0.
          -- exists c2. split; [reflexivity|]. left. split; reflexivity.
          -- intros [X|[X _]]; discriminate.
          -- intros l0 st X. injection X as <- _ _. intro Y. apply app_eq_nil in Y as [_ Y]. discriminate.
          -- intros l0 nk0 X. injection X as _ <- X. exact X.
          -- intros l0 X. injection X as _ Y1 Y2. congruence.
      + apply ERR. intros r2 X2. now rewrite (D r2 X2). }
  destruct (i_cipher C s) as [c|] eqn:Eci.
  2:{ destruct H as (r & _ & [_ Hm _]). rewrite Een in Hm. dest_enc Hm. destruct (Eok Ee) as (r2 & _ & X2).
      destruct X2. destruct w_cipher0 as (c0 & _ & [[_ X]|(_ & _ & _ & c1 & h & _ & _ & X)]); congruence. }
  destruct (i_packet_length C s =? 0) eqn:E0.
  - apply N.eqb_eq in E0.
    assert (CC : forall r2, work_rel s r2 -> r_cipher C r2 = Some c).
    { intros r2 X2. destruct X2. destruct w_cipher0 as (c0 & Y & [[_ X]|(X & _)]); congruence. }
    destruct (len (i_unprot C s) <? 4) eqn:E4.
    + apply STOP. intros r2 X2. split.
      * exists c. split; [now apply CC|]. left. split; reflexivity.
      * unfold InputSpec.decode. now rewrite E4.
    + destruct (dec_header c (i_decrypt_seq C s) (take 4 (i_unprot C s))) as [[c1 h]|] eqn:EH.
      * rewrite length_ok_acceptable, header_length_be32_at. destruct (acceptable (be32_at h)) eqn:Ea.
        -- apply PAY; auto; [now apply N.ltb_ge|]. intros r2 X2. exists c, h. repeat split; auto.
        -- apply ERR. intros r2 X2. unfold InputSpec.decode. rewrite E4, (CC r2 X2).
           destruct X2. now rewrite w_seq0, EH, Ea.
      * apply ERR. intros r2 X2. unfold InputSpec.decode. rewrite E4, (CC r2 X2).
        destruct X2. now rewrite w_seq0, EH.
  - apply N.eqb_neq in E0.
    assert (F : forall r2, work_rel s r2 -> acceptable (i_packet_length C s) = true /\ 4 <= len (i_unprot C s) /\
       exists c0 h, r_cipher C r2 = Some c0 /\ be32_at h = i_packet_length C s /\
       dec_header c0 (i_decrypt_seq C s) (take 4 (i_unprot C s)) = Some (c, h)).
    { intros r2 X2. destruct X2. destruct w_cipher0 as (c0 & Y & [[X _]|(_ & X1 & X2 & c1 & h & X3 & X4 & X5)]); [contradiction|].
      repeat split; auto. exists c0, h. repeat split; auto. congruence. }
    assert (G : acceptable (i_packet_length C s) = true /\ 4 <= len (i_unprot C s)).
    { destruct H as (r & _ & [_ Hm _]). rewrite Een in Hm. dest_enc Hm. destruct (Eok Ee) as (r2 & _ & X2).
      destruct (F r2 X2) as (A & B & _). split; assumption. }
    destruct G as [G1 G2]. apply PAY; auto. intros r2 X2. now destruct (F r2 X2) as (_ & _ & X).
Qed.

(** The central lemma. *)
Lemma inv_step : forall s stream trace o,
  inv s stream trace -> good s stream trace o (istep s o).
Proof.
  intros s stream trace o H. unfold Input.istep.
  destruct o; try (destruct (i_closed C s) eqn:Ecl; [exact I|]);
    auto using good_Feed, good_Read, good_SetCipher, good_AutoResetSeq, good_Consume,
               good_RunBegin, good_RunLoop, good_RunEnd, good_Wakeup.
Qed.

Lemma inv_runs : forall ops s stream trace, iruns ops s stream trace -> inv s stream trace.
Proof.
  intros ops s stream trace H. induction H as [|ops s stream trace o s' e _ IH E].
  - apply inv_new.
  - pose proof (inv_step s stream trace o IH) as G. rewrite E in G. exact G.
Qed.


(** ** Consequences *)

Lemma chain_reads_all : forall l r0 t r r', reads_all r0 t r -> chain r l r' ->
  exists ms, reads_all r0 (t ++ ms) r' /\ forall e, In e ms -> exists n m, e = Message n m.
Proof.
  induction l as [|d l IH]; intros r0 t r r' H HC; inversion HC as [|? ? r1 ? ? N1 N2]; subst.
  - exists []. rewrite app_nil_r. split; [assumption|]. intros e [].
  - destruct (IH r0 (t ++ [Message (r_seq C r) (drop 1 d)]) r1 r') as (ms & X1 & X2); [|assumption|].
    { eapply reads_snoc; eauto. }
    exists (Message (r_seq C r) (drop 1 d) :: ms). rewrite <- app_assoc in X1. split; [exact X1|].
    intros e [<-|Hin]; eauto.
Qed.

(** What ReadPacket() tells. *)
Lemma Read_cases : forall s stream trace,
  inv s stream trace -> i_closed C s = false -> i_cur C s = None ->
  exists r, reads_all (start stream) trace r /\ r_waiting C r = false /\
    exists s' e, istep s (Read C) = IOk C s' e /\
    ((exists n m, e = [Deliver C n m] /\ i_closed C s' = false) \/
     (e = [] /\ i_closed C s' = true /\ fails r) \/
     (e = [] /\ i_closed C s' = false /\
      (i_job C s = IInitial -> decode (r_cipher C r) (r_seq C r) (r_rest C r) = NeedMore C))).
Proof.
  intros s stream trace (r & HR & HRel) Hnc Ecur. exists r. split; [exact HR|].
  assert (HRel' := HRel). destruct HRel' as [Hc Hm Hcl].
  unfold cur_rel in Hc. rewrite Ecur in Hc. destruct Hc as [Hseq Hw]. split; [exact Hw|].
  unfold Input.istep. rewrite Hnc. unfold do_Read. rewrite Ecur.
  destruct (i_encrypted C s) eqn:Een.
  - dest_enc Hm. unfold unseen in Ech. rewrite Ecur in Ech.
    destruct (i_error C s) eqn:Eer.
    + do 2 eexists. split; [reflexivity|]. right. left. split; [reflexivity|]. split; [reflexivity|].
      destruct (Eerr eq_refl) as [_ (l & r' & F1 & F2 & F3)].
      exists (i_list C s ++ l), r'. split; [|auto]. apply chain_app. eauto.
    + destruct (Eok eq_refl) as (r2 & X1 & X2).
      destruct (i_list C s) as [|d l] eqn:El.
      * inversion Ech; subst r1.
        destruct (i_waiting C s) eqn:Ew.
        { specialize (Ewb eq_refl). assert (HLJ : local (i_job C s) = []) by (destruct (i_job C s); try reflexivity; discriminate).
          rewrite HLJ in X1. inversion X1; subst. destruct X2. rewrite Ew in w_waiting0.
          cbn in w_waiting0. congruence. }
        do 2 eexists. split; [reflexivity|]. right. right. split; [reflexivity|]. split; [exact Hnc|].
        intro EJ. rewrite EJ in X1. inversion X1; subst. destruct X2. apply w_idle0; auto.
      * do 2 eexists. split; [reflexivity|]. left. eauto.
  - destruct Hm. assert (Hid : idle (i_job C s) = true) by now rewrite p_job0. rewrite Hid. cbn [negb].
    assert (Ew : i_waiting C s = false) by congruence. rewrite Ew.
    assert (BODY : forall n h raw, acceptable n = true -> len h = 4 -> be32_at h = n -> r_rest C r = h ++ raw ->
      exists s' e, read_body C s n raw = IOk C s' e /\
      ((exists n m, e = [Deliver C n m] /\ i_closed C s' = false) \/
       (e = [] /\ i_closed C s' = true /\ fails r) \/
       (e = [] /\ i_closed C s' = false /\
        (i_job C s = IInitial -> decode (r_cipher C r) (r_seq C r) (r_rest C r) = NeedMore C)))).
    { intros n h raw Ha Lh Hh Hrest. pose proof (acceptable_ge _ Ha) as Hn.
      assert (D : decode (r_cipher C r) (r_seq C r) (r_rest C r) =
        if len raw <? n then NeedMore C
        else match unpad (take n raw) with Some m => Got C m None (drop n raw) | None => Bad C end).
      { unfold InputSpec.decode. rewrite p_cipher0, Hrest.
        assert (X : len (h ++ raw) <? 4 = false) by (apply N.ltb_ge; rewrite len_app; lia). rewrite X.
        rewrite be32_at_app by lia. rewrite Hh, Ha. cbn [negb].
        assert (Y : len (h ++ raw) <? 4 + n = (len raw <? n)).
        { rewrite len_app, Lh. destruct (len raw <? n) eqn:E; [apply N.ltb_lt in E; apply N.ltb_lt; lia|].
          apply N.ltb_ge in E. apply N.ltb_ge. lia. }
        rewrite Y. rewrite drop_app_ge by lia. rewrite Lh. change (4 - 4) with 0. rewrite drop_0.
        rewrite drop_app_ge by lia. rewrite Lh. replace (4 + n - 4) with n by lia. reflexivity. }
      unfold read_body. destruct (len raw <? n) eqn:EL.
      - do 2 eexists. split; [reflexivity|]. right. right. repeat split; auto.
      - apply N.ltb_ge in EL. pose proof (unpad_model n (take n raw)) as U.
        rewrite len_take in U by assumption. specialize (U eq_refl ltac:(lia)).
        assert (Hhd : hd 0 (take n raw) = hd 0 raw).
        { destruct raw as [|x raw]; [rewrite len_nil in EL; lia|].
          unfold take. replace (N.to_nat n) with (S (N.to_nat (n - 1))) by lia. reflexivity. }
        rewrite Hhd in U. destruct (n - 2 <? hd 0 raw) eqn:EP.
        + rewrite U in D. do 2 eexists. split; [reflexivity|]. right. left. split; [reflexivity|].
          split; [reflexivity|]. exists [], r. repeat split; [constructor|assumption|exact D].
        + do 2 eexists. split; [reflexivity|]. left. do 2 eexists. split; [reflexivity|exact Hnc]. }
    destruct p_rest0 as [[X1 X2]|(X1 & X2 & h & X3 & X4 & X5)].
    + rewrite X1. cbn [N.eqb]. destruct (len (i_raw C s) <? 4) eqn:E4.
      * do 2 eexists. split; [reflexivity|]. right. right. split; [reflexivity|]. split; [exact Hnc|].
        intros _. unfold InputSpec.decode. now rewrite X2, E4.
      * apply N.ltb_ge in E4. rewrite length_ok_acceptable, header_length_be32_at.
        destruct (acceptable (be32_at (i_raw C s))) eqn:Ea.
        -- apply BODY with (h := take 4 (i_raw C s)); auto.
           ++ apply len_take. assumption.
           ++ rewrite <- (take_drop _ 4 (i_raw C s)) at 2. rewrite be32_at_app; [reflexivity|].
              rewrite len_take; lia.
           ++ rewrite X2. symmetry. apply take_drop.
        -- do 2 eexists. split; [reflexivity|]. right. left. split; [reflexivity|]. split; [reflexivity|].
           exists [], r. split; [constructor|]. split; [assumption|].
           unfold InputSpec.decode. rewrite X2, p_cipher0. apply N.ltb_ge in E4. rewrite E4, Ea. reflexivity.
    + apply N.eqb_neq in X1. rewrite X1. eapply BODY; eauto.
Qed.

Lemma decode_sizes : forall c n s m c' rest, decode c n s = Got C m c' rest -> 1 <= len m <= 34999.
Proof.
  intros c n s m c' rest H. unfold InputSpec.decode in H.
  assert (U : forall body k, len body = k -> k <= 35000 -> unpad body = Some m -> 1 <= len m <= 34999).
  { intros [|p l] k L Hk HU; [discriminate|]. cbn in HU. rewrite len_cons in L.
    destruct (p + 1 <=? len l) eqn:E; [|discriminate]. apply N.leb_le in E.
    apply Some_inj in HU as <-. rewrite len_take by lia. lia. }
  destruct (len s <? 4) eqn:E4; [discriminate|]. destruct c as [c|].
  - destruct (dec_header _ _ _) as [[c1 h]|]; [|discriminate].
    destruct (acceptable (be32_at h)) eqn:Ea; [|discriminate]. apply acceptable_ge in Ea. cbn [negb] in H.
    destruct (len s <? 4 + be32_at h + auth_size c1) eqn:EL; [discriminate|]. apply N.ltb_ge in EL.
    destruct (dec_payload c1 n (take (4 + be32_at h + auth_size c1) s)) as [[c2 body]|] eqn:ED; [|discriminate].
    apply dec_payload_len in ED. rewrite len_take in ED by assumption.
    destruct (unpad body) eqn:EU; [|discriminate]. injection H as <- _ _.
    eapply U with (k := be32_at h); eauto; lia.
  - destruct (acceptable (be32_at s)) eqn:Ea; [|discriminate]. apply acceptable_ge in Ea. cbn [negb] in H.
    destruct (len s <? 4 + be32_at s) eqn:EL; [discriminate|]. apply N.ltb_ge in EL.
    destruct (unpad (take (be32_at s) (drop 4 s))) eqn:EU; [|discriminate]. injection H as <- _ _.
    eapply U; [|apply Ea|exact EU]. apply len_take. rewrite len_drop. lia.
Qed.

Lemma reads_all_sizes : forall r t r', reads_all r t r' ->
  forall n m, In (Message n m) t -> 1 <= len m <= 34999.
Proof.
  intros r t r' H. induction H as [|r l r1 e r2 H IH H2]; intros n m Hin; [destruct Hin|].
  apply in_app_or in Hin as [Hin|[->|[]]]; [eauto|]. inversion H2; subst. eapply decode_sizes; eauto.
Qed.

Lemma reads_det : forall r e r1 r2, reads r e r1 -> reads r e r2 -> r1 = r2.
Proof. intros r e r1 r2 H1 H2. inversion H1; subst; inversion H2; subst; congruence. Qed.

Lemma reads_all_inv : forall r l r', reads_all r l r' ->
  (l = [] /\ r = r') \/ exists l0 r1 e, l = l0 ++ [e] /\ reads_all r l0 r1 /\ reads r1 e r'.
Proof. intros r l r' H. destruct H as [r|r l r1 e r2 H H2]; [now left|right]. exists l, r1, e. auto. Qed.

Lemma reads_all_split : forall b a r r', reads_all r (a ++ b) r' ->
  exists r1, reads_all r a r1 /\ reads_all r1 b r'.
Proof.
  induction b as [|e b IH] using rev_ind; intros a r r' H.
  - rewrite app_nil_r in H. exists r'. split; [assumption|constructor].
  - rewrite app_assoc in H. apply reads_all_inv in H as [[X _]|(l0 & r1 & e0 & X & H1 & H2)].
    { symmetry in X. now apply app_cons_not_nil in X. }
    apply app_inj_tail in X as [<- <-]. apply IH in H1 as (r3 & H3 & H4).
    exists r3. split; [assumption|]. eapply reads_snoc; eauto.
Qed.

Lemma reads_all_nil : forall r r', reads_all r [] r' -> r = r'.
Proof.
  intros r r' H. apply reads_all_inv in H as [[_ X]|(l0 & r1 & e0 & X & _)]; [assumption|].
  now apply app_cons_not_nil in X.
Qed.

Lemma reads_all_cons : forall e l r r', reads_all r (e :: l) r' ->
  exists r1, reads r e r1 /\ reads_all r1 l r'.
Proof.
  intros e l r r' H. change (e :: l) with ([e] ++ l) in H. apply reads_all_split in H as (r1 & H1 & H2).
  exists r1. split; [|assumption].
  apply reads_all_inv in H1 as [[X _]|(l0 & r2 & e0 & X & H3 & H4)]; [discriminate|].
  change [e] with ([] ++ [e]) in X. apply app_inj_tail in X as [<- <-].
  apply reads_all_nil in H3. now subst.
Qed.

Lemma reads_all_det : forall l r r1 r2, reads_all r l r1 -> reads_all r l r2 -> r1 = r2.
Proof.
  induction l as [|e l IH]; intros r r1 r2 H1 H2.
  - apply reads_all_nil in H1, H2. congruence.
  - apply reads_all_cons in H1 as (r3 & H3 & H4). apply reads_all_cons in H2 as (r4 & H5 & H6).
    assert (r3 = r4) by (eapply reads_det; eauto). subst. eauto.
Qed.

End Input.
