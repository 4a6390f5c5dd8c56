(** The channel table agrees with the state of each number on the wire. *)

From Coq Require Import NArith List Bool Lia String FinFun.
From Verif.Base Require Import Bytes.
From Verif.Model Require Import Wire Frame Packets Requests Channels.
From Verif.Spec Require Import ChannelSpec.
From Verif.Proofs Require Import ChannelSteps.
Import ListNotations.
Open Scope N_scope.

Definition abs (o : option slot) : chst :=
  match o with
  | None | Some (SOpening _ _) => Free
  | Some (SRequested _ _ _) => Requested
  | Some (STomb c) => WeClosed (c_peer c)
  | Some (SChan c) => Live (c_peer c)
  end.

Definition slot_ok (n : N) (o : option slot) : Prop :=
  match o with
  | None => True
  | Some (STomb c) => c_pending c = [] /\ n < CHANNELS
  | Some _ => n < CHANNELS
  end.

(** the invariant *)
Definition I1 (s : cstate) : Prop :=
  (cs_dead s = false -> forall n,
     status false n (cs_log s) = Some (abs (cs_slots s n)) /\ slot_ok n (cs_slots s n)) /\
  (forall n, status false n (cs_log s) <> None).

(** events that do not touch number [k] *)
Definition calm (k : N) (e : cev) : Prop :=
  match e with
  | Sent n _ _ => n <> k
  | Received msg p => forall st, on_received k st msg p = st
  | _ => True
  end.

Lemma status_calm : forall b k evs l, Forall (calm k) evs -> status b k (evs ++ l) = status b k l.
Proof.
  intros b k evs l H. induction H as [|e t He Ht IH]; [reflexivity|]. cbn [app status].
  rewrite IH. destruct (status b k l) as [st|]; [|reflexivity].
  destruct e; try reflexivity; cbn [on_event calm] in *.
  - destruct (n =? k) eqn:Ek; [apply N.eqb_eq in Ek; contradiction|reflexivity].
  - now rewrite He.
Qed.

Lemma target_other : forall n k msg p, target msg p = Some n -> n <> k ->
  forall st, on_received k st msg p = st.
Proof.
  intros n k msg p T H st. unfold on_received. rewrite T.
  destruct (n =? k) eqn:E; [apply N.eqb_eq in E; contradiction|reflexivity].
Qed.

Lemma status_replies_live : forall n u p rs l,
  status false n l = Some (Live p) ->
  status false n (reply_events n u p rs ++ l) = Some (Live p).
Proof.
  intros n u p rs l H. unfold reply_events. rewrite <- map_rev.
  induction (rev rs) as [|b t IH]; [exact H|]. cbn [map app status]. rewrite IH.
  cbn [on_event]. rewrite N.eqb_refl. destruct b; cbn [on_sent]; now rewrite N.eqb_refl.
Qed.

Lemma replies_calm : forall n u p rs k, k <> n -> Forall (calm k) (reply_events n u p rs).
Proof.
  intros n u p rs k H. unfold reply_events. apply Forall_rev. apply Forall_forall.
  intros e He. apply in_map_iff in He. destruct He as (b & <- & _). cbn. congruence.
Qed.

Lemma finish_calm : forall u id o k, Forall (calm k) (finish_events u id o).
Proof. intros u id [] k; repeat constructor. Qed.

Lemma deaths_calm : forall f k, Forall (calm k) (deaths f).
Proof.
  intros f k. unfold deaths. apply Forall_rev, Forall_forall. intros e He.
  apply in_flat_map in He. destruct He as (n & _ & He). unfold death_event in He.
  destruct (f n) as [[g w []|p w|c|c]|]; try contradiction; destruct He as [<-|[]]; exact I.
Qed.

Lemma recv_calm : forall s msg p, no_slot s msg p -> (forall n, slot_ok n (cs_slots s n)) ->
  forall n, on_received n (abs (cs_slots s n)) msg p = abs (cs_slots s n).
Proof.
  intros s msg p H OK n. unfold on_received. destruct (target msg p) as [k|] eqn:T; [|reflexivity].
  destruct (k =? n) eqn:Ek; [|reflexivity]. apply N.eqb_eq in Ek. subst k. cbn [andb].
  destruct (admissible msg (abs (cs_slots s n))) eqn:A; [|reflexivity].
  assert (D : {msg = 91} + {msg <> 91}) by apply N.eq_dec. destruct D as [->|D1].
  { exfalso. specialize (H n T (or_introl eq_refl)). cbn in H. specialize (OK n).
    unfold PopRequestedChannel in H. destruct (cs_slots s n) as [[a b c| | |]|]; try discriminate A.
    cbn in OK. destruct (CHANNELS <=? n) eqn:L; [apply N.leb_le in L; lia|discriminate]. }
  assert (D : {msg = 92} + {msg <> 92}) by apply N.eq_dec. destruct D as [->|D2].
  { exfalso. specialize (H n T (or_intror (or_introl eq_refl))). cbn in H. specialize (OK n).
    unfold PopRequestedChannel in H. destruct (cs_slots s n) as [[a b c| | |]|]; try discriminate A.
    cbn in OK. destruct (CHANNELS <=? n) eqn:L; [apply N.leb_le in L; lia|discriminate]. }
  assert (D : {msg = 97} + {msg <> 97}) by apply N.eq_dec. destruct D as [->|D3].
  { exfalso. specialize (H n T (or_intror (or_intror eq_refl))). cbn in H. specialize (OK n).
    unfold GetChannel in H. destruct (cs_slots s n) as [[a b c| | |]|]; try discriminate A;
    cbn in OK; (destruct (CHANNELS <=? n) eqn:L; [apply N.leb_le in L; destruct OK; lia|discriminate]) ||
    (destruct (CHANNELS <=? n) eqn:L; [apply N.leb_le in L; lia|discriminate]). }
  clear -D1 D2 D3. destruct msg as [|m]; [reflexivity|].
  do 7 (destruct m as [m|m|]; try reflexivity; try contradiction).
Qed.

Lemma tomb_request : forall E id want rs l f,
  start_request E id want (RSync false) [] = Some (rs, l, f) ->
  (rs = [] \/ rs = [false]) /\ (f = false -> l = []).
Proof.
  intros E id want rs l f. cbn [start_request app].
  destruct (r_sync_done E); cbn [submit pq_done pq_want].
  - destruct (r_dbg E && negb want); intros H; injection H as <- <- <-; split; auto; discriminate.
  - unfold finish_request. cbn [find_request pq_id]. rewrite N.eqb_refl. cbn [pq_want mark_done pq_id].
    rewrite N.eqb_refl. destruct want; cbn [submit pq_done pq_want erase_request pq_id negb].
    + rewrite andb_false_r. intros H; injection H as <- <- <-; auto.
    + rewrite N.eqb_refl. cbn [submit]. intros H; injection H as <- <- <-; auto.
Qed.

Lemma status_replies_tomb : forall n u p rs l, rs = [] \/ rs = [false] ->
  status false n l = Some (WeClosed p) ->
  status false n (reply_events n u p rs ++ l) = Some (WeClosed p).
Proof.
  intros n u p rs l [->| ->] H; [exact H|]. cbn [reply_events map rev app status]. rewrite H.
  cbn [on_event]. rewrite N.eqb_refl. cbn [on_sent]. now rewrite N.eqb_refl.
Qed.

Ltac calm_tac :=
  repeat (apply Forall_cons; [cbn [calm]; try exact I; try congruence|]); try apply Forall_nil.

Lemma target_conf : forall p c, ParseChannelOpenConfirmation p = Some c -> target 91 p = Some (cc_local_channel c).
Proof. intros p c H. cbn. now rewrite H. Qed.
Lemma target_fail : forall p c, ParseChannelOpenFailure p = Some c -> target 92 p = Some (cf_local_channel c).
Proof. intros p c H. cbn. now rewrite H. Qed.

Lemma recv_conf : forall p c n, ParseChannelOpenConfirmation p = Some c -> cc_local_channel c = n ->
  on_received n Requested 91 p = Live (cc_peer_channel c).
Proof. intros p c n H <-. unfold on_received. rewrite (target_conf p c H), N.eqb_refl. cbn [andb admissible]. now rewrite H. Qed.
Lemma recv_fail : forall p c n, ParseChannelOpenFailure p = Some c -> cf_local_channel c = n ->
  on_received n Requested 92 p = Free.
Proof. intros p c n H <-. unfold on_received. now rewrite (target_fail p c H), N.eqb_refl. Qed.

(** what one simple step does to the status of all numbers *)
Lemma allowed_status : forall E P s n v evs inc, allowed E P s n v evs inc ->
  (forall k, status false k (cs_log s) = Some (abs (cs_slots s k)) /\ slot_ok k (cs_slots s k)) ->
  (forall k, status false k (evs ++ cs_log s) = Some (abs (if k =? n then v else cs_slots s k)) /\
             slot_ok k (if k =? n then v else cs_slots s k)).
Proof.
  intros E P s n v evs inc H OK k.
  destruct (k =? n) eqn:Ek.
  - apply N.eqb_eq in Ek. subst k. destruct (OK n) as (St & Sl).
    destruct H; (try rewrite H in St; try rewrite H in Sl; cbn [abs slot_ok] in St, Sl);
      cbn [abs slot_ok c_peer c_pending set_pending set_rwin set_swin];
      (split; [|try assumption; try exact I; try (split; [reflexivity|assumption])]);
      cbn [app status on_event]; try (rewrite St; cbn [on_event on_sent]; rewrite ?N.eqb_refl; reflexivity).
    + rewrite St. f_equal. apply recv_calm; [exact H|]. intros m. apply OK.
    + rewrite St, (recv_conf p c n) by assumption. rewrite N.eqb_refl. cbn [on_sent]. now rewrite N.eqb_refl.
    + rewrite St, (recv_conf p c n) by assumption. reflexivity.
    + rewrite St, (recv_fail p c n) by assumption. reflexivity.
    + rewrite St, (recv_fail p c n) by assumption. reflexivity.
    + rewrite St. unfold on_received. cbn [target]. rewrite H1, !N.eqb_refl. cbn [andb admissible on_sent]. now rewrite N.eqb_refl.
    + rewrite St. unfold on_received. cbn [target]. rewrite H1, !N.eqb_refl. reflexivity.
    + rewrite <- app_assoc. apply status_replies_live. rewrite <- app_assoc, status_calm by apply finish_calm.
      cbn [app status]. rewrite St. reflexivity.
    + destruct Sl as (Sl & L). rewrite Sl in H0. destruct (tomb_request _ _ _ _ _ _ H0) as (R & _).
      apply status_replies_tomb; assumption.
    + destruct Sl as (Sl & L). rewrite Sl in H0. destruct (tomb_request _ _ _ _ _ _ H0) as (_ & R). auto.
    + rewrite <- app_assoc. apply status_replies_live. cbn [app status]. rewrite St. reflexivity.
  - apply N.eqb_neq in Ek. destruct (OK k) as (St & Sl). split; [|exact Sl].
    destruct H.
    1: { cbn [app status]. rewrite St. cbn [on_event]. f_equal. apply recv_calm; [exact H|]. intros m. apply OK. }
    all: rewrite status_calm; [exact St|].
    all: try (calm_tac; apply (target_other n k); [|congruence]; first
      [rewrite (target_conf p c) by assumption; congruence|rewrite (target_fail p c) by assumption; congruence|assumption]).
    all: try (apply Forall_app; split; [apply replies_calm; assumption|]).
    all: try (apply Forall_app; split; [apply finish_calm|]).
    all: try (calm_tac; fail).
    now apply replies_calm.
Qed.

Lemma allowedD_status : forall E P s n v evs inc, allowedD E P s n v evs inc ->
  (forall k, status false k (cs_log s) = Some (abs (cs_slots s k)) /\ slot_ok k (cs_slots s k)) ->
  forall k, status false k (evs ++ cs_log s) <> None.
Proof.
  intros E P s n v evs inc H OK k.
  destruct (N.eq_dec k n) as [->|Ek].
  - destruct (OK n) as (St & Sl).
    destruct H; (try rewrite H in St; try rewrite H in Sl; cbn [abs slot_ok] in St, Sl);
      cbn [app status on_event].
    + now rewrite St.
    + rewrite St. discriminate.
    + rewrite <- app_assoc, status_calm by apply finish_calm. cbn [app status]. rewrite St. discriminate.
    + rewrite <- app_assoc, (status_replies_live n (c_uid c) (c_peer c)); [discriminate|].
      rewrite <- app_assoc, status_calm by apply finish_calm. cbn [app status]. rewrite St. reflexivity.
    + destruct Sl as (Sl & L). rewrite Sl in H0. destruct (tomb_request _ _ _ _ _ _ H0) as (R & _).
      rewrite (status_replies_tomb n (c_uid c) (c_peer c)); [discriminate|assumption|assumption].
    + rewrite <- app_assoc, (status_replies_live n (c_uid c) (c_peer c)); [discriminate|].
      cbn [app status]. rewrite St. reflexivity.
  - destruct (OK k) as (St & _). rewrite status_calm; [now rewrite St|].
    destruct H.
    + constructor.
    + calm_tac. eapply target_other; [rewrite (target_conf p c) by assumption; reflexivity|congruence].
    + apply Forall_app; split; [apply finish_calm|calm_tac].
    + apply Forall_app; split; [now apply replies_calm|].
      apply Forall_app; split; [apply finish_calm|calm_tac].
    + now apply replies_calm.
    + apply Forall_app; split; [now apply replies_calm|calm_tac].
Qed.

Theorem I1_reach : forall E P s, mreach E P s -> I1 s.
Proof.
  intros E P. apply mreach_ind.
  - split; [intros _ n|intros n; discriminate]. split; [reflexivity|exact I].
  - intros s s' (IA & IB) M. destruct M as [n v evs inc A G|n v evs inc s1 r A G ->].
    + destruct G as (GS & GL & GN & D & D').
      pose proof (allowed_status E P s n v evs inc A (IA D)) as R.
      split.
      * intros _ k. rewrite GL, GS. apply R.
      * intros k. rewrite GL. destruct (R k) as (-> & _). discriminate.
    + destruct G as (GS & GL & GN & D & D').
      destruct (die_spec r s1) as (L & _ & Dd & _). split; [rewrite Dd; discriminate|].
      intros k. rewrite L, status_calm by apply deaths_calm. cbn [status].
      rewrite GL. pose proof (allowedD_status E P s n v evs inc A (IA D) k) as R.
      destruct (status false k (evs ++ cs_log s)); [discriminate|contradiction].
Qed.
