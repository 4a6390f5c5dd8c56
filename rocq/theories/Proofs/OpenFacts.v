(** Answers to CHANNEL_OPEN: what is received, offered, answered and still
    undecided balances. *)

From Coq Require Import NArith Arith List Bool Lia String.
From Verif.Base Require Import Bytes.
From Verif.Model Require Import Wire Frame Packets Requests Channels.
From Verif.Spec Require Import ChannelSpec OpenSpec.
From Verif.Proofs Require Import ChannelSteps ChannelStatus ChannelObjects ChannelFactories ChannelFacts.
Import ListNotations.
Open Scope N_scope.

Lemma number_app : forall P a b, number P (a ++ b) = (number P a + number P b)%nat.
Proof. intros. unfold number. now rewrite filter_app, app_length. Qed.
Lemma number_cons : forall P e l, number P (e :: l) = (nb (P e) + number P l)%nat.
Proof. intros. unfold number. cbn [filter]. now destruct (P e). Qed.

(** events which neither offer nor answer *)
Definition aside (e : cev) : Prop :=
  match e with
  | Opening _ _ _ _ _ | Sent _ _ (CConf _ _ _ _) | Sent _ _ (COpenFail _ _ _) => False
  | _ => True
  end.

Definition offers (k : N) (e : cev) : bool :=
  match e with Opening _ peer _ _ _ => peer =? k | _ => false end.

Lemma aside_none : forall P evs, (forall e, aside e -> P e = false) -> Forall aside evs -> number P evs = O.
Proof.
  intros P evs H F. induction F as [|e t A F IH]; [reflexivity|]. rewrite number_cons, IH, (H e A). reflexivity.
Qed.
Lemma aside_offered : forall n k e, aside e -> offered n k e = false.
Proof. intros n k [] H; try reflexivity. contradiction. Qed.
Lemma aside_settled : forall n k e, aside e -> settled n k e = false.
Proof. intros n k [? ? []| | | | | | | | | | | | ] H; try reflexivity; contradiction. Qed.
Lemma aside_offers : forall k e, aside e -> offers k e = false.
Proof. intros k [] H; try reflexivity. contradiction. Qed.
Lemma aside_answers : forall k e, aside e -> answers_open k e = false.
Proof. intros k [? ? []| | | | | | | | | | | | ] H; try reflexivity; contradiction. Qed.

Lemma replies_aside : forall n u p rs, Forall aside (reply_events n u p rs).
Proof.
  intros. unfold reply_events. apply Forall_rev, Forall_forall. intros e He.
  apply in_map_iff in He. destruct He as (b & <- & _). exact Logic.I.
Qed.
Lemma deaths_aside : forall f, Forall aside (deaths f).
Proof.
  intros f. unfold deaths. apply Forall_rev, Forall_forall. intros e He. apply in_flat_map in He.
  destruct He as (n & _ & He). unfold death_event in He.
  destruct (f n) as [[g w []|p w|c|c]|]; cbn in He; try contradiction; destruct He as [<-|[]]; exact Logic.I.
Qed.

(** a slot which waits for the decision about the peer's channel [k] *)
Definition opens (k : N) (o : option slot) : bool :=
  match o with Some (SOpening peer _) => peer =? k | _ => false end.

Definition balanced (n : N) (old new : option slot) (evs : list cev) : Prop :=
  (forall k, (number (offered n k) evs + nb (opens k old) = number (settled n k) evs + nb (opens k new))%nat) /\
  (forall m k, m <> n -> number (offered m k) evs = O /\ number (settled m k) evs = O) /\
  (forall k, (number (offers k) evs + nb (opens k old) = number (answers_open k) evs + nb (opens k new))%nat).

Lemma aside_balanced : forall n old new evs, Forall aside evs -> (forall k, opens k old = opens k new) -> balanced n old new evs.
Proof.
  intros n old new evs A S. repeat split; intros.
  - rewrite (aside_none (offered n k)), (aside_none (settled n k)), S; auto using aside_offered, aside_settled.
  - apply aside_none; auto using aside_offered.
  - apply aside_none; auto using aside_settled.
  - rewrite (aside_none (offers k)), (aside_none (answers_open k)), S; auto using aside_offers, aside_answers.
Qed.

Lemma allowed_balanced : forall E P s n v evs inc, allowed E P s n v evs inc -> balanced n (cs_slots s n) v evs.
Proof.
  intros E P s n v evs inc H.
  destruct H; try (solve [apply aside_balanced; [repeat constructor|intros; try rewrite H; reflexivity]]).
  - rewrite H. repeat split.
    + intros k. unfold number. cbn. rewrite N.eqb_refl. cbn. destruct (peer =? k); reflexivity.
    + unfold number. cbn. destruct (n =? m) eqn:Q; [apply N.eqb_eq in Q; congruence|reflexivity].
    + intros k. unfold number. cbn. destruct (peer =? k); reflexivity.
  - rewrite H. repeat split.
    + intros k. unfold number. cbn. rewrite N.eqb_refl. cbn. destruct (peer =? k); reflexivity.
    + unfold number. cbn. destruct (n =? m) eqn:Q; [apply N.eqb_eq in Q; congruence|reflexivity].
    + intros k. unfold number. cbn. destruct (peer =? k); reflexivity.
  - rewrite H. repeat split.
    + intros k. unfold number. cbn. rewrite N.eqb_refl. cbn. destruct (peer =? k); reflexivity.
    + unfold number. cbn. destruct (n =? m) eqn:Q; [apply N.eqb_eq in Q; congruence|reflexivity].
    + intros k. unfold number. cbn. destruct (peer =? k); reflexivity.
  - apply aside_balanced; [|intros; rewrite H; reflexivity].
    apply Forall_app; split; [apply replies_aside|]. apply Forall_app; split; [destruct o|]; repeat constructor.
  - apply aside_balanced; [apply replies_aside|intros; rewrite H; reflexivity].
  - apply aside_balanced; [|intros; rewrite H; reflexivity].
    apply Forall_app; split; [apply replies_aside|]. repeat constructor.
Qed.

Lemma allowedD_balanced : forall E P s n v evs inc, allowedD E P s n v evs inc -> balanced n (cs_slots s n) v evs.
Proof.
  intros E P s n v evs inc H.
  destruct H; try (solve [apply aside_balanced; [repeat constructor|intros; try rewrite H; reflexivity]]).
  - apply aside_balanced; [|intros; rewrite H; reflexivity].
    apply Forall_app; split; [destruct o|]; repeat constructor.
  - apply aside_balanced; [|intros; rewrite H; reflexivity].
    apply Forall_app; split; [apply replies_aside|]. apply Forall_app; split; [destruct o|]; repeat constructor.
  - apply aside_balanced; [apply replies_aside|intros; rewrite H; reflexivity].
  - apply aside_balanced; [|intros; rewrite H; reflexivity].
    apply Forall_app; split; [apply replies_aside|]. repeat constructor.
Qed.

(** ** The invariant *)

Definition opening_at (k : N) (sl : N -> option slot) (l : list N) : nat :=
  List.length (filter (fun n => opens k (sl n)) l).

Definition books (sl : N -> option slot) (l : list cev) : Prop :=
  (forall n k, number (offered n k) l = (number (settled n k) l + nb (opens k (sl n)))%nat) /\
  (forall k, number (offers k) l = (number (answers_open k) l + opening_at k sl indexes)%nat).

Definition I6 (s : cstate) : Prop :=
  (cs_dead s = false -> books (cs_slots s) (cs_log s)) /\ exists sl, books sl (cs_log s).

Lemma at_cons : forall k sl n t, opening_at k sl (n :: t) = (nb (opens k (sl n)) + opening_at k sl t)%nat.
Proof. intros. unfold opening_at. cbn [filter]. now destruct (opens k (sl n)). Qed.

Lemma at_ext : forall k sl sl' l, (forall n, In n l -> opens k (sl n) = opens k (sl' n)) -> opening_at k sl l = opening_at k sl' l.
Proof.
  intros k sl sl' l. induction l as [|n t IH]; intros H; [reflexivity|]. rewrite !at_cons.
  rewrite (H n (or_introl eq_refl)), IH; [reflexivity|]. intros; apply H. now right.
Qed.

Lemma at_upd : forall k sl sl' n l, NoDup l -> In n l -> (forall m, m <> n -> sl' m = sl m) ->
  (opening_at k sl' l + nb (opens k (sl n)) = opening_at k sl l + nb (opens k (sl' n)))%nat.
Proof.
  intros k sl sl' n l ND Hin H. induction l as [|x t IH]; [contradiction|]. rewrite !at_cons.
  inversion ND as [|? ? Hx ND']; subst. destruct (N.eq_dec x n) as [->|Hn].
  - rewrite (at_ext k sl sl' t); [lia|]. intros m Hm. rewrite H; [reflexivity|]. intros ->. contradiction.
  - destruct Hin as [->|Hin]; [congruence|]. rewrite (H x Hn). specialize (IH ND' Hin). lia.
Qed.

Lemma books_moves : forall l sl sl' n v evs, (forall m, sl' m = if m =? n then v else sl m) ->
  (~ In n indexes -> forall k, opens k (sl n) = opens k v) ->
  books sl l -> balanced n (sl n) v evs -> books sl' (evs ++ l).
Proof.
  intros l sl sl' n v evs G O (B1 & B2) (M1 & M2 & M3).
  assert (S : sl' n = v) by (rewrite G, N.eqb_refl; reflexivity).
  assert (X : forall m, m <> n -> sl' m = sl m).
  { intros m Hm. rewrite G. destruct (m =? n) eqn:E; [apply N.eqb_eq in E; contradiction|reflexivity]. }
  split.
  - intros m k. rewrite !number_app. destruct (N.eq_dec m n) as [->|Hm].
    + specialize (B1 n k). specialize (M1 k). rewrite S. lia.
    + destruct (M2 m k Hm) as (-> & ->). rewrite (X m Hm). apply B1.
  - intros k. rewrite !number_app. specialize (B2 k). specialize (M3 k).
    pose proof indexes_nodup as ND. revert O B2 ND. generalize indexes as ix. intros ix O B2 ND.
    destruct (in_dec N.eq_dec n ix) as [Hi|Hi].
    + pose proof (at_upd k sl sl' n ix ND Hi X) as U. rewrite S in U. lia.
    + specialize (O Hi k). rewrite O in M3.
      rewrite <- (at_ext k sl sl' ix); [lia|].
      intros m Hm. rewrite X; [reflexivity|]. intros ->. contradiction.
Qed.

Lemma opens_bound : forall s n k, I1 s -> cs_dead s = false -> ~ In n indexes -> opens k (cs_slots s n) = false.
Proof.
  intros s n k (J & _) D Hn. destruct (J D n) as (_ & Sl).
  destruct (cs_slots s n) as [[g w []|p w|c|c]|]; try reflexivity. cbn in Sl. exfalso. apply Hn. now apply indexes_in.
Qed.

Theorem I6_reach : forall E P s, mreach E P s -> I6 s.
Proof.
  intros E P s H. unfold mreach in *.
  assert (G : mreach E P s /\ I6 s); [|exact (proj2 G)].
  induction H as [|s s' H IH M].
  - split; [apply MS_nil|]. assert (B : books (cs_slots cs_init) (cs_log cs_init)).
    { split; [reflexivity|]. intros k. unfold opening_at. cbn [cs_init cs_slots cs_log opens].
      generalize indexes. intros l. induction l as [|x t IH]; [reflexivity|exact IH]. }
    split; [intros _; exact B|]. now exists (cs_slots cs_init).
  - destruct IH as (R & IH & _). split; [eapply MS_snoc; eassumption|].
    pose proof (I1_reach E P s R) as J1.
    assert (J1' : I1 s') by (apply (I1_reach E P); eapply MS_snoc; eassumption).
    destruct M as [n v evs inc A G|n v evs inc s1 r A G ->]; destruct G as (GS & GL & GN & D & D').
    + assert (B : books (cs_slots s') (cs_log s')).
      { rewrite GL. apply (books_moves (cs_log s) (cs_slots s) (cs_slots s') n v evs GS).
        - intros Hn k. rewrite (opens_bound s n k J1 D Hn).
          pose proof (opens_bound s' n k J1' D' Hn) as X. rewrite GS, N.eqb_refl in X. now symmetry.
        - apply IH. exact D.
        - exact (allowed_balanced E P s n v evs inc A). }
      split; [intros _; exact B|]. now exists (cs_slots s').
    + destruct (die_spec r s1) as (L & Nx & Dd & _). clear J1'. set (sd := die r s1) in *. clearbody sd.
      split; [rewrite Dd; discriminate|].
      assert (B : books (cs_slots s1) (evs ++ cs_log s)).
      { apply (books_moves (cs_log s) (cs_slots s) (cs_slots s1) n v evs GS).
        - intros Hn k. rewrite (opens_bound s n k J1 D Hn).
          destruct A; try reflexivity. now rewrite (opens_bound s n k J1 D Hn).
        - apply IH. exact D.
        - exact (allowedD_balanced E P s n v evs inc A). }
      exists (cs_slots s1). rewrite L, GL. change (Died r :: evs ++ cs_log s) with ([Died r] ++ evs ++ cs_log s).
      rewrite app_assoc. destruct B as (B1 & B2).
      assert (F : Forall aside (deaths (cs_slots s1) ++ [Died r])).
      { apply Forall_app. split; [apply deaths_aside|repeat constructor]. }
      split; intros.
      * rewrite !(number_app _ (_ ++ [Died r])), (aside_none (offered n0 k)), (aside_none (settled n0 k));
          auto using aside_offered, aside_settled. apply B1.
      * rewrite !(number_app _ (_ ++ [Died r])), (aside_none (offers k)), (aside_none (answers_open k));
          auto using aside_offers, aside_answers. apply B2.
Qed.

Lemma cruns_I6 : forall E ops, I6 (cruns E ops).
Proof. intros. eapply I6_reach, cruns_any. Qed.

(** ** Every CHANNEL_OPEN is offered to the application at once *)

Definition still (s s' : cstate) : Prop := forall k,
  number (requests_open k) (cs_log s') = number (requests_open k) (cs_log s) /\
  number (offers k) (cs_log s') = number (offers k) (cs_log s).

Definition blank (e : cev) : Prop := forall k, requests_open k e = false /\ offers k e = false.

Lemma still_refl : forall s, still s s. Proof. intros s k. split; reflexivity. Qed.
Lemma still_log : forall e s s', blank e -> still s s' -> still s (log e s').
Proof. intros e s s' B H k. destruct (B k) as (X & Y). cbn [log cs_log]. rewrite !number_cons, X, Y. apply H. Qed.
Lemma still_slot : forall n v s s', still s s' -> still s (set_slot n v s').
Proof. intros n v s s' H. exact H. Qed.
Lemma still_fresh : forall s s', still s s' -> still s (fresh s').
Proof. intros s s' H. exact H. Qed.
Lemma still_put : forall n b c s s', still s s' -> still s (put n b c s').
Proof. intros n b c s s' H. exact H. Qed.
Lemma still_die : forall r s s', still s s' -> still s (die r s').
Proof.
  intros r s s' H k. destruct (die_spec r s') as (-> & _). rewrite !number_app, !number_cons.
  rewrite (aside_none (offers k)) by (auto using aside_offers, deaths_aside).
  assert (Z : number (requests_open k) (deaths (cs_slots s')) = O).
  { unfold deaths. generalize indexes. intros l. induction l as [|n t IH]; [reflexivity|]. cbn [flat_map].
    rewrite rev_app_distr, number_app, IH. unfold death_event.
    destruct (cs_slots s' n) as [[g w []|p w|c|c]|]; reflexivity. }
  rewrite Z. apply H.
Qed.
Lemma still_delete : forall n o s s', still s s' -> still s (delete_slot n o s').
Proof.
  intros n o s s' H. destruct o as [[g w []|p w|c|c]|]; cbn [delete_slot]; try exact H; apply still_log; try exact H; intros k; split; reflexivity.
Qed.
Lemma still_replies : forall n c rs s s', still s s' -> still s (send_replies n c rs s').
Proof.
  intros n c rs. induction rs as [|b t IH]; intros s s' H; [exact H|]. cbn [send_replies]. apply IH, still_log; [|exact H].
  intros k; split; reflexivity.
Qed.
Lemma still_submit : forall n b c x s s', still s s' -> still s (submit_replies n b c x s').
Proof.
  intros n b c [[rs l] f] s s' H. unfold submit_replies. cbv zeta.
  destruct f; [apply still_die|]; apply still_put, still_replies, H.
Qed.

Ltac hush1 :=
  match goal with
  | |- still ?s ?s => apply still_refl
  | |- still _ (die _ _) => apply still_die
  | |- still _ (set_slot _ _ _) => apply still_slot
  | |- still _ (fresh _) => apply still_fresh
  | |- still _ (put _ _ _ _) => apply still_put
  | |- still _ (submit_replies _ _ _ _ _) => apply still_submit
  | |- still _ (delete_slot _ _ _) => apply still_delete
  | |- still _ (log _ _) => apply still_log; [let k := fresh "k" in intros k; split; reflexivity|]
  | |- still _ (match ?x with _ => _ end) => destruct x
  end.
Ltac hush := repeat (cbv zeta; hush1).

(** operations which deliver no CHANNEL_OPEN *)
Definition not_open (o : cop) : Prop := match o with OpPacket msg _ _ => msg <> 90 | _ => True end.

Lemma blank_received : forall msg p, msg <> 90 -> blank (Received msg p).
Proof.
  intros msg p H k. split; [|reflexivity]. unfold requests_open. destruct msg as [|q]; [reflexivity|].
  repeat (try reflexivity; match goal with |- context [match ?x with _ => _ end] => is_var x; destruct x end; try reflexivity).
  all: exfalso; apply H; reflexivity.
Qed.

Lemma still_packet : forall E msg p r s s', msg <> 90 -> HandlePacket E msg p r s = Some s' -> still s s'.
Proof.
  intros E msg p r s s' H K.
  assert (B : still s (log (Received msg p) s)) by (apply still_log; [now apply blank_received|apply still_refl]).
  unfold HandlePacket in K. cbv zeta in K. set (s1 := log (Received msg p) s) in *. clearbody s1.
  assert (T : still s1 s').
  { clear B. destruct msg as [|q]; [discriminate|].
    repeat (match type of K with context [match ?x with _ => _ end] => is_var x; destruct x end; try discriminate).
    all: try (exfalso; apply H; reflexivity). all: injection K as <-.
    all: unfold HandleChannelRequest, HandleChannelData, HandleChannelEof, HandleChannelFailure, HandleChannelOpenFailure,
      HandleChannelExtendedData, HandleChannelSuccess, HandleChannelOpenConfirmation, HandleChannelClose,
      HandleChannelWindowAdjust, deliver, notify; hush. }
  intros k. destruct (T k) as (-> & ->). apply B.
Qed.

Lemma still_step : forall E s o, not_open o -> still s (cstep E s o).
Proof.
  intros E s o H. unfold cstep. destruct (cs_dead s); [apply still_refl|].
  destruct o; try (unfold OpenChannel, on_chan, confirm, CloseChannel; hush; fail).
  destruct (HandlePacket E msg payload r s) as [s'|] eqn:K; [|apply still_refl]. exact (still_packet E msg payload r s s' H K).
Qed.

(** what one CHANNEL_OPEN does *)
Lemma open_step : forall E s p r, cs_dead s = false -> let s' := cstep E s (OpPacket 90 p r) in
  exists b, (b = true -> cs_dead s' = true) /\ forall k,
  number (requests_open k) (cs_log s') = (nb (requests_open k (Received 90 p)) + number (requests_open k) (cs_log s))%nat /\
  number (offers k) (cs_log s') = ((if b : bool then 0 else nb (requests_open k (Received 90 p))) + number (offers k) (cs_log s))%nat.
Proof.
  intros E s p r D s'. unfold s', cstep. rewrite D. unfold HandlePacket, HandleChannelOpen. cbv zeta.
  set (s1 := log (Received 90 p) s).
  assert (S1 : forall k, number (requests_open k) (cs_log s1) = (nb (requests_open k (Received 90 p)) + number (requests_open k) (cs_log s))%nat /\
    number (offers k) (cs_log s1) = number (offers k) (cs_log s)).
  { intros k. unfold s1. cbn [log cs_log]. rewrite !number_cons. split; reflexivity. }
  destruct (ParseChannelOpen p) as [q|] eqn:Q.
  2:{ exists true. split; [intros _; apply die_spec|]. intros k.
      destruct (still_die MALFORMED s1 s1 (still_refl s1) k) as (-> & ->). apply S1. }
  destruct (AllocateChannelIndex s1) as [n|].
  2:{ exists true. split; [intros _; apply die_spec|]. intros k.
      destruct (still_die DError s1 s1 (still_refl s1) k) as (-> & ->). apply S1. }
  exists false. split; [discriminate|].
  match goal with |- context [log (Opening ?a ?b ?c ?d ?e) ?x] => set (s2 := log (Opening a b c d e) x) end.
  assert (S2 : forall k, number (requests_open k) (cs_log s2) = (nb (requests_open k (Received 90 p)) + number (requests_open k) (cs_log s))%nat /\
    number (offers k) (cs_log s2) = (nb (requests_open k (Received 90 p)) + number (offers k) (cs_log s))%nat).
  { intros k. destruct (S1 k) as (A & B). unfold s2. cbn [log set_slot cs_log]. rewrite !number_cons. fold (cs_log s1). rewrite A, B.
    split; [reflexivity|]. cbn [offers requests_open]. now rewrite Q. }
  clearbody s2. intros k. destruct (S2 k) as (A & B).
  assert (T : still s2 match rx_create r with
    | CrNow rwin => confirm n (co_peer_channel q) (co_initial_window_size q) rwin s2
    | CrFail code description => log (Sent n 0 (COpenFail (co_peer_channel q) code description)) (set_slot n None s2)
    | CrThrow => die DError s2
    | CrAsync => s2
    end) by (unfold confirm; hush).
  destruct (T k) as (-> & ->). now rewrite A, B.
Qed.

Definition I7 (s : cstate) : Prop :=
  exists (b : bool) (k0 : N), (b = true -> cs_dead s = true) /\ forall k,
  number (requests_open k) (cs_log s) = (number (offers k) (cs_log s) + nb (b && (k =? k0)%N))%nat.

Lemma step_I7 : forall E s o, I7 s -> I7 (cstep E s o).
Proof.
  intros E s o (b & k0 & B & H).
  destruct (cs_dead s) eqn:D.
  { unfold cstep. rewrite D. exists b, k0. split; [intros; exact D|exact H]. }
  destruct b; [specialize (B eq_refl); congruence|]. cbn [andb nb] in H.
  assert (X : not_open o \/ exists p r, o = OpPacket 90 p r).
  { destruct o; try (left; exact Logic.I). destruct (N.eq_dec msg 90) as [->|Hn]; [right; eauto|left; exact Hn]. }
  destruct X as [X|(p & r & ->)].
  - exists false, 0. split; [discriminate|]. intros k. destruct (still_step E s o X k) as (-> & ->). apply H.
  - destruct (open_step E s p r D) as (b & Bd & S).
    destruct (ParseChannelOpen p) as [q|] eqn:Q.
    + exists b, (co_peer_channel q). split; [exact Bd|]. intros k. destruct (S k) as (-> & ->). rewrite (H k).
      cbn [requests_open]. rewrite Q, (N.eqb_sym k). destruct b; cbn [andb nb]; destruct (co_peer_channel q =? k); cbn [nb]; lia.
    + exists false, 0. split; [discriminate|]. intros k. destruct (S k) as (-> & ->). rewrite (H k).
      cbn [requests_open andb nb]. rewrite Q. destruct b; cbn [nb]; lia.
Qed.

Lemma cruns_I7 : forall E ops, I7 (cruns E ops).
Proof.
  intros E ops. unfold cruns.
  assert (G : forall ops s, I7 s -> I7 (fold_left (cstep E) ops s)).
  { clear. induction ops as [|o t IH]; intros s H; [exact H|]. cbn [fold_left]. now apply IH, step_I7. }
  apply G. exists false, 0. split; [discriminate|]. reflexivity.
Qed.
