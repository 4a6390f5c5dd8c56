(** Consequences of the channel invariants which are used by the property
    theorems. *)

From Coq Require Import NArith Arith List Bool Lia String FinFun.
From Verif.Base Require Import Bytes.
From Verif.Model Require Import Wire Frame Packets Requests Channels.
From Verif.Spec Require Import ChannelSpec.
From Verif.Proofs Require Import ChannelSteps ChannelStatus RequestFacts ChannelObjects ChannelRequests ChannelFactories.
Import ListNotations.
Open Scope N_scope.

Lemma status_suffix : forall b n a l, status b n (a ++ l) <> None -> status b n l <> None.
Proof.
  intros b n a l H. induction a as [|e a IH]; [exact H|]. apply IH. cbn in H.
  destruct (status b n (a ++ l)); [discriminate|contradiction].
Qed.

Lemma cruns_I1 : forall E ops, I1 (cruns E ops).
Proof. intros. eapply I1_reach, cruns_any. Qed.
Lemma cruns_I2 : forall E ops, I2 (cruns E ops).
Proof. intros. exact (proj2 (I2_reach E anyP _ (cruns_any E ops))). Qed.
Lemma cruns_I4 : forall E ops, I4 (cruns E ops).
Proof. intros. eapply I4_reach, cruns_any. Qed.

(** announcements use numbers below 64 *)
Definition announced_low (e : cev) (older : list cev) : Prop :=
  forall n, announces n e = true -> n < CHANNELS.

(** a channel object is destroyed after its CHANNEL_CLOSE, except when the
    connection ends *)
Definition destroyed_late (e : cev) (older : list cev) : Prop :=
  match e with
  | Destroyed n u => (exists p, In (CClose p) (said u older)) \/ (exists r, In (Died r) older)
  | _ => True
  end.

Definition both (e : cev) (older : list cev) : Prop := announced_low e older /\ destroyed_late e older.

Definition dull (e : cev) : Prop :=
  match e with Sent _ _ (COpen _ _ _ _ _) | Sent _ _ (CConf _ _ _ _) | Destroyed _ _ => False | _ => True end.
Lemma dull_both : forall e older, dull e -> both e older.
Proof.
  intros e older H. split; [|destruct e; try exact I; contradiction].
  intros n A. destruct e; try discriminate. destruct m; try discriminate; contradiction.
Qed.

Lemma every_app : forall (P : cev -> list cev -> Prop) evs l, Forall (fun e => forall older, P e older) evs ->
  every P l -> every P (evs ++ l).
Proof. intros P evs l H K. induction H as [|e t He Ht IH]; [exact K|]. split; [apply He|exact IH]. Qed.

Lemma dull_every : forall evs l, Forall dull evs -> every both l -> every both (evs ++ l).
Proof. intros evs l H. apply every_app. eapply Forall_impl; [|exact H]. intros e He older. now apply dull_both. Qed.

Lemma replies_dull : forall n u p rs, Forall dull (reply_events n u p rs).
Proof.
  intros. unfold reply_events. apply Forall_rev, Forall_forall. intros e He.
  apply in_map_iff in He. destruct He as (b & <- & _). exact I.
Qed.

Lemma deaths_both : forall f l r, In (Died r) l -> every both l -> every both (deaths f ++ l).
Proof.
  intros f l r Hr K. unfold deaths.
  assert (F : Forall (fun e => match e with Destroyed _ _ | Factory _ _ => True | _ => False end)
                (rev (flat_map (death_event f) indexes))).
  { apply Forall_rev, Forall_forall. intros e He.
    apply in_flat_map in He. destruct He as (n & _ & He). unfold death_event in He.
    destruct (f n) as [[g w []|p w|c|c]|]; try contradiction; destruct He as [<-|[]]; exact I. }
  induction F as [|e t He Ht IH]; [exact K|]. split; [|exact IH].
  destruct e; try contradiction; (split; [intros n0 A; discriminate|]); [exact I|].
  right. exists r. apply in_or_app. now right.
Qed.

Lemma both_reach : forall E P s, mreach E P s -> every both (cs_log s).
Proof.
  intros E P s H. unfold mreach in *.
  assert (G : mreach E P s /\ every both (cs_log s)); [|exact (proj2 G)].
  induction H as [|s s' H IH M]; [split; [apply MS_nil|exact I]|].
  destruct IH as (R & IH). split; [eapply MS_snoc; eassumption|].
  pose proof (I1_reach E P s R) as (J1 & _).
  destruct M as [n v evs inc A G|n v evs inc s1 r A G ->]; destruct G as (GS & GL & GN & D & D').
  - rewrite GL. destruct A; try (apply dull_every; [repeat constructor|exact IH]; fail).
    + (* confirm *)
      split; [|split; [apply dull_both; exact I|exact IH]]. split; [|exact I].
      intros k Hk. cbn in Hk. apply N.eqb_eq in Hk. subst k. destruct (J1 D n) as (_ & Sl). rewrite H0 in Sl. exact Sl.
    + split; [|apply (dull_every [_; _]); [repeat constructor|exact IH]].
      split; [intros k Hk; discriminate|]. left. exists (c_peer c). cbn. rewrite N.eqb_refl. now left.
    + apply dull_every; [|exact IH]. apply Forall_app; split; [apply replies_dull|].
      apply Forall_app; split; [destruct o|]; repeat constructor.
    + apply dull_every; [apply replies_dull|exact IH].
    + apply dull_every; [|exact IH]. apply Forall_app; split; [apply replies_dull|repeat constructor].
    + split; [|split; [apply dull_both; exact I|exact IH]]. split; [|exact I].
      intros k Hk. cbn in Hk. apply N.eqb_eq in Hk. now subst k.
    + split; [|apply (dull_every [_]); [repeat constructor|exact IH]].
      split; [intros k Hk; discriminate|]. left. exists (c_peer c). cbn. rewrite N.eqb_refl. now left.
  - destruct (die_spec r s1) as (L & _ & _ & _). set (sd := die r s1) in *. clearbody sd.
    rewrite L. apply (deaths_both _ _ r); [now left|]. rewrite GL. split; [apply dull_both; exact I|].
    apply dull_every; [|exact IH]. destruct A; try (repeat constructor; fail).
    + apply Forall_app; split; [destruct o|]; repeat constructor.
    + apply Forall_app; split; [apply replies_dull|]. apply Forall_app; split; [destruct o|]; repeat constructor.
    + apply replies_dull.
    + apply Forall_app; split; [apply replies_dull|repeat constructor].
Qed.

Lemma cruns_both : forall E ops, every both (cs_log (cruns E ops)).
Proof. intros. eapply both_reach, cruns_any. Qed.

(** a number nobody announced is free *)
Lemma unannounced_free : forall b n l st, status b n l = Some st -> existsb (announces n) l = false -> st = Free.
Proof.
  intros b n l. induction l as [|e t IH]; intros st H A; [injection H as <-; reflexivity|].
  cbn in H, A. apply orb_false_iff in A. destruct A as (A & At).
  destruct (status b n t) as [st0|]; [|discriminate]. rewrite (IH st0 eq_refl At) in H. clear IH At.
  destruct e; cbn [on_event announces] in *; try (injection H as <-; reflexivity).
  - destruct (n0 =? n) eqn:En; [|injection H as <-; reflexivity].
    destruct m; cbn in H; try discriminate; try (injection H as <-; reflexivity). destruct success; discriminate.
  - injection H as <-. unfold on_received. destruct (target msg payload) as [k|]; [|reflexivity].
    destruct (k =? n); [|reflexivity]. cbn [andb].
    destruct msg as [|q]; [reflexivity|]; do 7 (destruct q as [q|q|]; try reflexivity).
Qed.

(** ** What a message for a bad number does *)

Lemma bad_get : forall s n msg, I1 s -> cs_dead s = false -> msg <> 91 -> msg <> 92 -> 
  (exists st, status false n (cs_log s) = Some st /\ admissible msg st = false) -> GetChannel s n = None.
Proof.
  intros s n msg (J & _) D H1 H2 (st & S & A). destruct (J D n) as (S' & Sl). rewrite S' in S. injection S as <-.
  unfold GetChannel. destruct (CHANNELS <=? n) eqn:L; [reflexivity|].
  destruct (cs_slots s n) as [[f w c|p w|c|c]|]; try reflexivity; exfalso; cbn [abs] in A;
    (destruct msg as [|q]; [discriminate|]); do 7 (destruct q as [q|q|]; try discriminate); congruence.
Qed.

Lemma bad_pop : forall s n msg, I1 s -> cs_dead s = false -> msg = 91 \/ msg = 92 ->
  (exists st, status false n (cs_log s) = Some st /\ admissible msg st = false) -> PopRequestedChannel s n = None.
Proof.
  intros s n msg (J & _) D HM (st & S & A). destruct (J D n) as (S' & Sl). rewrite S' in S. injection S as <-.
  unfold PopRequestedChannel. destruct (CHANNELS <=? n) eqn:L; [reflexivity|].
  destruct (cs_slots s n) as [[f w c|p w|c|c]|]; try reflexivity. exfalso. cbn [abs] in A.
  destruct HM as [->| ->]; discriminate.
Qed.

Lemma get_recv : forall s n msg p, GetChannel (log (Received msg p) s) n = GetChannel s n.
Proof. reflexivity. Qed.
Lemma pop_recv : forall s n msg p, PopRequestedChannel (log (Received msg p) s) n = PopRequestedChannel s n.
Proof. reflexivity. Qed.

Lemma bad_number_dies : forall E s msg p r n st, I1 s -> cs_dead s = false ->
  target msg p = Some n -> status false n (cs_log s) = Some st -> admissible msg st = false ->
  exists d, cstep E s (OpPacket msg p r) = die d (log (Received msg p) s) /\
    (d = BAD_CHANNEL \/ (exists q, msg = 93 /\ ParseChannelWindowAdjust p = Some q /\ wa_nbytes q = 0)).
Proof.
  intros E s msg p r n st J D T S A. unfold cstep. rewrite D.
  assert (X : exists st, status false n (cs_log s) = Some st /\ admissible msg st = false) by eauto.
  unfold target in T. unfold HandlePacket. cbv zeta.
  destruct msg as [|q]; [discriminate|]. do 7 (destruct q as [q|q|]; try discriminate).
  all: try (match type of A with admissible ?m _ = _ =>
    assert (B : GetChannel s n = None) by (apply (bad_get s n m J D); [discriminate|discriminate|exact X]) end).
  all: try (match goal with |- context [HandleChannelOpenConfirmation] => pose proof (bad_pop s n _ J D (or_introl eq_refl) X) as B end).
  all: try (match goal with |- context [HandleChannelOpenFailure] => pose proof (bad_pop s n _ J D (or_intror eq_refl) X) as B end).
  all: unfold HandleChannelOpenConfirmation, HandleChannelOpenFailure, HandleChannelWindowAdjust, HandleChannelData,
         HandleChannelExtendedData, HandleChannelEof, HandleChannelClose, HandleChannelRequest, HandleChannelSuccess,
         HandleChannelFailure, deliver, notify.
  all: match goal with |- context [match ?x with Some _ => _ | None => _ end] =>
         match type of T with context [x] => destruct x as [q|] eqn:Q; [|discriminate] end end.
  all: cbn [option_map] in T; injection T as T; try subst q.
  all: cbv zeta; rewrite ?get_recv, ?pop_recv in *.
  all: try (rewrite T, B; eexists; split; [reflexivity|left; reflexivity]).
  all: try (rewrite B; eexists; split; [reflexivity|left; reflexivity]).
  destruct (wa_nbytes q =? 0) eqn:Z.
  - apply N.eqb_eq in Z. eexists. split; [reflexivity|]. right. exists q. auto.
  - rewrite T, B. eexists; split; [reflexivity|left; reflexivity].
Qed.

Lemma deaths_farewell : forall f, forallb farewell (deaths f) = true.
Proof.
  intros f. apply forallb_forall. intros e He. unfold deaths in He. apply in_rev in He.
  apply in_flat_map in He. destruct He as (n & _ & He). unfold death_event in He.
  destruct (f n) as [[g w []|p w|c|c]|]; try contradiction; destruct He as [<-|[]]; reflexivity.
Qed.

Lemma die_farewell : forall d s, exists evs, cs_log (die d s) = evs ++ Died d :: cs_log s /\ forallb farewell evs = true.
Proof. intros d s. destruct (die_spec d s) as (L & _). eexists. split; [exact L|apply deaths_farewell]. Qed.

(** ** Requests *)

Lemma considerate_op : forall E o, considerate E o -> op_request (politeP E) o.
Proof.
  intros E o H. unfold op_request. destruct o; try exact I.
  destruct msg as [|m]; [exact I|]. do 7 (destruct m as [m|m|]; try exact I).
  destruct (ParseChannelRequest payload) eqn:Q; [|exact I]. exact (H c Q).
Qed.

Lemma cruns_I3 : forall E ops, Forall (considerate E) ops -> I3 (cruns E ops).
Proof.
  intros E ops H. apply (I3_reach E). apply cruns_mreach. eapply Forall_impl; [|exact H].
  intros o. apply considerate_op.
Qed.

Lemma answers_nth : forall r reqs k b, nth_error (answers r reqs) k = Some b ->
  exists id, nth_error (wanted reqs) k = Some (id, true) /\ r id = Some b.
Proof.
  intros r reqs. induction reqs as [|(id & w) t IH]; intros k b H; [destruct k; discriminate|].
  cbn [answers] in H. destruct (r id) as [x|] eqn:R; [|destruct k; discriminate].
  unfold wanted. cbn [filter snd]. destruct w; [|exact (IH k b H)].
  destruct k as [|k]; [injection H as ->; exists id; auto|]. exact (IH k b H).
Qed.

Lemma answers_all : forall r reqs, (forall id w, In (id, w) reqs -> r id <> None) ->
  List.length (answers r reqs) = List.length (wanted reqs).
Proof.
  intros r reqs. induction reqs as [|(id & w) t IH]; intros H; [reflexivity|].
  cbn [answers]. destruct (r id) as [x|] eqn:R; [|exfalso; exact (H id w (or_introl eq_refl) R)].
  unfold wanted in *. cbn [filter snd]. destruct w; cbn [List.length]; rewrite IH; auto; intros; eapply H; right; eassumption.
Qed.

Lemma holder_fixed : forall n u1 c1 b m, existsb (announces n) m = false ->
  every good_event (m ++ Called n u1 c1 :: b) -> holder n (m ++ Called n u1 c1 :: b) = Some u1.
Proof.
  intros n u1 c1 b m. induction m as [|e m IH]; intros X G; [cbn; now rewrite N.eqb_refl|].
  cbn [existsb] in X. apply orb_false_iff in X. destruct X as (X1 & X2). destruct G as (G1 & G2).
  specialize (IH X2 G2). cbn [app holder]. rewrite X1. destruct e; try exact IH.
  destruct (n0 =? n) eqn:En; [|exact IH]. apply N.eqb_eq in En. subst n0. destruct G1 as (G1 & _).
  rewrite IH in G1. destruct G1; congruence.
Qed.

Lemma every_suffix : forall P a l, every P (a ++ l) -> every P l.
Proof. intros P a l H. induction a as [|e a IH]; [exact H|]. apply IH, H. Qed.

(** the channel object of a number in use *)
Lemma live_slot : forall s n p, I1 s -> cs_dead s = false -> status false n (cs_log s) = Some (Live p) ->
  exists c, cs_slots s n = Some (SChan c) /\ c_peer c = p /\ GetChannel s n = Some (false, c).
Proof.
  intros s n p (J & _) D S. destruct (J D n) as (S' & Sl). rewrite S in S'.
  destruct (cs_slots s n) as [[f w x|q w|c|c]|] eqn:E; try discriminate. cbn in S', Sl. injection S' as ->.
  exists c. split; [reflexivity|]. split; [reflexivity|]. unfold GetChannel. rewrite E.
  destruct (CHANNELS <=? n) eqn:L; [apply N.leb_le in L; lia|reflexivity].
Qed.

(** ** Objects and numbers *)

Definition uncreated (e : cev) : Prop := match e with Created _ _ _ _ _ | Called _ _ _ => False | _ => True end.

Definition called_right (e : cev) (older : list cev) : Prop :=
  match e with Called n u _ => object n older = Some u | _ => True end.

Definition I5 (s : cstate) : Prop :=
  (cs_dead s = false -> forall n c, cs_slots s n = Some (SChan c) -> object n (cs_log s) = Some (c_uid c)) /\
  every called_right (cs_log s).

Lemma object_same : forall n evs l, Forall (fun e => match e with Created _ _ _ _ _ => False | _ => True end) evs ->
  object n (evs ++ l) = object n l.
Proof.
  intros n evs l H. induction H as [|e t He Ht IH]; [reflexivity|]. destruct e; cbn; try exact IH. contradiction.
Qed.

Lemma uncreated_every : forall evs l, Forall uncreated evs -> every called_right l -> every called_right (evs ++ l).
Proof.
  intros evs l H. apply every_app. eapply Forall_impl; [|exact H]. intros e He older. destruct e; try exact I; contradiction.
Qed.

Lemma uncreated_object : forall n evs l, Forall uncreated evs -> object n (evs ++ l) = object n l.
Proof. intros n evs l H. apply object_same. eapply Forall_impl; [|exact H]. intros e He. destruct e; try exact I; contradiction. Qed.

Lemma replies_uncreated : forall n u p rs, Forall uncreated (reply_events n u p rs).
Proof.
  intros. unfold reply_events. apply Forall_rev, Forall_forall. intros e He.
  apply in_map_iff in He. destruct He as (b & <- & _). exact I.
Qed.
Lemma finish_uncreated : forall u id o, Forall uncreated (finish_events u id o).
Proof. intros u id []; repeat constructor. Qed.
Lemma deaths_uncreated : forall f, Forall uncreated (deaths f).
Proof.
  intros f. unfold deaths. apply Forall_rev, Forall_forall. intros e He.
  apply in_flat_map in He. destruct He as (n & _ & He). unfold death_event in He.
  destruct (f n) as [[g w []|p w|c|c]|]; try contradiction; destruct He as [<-|[]]; exact I.
Qed.

(** the events of a step of slot [n] *)
Definition step5 (n : N) (sl : N -> option slot) (v : option slot) (evs : list cev) (l : list cev) : Prop :=
  (forall c, v = Some (SChan c) -> object n (evs ++ l) = Some (c_uid c)) /\
  (forall m, m <> n -> object m (evs ++ l) = object m l) /\
  every called_right (evs ++ l).

Lemma step5_uncreated : forall n sl v evs l, Forall uncreated evs -> every called_right l ->
  (forall c, v = Some (SChan c) -> object n l = Some (c_uid c)) -> step5 n sl v evs l.
Proof.
  intros n sl v evs l U G O. split; [|split].
  - intros c H. rewrite uncreated_object by exact U. auto.
  - intros m _. now apply uncreated_object.
  - now apply uncreated_every.
Qed.

Lemma allowed_step5 : forall E P s n v evs inc, allowed E P s n v evs inc -> I5 s -> cs_dead s = false ->
  step5 n (cs_slots s) v evs (cs_log s).
Proof.
  intros E P s n v evs inc A (O & G) D. specialize (O D n).
  destruct A; try (apply step5_uncreated; [repeat constructor|exact G|]; try discriminate;
                   try (intros x X; injection X as <-; cbn [c_uid set_pending set_rwin set_swin]; auto); auto; fail).
  - (* confirm *) split; [|split].
    + intros c X. injection X as <-. cbn. now rewrite N.eqb_refl.
    + intros m Hm. cbn. destruct (n =? m) eqn:Em; [apply N.eqb_eq in Em; congruence|reflexivity].
    + repeat split. exact G.
  - split; [|split].
    + intros x X. injection X as <-. cbn. now rewrite N.eqb_refl.
    + intros m Hm. cbn. destruct (n =? m) eqn:Em; [apply N.eqb_eq in Em; congruence|reflexivity].
    + repeat split. exact G.
  - split; [|split; [reflexivity|]].
    + intros x X. injection X as <-. cbn. auto.
    + split; [|exact G]. cbn. auto.
  - split; [|split; [reflexivity|]].
    + intros x X. injection X as <-. cbn. auto.
    + split; [|exact G]. cbn. auto.
  - (* request *)
    rewrite !app_assoc. set (e := _ ++ finish_events _ _ _).
    assert (U : Forall uncreated e) by (apply Forall_app; split; [apply replies_uncreated|apply finish_uncreated]).
    clearbody e. unfold step5. rewrite <- !app_assoc. split; [|split].
    + intros x X. injection X as <-. rewrite uncreated_object by exact U. cbn. auto.
    + intros m Hm. rewrite uncreated_object by exact U. reflexivity.
    + apply uncreated_every; [exact U|]. split; [|exact G]. cbn. auto.
  - apply step5_uncreated; [apply replies_uncreated|exact G|discriminate].
  - apply step5_uncreated; [|exact G|].
    + apply Forall_app; split; [apply replies_uncreated|repeat constructor].
    + intros x X. injection X as <-. cbn. auto.
Qed.

Lemma I5_reach : forall E P s, mreach E P s -> I5 s.
Proof.
  intros E P. apply mreach_ind.
  - split; [discriminate|exact I].
  - intros s s' J M. pose proof J as (O & G).
    destruct M as [n v evs inc A K|n v evs inc s1 r A K ->]; destruct K as (GS & GL & GN & D & D').
    + destruct (allowed_step5 E P s n v evs inc A J D) as (X & Y & Z).
      split; [|rewrite GL; exact Z]. intros _ m c. rewrite GS, GL. destruct (m =? n) eqn:Em.
      * apply N.eqb_eq in Em. subst m. apply X.
      * apply N.eqb_neq in Em. intros S. rewrite Y by exact Em. now apply O.
    + destruct (die_spec r s1) as (L & _ & Dd & _). set (sd := die r s1) in *. clearbody sd.
      split; [rewrite Dd; discriminate|]. rewrite L, GL. apply uncreated_every; [apply deaths_uncreated|].
      split; [exact I|]. specialize (O D n).
      destruct A.
      * exact G.
      * repeat split. exact G.
      * rewrite <- app_assoc. apply uncreated_every; [apply finish_uncreated|]. split; [|exact G]. cbn. auto.
      * rewrite <- !app_assoc. apply uncreated_every; [apply replies_uncreated|].
        apply uncreated_every; [apply finish_uncreated|]. split; [|exact G]. cbn. auto.
      * apply uncreated_every; [apply replies_uncreated|exact G].
      * apply uncreated_every; [|exact G]. apply Forall_app; split; [apply replies_uncreated|repeat constructor].
Qed.

Lemma cruns_I5 : forall E ops, I5 (cruns E ops).
Proof. intros. eapply I5_reach, cruns_any. Qed.

(** the object of a number in use *)
Lemma live_object : forall E ops n p, let s := cruns E ops in
  cs_dead s = false -> status false n (cs_log s) = Some (Live p) ->
  exists c, object n (cs_log s) = Some (c_uid c) /\ cs_slots s n = Some (SChan c) /\ c_peer c = p /\
    GetChannel s n = Some (false, c) /\ chan_ok (cs_log s) c.
Proof.
  intros E ops n p s D S. destruct (live_slot s n p (cruns_I1 E ops) D S) as (c & S1 & S2 & S3).
  exists c. destruct (cruns_I5 E ops) as (O & _). split; [now apply O|]. split; [exact S1|]. split; [exact S2|].
  split; [exact S3|]. exact (proj1 (I2_live s n c (cruns_I2 E ops) D S1)).
Qed.
