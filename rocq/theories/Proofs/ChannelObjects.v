(** Accounting per channel object: windows, messages sent, who is called. *)

From Coq Require Import NArith List Bool Lia String FinFun.
From Verif.Base Require Import Bytes.
From Verif.Model Require Import Wire Frame Packets Requests Channels.
From Verif.Spec Require Import ChannelSpec.
From Verif.Proofs Require Import ChannelSteps ChannelStatus.
Import ListNotations.
Open Scope N_scope.

(** the channel object an event is about *)
Definition tag (e : cev) : option N :=
  match e with
  | Sent _ u _ | Created _ u _ _ _ | Called _ u _ | Consumed u _ | Dropped _ u _
  | Finished u _ _ | Destroyed _ u => Some u
  | _ => None
  end.

(** the request an event is about *)
Definition rtag (e : cev) : option N :=
  match e with
  | Called _ _ (CbRequest id _ _ _) => Some id
  | _ => None
  end.

Definition tagged (u : N) (e : cev) : Prop :=
  match tag e with None => True | Some v => v = u \/ v = 0 end.

Definition below (b : N) (e : cev) : Prop :=
  match tag e with None => True | Some v => v < b end /\
  match rtag e with None => True | Some i => i < b end.

(** ** Events about one object do not matter for another *)

Section Other.
Variables (u u0 : N).
Hypothesis Hu : u <> 0.
Hypothesis Hu0 : u <> u0.

Lemma neq_tag : forall v, v = u0 \/ v = 0 -> (v =? u) = false.
Proof. intros v [->| ->]; apply N.eqb_neq; congruence. Qed.

Ltac other :=
  intros evs l H; induction H as [|e t He Ht IH]; [reflexivity|];
  destruct e; cbn [app]; try exact IH; unfold tagged in He; cbn [tag] in He; cbn.

Lemma said_other : forall evs l, Forall (tagged u0) evs -> said u (evs ++ l) = said u l.
Proof. other. rewrite (neq_tag _ He). exact IH. Qed.
Lemma send_credit_other : forall evs l, Forall (tagged u0) evs -> send_credit u (evs ++ l) = send_credit u l.
Proof. other; [rewrite (neq_tag _ He); exact IH|]. destruct c; rewrite ?(neq_tag _ He); exact IH. Qed.
Lemma initial_other : forall evs l, Forall (tagged u0) evs -> initial_window u (evs ++ l) = initial_window u l.
Proof. other. rewrite (neq_tag _ He). exact IH. Qed.
Lemma delivered_other : forall evs l, Forall (tagged u0) evs -> delivered u (evs ++ l) = delivered u l.
Proof. other. destruct c; rewrite ?(neq_tag _ He); exact IH. Qed.
Lemma consumed_other : forall evs l, Forall (tagged u0) evs -> consumed u (evs ++ l) = consumed u l.
Proof. other. rewrite (neq_tag _ He). exact IH. Qed.
Lemma asked_other : forall evs l, Forall (tagged u0) evs -> asked u (evs ++ l) = asked u l.
Proof. other. destruct c; rewrite ?(neq_tag _ He); exact IH. Qed.
Lemma result_other : forall id evs l, Forall (tagged u0) evs -> result u id (evs ++ l) = result u id l.
Proof. intros id. other. rewrite (neq_tag _ He). exact IH. Qed.
End Other.

(** an object which is not in the log yet *)
Lemma said_fresh : forall u l, Forall (below u) l -> said u l = [].
Proof.
  intros u l H. induction H as [|e t He Ht IH]; [reflexivity|]. destruct e; cbn; try exact IH.
  destruct He as (He & _). cbn in He. destruct (u0 =? u) eqn:E; [apply N.eqb_eq in E; lia|exact IH].
Qed.
Lemma send_credit_fresh : forall u l, Forall (below u) l -> send_credit u l = 0.
Proof.
  intros u l H. induction H as [|e t He Ht IH]; [reflexivity|]. destruct He as (He & _).
  destruct e; cbn in *; try exact IH.
  - destruct (u0 =? u) eqn:E; [apply N.eqb_eq in E; lia|exact IH].
  - destruct c; try exact IH. destruct (u0 =? u) eqn:E; [apply N.eqb_eq in E; lia|exact IH].
Qed.
Lemma initial_fresh : forall u l, Forall (below u) l -> initial_window u l = 0.
Proof.
  intros u l H. induction H as [|e t He Ht IH]; [reflexivity|]. destruct He as (He & _).
  destruct e; cbn in *; try exact IH.
  destruct (u0 =? u) eqn:E; [apply N.eqb_eq in E; lia|exact IH].
Qed.
Lemma consumed_fresh : forall u l, Forall (below u) l -> consumed u l = 0.
Proof.
  intros u l H. induction H as [|e t He Ht IH]; [reflexivity|]. destruct He as (He & _).
  destruct e; cbn in *; try exact IH.
  destruct (u0 =? u) eqn:E; [apply N.eqb_eq in E; lia|exact IH].
Qed.
Lemma asked_fresh : forall u l, Forall (below u) l -> asked u l = [].
Proof.
  intros u l H. induction H as [|e t He Ht IH]; [reflexivity|]. destruct He as (He & _).
  destruct e; cbn in *; try exact IH.
  destruct c; try exact IH. destruct (u0 =? u) eqn:E; [apply N.eqb_eq in E; lia|exact IH].
Qed.
Lemma asked_bound : forall u b l, Forall (below b) l -> forall id w, In (id, w) (asked u l) -> id < b.
Proof.
  intros u b l H. induction H as [|e t He Ht IH]; intros i w Hi; [contradiction|]. destruct He as (_ & He).
  destruct e; cbn in *; try (eapply IH; eassumption).
  destruct c; try (eapply IH; eassumption). destruct (u0 =? u); [|eapply IH; eassumption].
  apply in_app_or in Hi. destruct Hi as [Hi|[Hi|[]]]; [eapply IH; eassumption|]. congruence.
Qed.

Lemma below_mono : forall b b' l, b <= b' -> Forall (below b) l -> Forall (below b') l.
Proof.
  intros b b' l H F. eapply Forall_impl; [|exact F]. intros e (A & B). split.
  - destruct (tag e); [lia|exact I].
  - destruct (rtag e); [lia|exact I].
Qed.

(** ** The invariant *)

Definition no_close (ms : list cmsg) : Prop := Forall (fun m => is_close m = false) ms.

(** at most one CHANNEL_CLOSE; only CHANNEL_FAILURE after it *)
Definition ended (ms : list cmsg) : Prop :=
  exists a p b, ms = a ++ CClose p :: b /\ Forall (fun m => exists q, m = CReply q false) a /\ no_close b.
Definition closed_ok (ms : list cmsg) : Prop := no_close ms \/ ended ms.

Definition gone (l : list cev) (u : N) : Prop :=
  closed_ok (said u l) /\ sent_bytes u l <= send_credit u l /\ consumed u l <= receive_credit u l.

Definition chan_ok (l : list cev) (c : chan) : Prop :=
  no_close (said (c_uid c) l) /\
  sent_bytes (c_uid c) l + c_swin c <= send_credit (c_uid c) l /\
  consumed (c_uid c) l + c_rwin c = receive_credit (c_uid c) l.

Definition tomb_ok (l : list cev) (c : chan) : Prop :=
  ended (said (c_uid c) l) /\ gone l (c_uid c).

Definition uid_of (o : option slot) : option N :=
  match o with Some (SChan c) | Some (STomb c) => Some (c_uid c) | _ => None end.

Definition obj_ok (n : N) (l : list cev) (o : option slot) : Prop :=
  match o with
  | Some (SChan c) => chan_ok l c /\ (holder n l = None \/ holder n l = Some (c_uid c))
  | Some (STomb c) => tomb_ok l c
  | Some (SRequested _ _ _) => holder n l = None
  | _ => True
  end.

Fixpoint every (P : cev -> list cev -> Prop) (l : list cev) : Prop :=
  match l with [] => True | e :: t => P e t /\ every P t end.

Lemma every_split : forall P l, every P l -> forall a e b, l = a ++ e :: b -> P e b.
Proof.
  intros P l H a. revert l H. induction a as [|x a IH]; intros l H e b ->; [apply H|].
  eapply (IH (a ++ e :: b)); [apply H|reflexivity].
Qed.

(** what holds whenever an event happens *)
Definition good_event (e : cev) (older : list cev) : Prop :=
  match e with
  | Called n u c =>
      (holder n older = None \/ holder n older = Some u) /\
      match c with
      | CbData d | CbExt _ d => consumed u older + len d <= receive_credit u older
      | _ => True
      end
  | _ => True
  end.

Record I2 (s : cstate) : Prop := {
  i2_next : 0 < cs_next s;
  i2_below : Forall (below (cs_next s)) (cs_log s);
  i2_gone : forall u, u <> 0 -> gone (cs_log s) u;
  i2_good : every good_event (cs_log s);
  i2_uid : cs_dead s = false -> forall n u, uid_of (cs_slots s n) = Some u -> 0 < u < cs_next s;
  i2_distinct : cs_dead s = false -> forall n m u,
    uid_of (cs_slots s n) = Some u -> uid_of (cs_slots s m) = Some u -> n = m;
  i2_obj : cs_dead s = false -> forall n, obj_ok n (cs_log s) (cs_slots s n)
}.

Lemma chan_gone : forall l c, chan_ok l c -> gone l (c_uid c).
Proof. intros l c (A & B & C). split; [now left|]. split; lia. Qed.

Lemma gone_other : forall u u0 evs l, u <> 0 -> u <> u0 -> Forall (tagged u0) evs -> gone l u -> gone (evs ++ l) u.
Proof.
  intros u u0 evs l A B T (G1 & G2 & G3). unfold gone, sent_bytes, receive_credit.
  rewrite !(said_other u u0), (send_credit_other u u0), (consumed_other u u0), (initial_other u u0) by assumption.
  auto.
Qed.

Lemma holder_calm : forall n evs l,
  Forall (fun e => announces n e = false /\ match e with Called k _ _ => k <> n | _ => True end) evs ->
  holder n (evs ++ l) = holder n l.
Proof.
  intros n evs l H. induction H as [|e t (A & B) Ht IH]; [reflexivity|]. cbn [app holder]. rewrite A.
  destruct e; try exact IH. destruct (n0 =? n) eqn:E; [apply N.eqb_eq in E; contradiction|exact IH].
Qed.

(** events about number [n] only *)
Definition numbered (n : N) (e : cev) : Prop :=
  match e with Sent k _ _ | Called k _ _ => k = n | _ => True end.

Lemma holder_other : forall m n evs l, m <> n -> Forall (numbered n) evs -> holder m (evs ++ l) = holder m l.
Proof.
  intros m n evs l H F. apply holder_calm. eapply Forall_impl; [|exact F]. intros e He.
  destruct e; cbn in *; try (split; [reflexivity|exact I]); subst.
  - split; [|exact I]. destruct m0; try reflexivity; apply N.eqb_neq; congruence.
  - split; [reflexivity|]. congruence.
Qed.

Lemma obj_other : forall m n u0 evs l o, m <> n -> (forall u, uid_of o = Some u -> u <> 0 /\ u <> u0) ->
  Forall (tagged u0) evs -> Forall (numbered n) evs -> obj_ok m l o -> obj_ok m (evs ++ l) o.
Proof.
  intros m n u0 evs l o Hm Hu T Nn H. destruct o as [[f w c|p w|c|c]|]; cbn [obj_ok uid_of] in *; try exact I.
  - now rewrite (holder_other m n).
  - destruct (Hu _ eq_refl) as (A & B). destruct H as (H1 & H2). split.
    + now rewrite (said_other _ u0).
    + eapply gone_other; eassumption.
  - destruct (Hu _ eq_refl) as (A & B). destruct H as ((H1 & H2 & H3) & H4).
    split; [|now rewrite (holder_other m n)].
    unfold chan_ok, sent_bytes, receive_credit in *.
    now rewrite !(said_other _ u0), (send_credit_other _ u0), (consumed_other _ u0), (initial_other _ u0).
Qed.

(** ** Replies *)

Lemma said_replies : forall n u p rs l, said u (reply_events n u p rs ++ l) = rev (map (CReply p) rs) ++ said u l.
Proof.
  intros n u p rs l. unfold reply_events. rewrite <- !map_rev.
  induction (rev rs) as [|b t IH]; [reflexivity|]. cbn. rewrite N.eqb_refl. now f_equal.
Qed.

Definition inert (e : cev) : Prop :=
  match e with Sent _ _ (CReply _ _) | Finished _ _ _ => True | _ => False end.

Lemma replies_inert : forall n u p rs, Forall inert (reply_events n u p rs).
Proof.
  intros. unfold reply_events. apply Forall_rev, Forall_forall. intros e He.
  apply in_map_iff in He. destruct He as (b & <- & _). exact I.
Qed.
Lemma finish_inert : forall u id o, Forall inert (finish_events u id o).
Proof. intros u id []; repeat constructor. Qed.

Lemma inert_fun : forall evs l, Forall inert evs -> forall u,
  send_credit u (evs ++ l) = send_credit u l /\ initial_window u (evs ++ l) = initial_window u l /\
  consumed u (evs ++ l) = consumed u l /\ sent_bytes u (evs ++ l) = sent_bytes u l /\
  receive_credit u (evs ++ l) = receive_credit u l /\ (no_close (said u l) -> no_close (said u (evs ++ l))) /\
  (forall n, holder n (evs ++ l) = holder n l) /\ (every good_event l -> every good_event (evs ++ l)).
Proof.
  intros evs l H u. induction H as [|e t He Ht IH].
  - repeat (split; [reflexivity|]). split; [auto|]. split; [reflexivity|auto].
  - destruct IH as (A & B & C & D & F & G & J & K).
    unfold sent_bytes, receive_credit in *.
    destruct e; try contradiction; cbn [app send_credit initial_window consumed said holder announces every good_event].
    + destruct m; try contradiction.
      split; [exact A|]. split; [exact B|]. split; [exact C|].
      split; [destruct (u0 =? u); [cbn; exact D|exact D]|].
      split; [destruct (u0 =? u); [cbn; exact F|exact F]|].
      split; [intros Q; destruct (u0 =? u); [constructor; [reflexivity|exact (G Q)]|exact (G Q)]|].
      split; [exact J|]. intros Q. split; [exact I|exact (K Q)].
    + split; [exact A|]. split; [exact B|]. split; [exact C|]. split; [exact D|]. split; [exact F|].
      split; [exact G|]. split; [exact J|]. intros Q. split; [exact I|exact (K Q)].
Qed.

Lemma replies_tagged : forall n u p rs, Forall (tagged u) (reply_events n u p rs).
Proof.
  intros. unfold reply_events. apply Forall_rev, Forall_forall. intros e He.
  apply in_map_iff in He. destruct He as (b & <- & _). now left.
Qed.
Lemma finish_tagged : forall u id o, Forall (tagged u) (finish_events u id o).
Proof. intros u id []; repeat constructor. Qed.
Lemma replies_numbered : forall n u p rs, Forall (numbered n) (reply_events n u p rs).
Proof.
  intros. unfold reply_events. apply Forall_rev, Forall_forall. intros e He.
  apply in_map_iff in He. destruct He as (b & <- & _). reflexivity.
Qed.
Lemma finish_numbered : forall n u id o, Forall (numbered n) (finish_events u id o).
Proof. intros n u id []; repeat constructor. Qed.
Lemma replies_below : forall n u p rs b, u < b -> Forall (below b) (reply_events n u p rs).
Proof.
  intros. unfold reply_events. apply Forall_rev, Forall_forall. intros e He.
  apply in_map_iff in He. destruct He as (x & <- & _). split; [exact H|exact I].
Qed.
Lemma finish_below : forall u id o b, u < b -> Forall (below b) (finish_events u id o).
Proof. intros u id [] b H; repeat constructor; assumption. Qed.

(** ** One simple step *)

Definition slot_uid (o : option slot) : N := match uid_of o with Some u => u | None => 0 end.

Lemma sumN_cons : forall x l, sumN (x :: l) = x + sumN l.
Proof. reflexivity. Qed.

Ltac comp :=
  unfold chan_ok, gone, sent_bytes, receive_credit in *;
  cbn [app said send_credit initial_window consumed holder announces c_uid c_peer c_rwin c_swin set_pending set_rwin set_swin] in *;
  rewrite ?N.eqb_refl in *;
  cbn [map data_bytes adjust_bytes] in *; rewrite ?sumN_cons in *.

Definition step_ok (s : cstate) (n : N) (v : option slot) (evs : list cev) (inc : N) : Prop :=
  exists u0,
  (u0 = slot_uid (cs_slots s n) \/ (u0 = cs_next s /\ inc = 1)) /\
  Forall (tagged u0) evs /\ Forall (numbered n) evs /\ Forall (below (cs_next s + inc)) evs /\
  (uid_of v = None \/ uid_of v = Some u0) /\
  obj_ok n (evs ++ cs_log s) v /\ (u0 <> 0 -> gone (evs ++ cs_log s) u0) /\
  every good_event (evs ++ cs_log s).

(** no [u0] and no calls: received packets, factories *)
Definition quiet (e : cev) : Prop :=
  match e with
  | Received _ _ | Opening _ _ _ _ _ | Asked _ | Factory _ _ | Revoked _ | Died _ | Destroyed _ _
  | Dropped _ _ _ | Finished _ _ _ => True
  | Sent _ u (COpenFail _ _ _) => True
  | _ => False
  end.

Lemma quiet_fun : forall evs l, Forall quiet evs -> forall u, u <> 0 \/ True ->
  send_credit u (evs ++ l) = send_credit u l /\ initial_window u (evs ++ l) = initial_window u l /\
  consumed u (evs ++ l) = consumed u l /\ (forall n, holder n (evs ++ l) = holder n l) /\
  (every good_event l -> every good_event (evs ++ l)).
Proof.
  intros evs l H u _. induction H as [|e t He Ht IH].
  - repeat (split; [reflexivity|]). auto.
  - destruct IH as (A & B & C & D & F). destruct e; try contradiction; try (destruct m; try contradiction);
      cbn; repeat (split; [assumption|]); tauto.
Qed.

Lemma I2_live : forall s n c, I2 s -> cs_dead s = false -> cs_slots s n = Some (SChan c) ->
  chan_ok (cs_log s) c /\ (holder n (cs_log s) = None \/ holder n (cs_log s) = Some (c_uid c)) /\
  0 < c_uid c < cs_next s /\ every good_event (cs_log s).
Proof.
  intros s n c I D S. pose proof (i2_obj s I D n) as O. rewrite S in O. destruct O as (O1 & O2).
  split; [exact O1|]. split; [exact O2|]. split; [|apply I].
  apply (i2_uid s I D n). now rewrite S.
Qed.

Lemma I2_tomb : forall s n c, I2 s -> cs_dead s = false -> cs_slots s n = Some (STomb c) ->
  tomb_ok (cs_log s) c /\ 0 < c_uid c < cs_next s /\ every good_event (cs_log s).
Proof.
  intros s n c I D S. pose proof (i2_obj s I D n) as O. rewrite S in O.
  split; [exact O|]. split; [|apply I]. apply (i2_uid s I D n). now rewrite S.
Qed.

Lemma tagged_self : forall u e, tag e = Some u -> tagged u e.
Proof. intros u e H. unfold tagged. rewrite H. now left. Qed.

Ltac tg := repeat constructor; try (unfold tagged; cbn; auto; fail); try (cbn; lia).

Lemma live_call_good : forall s n c call, I2 s -> cs_dead s = false -> cs_slots s n = Some (SChan c) ->
  match call with CbData d | CbExt _ d => len d <= c_rwin c | _ => True end ->
  good_event (Called n (c_uid c) call) (cs_log s).
Proof.
  intros s n c call I D S H. destruct (I2_live s n c I D S) as ((O1 & O2 & O3) & O4 & _). cbn. split; [exact O4|].
  destruct call; try exact Logic.I; lia.
Qed.

Lemma pow64_pos : pow64 <> 0. Proof. discriminate. Qed.

Lemma allowed_objects : forall E P s n v evs inc, allowed E P s n v evs inc ->
  I1 s -> I2 s -> cs_dead s = false -> step_ok s n v evs inc.
Proof.
  intros E P s n v evs inc H (HI1 & _) HI D. unfold step_ok.
  destruct H.
  all: pose proof (i2_good _ HI) as GE.
  all: try (match goal with S : cs_slots ?s0 ?n0 = Some (SChan ?c0) |- _ =>
    destruct (I2_live s0 n0 c0 HI D S) as (OK & HO & UB & _); exists (c_uid c0);
    unfold slot_uid; rewrite S; cbn [uid_of];
    split; [left; reflexivity|] end).
  all: try (match goal with S : cs_slots ?s0 ?n0 = Some (STomb ?c0) |- _ =>
    destruct (I2_tomb s0 n0 c0 HI D S) as (OK & UB & _); exists (c_uid c0);
    unfold slot_uid; rewrite S; cbn [uid_of];
    split; [left; reflexivity|] end).
  - (* received *)
    exists (slot_uid (cs_slots s n)). split; [now left|]. split; [tg|]. split; [tg|]. split; [tg|].
    split; [unfold slot_uid; destruct (cs_slots s n) as [[| |c|c]|]; cbn; auto|].
    pose proof (i2_obj s HI D n) as O. pose proof (i2_uid s HI D n) as U.
    split.
    { unfold slot_uid in *. destruct (cs_slots s n) as [[| |c|c]|]; exact O. }
    split; [intros Hu; exact (i2_gone s HI _ Hu)|]. split; [exact I|exact GE].
  - (* opening *)
    exists 0. unfold slot_uid. rewrite H. split; [now left|]. split; [tg|]. split; [tg|]. split; [tg|].
    split; [now left|]. split; [exact I|]. split; [congruence|]. split; [exact I|exact GE].
  - exists 0. unfold slot_uid. rewrite H. split; [now left|]. split; [tg|]. split; [tg|].
    split; [pose proof (i2_next s HI); tg|].
    split; [now left|]. split; [exact I|]. split; [congruence|]. split; [exact I|exact GE].
  - (* confirm *)
    pose proof (i2_below s HI) as B. pose proof (i2_next s HI) as NX.
    exists (cs_next s). split; [now right|]. split; [tg|]. split; [tg|]. split; [tg|]. split; [now right|].
    match goal with |- obj_ok n ?l (Some (SChan ?c)) /\ _ => assert (K : chan_ok l c) end.
    { comp. rewrite said_fresh, send_credit_fresh, consumed_fresh, initial_fresh by assumption. cbn.
      split; [repeat constructor|lia]. }
    split; [split; [exact K|left; cbn; now rewrite N.eqb_refl]|].
    split; [intros _; exact (chan_gone _ _ K)|]. repeat split. exact GE.
  - (* confirmation for a canceled request *)
    pose proof (i2_below s HI) as B. pose proof (i2_next s HI) as NX.
    exists (cs_next s). split; [now right|]. split; [tg|]. split; [tg|]. split; [tg|]. split; [now right|].
    match goal with |- obj_ok n ?l (Some (STomb ?c)) /\ _ => assert (K : tomb_ok l c) end.
    { unfold tomb_ok. assert (EN : ended (said (cs_next s)
          ([Sent n (cs_next s) (CClose (cc_peer_channel c)); Received 91 p] ++ cs_log s))).
      { cbn. rewrite N.eqb_refl, said_fresh by assumption. exists [], (cc_peer_channel c), []. repeat constructor. }
      split; [exact EN|]. split; [right; exact EN|]. comp.
      rewrite said_fresh, send_credit_fresh, consumed_fresh, initial_fresh by assumption. cbn. lia. }
    split; [exact K|]. split; [intros _; exact (proj2 K)|]. repeat split. exact GE.
  - (* confirmation *)
    pose proof (i2_below s HI) as B. pose proof (i2_next s HI) as NX.
    exists (cs_next s). split; [now right|]. split; [tg|]. split; [tg|]. split; [tg|]. split; [now right|].
    match goal with |- obj_ok n ?l (Some (SChan ?c)) /\ _ => assert (K : chan_ok l c) end.
    { comp. rewrite said_fresh, send_credit_fresh, consumed_fresh, initial_fresh by assumption. cbn.
      split; [repeat constructor|lia]. }
    pose proof (i2_obj s HI D n) as O. rewrite H in O.
    split; [split; [exact K|left; exact O]|].
    split; [intros _; exact (chan_gone _ _ K)|]. repeat split. exact GE.
  - exists 0. unfold slot_uid. rewrite H. split; [now left|]. split; [tg|]. split; [tg|]. split; [tg|].
    split; [now left|]. split; [exact I|]. split; [congruence|]. split; [exact I|exact GE].
  - exists 0. unfold slot_uid. rewrite H. split; [now left|]. split; [tg|]. split; [tg|]. split; [tg|].
    split; [now left|]. split; [exact I|]. split; [congruence|]. repeat split. exact GE.
  - (* call *)
    split; [tg|]. split; [tg|]. split; [tg; destruct call; try exact I; contradiction|]. split; [now right|].
    assert (K : chan_ok ([Called n (c_uid c) call] ++ cs_log s) c).
    { comp. destruct call; try contradiction; exact OK. }
    split; [split; [exact K|right; cbn; now rewrite N.eqb_refl]|].
    split; [intros _; exact (chan_gone _ _ K)|].
    split; [|exact GE]. eapply live_call_good; try eassumption. destruct call; try exact I; exact H0.
  - (* adjust *)
    split; [tg|]. split; [tg|]. split; [tg|]. split; [now right|].
    match goal with |- obj_ok n ?l (Some (SChan ?c)) /\ _ => assert (K : chan_ok l c) end.
    { destruct OK as (O1 & O2 & O3). comp. split; [exact O1|]. split; [|exact O3].
      pose proof (N.mod_le (c_swin c + k) pow64 pow64_pos). lia. }
    split; [split; [exact K|right; cbn; now rewrite N.eqb_refl]|].
    split; [intros _; exact (chan_gone _ _ K)|].
    split; [|exact GE]. eapply live_call_good; try eassumption. exact I.
  - split; [tg|]. split; [tg|]. split; [tg|]. split; [now right|]. split; [exact OK|].
    split; [intros _; exact (proj2 OK)|]. exact GE.
  - (* drop *)
    split; [tg|]. split; [tg|]. split; [tg|]. split; [now right|]. split; [exact OK|].
    split; [intros _; exact (proj2 OK)|]. split; [exact I|exact GE].
  - (* closed by the peer *)
    split; [tg|]. split; [tg|]. split; [tg|]. split; [now left|]. split; [exact I|].
    split; [|repeat split; exact GE]. intros _. destruct OK as (O1 & O2 & O3). comp.
    split; [|lia]. right. exists [], (c_peer c), (said (c_uid c) (cs_log s)). repeat constructor. exact O1.
  - split; [tg|]. split; [tg|]. split; [tg|]. split; [now left|]. split; [exact I|].
    split; [intros _; exact (proj2 OK)|]. split; [exact I|exact GE].
  - (* request *)
    pose proof (finish_inert (c_uid c) (cs_next s) o) as FI.
    pose proof (replies_inert n (c_uid c) (c_peer c) rs) as RI.
    split. { apply Forall_app; split; [apply replies_tagged|]. apply Forall_app; split; [apply finish_tagged|tg]. }
    split. { apply Forall_app; split; [apply replies_numbered|]. apply Forall_app; split; [apply finish_numbered|tg]. }
    split. { apply Forall_app; split; [apply replies_below; lia|].
             apply Forall_app; split; [apply finish_below; lia|tg]. }
    split; [now right|].
    rewrite <- !app_assoc, app_assoc. set (evs := reply_events _ _ _ _ ++ finish_events _ _ _).
    assert (EI : Forall inert evs) by (apply Forall_app; now split).
    clearbody evs. set (l1 := [_] ++ cs_log s).
    destruct (inert_fun evs l1 EI (c_uid c)) as (A1 & A2 & A3 & A4 & A5 & A6 & A7 & A8).
    assert (K : chan_ok (evs ++ l1) (set_pending c l)).
    { unfold chan_ok. cbn [set_pending c_uid c_swin c_rwin]. rewrite A1, A3, A4, A5. destruct OK as (O1 & O2 & O3).
      split; [apply A6; exact O1|]. exact (conj O2 O3). }
    split; [split; [exact K|right; cbn [set_pending c_uid]; rewrite A7; cbn; now rewrite N.eqb_refl]|].
    split; [intros _; exact (chan_gone _ _ K)|]. apply A8. split; [|exact GE].
    eapply live_call_good; try eassumption. exact I.
  - (* request for a tombstone *)
    pose proof (replies_inert n (c_uid c) (c_peer c) rs) as RI.
    split; [apply replies_tagged|]. split; [apply replies_numbered|]. split; [apply replies_below; lia|].
    split; [now right|].
    destruct (HI1 D n) as (_ & Sl). rewrite H in Sl. destruct Sl as (Sl & _). rewrite Sl in H0.
    destruct (tomb_request _ _ _ _ _ _ H0) as (R & _).
    destruct (inert_fun _ (cs_log s) RI (c_uid c)) as (A1 & A2 & A3 & A4 & A5 & A6 & A7 & A8).
    assert (EN : ended (said (c_uid c) (reply_events n (c_uid c) (c_peer c) rs ++ cs_log s))).
    { rewrite said_replies. destruct OK as ((a & p & b & EQ & X & Y) & _). rewrite EQ.
      destruct R as [->| ->]; [exists a, p, b; auto|]. cbn.
      exists (CReply (c_peer c) false :: a), p, b. split; [reflexivity|]. split; [|exact Y]. constructor; [eauto|exact X]. }
    assert (K : gone (reply_events n (c_uid c) (c_peer c) rs ++ cs_log s) (c_uid c)).
    { split; [right; exact EN|]. rewrite A1, A3, A4, A5. exact (proj2 (proj2 OK)). }
    split; [split; [exact EN|exact K]|]. split; [intros _; exact K|]. apply A8. exact GE.
  - (* request done *)
    pose proof (replies_inert n (c_uid c) (c_peer c) rs) as RI.
    split. { apply Forall_app; split; [apply replies_tagged|tg]. }
    split. { apply Forall_app; split; [apply replies_numbered|tg]. }
    split. { apply Forall_app; split; [apply replies_below; lia|tg]. }
    split; [now right|]. set (evs := _ ++ [_]).
    assert (EI : Forall inert evs) by (apply Forall_app; split; [exact RI|repeat constructor]).
    clearbody evs.
    destruct (inert_fun evs (cs_log s) EI (c_uid c)) as (A1 & A2 & A3 & A4 & A5 & A6 & A7 & A8).
    assert (K : chan_ok (evs ++ cs_log s) (set_pending c l)).
    { unfold chan_ok. cbn [set_pending c_uid c_swin c_rwin]. rewrite A1, A3, A4, A5. destruct OK as (O1 & O2 & O3).
      split; [apply A6; exact O1|]. exact (conj O2 O3). }
    split; [split; [exact K|cbn [set_pending c_uid]; rewrite A7; exact HO]|].
    split; [intros _; exact (chan_gone _ _ K)|]. apply A8. exact GE.
  - (* open *)
    exists 0. unfold slot_uid. rewrite H. split; [now left|]. split; [tg|]. split; [tg|].
    split; [pose proof (i2_next s HI); tg|].
    split; [now left|]. split; [cbn; now rewrite N.eqb_refl|]. split; [congruence|]. repeat split. exact GE.
  - exists 0. unfold slot_uid. rewrite H. split; [now left|]. split; [tg|]. split; [tg|]. split; [tg|].
    split; [now left|]. pose proof (i2_obj s HI D n) as O. rewrite H in O.
    split; [exact O|]. split; [congruence|]. repeat split. exact GE.
  - (* close *)
    split; [tg|]. split; [tg|]. split; [tg|]. split; [now right|].
    assert (EN : ended (said (c_uid c) ([Destroyed n (c_uid c); Sent n (c_uid c) (CClose (c_peer c))] ++ cs_log s))).
    { cbn. rewrite N.eqb_refl. exists [], (c_peer c), (said (c_uid c) (cs_log s)). repeat constructor. apply OK. }
    match goal with |- obj_ok n ?l _ /\ _ => assert (K : gone l (c_uid c)) end.
    { split; [right; exact EN|]. destruct OK as (O1 & O2 & O3). comp. lia. }
    split; [split; [exact EN|exact K]|]. split; [intros _; exact K|]. repeat split; exact GE.
  - (* consume *)
    split; [tg|]. split; [tg|]. split; [tg|]. split; [now right|].
    match goal with |- obj_ok n ?l (Some (SChan ?c)) /\ _ => assert (K : chan_ok l c) end.
    { destruct OK as (O1 & O2 & O3). comp. split; [exact O1|]. lia. }
    split; [split; [exact K|exact HO]|]. split; [intros _; exact (chan_gone _ _ K)|]. repeat split; exact GE.
  - split; [tg|]. split; [tg|]. split; [tg|]. split; [now right|].
    match goal with |- obj_ok n ?l (Some (SChan ?c)) /\ _ => assert (K : chan_ok l c) end.
    { destruct OK as (O1 & O2 & O3). comp. split; [constructor; [reflexivity|exact O1]|]. lia. }
    split; [split; [exact K|exact HO]|]. split; [intros _; exact (chan_gone _ _ K)|]. repeat split; exact GE.
  - split; [tg|]. split; [tg|]. split; [tg|]. split; [now right|].
    match goal with |- obj_ok n ?l (Some (SChan ?c)) /\ _ => assert (K : chan_ok l c) end.
    { destruct OK as (O1 & O2 & O3). comp. split; [constructor; [reflexivity|exact O1]|]. lia. }
    split; [split; [exact K|exact HO]|]. split; [intros _; exact (chan_gone _ _ K)|]. repeat split; exact GE.
  - split; [tg|]. split; [tg|]. split; [tg|]. split; [now right|].
    match goal with |- obj_ok n ?l (Some (SChan ?c)) /\ _ => assert (K : chan_ok l c) end.
    { destruct OK as (O1 & O2 & O3). comp. split; [constructor; [reflexivity|exact O1]|]. lia. }
    split; [split; [exact K|exact HO]|]. split; [intros _; exact (chan_gone _ _ K)|]. repeat split; exact GE.
  - split; [tg|]. split; [tg|]. split; [tg|]. split; [now right|].
    match goal with |- obj_ok n ?l (Some (SChan ?c)) /\ _ => assert (K : chan_ok l c) end.
    { destruct OK as (O1 & O2 & O3). comp. split; [constructor; [reflexivity|exact O1]|]. lia. }
    split; [split; [exact K|exact HO]|]. split; [intros _; exact (chan_gone _ _ K)|]. repeat split; exact GE.
  - split; [tg|]. split; [tg|]. split; [tg|]. split; [now right|].
    match goal with |- obj_ok n ?l (Some (SChan ?c)) /\ _ => assert (K : chan_ok l c) end.
    { destruct OK as (O1 & O2 & O3). comp. split; [constructor; [reflexivity|exact O1]|]. lia. }
    split; [split; [exact K|exact HO]|]. split; [intros _; exact (chan_gone _ _ K)|]. repeat split; exact GE.
Qed.

Lemma allowedD_objects : forall E P s n v evs inc, allowedD E P s n v evs inc ->
  I1 s -> I2 s -> cs_dead s = false ->
  Forall (below (cs_next s + inc)) evs /\ (forall u, u <> 0 -> gone (evs ++ cs_log s) u) /\
  every good_event (evs ++ cs_log s).
Proof.
  intros E P s n v evs inc H (HI1 & _) HI D. pose proof (i2_good _ HI) as GE. pose proof (i2_gone _ HI) as GO.
  destruct H.
  - split; [constructor|]. split; [exact GO|exact GE].
  - split; [tg|]. split; [exact GO|repeat split; exact GE].
  - (* throws *)
    destruct (I2_live s n c HI D H) as (OK & HO & UB & _).
    split. { apply Forall_app; split; [apply finish_below; lia|tg]. }
    rewrite <- app_assoc. set (l1 := [_] ++ cs_log s).
    assert (G1 : every good_event l1).
    { split; [|exact GE]. eapply live_call_good; try eassumption. exact I. }
    assert (K1 : forall u, u <> 0 -> gone l1 u) by exact GO.
    split; [|apply (inert_fun _ l1 (finish_inert _ _ _) 1); exact G1].
    intros u Hu. destruct o; exact (K1 u Hu).
  - (* assertion *)
    destruct (I2_live s n c HI D H) as (OK & HO & UB & _).
    pose proof (finish_inert (c_uid c) (cs_next s) o) as FI.
    pose proof (replies_inert n (c_uid c) (c_peer c) rs) as RI.
    split. { apply Forall_app; split; [apply replies_below; lia|].
             apply Forall_app; split; [apply finish_below; lia|tg]. }
    rewrite <- !app_assoc.
    set (l1 := [_] ++ cs_log s). rewrite app_assoc.
    set (evs := reply_events _ _ _ _ ++ finish_events _ _ _).
    assert (EI : Forall inert evs) by (apply Forall_app; now split).
    assert (ET : Forall (tagged (c_uid c)) evs) by (apply Forall_app; split; [apply replies_tagged|apply finish_tagged]).
    clearbody evs.
    assert (G1 : every good_event l1).
    { split; [|exact GE]. eapply live_call_good; try eassumption. exact I. }
    destruct (inert_fun evs l1 EI (c_uid c)) as (A1 & A2 & A3 & A4 & A5 & A6 & A7 & A8).
    split; [|exact (A8 G1)]. intros u Hu. destruct (N.eq_dec u (c_uid c)) as [->|Hn].
    + destruct OK as (O1 & O2 & O3). split; [left; apply A6; exact O1|]. rewrite A1, A3, A4, A5.
      change (sent_bytes (c_uid c) (cs_log s) <= send_credit (c_uid c) (cs_log s) /\
              consumed (c_uid c) (cs_log s) <= receive_credit (c_uid c) (cs_log s)). lia.
    + apply (gone_other u (c_uid c)); try assumption. exact (GO u Hu).
  - destruct (I2_tomb s n c HI D H) as (OK & UB & _).
    pose proof (replies_inert n (c_uid c) (c_peer c) rs) as RI.
    split; [apply replies_below; lia|].
    destruct (HI1 D n) as (_ & Sl). rewrite H in Sl. destruct Sl as (Sl & _). rewrite Sl in H0.
    destruct (tomb_request _ _ _ _ _ _ H0) as (R & _).
    destruct (inert_fun _ (cs_log s) RI (c_uid c)) as (A1 & A2 & A3 & A4 & A5 & A6 & A7 & A8).
    split; [|exact (A8 GE)]. intros u Hu. destruct (N.eq_dec u (c_uid c)) as [->|Hn].
    + split; [|rewrite A1, A3, A4, A5; exact (proj2 (proj2 OK))]. right.
      rewrite said_replies. destruct OK as ((a & p & b & EQ & X & Y) & _). rewrite EQ.
      destruct R as [->| ->]; [exists a, p, b; auto|]. cbn.
      exists (CReply (c_peer c) false :: a), p, b. split; [reflexivity|]. split; [|exact Y]. constructor; [eauto|exact X].
    + apply (gone_other u (c_uid c)); try assumption; [apply replies_tagged|exact (GO u Hu)].
  - destruct (I2_live s n c HI D H) as (OK & HO & UB & _).
    pose proof (replies_inert n (c_uid c) (c_peer c) rs) as RI.
    split. { apply Forall_app; split; [apply replies_below; lia|tg]. }
    set (evs := _ ++ [_]).
    assert (EI : Forall inert evs) by (apply Forall_app; split; [exact RI|repeat constructor]).
    assert (ET : Forall (tagged (c_uid c)) evs) by (apply Forall_app; split; [apply replies_tagged|tg]).
    clearbody evs.
    destruct (inert_fun evs (cs_log s) EI (c_uid c)) as (A1 & A2 & A3 & A4 & A5 & A6 & A7 & A8).
    split; [|exact (A8 GE)]. intros u Hu. destruct (N.eq_dec u (c_uid c)) as [->|Hn].
    + destruct OK as (O1 & O2 & O3). split; [left; apply A6; exact O1|]. rewrite A1, A3, A4, A5. lia.
    + apply (gone_other u (c_uid c)); try assumption. exact (GO u Hu).
Qed.

(** nothing but farewells *)
Lemma deaths_quiet : forall f, Forall quiet (deaths f).
Proof.
  intros f. unfold deaths. apply Forall_rev, Forall_forall. intros e He.
  apply in_flat_map in He. destruct He as (n & _ & He). unfold death_event in He.
  destruct (f n) as [[g w []|p w|c|c]|]; try contradiction; destruct He as [<-|[]]; exact I.
Qed.

Lemma deaths_said : forall f u l, said u (deaths f ++ l) = said u l.
Proof.
  intros f u l. assert (F : Forall (fun e => match e with Sent _ _ _ => False | _ => True end) (deaths f)).
  { unfold deaths. apply Forall_rev, Forall_forall. intros e He.
    apply in_flat_map in He. destruct He as (n & _ & He). unfold death_event in He.
    destruct (f n) as [[g w []|p w|c|c]|]; try contradiction; destruct He as [<-|[]]; exact I. }
  induction F as [|e t He Ht IH]; [reflexivity|]. destruct e; cbn; try exact IH. contradiction.
Qed.

Lemma gone_death : forall f r u l, gone l u -> gone (deaths f ++ Died r :: l) u.
Proof.
  intros f r u l (A & B & C).
  destruct (quiet_fun (deaths f) (Died r :: l) (deaths_quiet f) u (or_intror I)) as (Q1 & Q2 & Q3 & _ & _).
  unfold gone, sent_bytes, receive_credit in *. rewrite Q1, Q2, Q3, deaths_said. cbn. auto.
Qed.

Lemma allowed_inc : forall E P s n v evs inc, allowed E P s n v evs inc -> inc = 0 \/ inc = 1.
Proof. intros. destruct H; auto. Qed.

Lemma slot_uid_some : forall o u, uid_of o = Some u -> slot_uid o = u.
Proof. intros o u H. unfold slot_uid. now rewrite H. Qed.

Theorem I2_reach : forall E P s, mreach E P s -> I1 s /\ I2 s.
Proof.
  intros E P s H. split; [exact (I1_reach E P s H)|].
  assert (G : mreach E P s /\ I2 s); [|exact (proj2 G)].
  revert s H. unfold mreach. intros s H. induction H as [|s s' H IH M].
  - split; [apply MS_nil|]. constructor; cbn; try discriminate; try (intros; exact I); try lia.
    + constructor.
    + intros u _. split; [left; constructor|]. unfold sent_bytes, receive_credit. cbn. lia.
  - destruct IH as (R & IH). split; [eapply MS_snoc; eassumption|]. pose proof (I1_reach E P s R) as J.
    destruct M as [n v evs inc A G|n v evs inc s1 r A G ->]; destruct G as (GS & GL & GN & D & D').
    + pose proof (allowed_inc _ _ _ _ _ _ _ A) as Inc.
      destruct (allowed_objects E P s n v evs inc A J IH D) as (u0 & W & T & Nn & B & Sl & O & Go & Ge).
      (* the object is not in another slot *)
      assert (OTH : forall m u, m <> n -> uid_of (cs_slots s m) = Some u -> u <> 0 /\ u <> u0).
      { intros m u Hm Hu. pose proof (i2_uid s IH D m u Hu) as X. split; [lia|]. intros ->.
        destruct W as [W|(W & _)]; [|lia]. unfold slot_uid in W.
        destruct (uid_of (cs_slots s n)) as [u1|] eqn:U; [|lia]. subst u1.
        exact (Hm (i2_distinct s IH D m n u0 Hu U)). }
      assert (UV : forall u, uid_of v = Some u -> 0 < u < cs_next s').
      { intros u Hu. rewrite GN. destruct Sl as [Sl|Sl]; [congruence|]. rewrite Sl in Hu. injection Hu as <-.
        pose proof (i2_next s IH). destruct W as [W|(W & ->)]; [|subst; lia].
        unfold slot_uid in W. destruct (uid_of (cs_slots s n)) as [u1|] eqn:U.
        - subst. pose proof (i2_uid s IH D n u1 U). lia.
        - (* the new slot has an object, but neither fresh nor old *)
          exfalso. subst u0. destruct A; cbn [uid_of c_uid set_pending set_rwin set_swin] in Sl;
            try discriminate; try congruence; try (injection Sl as Sl; lia);
            match goal with S : cs_slots _ _ = _ |- _ => rewrite S in U; discriminate end. }
      constructor.
      * rewrite GN. pose proof (i2_next s IH). lia.
      * rewrite GN, GL. apply Forall_app. split; [exact B|]. eapply below_mono; [|apply IH]. lia.
      * intros u Hu. rewrite GL. destruct (N.eq_dec u u0) as [->|Hn]; [now apply Go|].
        eapply gone_other; try eassumption. now apply IH.
      * rewrite GL. exact Ge.
      * intros _ m u. rewrite GS. destruct (m =? n); [apply UV|]. intros Hu.
        pose proof (i2_uid s IH D m u Hu). lia.
      * intros _ m k u. rewrite !GS. destruct (m =? n) eqn:Em, (k =? n) eqn:Ek.
        -- apply N.eqb_eq in Em, Ek. congruence.
        -- apply N.eqb_neq in Ek. intros A1 A2. destruct (OTH k u Ek A2) as (_ & X).
           destruct Sl as [Sl|Sl]; congruence.
        -- apply N.eqb_neq in Em. intros A1 A2. destruct (OTH m u Em A1) as (_ & X).
           destruct Sl as [Sl|Sl]; congruence.
        -- apply (i2_distinct s IH D).
      * intros _ m. rewrite GS, GL. destruct (m =? n) eqn:Em.
        -- apply N.eqb_eq in Em. subst m. exact O.
        -- apply N.eqb_neq in Em. apply (obj_other m n u0); try assumption.
           ++ intros u Hu. exact (OTH m u Em Hu).
           ++ exact (i2_obj s IH D m).
    + destruct (allowedD_objects E P s n v evs inc A J IH D) as (B & Go & Ge).
      destruct (die_spec r s1) as (L & Nx & Dd & _). set (sd := die r s1) in *. clearbody sd.
      constructor; try (rewrite Dd; discriminate).
      * rewrite Nx, GN. pose proof (i2_next s IH). lia.
      * rewrite Nx, L, GN, GL.
        apply Forall_app. split.
        -- unfold deaths. apply Forall_rev, Forall_forall. intros e He.
           apply in_flat_map in He. destruct He as (m & _ & He). unfold death_event in He.
           assert (UU : forall c, cs_slots s1 m = Some (SChan c) -> c_uid c < cs_next s + inc).
           { intros c Hc. rewrite GS in Hc. destruct (m =? n).
             - destruct A; try discriminate;
                 try (match goal with S : cs_slots _ _ = Some (SChan ?c0) |- _ =>
                        destruct (I2_live s n c0 IH D S) as (_ & _ & UB & _);
                        try (injection Hc as <-); cbn; lia end).
             - destruct (I2_live s m c IH D Hc) as (_ & _ & UB & _). lia. }
           destruct (cs_slots s1 m) as [[g w []|p w|c|c]|]; try contradiction;
             destruct He as [<-|[]]; split; try exact I. cbn. now apply UU.
        -- constructor; [split; exact I|]. apply Forall_app. split; [exact B|].
           eapply below_mono; [|apply IH]. lia.
      * intros u Hu. rewrite L, GL. apply gone_death. now apply Go.
      * rewrite L, GL. apply (quiet_fun _ _ (deaths_quiet _) 1 (or_intror I)). split; [exact I|exact Ge].
Qed.
