(** Every operation of the channel model is a short sequence of simple steps,
    each of which changes one slot and appends some events.  Invariants are
    proved about the simple steps. *)

From Coq Require Import NArith List Bool Lia String FinFun.
From Verif.Base Require Import Bytes.
From Verif.Model Require Import Wire Frame Packets Requests Channels.
From Verif.Spec Require Import ChannelSpec.
Import ListNotations.
Open Scope N_scope.

(** slot [n] becomes [v], [evs] (newest first) is appended to the log *)
Definition goes (s s' : cstate) (n : N) (v : option slot) (evs : list cev) (inc : N) : Prop :=
  (forall k, cs_slots s' k = if k =? n then v else cs_slots s k) /\
  cs_log s' = evs ++ cs_log s /\
  cs_next s' = cs_next s + inc /\
  cs_dead s = false /\ cs_dead s' = false.

Definition call_ok (c : chan) (call : ccall) : Prop :=
  match call with
  | CbData d | CbExt _ d => len d <= c_rwin c
  | CbEof | CbSuccess | CbFailure => True
  | CbAdjust _ | CbRequest _ _ _ _ => False
  end.

(** received messages which change no slot and, by themselves, not the status
    of any number *)
Definition no_slot (s : cstate) (msg : N) (p : bytes) : Prop :=
  forall n, target msg p = Some n -> msg = 91 \/ msg = 92 \/ msg = 97 ->
    match msg with
    | 97 => GetChannel s n = None
    | _ => PopRequestedChannel s n = None
    end.

Definition reply_events (n u peer : N) (rs : list bool) : list cev :=
  rev (map (fun b => Sent n u (CReply peer b)) rs).

Definition finish_events (u id : N) (o : routcome) : list cev :=
  match o with RSync b => [Finished u id b] | _ => [] end.

(** [P want_reply outcome] restricts the behaviour of request handlers *)
Inductive allowed (E : renv) (P : bool -> routcome -> Prop) (s : cstate) : N -> option slot -> list cev -> N -> Prop :=
| A_recv n msg p : no_slot s msg p -> allowed E P s n (cs_slots s n) [Received msg p] 0
| A_opening n peer w ty d : cs_slots s n = None -> n < CHANNELS ->
    allowed E P s n (Some (SOpening peer w)) [Opening n peer w ty d] 0
| A_openfail n peer w code d : cs_slots s n = Some (SOpening peer w) ->
    allowed E P s n None [Sent n 0 (COpenFail peer code d)] 0
| A_confirm n peer w rwin : cs_slots s n = Some (SOpening peer w) ->
    allowed E P s n (Some (SChan {| c_uid := cs_next s; c_peer := peer; c_rwin := rwin; c_swin := w; c_pending := [] |}))
      [Sent n (cs_next s) (CConf peer n (rwin mod pow32) MAXIMUM_PACKET_SIZE); Created n (cs_next s) peer w rwin] 1
| A_conf_cancel n p c f w : cs_slots s n = Some (SRequested f w true) -> n < CHANNELS ->
    ParseChannelOpenConfirmation p = Some c -> cc_local_channel c = n ->
    allowed E P s n
      (Some (STomb {| c_uid := cs_next s; c_peer := cc_peer_channel c; c_rwin := cc_initial_window_size c;
                      c_swin := cc_initial_window_size c; c_pending := [] |}))
      [Sent n (cs_next s) (CClose (cc_peer_channel c)); Received 91 p] 1
| A_conf n p c f w : cs_slots s n = Some (SRequested f w false) -> n < CHANNELS ->
    ParseChannelOpenConfirmation p = Some c -> cc_local_channel c = n ->
    allowed E P s n
      (Some (SChan {| c_uid := cs_next s; c_peer := cc_peer_channel c; c_rwin := w;
                      c_swin := cc_initial_window_size c; c_pending := [] |}))
      [Created n (cs_next s) (cc_peer_channel c) (cc_initial_window_size c) w; Factory f FCreate; Received 91 p] 1
| A_fail_cancel n p c f w : cs_slots s n = Some (SRequested f w true) -> n < CHANNELS ->
    ParseChannelOpenFailure p = Some c -> cf_local_channel c = n ->
    allowed E P s n None [Received 92 p] 0
| A_fail n p c f w : cs_slots s n = Some (SRequested f w false) -> n < CHANNELS ->
    ParseChannelOpenFailure p = Some c -> cf_local_channel c = n ->
    allowed E P s n None [Factory f (FFailure (cf_reason_code c)); Factory f FCancel; Received 92 p] 0
| A_call n c call : cs_slots s n = Some (SChan c) -> call_ok c call ->
    allowed E P s n (Some (SChan c)) [Called n (c_uid c) call] 0
| A_adjust n c k : cs_slots s n = Some (SChan c) ->
    allowed E P s n (Some (SChan (set_swin c ((c_swin c + k) mod pow64)))) [Called n (c_uid c) (CbAdjust k)] 0
| A_tomb_adjust n c w : cs_slots s n = Some (STomb c) ->
    allowed E P s n (Some (STomb (set_swin c w))) [] 0
| A_drop n c d : cs_slots s n = Some (STomb c) -> len d <= c_rwin c ->
    allowed E P s n (Some (STomb (set_rwin c (c_rwin c - len d)))) [Dropped n (c_uid c) d] 0
| A_close_recv n c p : cs_slots s n = Some (SChan c) -> n < CHANNELS -> ParseChannelClose p = Some n ->
    allowed E P s n None [Destroyed n (c_uid c); Sent n (c_uid c) (CClose (c_peer c)); Received 97 p] 0
| A_close_tomb n c p : cs_slots s n = Some (STomb c) -> n < CHANNELS -> ParseChannelClose p = Some n ->
    allowed E P s n None [Received 97 p] 0
| A_request n c want ty d o rs l : cs_slots s n = Some (SChan c) ->
    start_request E (cs_next s) want o (c_pending c) = Some (rs, l, false) ->
    P want o ->
    allowed E P s n (Some (SChan (set_pending c l)))
      (reply_events n (c_uid c) (c_peer c) rs ++ finish_events (c_uid c) (cs_next s) o ++
       [Called n (c_uid c) (CbRequest (cs_next s) want ty d)]) 1
| A_request_tomb n c want rs l : cs_slots s n = Some (STomb c) ->
    start_request E (cs_next s) want (RSync false) (c_pending c) = Some (rs, l, false) ->
    allowed E P s n (Some (STomb (set_pending c l))) (reply_events n (c_uid c) (c_peer c) rs) 1
| A_done n c id b rs l : cs_slots s n = Some (SChan c) ->
    (exists w, find_request id (c_pending c) = Some {| pq_id := id; pq_want := w; pq_done := None |}) ->
    finish_request (r_dbg E) id b (c_pending c) = (rs, l, false) ->
    allowed E P s n (Some (SChan (set_pending c l)))
      (reply_events n (c_uid c) (c_peer c) rs ++ [Finished (c_uid c) id b]) 0
| A_open n f w ty d : cs_slots s n = None -> n < CHANNELS ->
    allowed E P s n (Some (SRequested f w false))
      [Sent n 0 (COpen ty n (w mod pow32) MAXIMUM_PACKET_SIZE d); Asked f] 0
| A_revoke n f w : cs_slots s n = Some (SRequested f w false) ->
    allowed E P s n (Some (SRequested f w true)) [Revoked f] 0
| A_close n c : cs_slots s n = Some (SChan c) ->
    allowed E P s n (Some (STomb (set_pending c [])))
      [Destroyed n (c_uid c); Sent n (c_uid c) (CClose (c_peer c))] 0
| A_consume n c k : cs_slots s n = Some (SChan c) -> k <= c_rwin c ->
    allowed E P s n (Some (SChan (set_rwin c (c_rwin c - k)))) [Consumed (c_uid c) k] 0
| A_send_adjust n c k : cs_slots s n = Some (SChan c) -> k <> 0 -> c_rwin c + k < pow64 ->
    allowed E P s n (Some (SChan (set_rwin c (c_rwin c + k)))) [Sent n (c_uid c) (CAdjust (c_peer c) k)] 0
| A_data n c d : cs_slots s n = Some (SChan c) -> len d <= c_swin c ->
    allowed E P s n (Some (SChan (set_swin c (c_swin c - len d)))) [Sent n (c_uid c) (CData (c_peer c) d)] 0
| A_ext n c ty d : cs_slots s n = Some (SChan c) -> len d <= c_swin c ->
    allowed E P s n (Some (SChan (set_swin c (c_swin c - len d)))) [Sent n (c_uid c) (CExt (c_peer c) ty d)] 0
| A_eof n c : cs_slots s n = Some (SChan c) ->
    allowed E P s n (Some (SChan c)) [Sent n (c_uid c) (CEof (c_peer c))] 0
| A_req n c name d : cs_slots s n = Some (SChan c) ->
    allowed E P s n (Some (SChan c)) [Sent n (c_uid c) (CRequest (c_peer c) name d)] 0.

(** steps after which the connection dies at once *)
Inductive allowedD (E : renv) (P : bool -> routcome -> Prop) (s : cstate) : N -> option slot -> list cev -> N -> Prop :=
| D_none n : allowedD E P s n (cs_slots s n) [] 0
| D_create n p c f w : cs_slots s n = Some (SRequested f w false) -> n < CHANNELS ->
    ParseChannelOpenConfirmation p = Some c -> cc_local_channel c = n ->
    allowedD E P s n None [Factory f FCreate; Received 91 p] 0
| D_request_throw n c want ty d o : cs_slots s n = Some (SChan c) ->
    start_request E (cs_next s) want o (c_pending c) = None ->
    P want o ->
    allowedD E P s n (Some (SChan c))
      (finish_events (c_uid c) (cs_next s) o ++ [Called n (c_uid c) (CbRequest (cs_next s) want ty d)]) 1
| D_request n c want ty d o rs l : cs_slots s n = Some (SChan c) ->
    start_request E (cs_next s) want o (c_pending c) = Some (rs, l, true) ->
    P want o ->
    allowedD E P s n (Some (SChan (set_pending c l)))
      (reply_events n (c_uid c) (c_peer c) rs ++ finish_events (c_uid c) (cs_next s) o ++
       [Called n (c_uid c) (CbRequest (cs_next s) want ty d)]) 1
| D_request_tomb n c want rs l : cs_slots s n = Some (STomb c) ->
    start_request E (cs_next s) want (RSync false) (c_pending c) = Some (rs, l, true) ->
    allowedD E P s n (Some (STomb (set_pending c l))) (reply_events n (c_uid c) (c_peer c) rs) 1
| D_done n c id b rs l : cs_slots s n = Some (SChan c) ->
    (exists w, find_request id (c_pending c) = Some {| pq_id := id; pq_want := w; pq_done := None |}) ->
    finish_request (r_dbg E) id b (c_pending c) = (rs, l, true) ->
    allowedD E P s n (Some (SChan (set_pending c l)))
      (reply_events n (c_uid c) (c_peer c) rs ++ [Finished (c_uid c) id b]) 0.

(** the events of the destruction of all channels, newest first *)
Definition death_event (f : N -> option slot) (n : N) : list cev :=
  match f n with
  | Some (SRequested g _ false) => [Factory g FCancel]
  | Some (SChan c) => [Destroyed n (c_uid c)]
  | _ => []
  end.
Definition deaths (f : N -> option slot) : list cev := rev (flat_map (death_event f) indexes).

Inductive mstep (E : renv) (P : bool -> routcome -> Prop) (s s' : cstate) : Prop :=
| M_go n v evs inc : allowed E P s n v evs inc -> goes s s' n v evs inc -> mstep E P s s'
| M_die n v evs inc s1 r : allowedD E P s n v evs inc -> goes s s1 n v evs inc -> s' = die r s1 -> mstep E P s s'.

(** ** Facts *)

Lemma indexes_in : forall n, In n indexes <-> n < CHANNELS.
Proof.
  intros n. unfold indexes, CHANNELS. rewrite in_map_iff. split.
  - intros (x & <- & H). apply in_seq in H. lia.
  - intros H. exists (N.to_nat n). split; [lia|]. apply in_seq. lia.
Qed.

Lemma indexes_nodup : NoDup indexes.
Proof.
  unfold indexes. apply Injective_map_NoDup; [|apply seq_NoDup].
  intros a b H. lia.
Qed.

Lemma first_free_some : forall f l n, first_free f l = Some n -> f n = None /\ In n l.
Proof.
  intros f l. induction l as [|x t IH]; intros n H; [discriminate|]. cbn [first_free] in H.
  destruct (f x) eqn:E.
  - destruct (IH n H). split; [assumption|now right].
  - injection H as <-. split; [assumption|now left].
Qed.

Lemma first_free_none : forall f l, first_free f l = None -> forall n, In n l -> f n <> None.
Proof.
  intros f l. induction l as [|x t IH]; intros H n Hn; [contradiction|]. cbn [first_free] in H.
  destruct (f x) eqn:E; [|discriminate]. destruct Hn as [<-|Hn]; [congruence|auto].
Qed.

Lemma alloc_spec : forall s n, AllocateChannelIndex s = Some n -> cs_slots s n = None /\ n < CHANNELS.
Proof.
  intros s n H. apply first_free_some in H. destruct H as (H & I). split; [assumption|].
  now apply indexes_in.
Qed.

Lemma die_fold : forall l s,
  NoDup l ->
  let s' := fold_left (fun s n => set_slot n None (delete_slot n (cs_slots s n) s)) l s in
  cs_log s' = rev (flat_map (death_event (cs_slots s)) l) ++ cs_log s /\
  cs_next s' = cs_next s /\
  (forall k, cs_slots s' k = if existsb (N.eqb k) l then None else cs_slots s k).
Proof.
  induction l as [|n t IH]; intros s ND; cbn [fold_left flat_map rev existsb].
  - cbn. split; [reflexivity|]. split; [reflexivity|]. intros k. reflexivity.
  - inversion ND as [|? ? Hn ND']; subst.
    destruct (IH (set_slot n None (delete_slot n (cs_slots s n) s)) ND') as (L & X & S).
    set (s1 := set_slot n None (delete_slot n (cs_slots s n) s)) in *.
    assert (S1 : forall k, cs_slots s1 k = if k =? n then None else cs_slots s k).
    { intros k. unfold s1. cbn [set_slot cs_slots]. unfold upd. destruct (k =? n); [reflexivity|].
      unfold delete_slot. destruct (cs_slots s n) as [[f w []|p w|c|c]|]; reflexivity. }
    assert (F : flat_map (death_event (cs_slots s1)) t = flat_map (death_event (cs_slots s)) t).
    { clear -S1 Hn. induction t as [|x t IH]; [reflexivity|]. cbn [flat_map].
      rewrite IH; [|intros H; apply Hn; now right]. f_equal.
      unfold death_event. rewrite S1. destruct (x =? n) eqn:E; [|reflexivity].
      apply N.eqb_eq in E. subst x. exfalso. apply Hn. now left. }
    cbn zeta in *. split; [|split].
    + rewrite L, F, rev_app_distr, <- app_assoc. f_equal.
      unfold s1. cbn [set_slot cs_log]. unfold delete_slot, death_event.
      destruct (cs_slots s n) as [[f w []|p w|c|c]|]; reflexivity.
    + rewrite X. unfold s1. cbn [set_slot cs_next]. unfold delete_slot.
      destruct (cs_slots s n) as [[f w []|p w|c|c]|]; reflexivity.
    + intros k. rewrite S, S1. destruct (k =? n); cbn [orb]; [|reflexivity].
      destruct (existsb (N.eqb k) t); reflexivity.
Qed.

Lemma die_spec : forall r s,
  cs_log (die r s) = deaths (cs_slots s) ++ Died r :: cs_log s /\
  cs_next (die r s) = cs_next s /\
  cs_dead (die r s) = true /\
  (forall k, k < CHANNELS -> cs_slots (die r s) k = None).
Proof.
  intros r s. pose proof indexes_nodup as ND. pose proof indexes_in as IN.
  unfold die, delete_all, deaths. revert ND IN. generalize indexes as l. intros l ND IN.
  destruct (die_fold l (log (Died r) s) ND) as (L & X & S). cbn zeta in L, X, S.
  cbn [cs_log cs_next cs_dead cs_slots]. split; [exact L|]. split; [exact X|].
  split; [reflexivity|]. intros k Hk. rewrite S.
  replace (existsb (N.eqb k) l) with true; [reflexivity|]. symmetry. apply existsb_exists.
  exists k. split; [now apply IN|apply N.eqb_refl].
Qed.

Lemma send_replies_spec : forall n c rs s,
  cs_log (send_replies n c rs s) = reply_events n (c_uid c) (c_peer c) rs ++ cs_log s /\
  cs_slots (send_replies n c rs s) = cs_slots s /\
  cs_next (send_replies n c rs s) = cs_next s /\
  cs_dead (send_replies n c rs s) = cs_dead s.
Proof.
  intros n c rs. induction rs as [|b t IH]; intros s; cbn [send_replies].
  - repeat split.
  - destruct (IH (log (Sent n (c_uid c) (CReply (c_peer c) b)) s)) as (L & S & X & D).
    rewrite L, S, X, D. unfold reply_events. cbn [map rev]. rewrite <- app_assoc. repeat split.
Qed.

(** ** Decomposition *)

Inductive msteps (E : renv) (P : bool -> routcome -> Prop) (s : cstate) : cstate -> Prop :=
| MS_nil : msteps E P s s
| MS_snoc s1 s2 : msteps E P s s1 -> mstep E P s1 s2 -> msteps E P s s2.

(** the request handler's behaviour in this operation *)
Definition op_request (P : bool -> routcome -> Prop) (o : cop) : Prop :=
  match o with
  | OpPacket 98 p r =>
      match ParseChannelRequest p with
      | Some q => P (cr_want_reply q) (rx_request r)
      | None => True
      end
  | _ => True
  end.

Lemma ms_one : forall E P s s', mstep E P s s' -> msteps E P s s'.
Proof. intros. eapply MS_snoc; [apply MS_nil|assumption]. Qed.

Lemma goes_self : forall s n, cs_dead s = false -> goes s s n (cs_slots s n) [] 0.
Proof.
  intros s n D. split; [|split; [reflexivity|split; [lia|auto]]].
  intros k. destruct (k =? n) eqn:E; [|reflexivity]. apply N.eqb_eq in E. now subst.
Qed.

Lemma m_die_now : forall E P r s, cs_dead s = false -> mstep E P s (die r s).
Proof.
  intros E P r s D. apply (M_die E P s _ 0 (cs_slots s 0) [] 0 s r); [constructor|now apply goes_self|reflexivity].
Qed.

Lemma goes_log1 : forall s n e, cs_dead s = false -> goes s (log e s) n (cs_slots s n) [e] 0.
Proof.
  intros s n e D. split; [|split; [reflexivity|split; [cbn; lia|auto]]].
  intros k. cbn. destruct (k =? n) eqn:E; [|reflexivity]. apply N.eqb_eq in E. now subst.
Qed.

(** a state built from [s] by [log], [fresh] and [set_slot] of one slot *)
Ltac goes_tac :=
  split;
  [ let k := fresh "k" in let Ek := fresh "Ek" in intros k;
    try match goal with |- cs_slots ?t k = _ => is_var t; unfold t end;
    cbv beta iota delta [put log Channels.fresh set_slot cs_slots upd];
    destruct (k =? _) eqn:Ek; try reflexivity; rewrite ?Ek; try reflexivity
  | split; [reflexivity|split; [first [reflexivity|symmetry; apply N.add_0_r]|split; assumption]]].

Lemma m_go1 : forall E P s s1 s' n v evs inc, msteps E P s s1 ->
  allowed E P s1 n v evs inc -> goes s1 s' n v evs inc -> msteps E P s s'.
Proof. intros. eapply MS_snoc; [eassumption|]. eapply M_go; eassumption. Qed.

Lemma m_die1 : forall E P s s1 r, msteps E P s s1 -> cs_dead s1 = false -> msteps E P s (die r s1).
Proof. intros. eapply MS_snoc; [eassumption|]. now apply m_die_now. Qed.

Lemma m_recv : forall E P s msg p, cs_dead s = false -> no_slot s msg p ->
  msteps E P s (log (Received msg p) s).
Proof.
  intros. eapply m_go1; [apply MS_nil| |apply (goes_log1 s 0); assumption]. now constructor.
Qed.

Lemma get_chan : forall s n t c, GetChannel s n = Some (t, c) ->
  cs_slots s n = Some (if t then STomb c else SChan c) /\ n < CHANNELS.
Proof.
  intros s n t c H. unfold GetChannel in H. destruct (CHANNELS <=? n) eqn:E; [discriminate|].
  apply N.leb_gt in E. destruct (cs_slots s n) as [[| |x|x]|]; try discriminate;
    injection H as <- <-; auto.
Qed.

Lemma pop_chan : forall s n f w c, PopRequestedChannel s n = Some (f, w, c) ->
  cs_slots s n = Some (SRequested f w c) /\ n < CHANNELS.
Proof.
  intros s n f w c H. unfold PopRequestedChannel in H. destruct (CHANNELS <=? n) eqn:E; [discriminate|].
  apply N.leb_gt in E. destruct (cs_slots s n) as [[a b d| |x|x]|]; try discriminate.
  injection H as <- <- <-; auto.
Qed.

Lemma upd_self : forall f n v k, f n = v -> f k = upd f n v k.
Proof. intros f n v k <-. unfold upd. destruct (k =? n) eqn:E; [|reflexivity]. apply N.eqb_eq in E. now subst. Qed.

Section Decomposition.
Variable E : renv.
Variable P : bool -> routcome -> Prop.

Lemma h_malformed : forall s msg p, cs_dead s = false ->
  target msg p = None -> msteps E P s (die MALFORMED (log (Received msg p) s)).
Proof.
  intros s msg p D T. apply m_die1; [|assumption]. apply m_recv; [assumption|].
  intros n H. congruence.
Qed.

Lemma h_recv_die : forall s msg p r, cs_dead s = false ->
  msg <> 91 -> msg <> 92 -> msg <> 97 -> msteps E P s (die r (log (Received msg p) s)).
Proof.
  intros s msg p r D A B C. apply m_die1; [|assumption]. apply m_recv; [assumption|].
  intros n _ H. exfalso. intuition.
Qed.

Lemma h_recv : forall s msg p, cs_dead s = false ->
  msg <> 91 -> msg <> 92 -> msg <> 97 -> msteps E P s (log (Received msg p) s).
Proof.
  intros s msg p D A B C. apply m_recv; [assumption|]. intros n _ H. exfalso. intuition.
Qed.

Lemma h_open : forall p r s, cs_dead s = false ->
  msteps E P s (HandleChannelOpen p r (log (Received 90 p) s)).
Proof.
  intros p r s D. unfold HandleChannelOpen.
  destruct (ParseChannelOpen p) as [q|]; [|now apply h_recv_die].
  destruct (AllocateChannelIndex (log (Received 90 p) s)) as [n|] eqn:A; [|now apply h_recv_die].
  apply alloc_spec in A. destruct A as (A & B).
  set (s1 := log (Received 90 p) s) in *.
  assert (M1 : msteps E P s s1) by now apply h_recv.
  set (s2 := log (Opening n (co_peer_channel q) (co_initial_window_size q) (co_channel_type q) (co_data q))
               (set_slot n (Some (SOpening (co_peer_channel q) (co_initial_window_size q))) s1)).
  assert (M2 : msteps E P s s2).
  { eapply m_go1; [exact M1|apply (A_opening E P s1 n); assumption|goes_tac]. }
  assert (S2 : cs_slots s2 n = Some (SOpening (co_peer_channel q) (co_initial_window_size q))).
  { unfold s2. cbn. unfold upd. now rewrite N.eqb_refl. }
  assert (D2 : cs_dead s2 = false) by assumption.
  cbv zeta. destruct (rx_create r) as [rwin|code desc| |].
  - eapply m_go1; [exact M2|eapply A_confirm; exact S2|]. unfold confirm. fold s2. goes_tac.
  - eapply m_go1; [exact M2|eapply A_openfail; exact S2|].
    split; [|split; [reflexivity|split; [cbn; lia|split; assumption]]].
    intros k. cbn. unfold upd. destruct (k =? n) eqn:Ek; [reflexivity|]. now rewrite ?Ek.
  - now apply m_die1.
  - exact M2.
Qed.

Lemma h_conf : forall p r s, cs_dead s = false ->
  msteps E P s (HandleChannelOpenConfirmation p r (log (Received 91 p) s)).
Proof.
  intros p r s D. unfold HandleChannelOpenConfirmation.
  destruct (ParseChannelOpenConfirmation p) as [q|] eqn:Q; [|apply h_malformed; [assumption|cbn; now rewrite Q]].
  cbv zeta. destruct (PopRequestedChannel (log (Received 91 p) s) (cc_local_channel q)) as [[[f w] c]|] eqn:Po.
  - apply pop_chan in Po. destruct Po as (Po & L).
    change (cs_slots s (cc_local_channel q) = Some (SRequested f w c)) in Po.
    destruct c.
    + eapply m_go1; [apply MS_nil|eapply A_conf_cancel; eauto|]. goes_tac.
    + destruct (rx_throws r).
      * eapply ms_one, M_die; [eapply D_create; eauto| |reflexivity]. goes_tac.
      * eapply m_go1; [apply MS_nil|eapply A_conf; eauto|]. goes_tac.
  - apply m_die1; [|assumption]. apply m_recv; [assumption|].
    intros n T _. cbn in T. rewrite Q in T. injection T as <-. exact Po.
Qed.

Lemma h_fail : forall p s, cs_dead s = false ->
  msteps E P s (HandleChannelOpenFailure p (log (Received 92 p) s)).
Proof.
  intros p s D. unfold HandleChannelOpenFailure.
  destruct (ParseChannelOpenFailure p) as [q|] eqn:Q; [|apply h_malformed; [assumption|cbn; now rewrite Q]].
  cbv zeta. destruct (PopRequestedChannel (log (Received 92 p) s) (cf_local_channel q)) as [[[f w] c]|] eqn:Po.
  - apply pop_chan in Po. destruct Po as (Po & L).
    change (cs_slots s (cf_local_channel q) = Some (SRequested f w c)) in Po.
    destruct c.
    + eapply m_go1; [apply MS_nil|eapply A_fail_cancel; eauto|]. goes_tac.
    + eapply m_go1; [apply MS_nil|eapply A_fail; eauto|]. cbn [delete_slot]. goes_tac.
  - apply m_die1; [|assumption]. apply m_recv; [assumption|].
    intros n T _. cbn in T. rewrite Q in T. injection T as <-. exact Po.
Qed.

Lemma h_adjust : forall p r s, cs_dead s = false ->
  msteps E P s (HandleChannelWindowAdjust p r (log (Received 93 p) s)).
Proof.
  intros p r s D. unfold HandleChannelWindowAdjust.
  destruct (ParseChannelWindowAdjust p) as [q|] eqn:Q; [|now apply h_recv_die].
  destruct (wa_nbytes q =? 0); [now apply h_recv_die|]. cbv zeta.
  set (s1 := log (Received 93 p) s) in *.
  assert (M1 : msteps E P s s1) by now apply h_recv.
  assert (D1 : cs_dead s1 = false) by assumption. clearbody s1.
  destruct (GetChannel s1 (wa_local_channel q)) as [[t c]|] eqn:G; [|now apply m_die1].
  apply get_chan in G. destruct G as (G & L). destruct t; cbn [negb andb].
  - eapply m_go1; [exact M1|apply (A_tomb_adjust E P s1 _ c); exact G|]. goes_tac.
  - match goal with |- msteps E P s (if _ then die DError ?x else _) => assert (M2 : msteps E P s x) end.
    { eapply m_go1; [exact M1|apply (A_adjust E P s1 _ c (wa_nbytes q)); exact G|]. goes_tac. }
    destruct (rx_throws r); [|exact M2]. now apply m_die1.
Qed.

Lemma h_deliver : forall n d call r s s1, msteps E P s s1 -> cs_dead s1 = false ->
  (call = CbData d \/ exists ty, call = CbExt ty d) ->
  msteps E P s (deliver n d call r s1).
Proof.
  intros n d call r s s1 M1 D1 C. unfold deliver.
  destruct (GetChannel s1 n) as [[t c]|] eqn:G; [|now apply m_die1].
  apply get_chan in G. destruct G as (G & L).
  destruct (c_rwin c <? len d) eqn:W; [now apply m_die1|]. apply N.ltb_ge in W.
  destruct t.
  - eapply m_go1; [exact M1|apply (A_drop E P s1 _ c d); [exact G|exact W]|]. goes_tac.
  - cbv zeta. assert (M2 : msteps E P s (log (Called n (c_uid c) call) s1)).
    { eapply m_go1; [exact M1|apply (A_call E P s1 n c call); [exact G|]|rewrite <- G; now apply goes_log1].
      destruct C as [->|(ty & ->)]; exact W. }
    destruct (rx_throws r); [now apply m_die1|exact M2].
Qed.

Lemma h_notify : forall n call r s s1, msteps E P s s1 -> cs_dead s1 = false ->
  call = CbEof \/ call = CbSuccess \/ call = CbFailure ->
  msteps E P s (notify n call r s1).
Proof.
  intros n call r s s1 M1 D1 C. unfold notify.
  destruct (GetChannel s1 n) as [[t c]|] eqn:G; [|now apply m_die1].
  apply get_chan in G. destruct G as (G & L). destruct t; [exact M1|]. cbv zeta.
  assert (M2 : msteps E P s (log (Called n (c_uid c) call) s1)).
  { eapply m_go1; [exact M1|apply (A_call E P s1 n c call); [exact G|]|rewrite <- G; now apply goes_log1].
    destruct C as [->|[->| ->]]; exact I. }
  destruct (rx_throws r); [now apply m_die1|exact M2].
Qed.

Lemma h_close : forall p s, cs_dead s = false ->
  msteps E P s (HandleChannelClose p (log (Received 97 p) s)).
Proof.
  intros p s D. unfold HandleChannelClose.
  destruct (ParseChannelClose p) as [n|] eqn:Q; [|apply h_malformed; [assumption|exact Q]].
  destruct (GetChannel (log (Received 97 p) s) n) as [[t c]|] eqn:G.
  - apply get_chan in G. destruct G as (G & L).
    change (cs_slots s n = Some (if t then STomb c else SChan c)) in G.
    destruct t; cbv zeta.
    + eapply m_go1; [apply MS_nil|eapply A_close_tomb; eauto|].
      change (cs_slots (log (Received 97 p) s) n) with (cs_slots s n). rewrite G. cbn [delete_slot]. goes_tac.
    + eapply m_go1; [apply MS_nil|eapply A_close_recv; eauto|].
      match goal with |- context [cs_slots (log ?a (log ?b s)) n] =>
        change (cs_slots (log a (log b s)) n) with (cs_slots s n) end.
      rewrite G. cbn [delete_slot]. goes_tac.
  - apply m_die1; [|assumption]. apply m_recv; [assumption|].
    intros k T _. cbn in T. rewrite Q in T. injection T as <-. exact G.
Qed.

Lemma h_request : forall p r s, cs_dead s = false ->
  (forall q, ParseChannelRequest p = Some q -> P (cr_want_reply q) (rx_request r)) ->
  msteps E P s (HandleChannelRequest E p r (log (Received 98 p) s)).
Proof.
  intros p r s D HP. unfold HandleChannelRequest.
  destruct (ParseChannelRequest p) as [q|] eqn:Q; [|now apply h_recv_die].
  specialize (HP q eq_refl). cbv zeta.
  set (s1 := log (Received 98 p) s) in *.
  assert (M1 : msteps E P s s1) by now apply h_recv.
  assert (D1 : cs_dead s1 = false) by assumption. clearbody s1.
  destruct (GetChannel s1 (cr_local_channel q)) as [[t c]|] eqn:G; [|now apply m_die1].
  apply get_chan in G. destruct G as (G & L). set (n := cr_local_channel q) in *.
  destruct t.
  - destruct (start_request E (cs_next s1) (cr_want_reply q) (RSync false) (c_pending c)) as [[[rs l] fl]|] eqn:S.
    2:{ cbn [start_request] in S. discriminate. }
    unfold submit_replies.
    destruct (send_replies_spec n c rs (Channels.fresh s1)) as (R1 & R2 & R3 & R4).
    set (s2 := put n true (set_pending c l) (send_replies n c rs (Channels.fresh s1))).
    assert (G2 : goes s1 s2 n (Some (STomb (set_pending c l))) (reply_events n (c_uid c) (c_peer c) rs) 1).
    { split; [|split; [|split; [|split]]].
      - intros k. unfold s2, put. cbn [set_slot cs_slots]. rewrite R2. unfold upd.
        destruct (k =? n); reflexivity.
      - exact R1.
      - exact R3.
      - exact D1.
      - unfold s2, put. cbn [set_slot cs_dead]. rewrite R4. exact D1. }
    destruct fl.
    + eapply MS_snoc; [exact M1|]. eapply M_die; [eapply D_request_tomb; eassumption|exact G2|reflexivity].
    + eapply m_go1; [exact M1|eapply A_request_tomb; eassumption|exact G2].
  - set (o := rx_request r) in *.
    set (s2 := match o with RSync b => log (Finished (c_uid c) (cs_next s1) b)
                   (log (Called n (c_uid c) (CbRequest (cs_next s1) (cr_want_reply q) (cr_request_type q) (cr_data q))) (Channels.fresh s1))
               | _ => log (Called n (c_uid c) (CbRequest (cs_next s1) (cr_want_reply q) (cr_request_type q) (cr_data q))) (Channels.fresh s1) end).
    assert (S2 : cs_slots s2 = cs_slots s1 /\ cs_next s2 = cs_next s1 + 1 /\ cs_dead s2 = false /\
      cs_log s2 = finish_events (c_uid c) (cs_next s1) o ++
        [Called n (c_uid c) (CbRequest (cs_next s1) (cr_want_reply q) (cr_request_type q) (cr_data q))] ++ cs_log s1).
    { unfold s2. destruct o; repeat split; assumption. }
    clearbody s2. destruct S2 as (A1 & A2 & A3 & A4).
    destruct (start_request E (cs_next s1) (cr_want_reply q) o (c_pending c)) as [[[rs l] fl]|] eqn:S.
    + unfold submit_replies.
      destruct (send_replies_spec n c rs s2) as (R1 & R2 & R3 & R4).
      set (s3 := put n false (set_pending c l) (send_replies n c rs s2)).
      assert (G2 : goes s1 s3 n (Some (SChan (set_pending c l)))
        (reply_events n (c_uid c) (c_peer c) rs ++ finish_events (c_uid c) (cs_next s1) o ++
        [Called n (c_uid c) (CbRequest (cs_next s1) (cr_want_reply q) (cr_request_type q) (cr_data q))]) 1).
      { split; [|split; [|split; [|split]]].
        - intros k. unfold s3, put. cbn [set_slot cs_slots]. rewrite R2, A1. unfold upd.
          destruct (k =? n); reflexivity.
        - unfold s3, put. cbn [set_slot cs_log]. rewrite R1, A4, <- !app_assoc. reflexivity.
        - unfold s3, put. cbn [set_slot cs_next]. rewrite R3. exact A2.
        - exact D1.
        - unfold s3, put. cbn [set_slot cs_dead]. rewrite R4. exact A3. }
      destruct fl.
      * eapply MS_snoc; [exact M1|]. eapply M_die; [eapply D_request; eassumption|exact G2|reflexivity].
      * eapply m_go1; [exact M1|eapply A_request; eassumption|exact G2].
    + eapply MS_snoc; [exact M1|]. eapply M_die; [eapply D_request_throw; eassumption| |reflexivity].
      split; [|split; [|split; [|split]]].
      * intros k. rewrite A1. destruct (k =? n) eqn:Ek; [|reflexivity]. apply N.eqb_eq in Ek. now subst k.
      * rewrite A4, app_assoc. reflexivity.
      * exact A2.
      * exact D1.
      * exact A3.
Qed.

Theorem cstep_msteps : forall o s, op_request P o -> msteps E P s (cstep E s o).
Proof.
  intros o s HO. unfold cstep. destruct (cs_dead s) eqn:D; [apply MS_nil|].
  destruct o as [msg p r|ty w d f|n|n rwin|n code d|n|n k|n k|n d|n ty d|n|n name d|n id r|].
  - destruct (HandlePacket E msg p r s) as [s'|] eqn:H; [|apply MS_nil].
    unfold HandlePacket in H. cbv zeta in H.
    destruct msg as [|m]; [discriminate|].
    do 7 (destruct m as [m|m|]; try discriminate); injection H as <-.
    all: first
      [ now apply h_open | now apply h_conf | now apply h_fail | now apply h_adjust | now apply h_close
      | apply h_request; [assumption|intros q Hq; cbn in HO; rewrite Hq in HO; exact HO] | idtac ].
    all: match goal with |- msteps _ _ ?s0 (_ _ _ (log (Received ?m ?p) _)) =>
      assert (M1 : msteps E P s0 (log (Received m p) s0)) by (apply h_recv; [assumption|discriminate|discriminate|discriminate])
      end.
    all: unfold HandleChannelSuccess, HandleChannelFailure, HandleChannelEof, HandleChannelData, HandleChannelExtendedData.
    all: match goal with |- context [match ?x with Some _ => _ | None => _ end] => destruct x; [|now apply m_die1] end.
    all: first [apply h_deliver|apply h_notify]; auto; eauto.
  - unfold OpenChannel. destruct (AllocateChannelIndex s) as [n|] eqn:A; [|apply MS_nil].
    apply alloc_spec in A. destruct A as (A & B).
    eapply m_go1; [apply MS_nil|apply (A_open E P s n f w ty d); assumption|goes_tac].
  - destruct (cs_slots s n) as [[f w []|p w|c|c]|] eqn:S; try apply MS_nil.
    eapply m_go1; [apply MS_nil|eapply A_revoke; exact S|goes_tac].
  - destruct (cs_slots s n) as [[f w c|p w|c|c]|] eqn:S; try apply MS_nil.
    eapply m_go1; [apply MS_nil|eapply A_confirm; exact S|unfold confirm; goes_tac].
  - destruct (cs_slots s n) as [[f w c|p w|c|c]|] eqn:S; try apply MS_nil.
    eapply m_go1; [apply MS_nil|eapply A_openfail; exact S|goes_tac].
  - unfold on_chan. destruct (cs_slots s n) as [[f w c|p w|c|c]|] eqn:S; try apply MS_nil.
    eapply m_go1; [apply MS_nil|eapply A_close; exact S|unfold CloseChannel; goes_tac].
  - unfold on_chan. destruct (cs_slots s n) as [[f w c|p w|c|c]|] eqn:S; try apply MS_nil.
    destruct (c_rwin c <? k) eqn:W; [apply m_die1; [apply MS_nil|assumption]|]. apply N.ltb_ge in W.
    eapply m_go1; [apply MS_nil|eapply A_consume; eassumption|goes_tac].
  - unfold on_chan. destruct (cs_slots s n) as [[f w c|p w|c|c]|] eqn:S; try apply MS_nil.
    destruct ((k =? 0) || (pow64 - 1 - c_rwin c <? k)) eqn:W; [apply m_die1; [apply MS_nil|assumption]|].
    apply orb_false_iff in W. destruct W as (W1 & W2). apply N.eqb_neq in W1. apply N.ltb_ge in W2.
    eapply m_go1; [apply MS_nil|eapply A_send_adjust; [exact S|exact W1|]|goes_tac].
    assert (0 < pow64) by reflexivity. lia.
  - unfold on_chan. destruct (cs_slots s n) as [[f w c|p w|c|c]|] eqn:S; try apply MS_nil.
    destruct (c_swin c <? len d) eqn:W; [apply m_die1; [apply MS_nil|assumption]|]. apply N.ltb_ge in W.
    eapply m_go1; [apply MS_nil|eapply A_data; eassumption|goes_tac].
  - unfold on_chan. destruct (cs_slots s n) as [[f w c|p w|c|c]|] eqn:S; try apply MS_nil.
    destruct (c_swin c <? len d) eqn:W; [apply m_die1; [apply MS_nil|assumption]|]. apply N.ltb_ge in W.
    eapply m_go1; [apply MS_nil|eapply A_ext; eassumption|goes_tac].
  - unfold on_chan. destruct (cs_slots s n) as [[f w c|p w|c|c]|] eqn:S; try apply MS_nil.
    eapply m_go1; [apply MS_nil|eapply A_eof; exact S|]. rewrite <- S. now apply goes_log1.
  - unfold on_chan. destruct (cs_slots s n) as [[f w c|p w|c|c]|] eqn:S; try apply MS_nil.
    eapply m_go1; [apply MS_nil|eapply A_req; exact S|]. rewrite <- S. now apply goes_log1.
  - unfold on_chan. destruct (cs_slots s n) as [[f w c|p w|c|c]|] eqn:S; try apply MS_nil.
    destruct (find_request id (c_pending c)) as [[id' w' [b|]]|] eqn:F; try apply MS_nil.
    destruct r as [b|]; [|apply m_die1; [apply MS_nil|assumption]].
    assert (id' = id) as ->.
    { clear -F. induction (c_pending c) as [|x t IH]; [discriminate|]. cbn [find_request] in F.
      destruct (pq_id x =? id) eqn:I; [|auto]. injection F as ->. now apply N.eqb_eq in I. }
    destruct (finish_request (r_dbg E) id b (c_pending c)) as [[rs l] fl] eqn:R. unfold submit_replies.
    destruct (send_replies_spec n c rs (log (Finished (c_uid c) id b) s)) as (R1 & R2 & R3 & R4).
    set (s3 := put n false (set_pending c l) (send_replies n c rs (log (Finished (c_uid c) id b) s))).
    assert (G2 : goes s s3 n (Some (SChan (set_pending c l)))
        (reply_events n (c_uid c) (c_peer c) rs ++ [Finished (c_uid c) id b]) 0).
    { split; [|split; [|split; [|split]]].
      - intros k. unfold s3, put. cbn [set_slot cs_slots]. rewrite R2. unfold upd.
        destruct (k =? n); reflexivity.
      - unfold s3, put. cbn [set_slot cs_log]. rewrite R1, <- app_assoc. reflexivity.
      - unfold s3, put. cbn [set_slot cs_next]. rewrite R3. symmetry. apply N.add_0_r.
      - exact D.
      - unfold s3, put. cbn [set_slot cs_dead]. rewrite R4. exact D. }
    destruct fl.
    + eapply ms_one, M_die; [eapply D_done; eauto|exact G2|reflexivity].
    + eapply m_go1; [apply MS_nil|eapply A_done; eauto|exact G2].
  - apply m_die1; [apply MS_nil|assumption].
Qed.
End Decomposition.

(** reachable by simple steps *)
Definition mreach E P (s : cstate) : Prop := msteps E P cs_init s.

Lemma msteps_trans : forall E P a b c, msteps E P a b -> msteps E P b c -> msteps E P a c.
Proof. intros E P a b c H K. induction K; [assumption|]. eapply MS_snoc; eassumption. Qed.

Theorem cruns_mreach : forall E P ops, Forall (op_request P) ops -> mreach E P (cruns E ops).
Proof.
  intros E P ops. unfold cruns, mreach.
  assert (G : forall ops s, Forall (op_request P) ops -> msteps E P cs_init s ->
                msteps E P cs_init (fold_left (cstep E) ops s)).
  { clear ops. induction ops as [|o t IH]; intros s F M; [exact M|]. inversion F; subst.
    cbn [fold_left]. apply IH; [assumption|]. eapply msteps_trans; [exact M|now apply cstep_msteps]. }
  intros F. apply G; [assumption|apply MS_nil].
Qed.

Definition anyP : bool -> routcome -> Prop := fun _ _ => True.

Lemma op_any : forall ops, Forall (op_request anyP) ops.
Proof.
  intros ops. apply Forall_forall. intros o _. unfold op_request. destruct o; try exact I.
  destruct msg as [|m]; [exact I|]. do 7 (destruct m as [m|m|]; try exact I).
  destruct (ParseChannelRequest payload); exact I.
Qed.

Theorem cruns_any : forall E ops, mreach E anyP (cruns E ops).
Proof. intros. apply cruns_mreach, op_any. Qed.

(** induction over simple steps *)
Theorem mreach_ind : forall E P (I : cstate -> Prop),
  I cs_init ->
  (forall s s', I s -> mstep E P s s' -> I s') ->
  forall s, mreach E P s -> I s.
Proof. intros E P I H0 HS s M. induction M; eauto. Qed.
