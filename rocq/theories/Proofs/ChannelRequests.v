(** Replies to channel requests, for handlers which never finish a request
    without "want reply" synchronously ([polite]). *)

From Coq Require Import NArith List Bool Lia String FinFun.
From Verif.Base Require Import Bytes.
From Verif.Model Require Import Wire Frame Packets Requests Channels.
From Verif.Spec Require Import ChannelSpec.
From Verif.Proofs Require Import ChannelSteps ChannelStatus RequestFacts ChannelObjects.
Import ListNotations.
Open Scope N_scope.

Definition politeP (E : renv) (want : bool) (o : routcome) : Prop :=
  r_sync_done E = false \/ o = RAsync \/ (want = true /\ exists b, o = RSync b).

Definition res (u : N) (l : list cev) : N -> option bool := fun id => result u id l.

Definition due (u : N) (l : list cev) : list bool := answers (res u l) (asked u l).

(** only while closing, rejections of requests nobody looked at *)
Definition replies_ok (u : N) (l : list cev) : Prop :=
  exists k, replies u l = due u l ++ repeat false k /\ (k <> O -> ended (said u l)).

Definition req_ok (l : list cev) (c : chan) : Prop :=
  NoDup (map fst (asked (c_uid c) l)) /\
  c_pending c = backlog (res (c_uid c) l) (asked (c_uid c) l) /\
  replies (c_uid c) l = due (c_uid c) l.

Record I3 (s : cstate) : Prop := {
  i3_fresh : forall u id, cs_next s <= id -> result u id (cs_log s) = None;
  i3_all : forall u, u <> 0 -> replies_ok u (cs_log s);
  i3_chan : cs_dead s = false -> forall n c, cs_slots s n = Some (SChan c) -> req_ok (cs_log s) c
}.

(** events which have nothing to do with requests *)
Definition plain (e : cev) : Prop :=
  match e with
  | Sent _ _ (CReply _ _) | Called _ _ (CbRequest _ _ _ _) | Finished _ _ _ => False
  | _ => True
  end.

Lemma plain_fun : forall evs l, Forall plain evs -> forall u,
  asked u (evs ++ l) = asked u l /\ (forall id, result u id (evs ++ l) = result u id l) /\
  replies u (evs ++ l) = replies u l.
Proof.
  intros evs l H u. induction H as [|e t He Ht (A & B & C)]; [repeat split|].
  destruct e; try contradiction; cbn [app asked result];
    try (split; [exact A|split; [exact B|exact C]]).
  - split; [exact A|]. split; [exact B|]. unfold replies in *. cbn [said]. destruct (u0 =? u); [|exact C].
    cbn [rev]. rewrite flat_map_app. destruct m; try contradiction; cbn; rewrite app_nil_r; exact C.
  - destruct c; try contradiction; (split; [exact A|split; [exact B|exact C]]).
Qed.

Lemma due_ext : forall u l l', asked u l = asked u l' -> (forall id, result u id l = result u id l') -> due u l = due u l'.
Proof. intros u l l' A B. unfold due. rewrite A. apply answers_ext. intros r _. apply B. Qed.

Lemma backlog_ext : forall r r' l, (forall id, r id = r' id) -> backlog r l = backlog r' l.
Proof.
  intros r r' l H. unfold backlog.
  assert (X : rest r l = rest r' l).
  { induction l as [|x t IH]; [reflexivity|]. cbn. rewrite H. now rewrite IH. }
  rewrite X. apply kept_ext. intros; apply H.
Qed.

Lemma replies_replies : forall n u p rs l, replies u (reply_events n u p rs ++ l) = replies u l ++ rs.
Proof.
  intros. unfold replies. rewrite said_replies, rev_app_distr, rev_involutive, flat_map_app. f_equal.
  induction rs as [|b t IH]; [reflexivity|]. cbn. now rewrite IH.
Qed.

Lemma replies_asked : forall n u p rs l v, asked v (reply_events n u p rs ++ l) = asked v l /\
  (forall id, result v id (reply_events n u p rs ++ l) = result v id l).
Proof.
  intros. unfold reply_events. rewrite <- map_rev. induction (rev rs) as [|b t (A & B)]; [auto|].
  cbn. auto.
Qed.

Lemma req_replies_ok : forall l c, req_ok l c -> replies_ok (c_uid c) l.
Proof. intros l c (_ & _ & R). exists O. split; [cbn; now rewrite app_nil_r|congruence]. Qed.

Lemma ok_other : forall u u0 evs l, u <> 0 -> u <> u0 -> Forall (tagged u0) evs -> replies_ok u l -> replies_ok u (evs ++ l).
Proof.
  intros u u0 evs l A B T (k & R & K). exists k. unfold replies in *. rewrite (said_other u u0) by assumption.
  rewrite (due_ext u (evs ++ l) l); [auto| |].
  - now apply (asked_other u u0).
  - intros id. now apply (result_other u u0).
Qed.

Lemma req_other : forall c u0 evs l, c_uid c <> 0 -> c_uid c <> u0 -> Forall (tagged u0) evs -> req_ok l c -> req_ok (evs ++ l) c.
Proof.
  intros c u0 evs l A B T (R1 & R2 & R3). unfold req_ok, replies. rewrite (said_other _ u0) by assumption.
  rewrite (asked_other _ u0) by assumption. split; [exact R1|]. split.
  - rewrite R2. apply backlog_ext. intros id. unfold res. symmetry. now apply (result_other _ u0).
  - unfold replies in R3. rewrite R3. symmetry. apply due_ext; [now apply (asked_other _ u0)|].
    intros id. now apply (result_other _ u0).
Qed.

Lemma req_plain : forall c c' evs l, Forall plain evs -> c_uid c' = c_uid c -> c_pending c' = c_pending c ->
  req_ok l c -> req_ok (evs ++ l) c'.
Proof.
  intros c c' evs l P U Q (R1 & R2 & R3). unfold req_ok. rewrite U, Q.
  destruct (plain_fun evs l P (c_uid c)) as (A & B & C). rewrite A. split; [exact R1|]. split.
  - rewrite R2. apply backlog_ext. intros id. symmetry. apply B.
  - rewrite C, R3. symmetry. now apply due_ext.
Qed.

Lemma replies_plain : forall u evs l, Forall plain evs -> said u (evs ++ l) = said u l -> replies_ok u l -> replies_ok u (evs ++ l).
Proof.
  intros u evs l P S (k & R & K). destruct (plain_fun evs l P u) as (A & B & C). exists k.
  rewrite C, S, (due_ext u (evs ++ l) l) by assumption. auto.
Qed.

(** a request arrives *)
Lemma request_step : forall E n u p want ty d o rs l log next pending,
  politeP E want o ->
  Forall (below next) log -> (forall id, next <= id -> result u id log = None) ->
  NoDup (map fst (asked u log)) -> pending = backlog (res u log) (asked u log) -> replies u log = due u log ->
  forall f, start_request E next want o pending = Some (rs, l, f) ->
  f = false /\
  let log' := reply_events n u p rs ++ finish_events u next o ++ [Called n u (CbRequest next want ty d)] ++ log in
  NoDup (map fst (asked u log')) /\ l = backlog (res u log') (asked u log') /\ replies u log' = due u log'.
Proof.
  intros E n u p want ty d o rs l log next pending PO B FR ND PE RE f ST.
  assert (NI : ~ In next (map fst (asked u log))).
  { intros H. apply in_map_iff in H. destruct H as ((i & w) & Hi & H). cbn in Hi. subst i.
    pose proof (asked_bound u next log B next w H). lia. }
  rewrite PE in ST.
  destruct (start_spec E (res u log) next want o (asked u log) rs l f ND NI (FR next (N.le_refl _)) PO ST)
    as (-> & res' & R1 & R2 & R3).
  split; [reflexivity|]. cbn zeta.
  set (log1 := finish_events u next o ++ [Called n u (CbRequest next want ty d)] ++ log).
  destruct (replies_asked n u p rs log1 u) as (A1 & A2).
  assert (AS : asked u log1 = asked u log ++ [(next, want)]).
  { unfold log1. destruct o; cbn; now rewrite N.eqb_refl. }
  assert (RS : forall id, result u id log1 = res' id).
  { intros id. rewrite R1. unfold log1, upres, res. destruct o; cbn; try reflexivity.
    rewrite N.eqb_refl. cbn. rewrite (N.eqb_sym next id). reflexivity. }
  assert (DU : due u (reply_events n u p rs ++ log1) = answers res' (asked u log ++ [(next, want)])).
  { unfold due. rewrite A1, AS. apply answers_ext. intros r _. unfold res. rewrite A2. apply RS. }
  split; [|split].
  - rewrite A1, AS, map_app. cbn. apply NoDup_app_snoc; assumption.
  - rewrite R2, A1, AS. apply backlog_ext. intros id. unfold res. rewrite A2. symmetry. apply RS.
  - rewrite DU, R3, replies_replies. f_equal.
    replace (replies u log1) with (replies u log); [exact RE|].
    unfold log1, replies. destruct o; reflexivity.
Qed.

Lemma find_in : forall id l q, find_request id l = Some q -> In q l.
Proof.
  intros id l. induction l as [|x t IH]; intros q H; [discriminate|]. cbn in H.
  destruct (pq_id x =? id); [left; congruence|right; auto].
Qed.

(** a suspended request finishes *)
Lemma done_step : forall dbg n u p id b rs l log pending w f,
  NoDup (map fst (asked u log)) -> pending = backlog (res u log) (asked u log) -> replies u log = due u log ->
  find_request id pending = Some {| pq_id := id; pq_want := w; pq_done := None |} ->
  finish_request dbg id b pending = (rs, l, f) ->
  f = false /\ In (id, w) (asked u log) /\
  let log' := reply_events n u p rs ++ Finished u id b :: log in
  NoDup (map fst (asked u log')) /\ l = backlog (res u log') (asked u log') /\ replies u log' = due u log'.
Proof.
  intros dbg n u p id b rs l log pending w f ND PE RE FI FN.
  apply find_in in FI. rewrite PE in FI, FN. unfold backlog, kept in FI. apply in_map_iff in FI.
  destruct FI as ((i & w') & M & FI). apply filter_In in FI. destruct FI as (FI & _).
  unfold mk in M. cbn [fst snd] in M. injection M as -> -> RN. apply rest_incl in FI.
  destruct (finish_spec dbg (res u log) id b (asked u log) w ND RN FI) as (rs' & F & A).
  rewrite F in FN. injection FN as <- <- <-. split; [reflexivity|]. split; [exact FI|]. cbn zeta.
  set (log1 := Finished u id b :: log).
  destruct (replies_asked n u p rs' log1 u) as (A1 & A2).
  assert (RS : forall k, result u k log1 = upres (res u log) id b k).
  { intros k. unfold log1, upres, res. cbn. rewrite N.eqb_refl. cbn. now rewrite (N.eqb_sym id k). }
  rewrite A1. change (asked u log1) with (asked u log). split; [exact ND|]. split.
  - apply backlog_ext. intros k. unfold res. rewrite A2. symmetry. apply RS.
  - rewrite replies_replies. change (replies u log1) with (replies u log). rewrite RE.
    unfold due. rewrite A1. change (asked u log1) with (asked u log).
    rewrite <- A. apply answers_ext. intros r _. symmetry. unfold res. rewrite A2. apply RS.
Qed.

Lemma result_tagged : forall b u id evs l,
  Forall (fun e => match e with Finished _ i _ => i < b | _ => True end) evs -> b <= id ->
  result u id (evs ++ l) = result u id l.
Proof.
  intros b u id evs l H Hb. induction H as [|e t He Ht IH]; [reflexivity|]. destruct e; cbn; try exact IH.
  destruct (id0 =? id) eqn:E; [apply N.eqb_eq in E; lia|]. rewrite andb_false_r. exact IH.
Qed.

Ltac pl := repeat constructor.

Lemma said_nonsent : forall u evs l, Forall (fun e => match e with Sent _ _ _ => False | _ => True end) evs ->
  said u (evs ++ l) = said u l.
Proof.
  intros u evs l H. induction H as [|e t He Ht IH]; [reflexivity|]. destruct e; cbn; try exact IH. contradiction.
Qed.

Lemma req_fresh : forall u peer rw sw evs l, Forall plain evs -> Forall (below u) l ->
  req_ok (evs ++ l) {| c_uid := u; c_peer := peer; c_rwin := rw; c_swin := sw; c_pending := [] |}.
Proof.
  intros u peer rw sw evs l P B. unfold req_ok. cbn [c_uid c_pending].
  destruct (plain_fun evs l P u) as (A1 & A2 & A3). unfold due. rewrite A1, A3, asked_fresh by exact B.
  split; [constructor|]. split; [reflexivity|]. unfold replies. now rewrite said_fresh.
Qed.

Section Step.
Variable E : renv.

Definition finb (b : N) (e : cev) : Prop := match e with Finished _ i _ => i < b | _ => True end.

Lemma replies_finb : forall b n u p rs, Forall (finb b) (reply_events n u p rs).
Proof.
  intros. unfold reply_events. apply Forall_rev, Forall_forall. intros e He.
  apply in_map_iff in He. destruct He as (x & <- & _). exact I.
Qed.

Lemma i3_of : forall s n c, I3 s -> cs_dead s = false -> cs_slots s n = Some (SChan c) -> req_ok (cs_log s) c.
Proof. intros s n c H D S. exact (i3_chan s H D n c S). Qed.

Lemma live_replies : forall s n c evs c', I3 s -> cs_dead s = false -> cs_slots s n = Some (SChan c) ->
  Forall plain evs -> c_uid c' = c_uid c -> c_pending c' = c_pending c -> Forall (finb (cs_next s)) evs ->
  (forall x, Some (SChan c') = Some (SChan x) -> req_ok (evs ++ cs_log s) x) /\
  replies_ok (c_uid c) (evs ++ cs_log s) /\ Forall (finb (cs_next s + 0)) evs.
Proof.
  intros s n c evs c' H D S P U Q F. pose proof (i3_of s n c H D S) as R.
  pose proof (req_plain c c' evs _ P U Q R) as R'.
  split; [intros x X; injection X as <-; exact R'|].
  split; [rewrite <- U; now apply req_replies_ok|]. now rewrite N.add_0_r.
Qed.

(** a step of slot [n] *)
Lemma allowed_requests : forall s n v evs inc, allowed E (politeP E) s n v evs inc ->
  I1 s -> I2 s -> I3 s -> cs_dead s = false ->
  (forall c, v = Some (SChan c) -> req_ok (evs ++ cs_log s) c) /\
  (forall u, u <> 0 -> replies_ok u (evs ++ cs_log s)) /\
  Forall (finb (cs_next s + inc)) evs.
Proof.
  intros s n v evs inc A J1 J2 J3 D.
  destruct (allowed_objects E (politeP E) s n v evs inc A J1 J2 D) as (u0 & W & T & Nn & B & Sl & O & Go & Ge).
  cut ((forall c, v = Some (SChan c) -> req_ok (evs ++ cs_log s) c) /\
       (u0 <> 0 -> replies_ok u0 (evs ++ cs_log s)) /\ Forall (finb (cs_next s + inc)) evs).
  { intros (X & Y & Z). split; [exact X|]. split; [|exact Z]. intros u Hu.
    destruct (N.eq_dec u u0) as [->|Hn]; [now apply Y|]. apply (ok_other u u0); try assumption.
    now apply J3. }
  pose proof (i3_all s J3) as ALL. pose proof (i2_below s J2) as BL.
  (* the object of the slot, if it is not new *)
  destruct A; cbn [uid_of c_uid set_pending set_rwin set_swin] in Sl;
    try match goal with S : cs_slots _ _ = _ |- _ => rewrite S in W; unfold slot_uid in W; cbn [uid_of] in W end.
  all: try (match type of Sl with None = None \/ _ => clear Sl | None = _ \/ _ => destruct Sl as [Sl|Sl]; [discriminate|injection Sl as Sl] | _ => destruct Sl as [Sl|Sl]; [discriminate|injection Sl as Sl] end).
  all: try (rewrite <- Sl in * ).
  all: try (match goal with |- (forall c, Some (STomb _) = _ -> _) /\ _ => split; [discriminate|] end).
  all: try (match goal with |- (forall c, None = _ -> _) /\ _ => split; [discriminate|] end).
  all: try (match goal with |- (forall c, Some (SRequested _ _ _) = _ -> _) /\ _ => split; [discriminate|] end).
  all: try (match goal with |- (forall c, Some (SOpening _ _) = _ -> _) /\ _ => split; [discriminate|] end).
  - (* received *)
    split; [|split; [|pl]].
    + intros c V. apply (req_plain c c); [pl|reflexivity|reflexivity|]. now apply (i3_of s n).
    + intros Hu. apply replies_plain; [pl|reflexivity|auto].
  - split; [|pl]. intros Hu. apply replies_plain; [pl|reflexivity|auto].
  - split; [|pl]. destruct W as [W|(_ & W)]; [congruence|discriminate].
  - (* confirm *)
    split; [|split; [|pl]].
    + intros c X. injection X as <-. apply req_fresh; [pl|exact BL].
    + intros _. apply (req_replies_ok _ {| c_uid := cs_next s; c_peer := 0; c_rwin := 0; c_swin := 0; c_pending := [] |}).
      apply req_fresh; [pl|exact BL].
  - split; [|pl]. intros _.
    apply (req_replies_ok _ {| c_uid := cs_next s; c_peer := 0; c_rwin := 0; c_swin := 0; c_pending := [] |}).
    apply req_fresh; [pl|exact BL].
  - split; [|split; [|pl]].
    + intros x X. injection X as <-. apply req_fresh; [pl|exact BL].
    + intros _. apply (req_replies_ok _ {| c_uid := cs_next s; c_peer := 0; c_rwin := 0; c_swin := 0; c_pending := [] |}).
      apply req_fresh; [pl|exact BL].
  - split; [|pl]. intros Hu. apply replies_plain; [pl|reflexivity|auto].
  - split; [|pl]. intros Hu. apply replies_plain; [pl|reflexivity|auto].
  - (* call *)
    destruct (live_replies s n c [Called n (c_uid c) call] c J3 D H) as (X & Y & Z); auto.
    { constructor; [|constructor]. destruct call; try exact I; contradiction. } { pl. }
  - match goal with |- (forall c0, Some (SChan ?c') = _ -> req_ok (?e ++ _) _) /\ _ =>
      destruct (live_replies s n c e c' J3 D H) as (X & Y & Z); [pl|reflexivity|reflexivity|pl|auto] end.
  - split; [|pl]. intros Hu. exact (ALL _ Hu).
  - split; [|pl]. intros Hu. apply replies_plain; [pl|reflexivity|auto].
  - destruct W as [W|(_ & W)]; [|discriminate]. rewrite W.
    match goal with |- (_ -> replies_ok _ (?e ++ _)) /\ _ =>
      destruct (live_replies s n c e c J3 D H) as (X & Y & Z); [pl|reflexivity|reflexivity|pl|auto] end.
  - split; [|pl]. intros Hu. apply replies_plain; [pl|reflexivity|auto].
  - (* request *)
    destruct (i3_of s n c J3 D H) as (R1 & R2 & R3).
    destruct (request_step E n (c_uid c) (c_peer c) want ty d o rs l (cs_log s) (cs_next s) (c_pending c)
                H1 BL (i3_fresh s J3 (c_uid c)) R1 R2 R3 false H0) as (_ & K).
    cbn zeta in K. rewrite <- !app_assoc.
    assert (K' : req_ok (reply_events n (c_uid c) (c_peer c) rs ++ finish_events (c_uid c) (cs_next s) o ++
        [Called n (c_uid c) (CbRequest (cs_next s) want ty d)] ++ cs_log s) (set_pending c l)) by exact K.
    split; [intros x X; injection X as <-; exact K'|].
    split; [intros _; exact (req_replies_ok _ _ K')|].
    apply Forall_app; split; [apply replies_finb|]. apply Forall_app; split; [|pl].
    destruct o; pl. cbn. lia.
  - (* request for a tombstone *)
    split; [|apply replies_finb]. intros Hu.
    destruct J1 as (J1 & _). destruct (J1 D n) as (_ & Sl2). rewrite H in Sl2. destruct Sl2 as (Sl2 & _).
    rewrite Sl2 in H0. destruct (tomb_request _ _ _ _ _ _ H0) as (R & _).
    destruct R as [->| ->]; [exact (ALL _ Hu)|].
    destruct (ALL _ Hu) as (k & K1 & K2). exists (S k). split.
    + rewrite replies_replies, K1, <- app_assoc. unfold due.
      destruct (replies_asked n (c_uid c) (c_peer c) [false] (cs_log s) (c_uid c)) as (A1 & A2).
      rewrite A1. f_equal.
      replace (S k) with (k + 1)%nat by lia. rewrite repeat_app. reflexivity.
    + intros _. exact (proj1 O).
  - (* done *)
    destruct (i3_of s n c J3 D H) as (R1 & R2 & R3). destruct H0 as (w & H0).
    destruct (done_step (r_dbg E) n (c_uid c) (c_peer c) id b rs l (cs_log s) (c_pending c) w false
                R1 R2 R3 H0 H1) as (_ & IN & K).
    cbn zeta in K. rewrite <- !app_assoc.
    assert (K' : req_ok (reply_events n (c_uid c) (c_peer c) rs ++ [Finished (c_uid c) id b] ++ cs_log s) (set_pending c l))
      by exact K.
    split; [intros x X; injection X as <-; exact K'|].
    split; [intros _; exact (req_replies_ok _ _ K')|].
    apply Forall_app; split; [apply replies_finb|]. pl. cbn.
    pose proof (asked_bound (c_uid c) _ _ BL id w IN). lia.
  - split; [|pl]. destruct W as [W|(_ & W)]; [congruence|discriminate].
  - split; [|pl]. intros Hu. apply replies_plain; [pl|reflexivity|auto].
  - match goal with |- (_ -> replies_ok _ (?e ++ _)) /\ _ =>
      destruct (live_replies s n c e c J3 D H) as (X & Y & Z); [pl|reflexivity|reflexivity|pl|auto] end.
  - match goal with |- (forall c0, Some (SChan ?c') = _ -> req_ok (?e ++ _) _) /\ _ =>
      destruct (live_replies s n c e c' J3 D H) as (X & Y & Z); [pl|reflexivity|reflexivity|pl|auto] end.
  - match goal with |- (forall c0, Some (SChan ?c') = _ -> req_ok (?e ++ _) _) /\ _ =>
      destruct (live_replies s n c e c' J3 D H) as (X & Y & Z); [pl|reflexivity|reflexivity|pl|auto] end.
  - match goal with |- (forall c0, Some (SChan ?c') = _ -> req_ok (?e ++ _) _) /\ _ =>
      destruct (live_replies s n c e c' J3 D H) as (X & Y & Z); [pl|reflexivity|reflexivity|pl|auto] end.
  - match goal with |- (forall c0, Some (SChan ?c') = _ -> req_ok (?e ++ _) _) /\ _ =>
      destruct (live_replies s n c e c' J3 D H) as (X & Y & Z); [pl|reflexivity|reflexivity|pl|auto] end.
  - match goal with |- (forall c0, Some (SChan ?c') = _ -> req_ok (?e ++ _) _) /\ _ =>
      destruct (live_replies s n c e c' J3 D H) as (X & Y & Z); [pl|reflexivity|reflexivity|pl|auto] end.
  - match goal with |- (forall c0, Some (SChan ?c') = _ -> req_ok (?e ++ _) _) /\ _ =>
      destruct (live_replies s n c e c' J3 D H) as (X & Y & Z); [pl|reflexivity|reflexivity|pl|auto] end.
Qed.

Lemma allowedD_requests : forall s n v evs inc, allowedD E (politeP E) s n v evs inc ->
  I1 s -> I2 s -> I3 s -> cs_dead s = false ->
  (forall u, u <> 0 -> replies_ok u (evs ++ cs_log s)) /\ Forall (finb (cs_next s + inc)) evs.
Proof.
  intros s n v evs inc A J1 J2 J3 D. pose proof (i3_all s J3) as ALL. pose proof (i2_below s J2) as BL.
  destruct A.
  - split; [exact ALL|constructor].
  - split; [|pl]. intros u Hu. apply replies_plain; [pl|reflexivity|auto].
  - (* throws *)
    destruct o as [b|g|]; cbn [start_request] in H0; try discriminate.
    cbn [finish_events app]. split; [|pl]. intros u Hu. destruct (ALL u Hu) as (k & K1 & K2).
    exists k. split; [|exact K2].
    change (replies u (Called n (c_uid c) (CbRequest (cs_next s) want ty d) :: cs_log s)) with (replies u (cs_log s)).
    rewrite K1. f_equal. unfold due. cbn [asked]. destruct (c_uid c =? u) eqn:Eu; [|reflexivity].
    symmetry. apply answers_app_open. cbn. apply (i3_fresh s J3). lia.
  - (* assertion: impossible *)
    destruct (i3_of s n c J3 D H) as (R1 & R2 & R3).
    destruct (request_step E n (c_uid c) (c_peer c) want ty d o rs l (cs_log s) (cs_next s) (c_pending c)
                H1 BL (i3_fresh s J3 (c_uid c)) R1 R2 R3 true H0) as (K & _). discriminate.
  - split; [|apply replies_finb].
    destruct J1 as (J1 & _). destruct (J1 D n) as (_ & Sl2). rewrite H in Sl2. destruct Sl2 as (Sl2 & _).
    rewrite Sl2 in H0. assert (rs = []) as ->.
    { revert H0. cbn [start_request app]. destruct (r_sync_done E); cbn [submit pq_done pq_want].
      - destruct (r_dbg E && negb want); intros X; injection X; congruence.
      - unfold finish_request. cbn [find_request pq_id]. rewrite N.eqb_refl. cbn [pq_want mark_done pq_id].
        rewrite N.eqb_refl. destruct want; cbn [erase_request pq_id]; [|rewrite N.eqb_refl]; cbn [submit pq_done pq_want negb];
          rewrite ?andb_false_r; intros X; injection X; congruence. }
    exact ALL.
  - destruct (i3_of s n c J3 D H) as (R1 & R2 & R3). destruct H0 as (w & H0).
    destruct (done_step (r_dbg E) n (c_uid c) (c_peer c) id b rs l (cs_log s) (c_pending c) w true
                R1 R2 R3 H0 H1) as (K & _). discriminate.
Qed.

Lemma deaths_finb : forall b f, Forall (finb b) (deaths f).
Proof.
  intros b f. unfold deaths. apply Forall_rev, Forall_forall. intros e He.
  apply in_flat_map in He. destruct He as (n & _ & He). unfold death_event in He.
  destruct (f n) as [[g w []|p w|c|c]|]; try contradiction; destruct He as [<-|[]]; exact I.
Qed.

Lemma deaths_plain : forall f, Forall plain (deaths f).
Proof.
  intros f. unfold deaths. apply Forall_rev, Forall_forall. intros e He.
  apply in_flat_map in He. destruct He as (n & _ & He). unfold death_event in He.
  destruct (f n) as [[g w []|p w|c|c]|]; try contradiction; destruct He as [<-|[]]; exact I.
Qed.

Theorem I3_reach : forall s, mreach E (politeP E) s -> I3 s.
Proof.
  intros s H. unfold mreach in *.
  assert (G : mreach E (politeP E) s /\ I3 s); [|exact (proj2 G)].
  induction H as [|s s' H IH M].
  - split; [apply MS_nil|]. constructor; cbn; try discriminate; try reflexivity.
    intros u _. exists O. split; [reflexivity|congruence].
  - destruct IH as (R & IH). split; [eapply MS_snoc; eassumption|].
    destruct (I2_reach E (politeP E) s R) as (J1 & J2).
    destruct M as [n v evs inc A G|n v evs inc s1 r A G ->]; destruct G as (GS & GL & GN & D & D').
    + destruct (allowed_requests s n v evs inc A J1 J2 IH D) as (X & Y & Z).
      destruct (allowed_objects E (politeP E) s n v evs inc A J1 J2 D) as (u0 & W & T & _ & _ & _).
      constructor.
      * intros u id Hid. rewrite GN in Hid. rewrite GL, (result_tagged (cs_next s + inc)) by (try exact Z; lia).
        apply IH. lia.
      * rewrite GL. exact Y.
      * intros _ m c. rewrite GS, GL. destruct (m =? n) eqn:Em; [apply X|]. intros S.
        apply N.eqb_neq in Em. pose proof (i2_uid s J2 D m (c_uid c)) as U. rewrite S in U. specialize (U eq_refl).
        apply (req_other c u0); [lia| |exact T|now apply (i3_of s m)].
        intros EQ. destruct W as [W|(W & _)]; [|lia]. unfold slot_uid in W.
        destruct (uid_of (cs_slots s n)) as [u1|] eqn:U1; [|lia]. apply Em.
        apply (i2_distinct s J2 D m n (c_uid c)); [now rewrite S|]. rewrite U1. congruence.
    + destruct (allowedD_requests s n v evs inc A J1 J2 IH D) as (Y & Z).
      destruct (die_spec r s1) as (L & Nx & Dd & _). set (sd := die r s1) in *. clearbody sd.
      constructor; try (rewrite Dd; discriminate).
      * intros u id Hid. rewrite Nx, GN in Hid. rewrite L, GL.
        rewrite (result_tagged (cs_next s + inc)) by (try apply deaths_finb; lia). cbn [result].
        rewrite (result_tagged (cs_next s + inc)) by (try exact Z; lia). apply IH. lia.
      * intros u Hu. rewrite L, GL.
        apply (replies_plain u (deaths (cs_slots s1))); [apply deaths_plain|apply deaths_said|].
        apply (replies_plain u [Died r]); [pl|reflexivity|]. exact (Y u Hu).
Qed.
End Step.
