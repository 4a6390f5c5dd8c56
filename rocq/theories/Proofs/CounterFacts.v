(** Facts about Model/ConnCounters.v. *)

From Coq Require Import NArith List Bool Lia Permutation PeanoNat.
From Verif.Base Require Import Bytes.
From Verif.Model Require Import Accounting ConnCounters.
From Verif.Proofs Require Import AccountingFacts.
From Verif.Spec Require Import CounterSpec.
Import ListNotations.
Open Scope N_scope.

Lemma how_many_snoc : forall f l e, how_many f (l ++ [e]) = how_many f l + (if f e then 1 else 0).
Proof. intros f l e. unfold how_many. rewrite filter_app, app_length. cbn. destruct (f e); cbn; lia. Qed.

(** ** Counters *)

Definition counted (l : list event) : counters := {|
  n_accepted := how_many is_arrived l;
  n_rejected := how_many is_refused l;
  n_tarpit := how_many is_slow l;
  n_terminated := how_many is_asked_terminate l;
  n_unsupported := how_many is_asked_unsupported l;
  n_protocol := how_many is_bad_key l + how_many is_violation l
|}.

Definition exact (s : host) : Prop := h_counters s = counted (h_log s).

Ltac tell_tac H := unfold exact in *; cbn [tell count_ set_acc mk_host h_counters h_log] in *; rewrite H; unfold counted;
  rewrite !how_many_snoc; unfold inc; cbn [n_accepted n_rejected n_tarpit n_terminated n_unsupported n_protocol
    is_arrived is_refused is_slow is_asked_terminate is_asked_unsupported is_bad_key is_violation]; f_equal; try lia.

Lemma exact_opened : forall n s, exact s -> exact (tell (Opened n) s).
Proof. intros n s H. tell_tac H. Qed.
Lemma exact_closed : forall n s, exact s -> exact (tell (Closed n) s).
Proof. intros n s H. tell_tac H. Qed.
Lemma exact_arrived : forall s, exact s -> exact (tell Arrived (count_ CAccepted s)).
Proof. intros s H. tell_tac H. Qed.
Lemma exact_refused : forall s, exact s -> exact (tell Refused (count_ CRejected s)).
Proof. intros s H. tell_tac H. Qed.
Lemma exact_waiting : forall n s, exact s -> exact (tell (Waiting n) (count_ CTarpit s)).
Proof. intros n s H. tell_tac H. Qed.
Lemma exact_slowed : forall n s, exact s -> exact (tell (Slowed n) (count_ CTarpit s)).
Proof. intros n s H. tell_tac H. Qed.
Lemma exact_bad : forall n s, exact s -> exact (tell (BadKey n) (count_ CProtocol s)).
Proof. intros n s H. tell_tac H. Qed.
Lemma exact_unsupported : forall n s, exact s -> exact (tell (AskedUnsupported n) (count_ CUnsupported s)).
Proof. intros n s H. tell_tac H. Qed.
Lemma exact_terminate : forall n s, exact s -> exact (tell (AskedTerminate n) (count_ CTerminated s)).
Proof. intros n s H. tell_tac H. Qed.

Lemma exact_dispose : forall now id s, exact s -> exact (dispose now id s).
Proof. intros now id s H. unfold dispose. destruct (served id s); [|exact H]. apply exact_closed. exact H. Qed.

Lemma reason_violation : forall why,
  reason_counter (reason_code why) = if violation (reason_code why) then Some CProtocol else None.
Proof. intros []; reflexivity. Qed.

Lemma exact_disconnect : forall now id why keep s, exact s -> exact (DoDisconnect now id (reason_code why) keep s).
Proof.
  intros now id why keep s H. unfold DoDisconnect. destruct (is_dead id s); [exact H|]. cbv zeta.
  set (s1 := match reason_counter (reason_code why) with Some c => count_ c s | None => s end).
  assert (E : exact (tell (Disconnecting id (reason_code why)) s1)).
  { subst s1. rewrite reason_violation. destruct (violation (reason_code why)) eqn:V; tell_tac H; rewrite ?V; lia. }
  destruct keep; [exact E|]. now apply exact_dispose.
Qed.

Lemma exact_step : forall c o s, exact s -> exact (hstep c o s).
Proof.
  intros c o s H. destruct o; cbn [hstep].
  - destruct (OnAccept c now peer over fails (h_acc s)) as [r a]. cbv zeta.
    assert (E : exact (tell Arrived (count_ CAccepted (set_acc a s)))) by (apply exact_arrived; exact H).
    destruct r; [apply exact_refused|apply exact_waiting|apply exact_opened| |]; exact E.
  - destruct (find_client id (h_acc s)) as [x|]; [|exact H]. destruct (cl_kind x); [|exact H]. cbv zeta.
    destruct fails; [exact H|]. apply exact_opened. exact H.
  - destruct (find_client id (h_acc s)) as [x|]; [|exact H]. destruct (cl_kind x); exact H.
  - exact H.
  - destruct (served id s) as [x|]; [|exact H]. destruct (is_dead id s); [exact H|]. cbv zeta.
    destruct (0 <? GetDelay x (h_acc s)); [|exact H]. apply (exact_slowed id). exact H.
  - destruct (served id s) as [x|]; [|exact H]. destruct (is_dead id s); [exact H|]. now apply exact_bad.
  - destruct (served id s) as [x|]; [|exact H]. destruct (is_dead id s); [exact H|].
    apply exact_disconnect, exact_unsupported, H.
  - destruct (served id s) as [x|]; [|exact H]. apply exact_disconnect, exact_terminate, H.
  - destruct (served id s) as [x|]; [|exact H]. now apply exact_disconnect.
  - now apply exact_dispose.
Qed.

Lemma hrun_ind : forall (P : host -> Prop) c, P new_host -> (forall o s, P s -> P (hstep c o s)) ->
  forall ops, P (hrun c ops).
Proof.
  intros P c N S ops. unfold hrun. induction ops as [|o t IH] using rev_ind; [exact N|].
  rewrite fold_left_app. cbn. apply S, IH.
Qed.

Lemma exact_run : forall c ops, exact (hrun c ops).
Proof. intros c. apply hrun_ind; [reflexivity|]. intros o s. apply exact_step. Qed.

(** ** Sockets *)

Definition is_served (x : client) : bool := match cl_kind x with Served => true | Delayed => false end.
Definition served_ids (a : accounting) : list N := map cl_id (List.filter is_served (ac_open a)).

Lemma accept_open : forall c now peer over fails s r a, OnAccept c now peer over fails s = (r, a) ->
  match r with
  | Accepted => served_ids a = served_ids s ++ [ac_next s] /\ ac_next a = ac_next s + 1
  | Held _ => served_ids a = served_ids s /\ ac_next a = ac_next s + 1
  | _ => served_ids a = served_ids s /\ ac_next a = ac_next s
  end.
Proof.
  assert (OS : forall peer per s, served_ids (open_client Served peer per s) = served_ids s ++ [ac_next s]).
  { intros. unfold served_ids, open_client. cbn [ac_open mk_ac]. rewrite filter_app, map_app. reflexivity. }
  assert (OD : forall peer per s, served_ids (open_client Delayed peer per s) = served_ids s).
  { intros. unfold served_ids, open_client. cbn [ac_open mk_ac]. rewrite filter_app, map_app. cbn. apply app_nil_r. }
  intros c now peer over fails s r a. unfold OnAccept. destruct (if accounts c then peer else None) as [ad|].
  - cbv zeta. destruct (lookup ad _) as [p|]; [|intros H; injection H as <- <-; split; reflexivity].
    destruct (negb (Check c p)); [intros H; injection H as <- <-; split; reflexivity|].
    destruct (0 <? pc_delay p).
    + intros H; injection H as <- <-. rewrite OD. split; reflexivity.
    + unfold serve. destruct fails; intros H; injection H as <- <-; [split; reflexivity|]. rewrite OS. split; reflexivity.
  - unfold serve. destruct fails; intros H; injection H as <- <-; [split; reflexivity|]. rewrite OS. split; reflexivity.
Qed.

Lemma filter_without : forall l x, NoDup (map cl_id l) -> In x l -> is_served x = true ->
  Permutation (map cl_id (List.filter is_served l))
    (cl_id x :: map cl_id (List.filter is_served (List.filter (fun y => negb (cl_id y =? cl_id x)) l))).
Proof.
  induction l as [|y l IH]; intros x ND I S; [contradiction|]. cbn [map] in ND. inversion ND as [|? ? NI ND'].
  subst. destruct I as [->|I].
  - cbn [List.filter]. rewrite S. rewrite N.eqb_refl. cbn [negb map]. apply perm_skip.
    rewrite (filter_noop (fun y => negb (cl_id y =? cl_id x))); [apply Permutation_refl|].
    intros z Z. apply negb_true_iff, N.eqb_neq. intros E. apply NI. rewrite <- E. now apply in_map.
  - assert (D : cl_id y =? cl_id x = false).
    { apply N.eqb_neq. intros E. apply NI. rewrite E. now apply in_map. }
    cbn [List.filter]. rewrite D. cbn [negb List.filter]. destruct (is_served y); [|now apply IH].
    cbn [map]. eapply Permutation_trans; [apply perm_skip, (IH x ND' I S)|]. apply perm_swap.
Qed.

Lemma filter_delayed : forall l x, NoDup (map cl_id l) -> In x l -> is_served x = false ->
  List.filter is_served (List.filter (fun y => negb (cl_id y =? cl_id x)) l) = List.filter is_served l.
Proof.
  induction l as [|y l IH]; intros x ND I S; [contradiction|]. cbn [map] in ND. inversion ND as [|? ? NI ND'].
  subst. destruct I as [->|I].
  - cbn [List.filter]. rewrite N.eqb_refl, S. cbn [negb].
    rewrite (filter_noop (fun y => negb (cl_id y =? cl_id x))); [reflexivity|].
    intros z Z. apply negb_true_iff, N.eqb_neq. intros E. apply NI. rewrite <- E. now apply in_map.
  - assert (D : cl_id y =? cl_id x = false).
    { apply N.eqb_neq. intros E. apply NI. rewrite E. now apply in_map. }
    cbn [List.filter]. rewrite D. cbn [negb List.filter]. now rewrite (IH x ND' I S).
Qed.

Lemma destroy_ids : forall now x s, served_ids (destroy_client now x s) =
  map cl_id (List.filter is_served (List.filter (fun y => negb (cl_id y =? cl_id x)) (ac_open s))).
Proof. intros. unfold destroy_client, served_ids. destruct (cl_per_client x); reflexivity. Qed.

Lemma destroy_next : forall now x s, ac_next (destroy_client now x s) = ac_next s.
Proof. intros. unfold destroy_client. destruct (cl_per_client x); reflexivity. Qed.

Lemma update_ids : forall c now id over s, served_ids (snd (astep c (AUpdate now id over) s)) = served_ids s /\
  ac_next (snd (astep c (AUpdate now id over) s)) = ac_next s.
Proof.
  intros. cbn [astep]. destruct (find_client id s) as [x|]; [|split; reflexivity].
  destruct (cl_kind x), (cl_per_client x); split; reflexivity.
Qed.

Lemma served_in : forall id s x, served id s = Some x -> In x (ac_open (h_acc s)) /\ cl_id x = id /\ is_served x = true.
Proof.
  intros id s x H. unfold served in H. destruct (find_client id (h_acc s)) as [y|] eqn:F; [|discriminate].
  destruct (cl_kind y) eqn:K; [discriminate|]. injection H as <-. apply find_client_spec in F as [I E].
  split; [exact I|]. split; [exact E|]. unfold is_served. now rewrite K.
Qed.

Lemma served_ids_in : forall id s x, served id s = Some x -> In id (served_ids (h_acc s)).
Proof.
  intros id s x H. apply served_in in H as (I & E & S). subst id. unfold served_ids. apply in_map. now apply filter_In.
Qed.

Record sound (c : acfg) (s : host) : Prop := {
  so_wf : wf c (h_acc s);
  so_open : Permutation (opened (h_log s)) (served_ids (h_acc s) ++ closed (h_log s));
  so_next : forall id, In id (opened (h_log s)) -> id < ac_next (h_acc s);
  so_unique : NoDup (opened (h_log s));
  so_disc : NoDup (disconnected (h_log s));
  so_disc_opened : forall id, In id (disconnected (h_log s)) -> In id (opened (h_log s));
  so_dead : forall id, In id (h_dead s) -> In id (disconnected (h_log s));
  so_dead_open : forall id, In id (disconnected (h_log s)) -> In id (served_ids (h_acc s)) -> In id (h_dead s)
}.

Lemma opened_app : forall l l', opened (l ++ l') = opened l ++ opened l'.
Proof. intros. apply flat_map_app. Qed.
Lemma closed_app : forall l l', closed (l ++ l') = closed l ++ closed l'.
Proof. intros. apply flat_map_app. Qed.
Lemma disconnected_app : forall l l', disconnected (l ++ l') = disconnected l ++ disconnected l'.
Proof. intros. apply flat_map_app. Qed.

(** an event which is none of the three *)
Definition neutral (e : event) : Prop := opened [e] = [] /\ closed [e] = [] /\ disconnected [e] = [].

Lemma sound_tell : forall c e s, neutral e -> sound c s -> sound c (tell e s).
Proof.
  intros c e s (A & B & D) [I1 I2 I3 I4 I5 I6 I7 I8].
  split; cbn [tell mk_host h_acc h_dead h_log]; rewrite ?opened_app, ?closed_app, ?disconnected_app, ?A, ?B, ?D, ?app_nil_r;
  auto.
Qed.

Lemma sound_count : forall c x s, sound c s -> sound c (count_ x s).
Proof. intros c x s [I1 I2 I3 I4 I5 I6 I7 I8]. split; assumption. Qed.

Lemma sound_set : forall c a s, wf c a -> served_ids a = served_ids (h_acc s) -> ac_next (h_acc s) <= ac_next a ->
  sound c s -> sound c (set_acc a s).
Proof.
  intros c a s W E N [I1 I2 I3 I4 I5 I6 I7 I8].
  split; cbn [set_acc mk_host h_acc h_dead h_log]; rewrite ?E; auto. intros id I. specialize (I3 id I). lia.
Qed.

Lemma sound_opened : forall c a s, wf c a -> Permutation (served_ids a) (served_ids (h_acc s) ++ [ac_next (h_acc s)]) ->
  ac_next a = ac_next (h_acc s) + 1 -> sound c s -> sound c (tell (Opened (ac_next (h_acc s))) (set_acc a s)).
Proof.
  intros c a s W P N [I1 I2 I3 I4 I5 I6 I7 I8].
  assert (F : ~ In (ac_next (h_acc s)) (opened (h_log s))) by (intros I; specialize (I3 _ I); lia).
  split; cbn [tell set_acc mk_host h_acc h_dead h_log]; rewrite ?opened_app, ?closed_app, ?disconnected_app;
    cbn [opened closed disconnected flat_map app]; rewrite ?app_nil_r; auto.
  - eapply Permutation_trans; [apply Permutation_app_tail, I2|].
    eapply Permutation_trans; [|apply Permutation_app_tail, Permutation_sym, P].
    rewrite <- !app_assoc. apply Permutation_app_head, Permutation_app_comm.
  - intros id I. apply in_app_or in I as [I|[<-|[]]]; [specialize (I3 _ I)|]; lia.
  - now apply NoDup_snoc_N.
  - intros id I. apply in_or_app. left. now apply I6.
  - intros id I J. apply I8; [exact I|]. apply (Permutation_in _ P), in_app_or in J as [J|[<-|[]]]; [exact J|].
    exfalso. apply F, I6, I.
Qed.

Lemma sound_arrived_opened : forall c a s, wf c a ->
  Permutation (served_ids a) (served_ids (h_acc s) ++ [ac_next (h_acc s)]) ->
  ac_next a = ac_next (h_acc s) + 1 -> sound c s ->
  sound c (tell (Opened (ac_next (h_acc s))) (tell Arrived (count_ CAccepted (set_acc a s)))).
Proof.
  intros c a s W P N H.
  change (tell (Opened (ac_next (h_acc s))) (tell Arrived (count_ CAccepted (set_acc a s))))
    with (tell (Opened (ac_next (h_acc (tell Arrived (count_ CAccepted s))))) (set_acc a (tell Arrived (count_ CAccepted s)))).
  apply sound_opened; [exact W|exact P|exact N|]. apply sound_tell; [repeat split|]. now apply sound_count.
Qed.

Lemma sound_dispose : forall c now id s, sound c s -> sound c (dispose now id s).
Proof.
  intros c now id s H. unfold dispose. destruct (served id s) as [x|] eqn:X; [|exact H].
  destruct (served_in _ _ _ X) as (IX & EX & SX). subst id. destruct H as [I1 I2 I3 I4 I5 I6 I7 I8].
  pose proof (filter_without _ x (wf_ids _ _ I1) IX SX) as P. rewrite <- (destroy_ids now) in P.
  fold (served_ids (h_acc s)) in P.
  split; cbn [tell set_acc mk_host h_acc h_dead h_log]; rewrite ?opened_app, ?closed_app, ?disconnected_app;
    cbn [opened closed disconnected flat_map app]; rewrite ?app_nil_r; auto.
  - now apply wf_destroy.
  - eapply Permutation_trans; [exact I2|]. eapply Permutation_trans; [apply Permutation_app_tail, P|].
    cbn [app]. eapply Permutation_trans; [apply Permutation_cons_append|]. rewrite <- app_assoc. apply Permutation_refl.
  - intros id I. rewrite destroy_next. now apply I3.
  - intros id I J. apply I8; [exact I|]. apply (Permutation_in _ (Permutation_sym P)). now right.
Qed.

Lemma is_dead_in : forall id s, is_dead id s = true <-> In id (h_dead s).
Proof.
  intros id s. unfold is_dead. rewrite existsb_exists. split.
  - intros (x & I & E). apply N.eqb_eq in E. now subst.
  - intros I. exists id. split; [exact I|apply N.eqb_refl].
Qed.

Lemma sound_disconnect : forall c now id code keep s x, sound c s -> served id s = Some x ->
  sound c (DoDisconnect now id code keep s).
Proof.
  intros c now id code keep s x H X. unfold DoDisconnect. destruct (is_dead id s) eqn:D; [exact H|]. cbv zeta.
  assert (ND : ~ In id (h_dead s)) by (rewrite <- is_dead_in; congruence).
  set (s1 := match reason_counter code with Some k => count_ k s | None => s end).
  assert (E : h_acc s1 = h_acc s /\ h_dead s1 = h_dead s /\ h_log s1 = h_log s)
    by (subst s1; destruct (reason_counter code); repeat split).
  destruct E as (EA & ED & EL). destruct H as [I1 I2 I3 I4 I5 I6 I7 I8].
  assert (SI : In id (served_ids (h_acc s))) by (now apply (served_ids_in _ _ x)).
  assert (NDI : ~ In id (disconnected (h_log s))) by (intros I; apply ND, I8; assumption).
  assert (OI : In id (opened (h_log s))).
  { apply (Permutation_in _ (Permutation_sym I2)), in_or_app. now left. }
  assert (K : sound c (mk_host (h_acc (tell (Disconnecting id code) s1)) (id :: h_dead (tell (Disconnecting id code) s1))
                (h_counters (tell (Disconnecting id code) s1)) (h_log (tell (Disconnecting id code) s1)))).
  { split; cbn [tell mk_host h_acc h_dead h_log]; rewrite ?EA, ?ED, ?EL, ?opened_app, ?closed_app, ?disconnected_app;
      cbn [opened closed disconnected flat_map app]; rewrite ?app_nil_r; auto.
    - now apply NoDup_snoc_N.
    - intros i I. apply in_app_or in I as [I|[<-|[]]]; [now apply I6|exact OI].
    - intros i [<-|I]; apply in_or_app; [right; now left|left; now apply I7].
    - intros i I J. apply in_app_or in I as [I|[<-|[]]]; [right; now apply I8|now left]. }
  destruct keep; [exact K|].
  apply (sound_dispose c now id) in K. unfold dispose in K |- *.
  assert (X1 : forall d k, served id (mk_host (h_acc (tell (Disconnecting id code) s1)) d k
     (h_log (tell (Disconnecting id code) s1))) = Some x).
  { intros d k. unfold served in *. cbn [tell mk_host h_acc]. rewrite EA. exact X. }
  assert (X2 : served id (tell (Disconnecting id code) s1) = Some x).
  { unfold served in *. cbn [tell mk_host h_acc]. rewrite EA. exact X. }
  rewrite X1 in K. rewrite X2. destruct K as [K1 K2 K3 K4 K5 K6 K7 K8].
  split; try assumption.
  - intros i I. apply K7. right. exact I.
  - intros i I J. cbn [tell set_acc mk_host h_acc h_dead h_log] in *. destruct (K8 i I J) as [<-|Y]; [|exact Y].
    exfalso. rewrite destroy_ids in J. apply in_map_iff in J as (z & Z & J).
    apply filter_In in J as [J _]. apply filter_In in J as [_ J]. destruct (served_in _ _ _ X) as (_ & EX & _).
    rewrite Z, EX, N.eqb_refl in J. discriminate.
Qed.

Lemma sound_step : forall c o s, sound c s -> sound c (hstep c o s).
Proof.
  intros c o s H. pose proof (so_wf _ _ H) as W. destruct o; cbn [hstep].
  - destruct (OnAccept c now peer over fails (h_acc s)) as [r a] eqn:O. cbv zeta.
    pose proof (accept_open _ _ _ _ _ _ _ _ O) as A. pose proof (wf_accept c now peer over fails _ W) as W'.
    rewrite O in W'. cbn [snd] in W'.
    assert (G : served_ids a = served_ids (h_acc s) -> ac_next (h_acc s) <= ac_next a ->
                sound c (tell Arrived (count_ CAccepted (set_acc a s)))).
    { intros E N. apply sound_tell; [repeat split|]. apply sound_count. now apply sound_set. }
    destruct r.
    + destruct A as [A B]. apply sound_tell; [repeat split|]. apply sound_count, G; [exact A|lia].
    + destruct A as [A B]. apply sound_tell; [repeat split|]. apply sound_count, G; [exact A|lia].
    + destruct A as [A B]. apply sound_arrived_opened; auto. rewrite A. apply Permutation_refl.
    + destruct A as [A B]. apply G; [exact A|lia].
    + destruct A as [A B]. apply G; [exact A|lia].
  - destruct (find_client id (h_acc s)) as [x|] eqn:F; [|exact H]. destruct (cl_kind x) eqn:K; [|exact H]. cbv zeta.
    destruct (find_client_spec _ _ _ F) as [IX EX].
    assert (SX : is_served x = false) by (unfold is_served; now rewrite K).
    pose proof (wf_step c (ATimer now id fails) _ W) as W'. cbn [astep] in W'. rewrite F, K in W'. cbn [snd] in W'.
    destruct fails.
    + apply sound_set; [exact W'| | |exact H].
      * unfold OnTimer, serve. cbn [snd]. rewrite destroy_ids, (filter_delayed _ _ (wf_ids _ _ W) IX SX). reflexivity.
      * unfold OnTimer, serve. cbn [snd]. rewrite destroy_next. lia.
    + apply sound_opened; [exact W'| | |exact H].
      * unfold OnTimer, serve. cbn [snd]. rewrite destroy_ids. unfold open_client. cbn [ac_open mk_ac].
        rewrite !filter_app, map_app, (filter_delayed _ _ (wf_ids _ _ W) IX SX). cbn [List.filter].
        pose proof (wf_next _ _ W) as WN. rewrite Forall_forall in WN. specialize (WN _ IX).
        cbn [cl_id]. destruct (N.eqb_spec (ac_next (h_acc s)) (cl_id x)) as [Q|Q]; [lia|]. apply Permutation_refl.
      * unfold OnTimer, serve. cbn [snd]. rewrite destroy_next. reflexivity.
  - destruct (find_client id (h_acc s)) as [x|] eqn:F; [|exact H]. destruct (cl_kind x) eqn:K; [|exact H].
    destruct (find_client_spec _ _ _ F) as [IX EX].
    assert (SX : is_served x = false) by (unfold is_served; now rewrite K).
    apply sound_set; [now apply wf_destroy| | |exact H].
    + rewrite destroy_ids, (filter_delayed _ _ (wf_ids _ _ W) IX SX). reflexivity.
    + rewrite destroy_next. lia.
  - apply sound_set; [apply (wf_step c (ACleanup now) _ W)| | |exact H].
    + cbn [astep]. destruct (ac_cleanup (h_acc s)); reflexivity.
    + cbn [astep]. destruct (ac_cleanup (h_acc s)); cbn; lia.
  - destruct (served id s) as [x|]; [|exact H]. destruct (is_dead id s); [exact H|]. cbv zeta.
    set (s1 := if 0 <? GetDelay x (h_acc s) then tell (Slowed id) (count_ CTarpit s) else s).
    assert (S1 : sound c s1 /\ h_acc s1 = h_acc s).
    { subst s1. destruct (0 <? GetDelay x (h_acc s)); [|now split]. split; [|reflexivity].
      apply sound_tell; [repeat split|]. now apply sound_count. }
    destruct S1 as [S1 S2].
    apply sound_set; [|apply update_ids|destruct (update_ids c now id over (h_acc s1)) as [_ U]; lia|exact S1].
    rewrite S2. apply (wf_step c (AUpdate now id over) _ W).
  - destruct (served id s) as [x|]; [|exact H]. destruct (is_dead id s); [exact H|].
    apply sound_tell; [repeat split|]. now apply sound_count.
  - destruct (served id s) as [x|] eqn:X; [|exact H]. destruct (is_dead id s); [exact H|].
    apply (sound_disconnect c now id _ keep _ x); [|exact X]. apply sound_tell; [repeat split|]. now apply sound_count.
  - destruct (served id s) as [x|] eqn:X; [|exact H].
    apply (sound_disconnect c now id _ keep _ x); [|exact X]. apply sound_tell; [repeat split|]. now apply sound_count.
  - destruct (served id s) as [x|] eqn:X; [|exact H]. now apply (sound_disconnect c now id _ keep _ x).
  - now apply sound_dispose.
Qed.

Lemma sound_run : forall c ops, sound c (hrun c ops).
Proof.
  intros c. apply hrun_ind; [|intros o s; apply sound_step].
  split; cbn; try constructor; try (intros; contradiction). 1-2: constructor. all: try (intros; contradiction).
  all: try constructor; intros; try discriminate; try contradiction.
Qed.

(** ** Each connection is counted once *)

Definition closed_counters (s : host) : N :=
  n_terminated (h_counters s) + n_unsupported (h_counters s) + n_protocol (h_counters s).

Definition within_ (s : host) : Prop :=
  plain (h_log s) ->
  how_many is_asked_terminate (h_log s) + how_many is_asked_unsupported (h_log s) + how_many is_violation (h_log s)
  <= how_many is_disconnecting (h_log s).

Lemma plain_prefix : forall l l', plain (l ++ l') -> plain l.
Proof.
  intros l l' [A B]. split.
  - intros before id after E. apply (A before id (after ++ l')). rewrite E, <- app_assoc. reflexivity.
  - intros id I. apply (B id), in_or_app. now left.
Qed.

Lemma within_tell : forall e s, is_asked_terminate e = false -> is_asked_unsupported e = false -> is_violation e = false ->
  within_ s -> within_ (tell e s).
Proof.
  intros e s A B D H P. cbn [tell mk_host h_log] in *. specialize (H (plain_prefix _ _ P)).
  rewrite !how_many_snoc, A, B, D. destruct (is_disconnecting e); lia.
Qed.

Lemma within_dispose : forall now id s, within_ s -> within_ (dispose now id s).
Proof.
  intros now id s H. unfold dispose. destruct (served id s); [|exact H].
  apply (within_tell (Closed id) (set_acc _ s)); auto.
Qed.

Definition disc_log (now id code : N) (keep : bool) (s : host) : list event :=
  h_log (DoDisconnect now id code keep s).

Lemma disconnect_log : forall now id code keep s, is_dead id s = false ->
  exists t, disc_log now id code keep s = h_log s ++ Disconnecting id code :: t /\
    (t = [] \/ t = [Closed id]).
Proof.
  intros now id code keep s D. unfold disc_log, DoDisconnect. rewrite D. cbv zeta.
  set (s1 := match reason_counter code with Some k => count_ k s | None => s end).
  assert (L : h_log s1 = h_log s) by (subst s1; destruct (reason_counter code); reflexivity).
  destruct keep.
  - exists []. cbn [mk_host tell h_log]. rewrite L. split; [reflexivity|now left].
  - unfold dispose. destruct (served id _).
    + exists [Closed id]. cbn [mk_host tell set_acc h_log]. rewrite L, <- app_assoc. split; [reflexivity|now right].
    + exists []. cbn [mk_host tell h_log]. rewrite L. split; [reflexivity|now left].
Qed.

Lemma how_many_app : forall f l l', how_many f (l ++ l') = how_many f l + how_many f l'.
Proof. intros. unfold how_many. rewrite filter_app, app_length. lia. Qed.

Lemma within_disconnect : forall now id code keep s, within_ s -> within_ (DoDisconnect now id code keep s).
Proof.
  intros now id code keep s H. destruct (is_dead id s) eqn:D.
  - unfold DoDisconnect. now rewrite D.
  - destruct (disconnect_log now id code keep s D) as (t & L & T). unfold disc_log in L. intros P. rewrite L in *.
    specialize (H (plain_prefix _ _ P)). rewrite !how_many_app.
    assert (V : how_many is_violation (Disconnecting id code :: t) <= how_many is_disconnecting (Disconnecting id code :: t)).
    { destruct T as [-> | ->]; unfold how_many; cbn [List.filter is_violation is_disconnecting];
        destruct (violation code); cbn [List.length]; lia. }
    assert (U : how_many is_asked_terminate (Disconnecting id code :: t) = 0 /\
                how_many is_asked_unsupported (Disconnecting id code :: t) = 0)
      by (destruct T as [-> | ->]; split; reflexivity).
    lia.
Qed.

(** a request which is followed by a disconnect of this kind *)
Lemma within_asked : forall now id code keep e k s,
  is_violation e = false -> (is_asked_terminate e = false \/ is_asked_unsupported e = false) ->
  violation code = false -> is_dead id s = false ->
  within_ s -> within_ (DoDisconnect now id code keep (tell e (count_ k s))).
Proof.
  intros now id code keep e k s EV EA V D H.
  assert (D' : is_dead id (tell e (count_ k s)) = false) by exact D.
  destruct (disconnect_log now id code keep _ D') as (t & L & T). unfold disc_log in L. intros P. rewrite L in *.
  cbn [tell count_ mk_host h_log] in *. rewrite <- app_assoc in P. specialize (H (plain_prefix _ _ P)).
  rewrite !how_many_app.
  assert (U : how_many is_asked_terminate (Disconnecting id code :: t) = 0 /\
              how_many is_asked_unsupported (Disconnecting id code :: t) = 0 /\
              how_many is_violation (Disconnecting id code :: t) = 0 /\
              how_many is_disconnecting (Disconnecting id code :: t) = 1)
    by (destruct T as [-> | ->]; unfold how_many;
        cbn [List.filter is_asked_terminate is_asked_unsupported is_violation is_disconnecting]; rewrite V; repeat split).
  assert (X : how_many is_asked_terminate [e] + how_many is_asked_unsupported [e] <= 1 /\ how_many is_violation [e] = 0).
  { unfold how_many. cbn [List.filter]. rewrite EV. destruct EA as [EA|EA]; rewrite EA;
      [destruct (is_asked_unsupported e)|destruct (is_asked_terminate e)]; cbn [List.length]; lia. }
  lia.
Qed.

Lemma within_step : forall c o s, sound c s -> within_ s -> within_ (hstep c o s).
Proof.
  intros c o s SO H. destruct o; cbn [hstep].
  - destruct (OnAccept c now peer over fails (h_acc s)) as [r a]. cbv zeta.
    assert (E : within_ (tell Arrived (count_ CAccepted (set_acc a s))))
      by (apply (within_tell Arrived (count_ CAccepted (set_acc a s))); auto).
    destruct r; [| | |exact E|exact E].
    + now apply (within_tell Refused (count_ CRejected (tell Arrived (count_ CAccepted (set_acc a s))))).
    + now apply (within_tell (Waiting _) (count_ CTarpit (tell Arrived (count_ CAccepted (set_acc a s))))).
    + now apply within_tell.
  - destruct (find_client id (h_acc s)) as [x|]; [|exact H]. destruct (cl_kind x); [|exact H]. cbv zeta.
    destruct fails; [exact H|]. now apply (within_tell (Opened _) (set_acc _ s)).
  - destruct (find_client id (h_acc s)) as [x|]; [|exact H]. destruct (cl_kind x); exact H.
  - exact H.
  - destruct (served id s) as [x|]; [|exact H]. destruct (is_dead id s); [exact H|]. cbv zeta.
    destruct (0 <? GetDelay x (h_acc s)); [|exact H]. apply (within_tell (Slowed id) (set_acc _ (count_ CTarpit s))); auto.
  - destruct (served id s) as [x|]; [|exact H]. destruct (is_dead id s); [exact H|].
    now apply (within_tell (BadKey id) (count_ CProtocol s)).
  - destruct (served id s) as [x|]; [|exact H]. destruct (is_dead id s) eqn:D; [exact H|].
    apply within_asked; auto.
  - destruct (served id s) as [x|]; [|exact H]. destruct (is_dead id s) eqn:D; [|apply within_asked; auto].
    intros P. exfalso. unfold DoDisconnect in P. change (is_dead id (tell (AskedTerminate id) (count_ CTerminated s)))
      with (is_dead id s) in P. rewrite D in P. cbn [tell count_ mk_host h_log] in P.
    destruct P as [P _]. apply (P _ id [] eq_refl). apply (so_dead _ _ SO). now apply is_dead_in.
  - destruct (served id s) as [x|]; [|exact H]. now apply within_disconnect.
  - now apply within_dispose.
Qed.

Lemma within_run : forall c ops, within_ (hrun c ops).
Proof.
  intros c ops. pose proof (hrun_ind (fun s => sound c s /\ within_ s) c) as I. apply I.
  - split; [apply (sound_run c [])|]. intros _. cbn. apply N.le_refl.
  - intros o s [A B]. split; [now apply sound_step|now apply within_step].
Qed.

Lemma disconnecting_ids : forall l, how_many is_disconnecting l = N.of_nat (List.length (disconnected l)).
Proof.
  intros l. unfold how_many, disconnected. f_equal. induction l as [|e l IH]; [reflexivity|].
  destruct e; cbn; congruence.
Qed.

Lemma active_ids : forall s, active s = N.of_nat (List.length (served_ids (h_acc s))).
Proof. intros s. unfold active, served_ids. rewrite map_length. reflexivity. Qed.
