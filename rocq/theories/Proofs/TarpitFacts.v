(** Facts about the tarpit (C83). *)

From Coq Require Import NArith ZArith List Bool Lia FinFun.
From Verif.Spec Require Import TarpitSpec.
From Verif.Model Require Import Accounting Tarpit.
Import ListNotations.
Open Scope N_scope.

Definition count (n : nat) : N := N.of_nat n.

(** Requests which wait for less than a minute, and the time for which the
    others have been in progress *)
Definition is_short (r : request) : bool := rq_wait r <? 60000.
Fixpoint shorts (l : list request) : N :=
  match l with [] => 0 | r :: t => (if is_short r then 1 else 0) + shorts t end.
Fixpoint area (now : N) (l : list request) : N :=
  match l with [] => 0 | r :: t => (if is_short r then 0 else now - rq_start r) + area now t end.
Fixpoint askeds (l : list request) : N :=
  match l with [] => 0 | r :: t => (if rq_asked r then 1 else 0) + askeds t end.

Definition started (now : N) (r : request) : Prop :=
  rq_start r <= now /\ (rq_asked r = true -> rq_start r + rq_wait r <= now).

Lemma shorts_length : forall l, shorts l <= count (length l).
Proof. unfold count. induction l as [|r t IH]; [cbn; lia|]. cbn [shorts length]. destruct (is_short r); lia. Qed.

Lemma area_length : forall now l, area now l <= count (length l) * now.
Proof. unfold count. induction l as [|r t IH]; [cbn; lia|]. cbn [area length]. destruct (is_short r); nia. Qed.

Lemma area_tick : forall now l, Forall (started now) l -> area (now + 1) l <= area now l + count (length l).
Proof.
  unfold count. intros now l F. induction F as [|r t [S _] _ IH]; [cbn; lia|]. cbn [area length]. destruct (is_short r); lia.
Qed.

(** Without a request *)
Lemma drop_shorts : forall id l, shorts (drop_request id l) <= shorts l.
Proof.
  intros id l. induction l as [|r t IH]; [cbn; lia|]. unfold drop_request in *. cbn [filter shorts].
  destruct (rq_conn r =? id); cbn [negb shorts]; lia.
Qed.
Lemma drop_area : forall now id l, area now (drop_request id l) <= area now l.
Proof.
  intros now id l. induction l as [|r t IH]; [cbn; lia|]. unfold drop_request in *. cbn [filter area].
  destruct (rq_conn r =? id); cbn [negb area]; lia.
Qed.
Lemma drop_askeds : forall id l, askeds (drop_request id l) <= askeds l.
Proof.
  intros id l. induction l as [|r t IH]; [cbn; lia|]. unfold drop_request in *. cbn [filter askeds].
  destruct (rq_conn r =? id); cbn [negb askeds]; lia.
Qed.

(** Without a request which was there *)
Lemma drop_found : forall id l r now, find (fun r => rq_conn r =? id) l = Some r ->
  shorts (drop_request id l) + (if is_short r then 1 else 0) <= shorts l /\
  area now (drop_request id l) + (if is_short r then 0 else now - rq_start r) <= area now l /\
  askeds (drop_request id l) + (if rq_asked r then 1 else 0) <= askeds l.
Proof.
  intros id l r now. induction l as [|x t IH]; [discriminate|]. cbn [find]. pose proof (drop_shorts id t). pose proof (drop_area now id t).
  pose proof (drop_askeds id t). unfold drop_request in *. cbn [filter shorts area askeds].
  destruct (rq_conn x =? id); cbn [negb shorts area askeds].
  - intro E. injection E as ->. lia.
  - intro E. specialize (IH E). lia.
Qed.

Lemma found_in : forall id l r, find (fun r => rq_conn r =? id) l = Some r -> In r l /\ rq_conn r = id.
Proof. intros id l r E. apply find_some in E as [I E]. apply N.eqb_eq in E. auto. Qed.

Lemma not_found : forall id l, find (fun r => rq_conn r =? id) l = None -> ~ In id (map rq_conn l).
Proof.
  intros id l E I. apply in_map_iff in I as (r & <- & I). apply (find_none _ _ E) in I. now rewrite N.eqb_refl in I.
Qed.

Lemma drop_in : forall id l r, In r (drop_request id l) <-> In r l /\ rq_conn r <> id.
Proof.
  intros id l r. unfold drop_request. rewrite filter_In, negb_true_iff, N.eqb_neq. tauto.
Qed.

Lemma drop_nodup : forall id l, NoDup (map rq_conn l) -> NoDup (map rq_conn (drop_request id l)).
Proof.
  intros id l. induction l as [|r t IH]; [auto|]. cbn [map]. intro N. inversion N as [|x y NI ND]. subst.
  unfold drop_request in *. cbn [filter]. destruct (rq_conn r =? id); cbn [negb]; [now apply IH|].
  cbn [map]. constructor; [|now apply IH]. intro I. apply NI. apply in_map_iff in I as (q & E & I). apply filter_In in I as [I _].
  rewrite <- E. now apply in_map.
Qed.

(** ** The invariant *)

(** How the refused passwords were possible: those before the bucket was
    overdrawn, those which have increased the delay, those which were in
    progress when the delay was complete, and those which have waited. *)
Definition bounded (m now delay wrong : N) (l : list request) : Prop :=
  exists paid rising flying waited, wrong = paid + rising + flying + waited /\
    9000 * paid <= 10000 + now /\ 100 * rising <= 60000 /\
    ((delay < 60000 /\ 100 * rising <= delay /\ flying = 0 /\ waited = 0) \/
     (60000 <= delay /\ flying + shorts l <= m /\ 60000 * waited + area now l <= m * now)).

Record tinv (c : acfg) (s : tpit) : Prop := {
  ti_conns : count (length (pc_connections (tp_client s))) <= max_connections c;
  ti_nodup : NoDup (map rq_conn (tp_requests s));
  ti_incl : incl (map rq_conn (tp_requests s)) (pc_connections (tp_client s));
  ti_started : Forall (started (tp_now s)) (tp_requests s);
  ti_delay : exists k, pc_delay (tp_client s) = 100 * k /\ k <= 600;
  ti_paid : (tp_level s + 9000 * Z.of_N (tp_wrong s) + 1000 * Z.of_N (askeds (tp_requests s)) <= 10000 + Z.of_N (tp_now s))%Z;
  ti_bounded : bounded (max_connections c) (tp_now s) (pc_delay (tp_client s)) (tp_wrong s) (tp_requests s)
}.

Lemma ti_count : forall c s, tinv c s -> count (length (tp_requests s)) <= max_connections c.
Proof.
  intros c s I. pose proof (NoDup_incl_length (ti_nodup _ _ I) (ti_incl _ _ I)) as L. rewrite map_length in L.
  pose proof (ti_conns _ _ I). unfold count in *. lia.
Qed.

(** What an update does to the delay *)
Lemma update_delay : forall c now over p k, tarpit c = true -> pc_delay p = 100 * k -> k <= 600 ->
  let p' := UpdateTokenBucket c now over p in
  pc_connections p' = pc_connections p /\
  (exists k', pc_delay p' = 100 * k' /\ k' <= 600) /\
  if over then (pc_delay p < 60000 /\ pc_delay p' = pc_delay p + 100) \/ (60000 <= pc_delay p /\ pc_delay p' = pc_delay p)
  else pc_delay p' < 60000.
Proof.
  intros c now over p k T D K. unfold UpdateTokenBucket. rewrite T. cbn [negb].
  destruct over; [|destruct (now <? pc_tarpit_until p)]; cbn [mk_pc pc_connections pc_delay].
  - split; [reflexivity|]. destruct (pc_delay p <? 60000) eqn:L.
    + apply N.ltb_lt in L. split; [exists (k + 1); lia|left; lia].
    + apply N.ltb_ge in L. split; [exists k; lia|right; lia].
  - split; [reflexivity|]. destruct (100 <? pc_delay p) eqn:L.
    + apply N.ltb_lt in L. split; [exists (k - 1); lia|lia].
    + apply N.ltb_ge in L. split; [exists k; lia|lia].
  - split; [reflexivity|]. split; [exists 0; lia|lia].
Qed.

(** Spending tokens; [wrong'], [l']: afterwards *)
Lemma spend_bounded : forall c s size wrong' l', tarpit c = true -> tinv c s ->
  let s' := spend c size s in
  (tp_level s' + 9000 * Z.of_N wrong' <= 10000 + Z.of_N (tp_now s))%Z ->
  count (length l') <= max_connections c ->
  (exists ej ew, wrong' = tp_wrong s + ej + ew /\ ej + ew <= 1 /\
     shorts l' + ej <= shorts (tp_requests s) /\ area (tp_now s) l' + 60000 * ew <= area (tp_now s) (tp_requests s)) ->
  bounded (max_connections c) (tp_now s) (pc_delay (tp_client s')) wrong' l'.
Proof.
  intros c s size wrong' l' T I s' P L (ej & ew & W & E & SH & AR).
  destruct (ti_delay _ _ I) as (k & D & K). unfold s' in *. cbn [spend mk_tp tp_level tp_client] in *.
  set (level := (tp_level s - Z.of_N size)%Z) in *.
  destruct (update_delay c (tp_now s) (level <? 0)%Z (tp_client s) k T D K) as (_ & (k' & D' & K') & U). cbv zeta in *.
  destruct (ti_bounded _ _ I) as (paid & rising & flying & waited & B1 & B2 & B3 & B4).
  destruct (level <? 0)%Z eqn:O.
  - destruct U as [[U1 U2]|[U1 U2]].
    + destruct B4 as [(B4 & B5 & B6 & B7)|(B4 & _)]; [|lia].
      exists paid, (rising + ej + ew), 0, 0. split; [lia|]. split; [exact B2|]. split; [lia|].
      destruct (N.lt_ge_cases (pc_delay (UpdateTokenBucket c (tp_now s) true (tp_client s))) 60000) as [Q|Q]; [left; lia|right].
      split; [exact Q|]. pose proof (shorts_length l'). pose proof (area_length (tp_now s) l').
      split; [lia|]. assert (count (length l') * tp_now s <= max_connections c * tp_now s) by (apply N.mul_le_mono_r; exact L). lia.
    + destruct B4 as [(B4 & _)|(B4 & B5 & B6)]; [lia|].
      exists paid, rising, (flying + ej), (waited + ew). split; [lia|]. split; [exact B2|]. split; [lia|]. right.
      split; [lia|]. split; lia.
  - apply Z.ltb_ge in O. exists wrong', 0, 0, 0. split; [lia|]. split; [lia|]. split; [lia|]. left. lia.
Qed.

Lemma bounded_drop : forall m now delay wrong l l', shorts l' <= shorts l -> area now l' <= area now l ->
  bounded m now delay wrong l -> bounded m now delay wrong l'.
Proof.
  intros m now delay wrong l l' S A (paid & rising & flying & waited & B1 & B2 & B3 & B4).
  exists paid, rising, flying, waited. split; [exact B1|]. split; [exact B2|]. split; [exact B3|].
  destruct B4 as [B4|(B4 & B5 & B6)]; [left; exact B4|right; lia].
Qed.

Lemma tinv_spend : forall c s size, tarpit c = true -> tinv c s -> tinv c (spend c size s).
Proof.
  intros c s size T I. pose proof (ti_count _ _ I) as L. pose proof (ti_paid _ _ I) as P.
  destruct (ti_delay _ _ I) as (k & D & K).
  destruct (update_delay c (tp_now s) (tp_level s - Z.of_N size <? 0)%Z (tp_client s) k T D K) as (UC & U & _). cbv zeta in *.
  constructor.
  - cbn [spend mk_tp tp_client]. rewrite UC. exact (ti_conns _ _ I).
  - exact (ti_nodup _ _ I).
  - cbn [spend mk_tp tp_client tp_requests]. rewrite UC. exact (ti_incl _ _ I).
  - exact (ti_started _ _ I).
  - exact U.
  - cbn [spend mk_tp tp_level tp_wrong tp_requests tp_now]. lia.
  - apply (spend_bounded c s size (tp_wrong s) (tp_requests s) T I).
    + cbn [spend mk_tp tp_level]. lia.
    + exact L.
    + exists 0, 0. lia.
Qed.

Lemma tinv_drop : forall c s id, tinv c s -> tinv c (with_requests (drop_request id (tp_requests s)) s).
Proof.
  intros c s id I. destruct I as [C ND IN ST DE PA BO]. constructor; cbn [with_requests mk_tp tp_client tp_requests tp_now tp_level tp_wrong]; auto.
  - now apply drop_nodup.
  - intros x X. apply IN. apply in_map_iff in X as (r & <- & X). apply drop_in in X as [X _]. now apply in_map.
  - apply Forall_forall. intros r X. apply drop_in in X as [X _]. rewrite Forall_forall in ST. now apply ST.
  - pose proof (drop_askeds id (tp_requests s)). lia.
  - apply (bounded_drop _ _ _ _ (tp_requests s)); [apply drop_shorts|apply drop_area|exact BO].
Qed.

Lemma filter_length_le' : forall (f : N -> bool) l, (length (filter f l) <= length l)%nat.
Proof. intros f l. induction l as [|x t IH]; [auto|]. cbn. destruct (f x); cbn; lia. Qed.

Lemma tinv_step : forall c s op, tarpit c = true -> 0 < max_connections c -> tinv c s -> tinv c (tstep c s op).
Proof.
  intros c s op T M I. destruct op as [| |id|id|id size|id|id|id]; cbn [tstep].
  - (* tick *)
    pose proof (ti_count _ _ I) as L. destruct I as [C ND IN ST DE PA BO].
    constructor; cbn [mk_tp tp_client tp_requests tp_now tp_level tp_wrong]; auto.
    + eapply Forall_impl; [|exact ST]. intros r [A B]. split; [lia|]. intro X. specialize (B X). lia.
    + unfold BURST. lia.
    + destruct BO as (paid & rising & flying & waited & B1 & B2 & B3 & B4).
      exists paid, rising, flying, waited. split; [exact B1|]. split; [lia|]. split; [exact B3|].
      destruct B4 as [B4|(B4 & B5 & B6)]; [left; exact B4|right]. split; [exact B4|]. split; [exact B5|].
      pose proof (area_tick (tp_now s) (tp_requests s) ST). lia.
  - (* accept *)
    pose proof (tinv_spend c s 1000 T I) as J. set (s1 := spend c 1000 s) in *. clearbody s1. clear I s.
    destruct (Check c (tp_client s1)) eqn:CH; [|exact J]. unfold Check in CH.
    assert (Z : max_connections c =? 0 = false) by (apply N.eqb_neq; lia). rewrite Z in CH. cbn [orb] in CH. apply N.ltb_lt in CH.
    destruct J as [C ND IN ST DE PA BO]. constructor; cbn [mk_tp tp_client tp_requests tp_now tp_level tp_wrong AddConnection mk_pc pc_connections pc_delay]; auto.
    + rewrite app_length. cbn [length]. unfold count. lia.
    + intros x X. apply in_or_app. left. now apply IN.
  - (* close *)
    pose proof (tinv_drop c s id I) as J. destruct J as [C ND IN ST DE PA BO].
    cbn [with_requests mk_tp tp_client tp_requests tp_now tp_level tp_wrong] in *.
    constructor; cbn [mk_tp tp_client tp_requests tp_now tp_level tp_wrong RemoveConnection mk_pc pc_connections pc_delay]; auto.
    + pose proof (filter_length_le' (fun i => negb (i =? id)) (pc_connections (tp_client s))). unfold count in *. lia.
    + intros x X. apply filter_In. split; [now apply IN|]. apply in_map_iff in X as (r & <- & X). apply drop_in in X as [_ X].
      apply negb_true_iff. now apply N.eqb_neq.
  - (* a request *)
    destruct (existsb (N.eqb id) (pc_connections (tp_client s)) && (tp_ready s id <=? tp_now s) &&
      match find_request id s with None => true | Some _ => false end) eqn:E; [|exact I].
    apply andb_true_iff in E as [E F]. apply andb_true_iff in E as [E _]. apply existsb_exists in E as (x & E & X). apply N.eqb_eq in X. subst x.
    unfold find_request in F. destruct (find (fun r => rq_conn r =? id) (tp_requests s)) eqn:FD; [discriminate|]. apply not_found in FD.
    destruct I as [C ND IN ST DE PA BO]. constructor; cbn [with_requests mk_tp tp_client tp_requests tp_now tp_level tp_wrong map rq_conn askeds rq_asked]; auto.
    + constructor; auto.
    + intros x [<-|X]; [exact E|now apply IN].
    + constructor; [|exact ST]. split; cbn; [lia|discriminate].
    + destruct BO as (paid & rising & flying & waited & B1 & B2 & B3 & B4).
      exists paid, rising, flying, waited. split; [exact B1|]. split; [exact B2|]. split; [exact B3|].
      destruct B4 as [B4|(B4 & B5 & B6)]; [left; exact B4|right]. split; [exact B4|].
      assert (Q : is_short {| rq_conn := id; rq_start := tp_now s; rq_wait := pc_delay (tp_client s); rq_asked := false |} = false)
        by (apply N.ltb_ge; exact B4).
      cbn [shorts area]. rewrite Q. cbn [rq_start]. lia.
  - (* spend *)
    destruct (find_request id s) as [r|]; [|exact I]. destruct (slept r s); [|exact I]. now apply tinv_spend.
  - (* a password *)
    destruct (find_request id s) as [r|] eqn:F; [|exact I]. destruct (slept r s && negb (rq_asked r)) eqn:E; [|exact I].
    apply andb_true_iff in E as [SL NA]. apply negb_true_iff in NA. unfold slept in SL. apply N.leb_le in SL.
    unfold find_request in F. destruct (found_in _ _ _ F) as [RI RC].
    pose proof (drop_found id (tp_requests s) r (tp_now s) F) as (D1 & D2 & D3). rewrite NA in D3.
    pose proof (ti_count _ _ I) as L. pose proof (ti_paid _ _ I) as P. pose proof (tinv_spend c s 1000 T I) as [C ND IN ST DE PA BO].
    set (r' := {| rq_conn := id; rq_start := rq_start r; rq_wait := rq_wait r; rq_asked := true |}).
    assert (LEN : count (length (r' :: drop_request id (tp_requests s))) <= max_connections c).
    { (* the request is replaced *)
      assert (X : (length (drop_request id (tp_requests s)) < length (tp_requests s))%nat).
      { clear -F. revert F. induction (tp_requests s) as [|x t IH]; [discriminate|]. cbn [find]. unfold drop_request in *. cbn [filter].
        assert (Y : (length (filter (fun r0 => negb (rq_conn r0 =? id)%N) t) <= length t)%nat).
        { clear. induction t as [|y t IH]; [auto|]. cbn. destruct (negb (rq_conn y =? id)); cbn; lia. }
        destruct (rq_conn x =? id); cbn [negb length]; [lia|]. intro F. specialize (IH F). lia. }
      cbn [length]. unfold count in *. lia. }
    constructor; cbn [with_requests mk_tp tp_client tp_requests tp_now tp_level tp_wrong map rq_conn askeds rq_asked r'] in *; auto.
    + constructor; [|apply drop_nodup; exact (ti_nodup _ _ I)]. intro X. apply in_map_iff in X as (q & EQ & X). apply drop_in in X as [_ X]. congruence.
    + intros x [<-|X]; [apply IN; cbn [spend mk_tp tp_requests]; rewrite <- RC; now apply in_map|]. apply IN. cbn [spend mk_tp tp_requests].
      apply in_map_iff in X as (q & <- & X). apply drop_in in X as [X _]. now apply in_map.
    + constructor; [split; cbn; [lia|auto]|]. apply Forall_forall. intros q X. apply drop_in in X as [X _].
      pose proof (ti_started _ _ I) as ST'. rewrite Forall_forall in ST'. now apply ST'.
    + cbn [spend mk_tp tp_level tp_wrong tp_now]. lia.
    + apply (bounded_drop _ _ _ _ (tp_requests s)).
      * cbn [shorts]. fold (is_short r'). change (is_short r') with (is_short r). lia.
      * cbn [area]. change (is_short r') with (is_short r). cbn [rq_start r']. destruct (is_short r); cbn [spend mk_tp tp_now]; lia.
      * exact BO.
  - (* a wrong password *)
    destruct (find_request id s) as [r|] eqn:F; [|exact I]. destruct (rq_asked r) eqn:AS; [|exact I].
    unfold find_request in F. destruct (found_in _ _ _ F) as [RI RC].
    pose proof (drop_found id (tp_requests s) r (tp_now s) F) as (D1 & D2 & D3). rewrite AS in D3.
    pose proof (ti_count _ _ I) as L. pose proof (ti_paid _ _ I) as P.
    pose proof (ti_started _ _ I) as STI. rewrite Forall_forall in STI. destruct (STI r RI) as [S1 S2]. specialize (S2 AS).
    pose proof (tinv_drop c _ id (tinv_spend c s 8000 T I)) as J.
    assert (BD : bounded (max_connections c) (tp_now s) (pc_delay (tp_client (spend c 8000 s))) (tp_wrong s + 1) (drop_request id (tp_requests s))).
    { apply (spend_bounded c s 8000 _ _ T I).
      - cbn [spend mk_tp tp_level]. lia.
      - pose proof (ti_count _ _ J) as X. exact X.
      - destruct (is_short r) eqn:SH.
        + exists 1, 0. lia.
        + exists 0, 1. unfold is_short in SH. apply N.ltb_ge in SH. lia. }
    destruct J as [C ND IN ST DE PA BO].
    constructor; cbn [with_requests spend mk_tp tp_client tp_requests tp_now tp_level tp_wrong] in *; auto.
    lia.
  - now apply tinv_drop.
Qed.

Lemma tinv_run : forall c a ops, tarpit c = true -> 0 < max_connections c -> tinv c (trun c a ops).
Proof.
  intros c a ops T M. induction ops as [|op t IH] using rev_ind.
  - constructor; cbn.
    + lia.
    + constructor.
    + intros x [].
    + constructor.
    + exists 0. lia.
    + unfold BURST; lia.
    + exists 0, 0, 0, 0. lia.
  - unfold trun. rewrite fold_left_app. cbn [fold_left]. now apply tinv_step.
Qed.

(** ** Patient clients *)

Lemma costs_app : forall a b, costs (a ++ b) = costs a + costs b.
Proof. intros a b. unfold costs. induction a as [|x t IH]; [reflexivity|]. cbn [app fold_right]. rewrite IH. lia. Qed.
Lemma ticks_app : forall a b, ticks (a ++ b) = ticks a + ticks b.
Proof. intros a b. unfold ticks. induction a as [|x t IH]; [reflexivity|]. cbn [app fold_right]. rewrite IH. lia. Qed.

(** A step is an update of the token bucket, or no update. *)
Lemma step_level : forall c s op, op <> TTick ->
  (tp_level (tstep c s op) = tp_level s /\ pc_delay (tp_client (tstep c s op)) = pc_delay (tp_client s)) \/
  (tp_level (tstep c s op) = (tp_level s - Z.of_N (cost op))%Z /\
   pc_delay (tp_client (tstep c s op)) = pc_delay (UpdateTokenBucket c (tp_now s) (tp_level (tstep c s op) <? 0)%Z (tp_client s))).
Proof.
  intros c s op N. destruct op as [| |id|id|id size|id|id|id]; cbn [tstep cost].
  - now elim N.
  - right. destruct (Check c (tp_client (spend c 1000 s))); cbn; auto.
  - left. cbn. auto.
  - left. destruct (_ && _); cbn; auto.
  - destruct (find_request id s) as [r|]; [|left; auto]. destruct (slept r s); [|left; auto]. right. cbn. auto.
  - destruct (find_request id s) as [r|]; [|left; auto]. destruct (slept r s && negb (rq_asked r)); [|left; auto]. right. cbn. auto.
  - destruct (find_request id s) as [r|]; [|left; auto]. destruct (rq_asked r); [|left; auto]. right. cbn. auto.
  - left. cbn. auto.
Qed.

Lemma level_window : forall c a ops, exists p w, ops = p ++ w /\
  (Z.of_N (10000 + ticks w) - Z.of_N (costs w) <= tp_level (trun c a ops))%Z.
Proof.
  intros c a ops. induction ops as [|op t (p & w & E & H)] using rev_ind.
  - exists [], []. split; [reflexivity|]. cbn. unfold BURST. lia.
  - unfold trun in *. rewrite fold_left_app. cbn [fold_left]. set (s := fold_left (tstep c) t (new_tarpit a)) in *.
    assert (K : op <> TTick -> exists p w0, t ++ [op] = p ++ w0 /\ (Z.of_N (10000 + ticks w0) - Z.of_N (costs w0) <= tp_level (tstep c s op))%Z).
    { intro N. exists p, (w ++ [op]). split; [now rewrite E, app_assoc|]. rewrite ticks_app, costs_app.
      assert (T : ticks [op] = 0) by (destruct op; try reflexivity; now elim N). rewrite T.
      assert (C : costs [op] = cost op) by (cbn [costs fold_right]; lia). rewrite C.
      destruct (step_level c s op N) as [[L _]|[L _]]; rewrite L; lia. }
    destruct op; try (apply K; discriminate). cbn [tstep mk_tp tp_level].
    destruct (Z.le_gt_cases BURST (tp_level s + 1)) as [L|L].
    + exists (t ++ [TTick]), []. split; [now rewrite app_nil_r|]. cbn [ticks costs fold_right]. unfold BURST in *. lia.
    + exists p, (w ++ [TTick]). split; [now rewrite E, app_assoc|]. rewrite ticks_app, costs_app.
      change (ticks [TTick]) with 1. change (costs [TTick]) with 0. unfold BURST in *. lia.
Qed.

Lemma modest_level : forall c a ops, modest ops -> (0 <= tp_level (trun c a ops))%Z.
Proof.
  intros c a ops M. destruct (level_window c a ops) as (p & w & E & H). specialize (M p w []). rewrite app_nil_r in M. specialize (M E). lia.
Qed.

Lemma modest_prefix : forall a b, modest (a ++ b) -> modest a.
Proof. intros a b M p w q E. apply (M p w (q ++ b)). now rewrite E, !app_assoc. Qed.

Lemma modest_run : forall c a ops, modest ops ->
  pc_delay (tp_client (trun c a ops)) = 0 /\ Forall (fun r => rq_wait r = 0) (tp_requests (trun c a ops)).
Proof.
  intros c a ops. induction ops as [|op t IH] using rev_ind; intro M; [split; [reflexivity|constructor]|].
  pose proof (modest_level c a _ M) as LV. destruct (IH (modest_prefix _ _ M)) as [D R]. clear IH.
  unfold trun in *. rewrite fold_left_app in *. cbn [fold_left] in *. set (s := fold_left (tstep c) t (new_tarpit a)) in *. clearbody s.
  assert (D' : pc_delay (tp_client (tstep c s op)) = 0).
  { assert (TT : op = TTick \/ op <> TTick) by (destruct op; auto; right; discriminate). destruct TT as [->|N]; [exact D|].
    destruct (step_level c s op N) as [[_ E]|[_ E]]; rewrite E; [exact D|].
    assert (O : (tp_level (tstep c s op) <? 0)%Z = false) by (apply Z.ltb_ge; exact LV). rewrite O. unfold UpdateTokenBucket.
    destruct (negb (tarpit c)); [exact D|]. destruct (tp_now s <? pc_tarpit_until (tp_client s)); [|reflexivity].
    cbn [mk_pc pc_delay]. rewrite D. reflexivity. }
  split; [exact D'|]. clear D' LV M.
  assert (DR : forall id l, Forall (fun r => rq_wait r = 0) l -> Forall (fun r => rq_wait r = 0) (drop_request id l)).
  { intros id l F. apply Forall_forall. intros r X. apply drop_in in X as [X _]. rewrite Forall_forall in F. now apply F. }
  destruct op as [| |id|id|id size|id|id|id]; cbn [tstep].
  - exact R.
  - destruct (Check c (tp_client (spend c 1000 s))); exact R.
  - cbn. now apply DR.
  - destruct (_ && _); [|exact R]. cbn. constructor; [exact D|exact R].
  - destruct (find_request id s) as [r|]; [|exact R]. destruct (slept r s); exact R.
  - destruct (find_request id s) as [r|] eqn:F; [|exact R]. destruct (slept r s && negb (rq_asked r)); [|exact R]. cbn. constructor; [|now apply DR].
    apply found_in in F as [F _]. rewrite Forall_forall in R. cbn. now apply R.
  - destruct (find_request id s) as [r|]; [|exact R]. destruct (rq_asked r); [|exact R]. cbn. now apply DR.
  - cbn. now apply DR.
Qed.

(** ** No limit on connections *)

Definition run (c : acfg) (ops : list top) (s : tpit) : tpit := fold_left (tstep c) ops s.
Lemma run_app : forall c a b s, run c (a ++ b) s = run c b (run c a s).
Proof. intros. unfold run. apply fold_left_app. Qed.

Definition same (s s' : tpit) : Prop :=
  tp_client s' = tp_client s /\ tp_requests s' = tp_requests s /\ tp_ready s' = tp_ready s /\ tp_wrong s' = tp_wrong s.

Lemma run_ticks : forall c n s, same s (run c (repeat TTick n) s) /\ tp_now (run c (repeat TTick n) s) = tp_now s + count n.
Proof.
  intros c n. unfold count, same. induction n as [|n IH]; intro s; [cbn; repeat split; auto; lia|].
  cbn [repeat]. change (run c (TTick :: repeat TTick n) s) with (run c (repeat TTick n) (tstep c s TTick)).
  destruct (IH (tstep c s TTick)) as [(A & B & C & D) E]. rewrite A, B, C, D, E. cbn [tstep mk_tp tp_now tp_client tp_requests tp_ready tp_wrong]. repeat split. lia.
Qed.

Definition delay_ok (p : per_client) : Prop := exists k, pc_delay p = 100 * k /\ k <= 600.
Lemma delay_ok_le : forall p, delay_ok p -> pc_delay p <= 60000.
Proof. intros p (k & E & K). lia. Qed.

(** ids 0 ... n-1 *)
Definition ids (n : nat) : list N := map N.of_nat (seq 0 n).
Lemma ids_in : forall n i, In i (ids n) <-> i < count n.
Proof.
  intros n i. unfold ids, count. rewrite in_map_iff. split.
  - intros (k & <- & K). apply in_seq in K. lia.
  - intro H. exists (N.to_nat i). split; [apply N2Nat.id|]. apply in_seq. lia.
Qed.
Lemma ids_nodup : forall n, NoDup (ids n).
Proof. intro n. unfold ids. apply Injective_map_NoDup; [intros x y H; lia|apply seq_NoDup]. Qed.

Lemma run_accepts : forall c a n, max_connections c = 0 -> tarpit c = true ->
  let s := run c (repeat TAccept n) (new_tarpit a) in
  tp_now s = 0 /\ tp_wrong s = 0 /\ tp_requests s = [] /\ tp_next s = count n /\ delay_ok (tp_client s) /\
  (forall i, i < count n -> In i (pc_connections (tp_client s)) /\ tp_ready s i <= 60000).
Proof.
  intros c a n M T. unfold count. induction n as [|n IH].
  - do 4 (split; [reflexivity|]). split; [exists 0; cbn; lia|]. intros i L. cbn in L. lia.
  - cbv zeta in *. replace (repeat TAccept (S n)) with (repeat TAccept n ++ [TAccept]) by (cbn [repeat]; now rewrite repeat_cons).
    rewrite run_app. set (s := run c (repeat TAccept n) (new_tarpit a)) in *. clearbody s.
    destruct IH as (NOW & W & R & NX & (k & D & K) & ALL).
    change (run c [TAccept] s) with (tstep c s TAccept). cbn [tstep].
    destruct (update_delay c (tp_now s) (tp_level s - Z.of_N 1000 <? 0)%Z (tp_client s) k T D K) as (UC & DO & _). cbv zeta in *.
    assert (CH : Check c (tp_client (spend c 1000 s)) = true) by (unfold Check; now rewrite M). rewrite CH.
    assert (Q : pc_delay (tp_client (spend c 1000 s)) <= 60000) by (apply delay_ok_le; exact DO).
    cbn [mk_tp tp_now tp_wrong tp_requests tp_next tp_client tp_ready].
    split; [exact NOW|]. split; [exact W|]. split; [exact R|]. split; [cbn [spend mk_tp tp_next]; rewrite NX; lia|]. split; [exact DO|].
    intros i LT. change (tp_next (spend c 1000 s)) with (tp_next s). change (tp_now (spend c 1000 s)) with (tp_now s). rewrite NX, NOW.
    cbn [AddConnection mk_pc pc_connections]. change (tp_client (spend c 1000 s)) with (UpdateTokenBucket c (tp_now s) (tp_level s - Z.of_N 1000 <? 0)%Z (tp_client s)) in *.
    rewrite UC. destruct (i =? N.of_nat n) eqn:E.
    + apply N.eqb_eq in E. subst i. split; [apply in_or_app; right; now left|lia].
    + apply N.eqb_neq in E. destruct (ALL i) as [A1 A2]; [lia|]. split; [apply in_or_app; now left|]. exact A2.
Qed.

(** Requests on all connections *)
Definition ready (s : tpit) (i : N) : Prop :=
  exists r, find_request i s = Some r /\ rq_asked r = false /\ rq_start r + rq_wait r <= tp_now s.

Lemma run_requests : forall c l s, NoDup l ->
  (forall i, In i l -> In i (pc_connections (tp_client s)) /\ tp_ready s i <= tp_now s /\ find_request i s = None) ->
  let s' := run c (map TRequest l) s in
  tp_now s' = tp_now s /\ tp_wrong s' = tp_wrong s /\ tp_client s' = tp_client s /\
  (forall j, ~ In j l -> find_request j s' = find_request j s) /\
  (forall i, In i l -> exists r, find_request i s' = Some r /\ rq_asked r = false /\ rq_start r = tp_now s /\ rq_wait r = pc_delay (tp_client s)).
Proof.
  intros c l. induction l as [|i t IH]; intros s ND H; [cbn; repeat split; auto; intros ? []|].
  inversion ND as [|x y NI ND']. subst. cbn [map]. cbv zeta.
  change (run c (TRequest i :: map TRequest t) s) with (run c (map TRequest t) (tstep c s (TRequest i))).
  destruct (H i (or_introl eq_refl)) as (H1 & H2 & H3).
  assert (E : tstep c s (TRequest i) = with_requests ({| rq_conn := i; rq_start := tp_now s; rq_wait := pc_delay (tp_client s); rq_asked := false |} :: tp_requests s) s).
  { cbn [tstep]. rewrite H3. replace (existsb (N.eqb i) (pc_connections (tp_client s))) with true; [|symmetry; apply existsb_exists; exists i; split; [exact H1|apply N.eqb_refl]].
    apply N.leb_le in H2. rewrite H2. reflexivity. }
  rewrite E. set (s1 := with_requests _ s).
  assert (O : forall j, j <> i -> find_request j s1 = find_request j s).
  { intros j N. unfold find_request, s1. cbn [with_requests mk_tp tp_requests find rq_conn]. destruct (i =? j) eqn:Q; [apply N.eqb_eq in Q; congruence|reflexivity]. }
  destruct (IH s1 ND') as (A1 & A2 & A3 & A4 & A5).
  { intros j J. destruct (H j (or_intror J)) as (J1 & J2 & J3). split; [exact J1|]. split; [exact J2|]. rewrite O; [exact J3|]. intro. subst j. now apply NI. }
  split; [exact A1|]. split; [exact A2|]. split; [exact A3|]. split.
  - intros j NJ. rewrite A4 by (intro; apply NJ; now right). apply O. intro. subst j. apply NJ. now left.
  - intros j [<-|J]; [|exact (A5 j J)]. rewrite A4 by exact NI. eexists. unfold find_request, s1. cbn [with_requests mk_tp tp_requests find rq_conn].
    rewrite N.eqb_refl. split; [reflexivity|]. auto.
Qed.

Lemma find_drop : forall i j l, j <> i -> find (fun r => rq_conn r =? j) (drop_request i l) = find (fun r => rq_conn r =? j) l.
Proof.
  intros i j l N. induction l as [|r t IH]; [reflexivity|]. unfold drop_request in *. cbn [filter find].
  destruct (rq_conn r =? i) eqn:E; cbn [negb].
  - apply N.eqb_eq in E. destruct (rq_conn r =? j) eqn:Q; [apply N.eqb_eq in Q; congruence|exact IH].
  - cbn [find]. destruct (rq_conn r =? j); [reflexivity|exact IH].
Qed.

Lemma run_guesses : forall c l s, NoDup l -> (forall i, In i l -> ready s i) ->
  let s' := run c (flat_map (fun i => [TPassword i; TWrong i]) l) s in
  tp_now s' = tp_now s /\ tp_wrong s' = tp_wrong s + count (length l).
Proof.
  intros c l. unfold count. induction l as [|i t IH]; intros s ND H; [cbn; split; [reflexivity|lia]|].
  inversion ND as [|x y NI ND']. subst. cbn [flat_map app length]. cbv zeta.
  destruct (H i (or_introl eq_refl)) as (r & F & A & SL).
  set (r' := {| rq_conn := i; rq_start := rq_start r; rq_wait := rq_wait r; rq_asked := true |}).
  set (s1 := with_requests (r' :: drop_request i (tp_requests s)) (spend c 1000 s)).
  assert (E1 : tstep c s (TPassword i) = s1).
  { cbn [tstep]. rewrite F. unfold slept. apply N.leb_le in SL. rewrite SL, A. reflexivity. }
  set (s2 := tstep c s1 (TWrong i)).
  assert (F1 : find_request i s1 = Some r') by (unfold find_request, s1; cbn [with_requests mk_tp tp_requests find rq_conn r']; rewrite N.eqb_refl; reflexivity).
  assert (E2 : tp_now s2 = tp_now s /\ tp_wrong s2 = tp_wrong s + 1 /\ tp_requests s2 = drop_request i (tp_requests s1)).
  { unfold s2. cbn [tstep]. rewrite F1. cbn [r' rq_asked]. cbn. auto. }
  destruct E2 as (N2 & W2 & R2).
  change (run c (TPassword i :: TWrong i :: flat_map (fun j => [TPassword j; TWrong j]) t) s)
    with (run c (flat_map (fun j => [TPassword j; TWrong j]) t) (tstep c (tstep c s (TPassword i)) (TWrong i))).
  rewrite E1. fold s2. destruct (IH s2 ND') as [B1 B2].
  { intros j J. destruct (H j (or_intror J)) as (q & Q1 & Q2 & Q3). assert (NE : j <> i) by (intro; subst j; now apply NI).
    exists q. rewrite N2. split; [|auto]. unfold find_request. rewrite R2, find_drop by exact NE. unfold s1. cbn [with_requests mk_tp tp_requests find rq_conn r'].
    destruct (i =? j) eqn:Q; [apply N.eqb_eq in Q; congruence|]. rewrite find_drop by exact NE. exact Q1. }
  rewrite B1, B2, N2, W2. split; [reflexivity|]. rewrite Nat2N.inj_succ. lia.
Qed.

Definition many (n : nat) : list top :=
  repeat TAccept n ++ repeat TTick (N.to_nat 60000) ++ map TRequest (ids n) ++ repeat TTick (N.to_nat 60000) ++
  flat_map (fun i => [TPassword i; TWrong i]) (ids n).

Lemma run_many : forall c a n, max_connections c = 0 -> tarpit c = true ->
  tp_now (trun c a (many n)) = 120000 /\ tp_wrong (trun c a (many n)) = count n.
Proof.
  intros c a n M T. change (trun c a (many n)) with (run c (many n) (new_tarpit a)). unfold many. rewrite !run_app.
  pose proof (run_accepts c a n M T) as H. cbv zeta in H. set (s1 := run c (repeat TAccept n) (new_tarpit a)) in *. clearbody s1.
  destruct H as (N1 & W1 & R1 & X1 & D1 & A1).
  destruct (run_ticks c (N.to_nat 60000) s1) as [(C2 & R2 & Y2 & W2) N2]. set (s2 := run c (repeat TTick (N.to_nat 60000)) s1) in *. clearbody s2.
  unfold count in N2. rewrite N2Nat.id in N2.
  destruct (run_requests c (ids n) s2 (ids_nodup n)) as (N3 & W3 & C3 & _ & A3).
  { intros i I. apply ids_in in I. destruct (A1 i I) as [Q1 Q2]. rewrite C2, Y2, N2, N1. split; [exact Q1|]. split; [lia|]. unfold find_request. rewrite R2, R1. reflexivity. }
  cbv zeta in *. set (s3 := run c (map TRequest (ids n)) s2) in *. clearbody s3.
  destruct (run_ticks c (N.to_nat 60000) s3) as [(C4 & R4 & Y4 & W4) N4]. set (s4 := run c (repeat TTick (N.to_nat 60000)) s3) in *. clearbody s4.
  unfold count in N4. rewrite N2Nat.id in N4.
  destruct (run_guesses c (ids n) s4 (ids_nodup n)) as [N5 W5].
  { intros i I. destruct (A3 i I) as (r & F & AS & ST & WT). exists r. unfold find_request in *. rewrite R4. split; [exact F|]. split; [exact AS|].
    rewrite ST, WT, N4, N3, C2. pose proof (delay_ok_le _ D1). lia. }
  cbv zeta in *. rewrite N5, W5, N4, W4, N3, W3, N2, W2, N1, W1. split; [reflexivity|]. unfold ids. rewrite map_length, seq_length. reflexivity.
Qed.

(** ** The other direction: greedy clients *)

Lemma level_burst : forall c a ops, (tp_level (trun c a ops) <= BURST)%Z.
Proof.
  intros c a ops. induction ops as [|op t IH] using rev_ind; [cbn; unfold BURST; lia|].
  unfold trun in *. rewrite fold_left_app. cbn [fold_left]. set (s := fold_left (tstep c) t (new_tarpit a)) in *. clearbody s.
  destruct op; cbn [tstep]; cbv zeta; unfold with_requests.
  - cbn [tp_level mk_tp]. lia.
  - destruct (Check c _); cbn [tp_level mk_tp spend]; unfold mk_tp, tp_level in *; lia.
  - exact IH.
  - destruct (_ && _ && _); exact IH.
  - destruct (find_request id s); [|exact IH]. destruct (slept _ _); [|exact IH]. unfold spend, mk_tp, tp_level in *. lia.
  - destruct (find_request id s); [|exact IH]. destruct (_ && _); [|exact IH]. unfold spend, mk_tp, tp_level in *. lia.
  - destruct (find_request id s); [|exact IH]. destruct (rq_asked _); [|exact IH]. unfold spend, mk_tp, tp_level in *. lia.
  - exact IH.
Qed.

Lemma knocking_level : forall c w s, knocking w -> (tp_level s <= BURST)%Z ->
  (tp_level (fold_left (tstep c) w s) <= BURST + Z.of_N (ticks w) - Z.of_N (costs w))%Z.
Proof.
  intros c w. induction w as [|op t IH] using rev_ind; intros s K L; [cbn; lia|].
  apply Forall_app in K as [K1 K2]. specialize (IH s K1 L). inversion K2 as [|? ? E _ ]; subst.
  rewrite fold_left_app, ticks_app, costs_app. cbn [fold_left]. set (x := fold_left (tstep c) t s) in *. clearbody x.
  destruct E as [-> | ->]; cbn [tstep ticks costs fold_right cost].
  - unfold mk_tp, tp_level at 1. lia.
  - cbv zeta. destruct (Check c _); unfold spend, mk_tp, tp_level in *; lia.
Qed.

(** ** Connections which are held back *)

Definition held (id t : N) (s : tpit) : Prop :=
  id < tp_next s /\ tp_ready s id = t /\ Forall (fun r => rq_conn r = id -> t <= rq_start r) (tp_requests s) /\
  Forall (fun r => rq_start r <= tp_now s) (tp_requests s).

Lemma held_drop : forall id t s i, held id t s -> held id t (with_requests (drop_request i (tp_requests s)) s).
Proof.
  intros id t s i (A & B & C & D). repeat split; auto; cbn [with_requests mk_tp tp_requests];
    apply Forall_forall; intros r R; apply filter_In in R as [R _].
  - exact (proj1 (Forall_forall _ _) C r R).
  - exact (proj1 (Forall_forall _ _) D r R).
Qed.

Lemma held_step : forall c id t s op, held id t s -> held id t (tstep c s op).
Proof.
  intros c id t s op H. assert (HD := fun i => held_drop id t s i H). destruct H as (A & B & C & D).
  assert (H : held id t s) by (repeat split; assumption).
  destruct op as [| |i|i|i size|i|i|i]; cbn [tstep]; cbv zeta.
  - repeat split; auto. cbn. eapply Forall_impl; [|exact D]. cbn. lia.
  - destruct (Check c _); [|exact H]. repeat split; auto; cbn.
    + lia.
    + destruct (N.eqb_spec id (tp_next s)); [lia|exact B].
  - exact (HD i).
  - destruct (_ && _ && _) eqn:E; [|exact H]. apply andb_prop in E as [E _]. apply andb_prop in E as [_ E]. apply N.leb_le in E.
    repeat split; auto; cbn; constructor; auto; cbn; [intros ->; lia|lia].
  - destruct (find_request i s); [|exact H]. destruct (slept _ _); exact H.
  - destruct (find_request i s) as [r|] eqn:F; [|exact H]. destruct (_ && _); [|exact H].
    apply found_in in F as [F <-]. destruct (HD (rq_conn r)) as (_ & _ & C' & D'). repeat split; auto; cbn; constructor; auto; cbn.
    + exact (proj1 (Forall_forall _ _) C r F).
    + exact (proj1 (Forall_forall _ _) D r F).
  - destruct (find_request i s); [|exact H]. destruct (rq_asked _); [|exact H]. exact (HD i).
  - exact (HD i).
Qed.

Lemma known_step : forall c s op,
  Forall (fun r => rq_conn r < tp_next s /\ rq_start r <= tp_now s) (tp_requests s) ->
  Forall (fun i => i < tp_next s) (pc_connections (tp_client s)) ->
  let s' := tstep c s op in
  Forall (fun r => rq_conn r < tp_next s' /\ rq_start r <= tp_now s') (tp_requests s') /\
  Forall (fun i => i < tp_next s') (pc_connections (tp_client s')).
Proof.
  intros c s op R P.
  assert (U : forall now over, pc_connections (UpdateTokenBucket c now over (tp_client s)) = pc_connections (tp_client s)).
  { intros now over. unfold UpdateTokenBucket. destruct (negb _); [reflexivity|]. destruct over; [reflexivity|]. destruct (_ <? _); reflexivity. }
  assert (DR : forall i, Forall (fun r => rq_conn r < tp_next s /\ rq_start r <= tp_now s) (drop_request i (tp_requests s))).
  { intros i. apply Forall_forall. intros r X. apply filter_In in X as [X _]. exact (proj1 (Forall_forall _ _) R r X). }
  destruct op as [| |i|i|i size|i|i|i]; cbn [tstep]; cbv zeta.
  - cbn. split; [|exact P]. eapply Forall_impl; [|exact R]. cbn. lia.
  - destruct (Check c _); cbn; rewrite U.
    + split; [eapply Forall_impl; [|exact R]; cbn; lia|].
      assert (P' : Forall (fun i => i < tp_next s + 1) (pc_connections (tp_client s))) by (eapply Forall_impl; [|exact P]; cbn; lia).
      apply Forall_forall. intros i X. apply in_app_or in X as [X|X]; [exact (proj1 (Forall_forall _ _) P' i X)|].
      destruct X as [<-|[]]. lia.
    + split; assumption.
  - cbn. split; [apply DR|]. apply Forall_forall. intros j X. apply filter_In in X as [X _].
    exact (proj1 (Forall_forall _ _) P j X).
  - destruct (_ && _ && _) eqn:E; [|split; assumption]. apply andb_prop in E as [E _]. apply andb_prop in E as [E _].
    apply existsb_exists in E as (x & X & Y). apply N.eqb_eq in Y. subst x. cbn. split; [|exact P].
    constructor; [|exact R]. cbn. split; [exact (proj1 (Forall_forall _ _) P i X)|lia].
  - destruct (find_request i s); [|split; assumption]. destruct (slept _ _); cbn; [rewrite U|]; split; assumption.
  - destruct (find_request i s) as [r|] eqn:F; [|split; assumption]. destruct (_ && _); [|split; assumption].
    apply found_in in F as [F <-]. cbn. rewrite U. split; [|assumption].
    constructor; [|apply DR]. cbn. exact (proj1 (Forall_forall _ _) R r F).
  - destruct (find_request i s); [|split; assumption]. destruct (rq_asked _); [|split; assumption].
    cbn. rewrite U. split; [apply DR|assumption].
  - cbn. split; [apply DR|assumption].
Qed.

Lemma known_run : forall c a ops, let s := trun c a ops in
  Forall (fun r => rq_conn r < tp_next s /\ rq_start r <= tp_now s) (tp_requests s) /\
  Forall (fun i => i < tp_next s) (pc_connections (tp_client s)).
Proof.
  intros c a ops. induction ops as [|op t IH] using rev_ind; [split; constructor|].
  unfold trun in *. rewrite fold_left_app. apply known_step; apply IH.
Qed.
