(** C46: the number of connections per client address and the tarpit delay
    are bounded, well-behaved clients are not delayed, badly behaved ones
    cannot get rid of the delay by reconnecting, and the accounting is neither
    dropped while it is needed nor kept forever. *)

From Coq Require Import NArith List Bool Lia.
From Verif.Model Require Import Accounting.
From Verif.Spec Require Import AccountingSpec.
From Verif.Proofs Require Import AccountingFacts.
Import ListNotations.
Open Scope N_scope.

(** At most the configured number of sockets is open for an address. *)
Theorem C46_limit : forall c ops a,
  max_connections c <> 0 ->
  N.of_nat (List.length (open_from a (arun c ops new_accounting))) <= max_connections c.
Proof.
  intros c ops a Hm.
  assert (Hacc : accounts c = true).
  { unfold accounts; destruct (N.ltb_spec 0 (max_connections c)); [reflexivity|lia]. }
  pose proof (wf_run c ops _ (wf_new c)) as Hwf.
  assert (Hw : within c new_accounting).
  { intros _ b; cbn; lia. }
  pose proof (within_run c ops _ (wf_new c) Hw Hm a) as H.
  rewrite (ids_open_from c _ a Hwf Hacc), map_length in H. exact H.
Qed.

(** A new client is rejected only if the limit is reached. *)
Theorem C46_admits : forall c ops a now over fails,
  let s := arun c ops new_accounting in
  fst (astep c (AAccept now (Some a) over fails) s) = Rejected <->
  (max_connections c <> 0 /\ N.of_nat (List.length (open_from a s)) = max_connections c).
Proof.
  intros c ops a now over fails s.
  pose proof (wf_run c ops _ (wf_new c)) as Hwf; fold s in Hwf.
  unfold astep, OnAccept. destruct (accounts c) eqn:Hacc.
  - pose proof (wf_Get c a s Hwf) as Hg.
    pose proof (wf_update c now over a _ Hg) as Hu; cbn [ac_map ac_cleanup ac_open ac_next mk_ac] in Hu.
    destruct (lookup a (change a (UpdateTokenBucket c now over) (Get a (ac_map s)))) as [p|] eqn:El.
    + pose proof (wf_conns _ _ Hu a p El) as Hc; cbn [ac_open mk_ac] in Hc.
      rewrite (ids_open_from c s a Hwf Hacc) in Hc.
      unfold Check; rewrite Hc, map_length.
      destruct (N.eqb_spec (max_connections c) 0) as [E|E]; cbn [orb negb].
      * split; [|intros [H _]; contradiction].
        destruct (0 <? pc_delay p); cbn [fst]; [discriminate|]. unfold serve; destruct fails; discriminate.
      * pose proof (C46_limit c ops a E) as Hlim; fold s in Hlim.
        destruct (N.ltb_spec (N.of_nat (List.length (open_from a s))) (max_connections c)) as [Hlt|Hge]; cbn [negb].
        -- split; [|intros [_ H]; lia].
           destruct (0 <? pc_delay p); cbn [fst]; [discriminate|]. unfold serve; destruct fails; discriminate.
        -- split; [intros _; split; [exact E|lia]|reflexivity].
    + rewrite lookup_change in El by apply update_address. rewrite N.eqb_refl, lookup_Get, N.eqb_refl in El.
      destruct (lookup a (ac_map s)); discriminate.
  - split.
    + unfold serve; destruct fails; discriminate.
    + intros [H _]; exfalso; unfold accounts in Hacc; apply orb_false_iff in Hacc as [H1 _].
      apply N.ltb_ge in H1; lia.
Qed.

(** The delay is a multiple of 100 ms between 100 ms and a minute, for new
    clients and for authentication requests. *)
Theorem C46_delay : forall c ops,
  let s := arun c ops new_accounting in
  (forall o d, fst (astep c o s) = Held d -> exists k, d = 100 * k /\ 1 <= k <= 600) /\
  (forall x, In x (ac_open s) -> exists k, GetDelay x s = 100 * k /\ k <= 600).
Proof.
  intros c ops s; pose proof (wf_run c ops _ (wf_new c)) as Hwf; fold s in Hwf. split.
  - intros o d; destruct o as [now peer over fails|now id fails|now id|now id over|now]; unfold astep.
    + unfold OnAccept; destruct (if accounts c then peer else None) as [b|].
      * pose proof (wf_Get c b s Hwf) as Hg.
        pose proof (wf_update c now over b _ Hg) as Hu; cbn [ac_map ac_cleanup ac_open ac_next mk_ac] in Hu.
        destruct (lookup b (change b (UpdateTokenBucket c now over) (Get b (ac_map s)))) as [p|] eqn:El;
          [|discriminate].
        destruct (negb (Check c p)); [discriminate|].
        destruct (N.ltb_spec 0 (pc_delay p)); cbn [fst].
        -- intros E; assert (d = pc_delay p) by congruence; subst d.
           destruct (wf_delay _ _ Hu b p El) as [[k Hk] Hm]. exists k; lia.
        -- unfold serve; destruct fails; discriminate.
      * unfold serve; destruct fails; discriminate.
    + destruct (find_client id s) as [x|]; [|discriminate]. destruct (cl_kind x); discriminate.
    + destruct (find_client id s) as [x|]; discriminate.
    + destruct (find_client id s) as [x|]; [|discriminate]. destruct (cl_kind x); [discriminate|].
      destruct (cl_per_client x); discriminate.
    + destruct (ac_cleanup s); discriminate.
  - intros x Hx; unfold GetDelay; destruct (cl_per_client x) as [a|]; [|exists 0; lia].
    destruct (lookup a (ac_map s)) as [p|] eqn:El; [|exists 0; lia].
    destruct (wf_delay _ _ Hwf a p El) as [[k Hk] Hm]. exists k; lia.
Qed.

(** A minute after its token bucket was overdrawn for the last time, a client
    is not delayed any more: neither a new connection, nor (after the next
    update of its bucket) an authentication request. *)
Theorem C46_recovers : forall c ops a now,
  let s := arun c ops new_accounting in
  Forall (fun t => t + 60000 <= now) (overdrafts c a ops new_accounting) ->
  (forall fails d, fst (astep c (AAccept now (Some a) false fails) s) <> Held d) /\
  (forall id x, find_client id s = Some x -> cl_kind x = Served -> cl_peer x = Some a -> tarpit c = true ->
    GetDelay x (snd (astep c (AUpdate now id false) s)) = 0).
Proof.
  intros c ops a now s Ho; pose proof (wf_run c ops _ (wf_new c)) as Hwf; fold s in Hwf.
  assert (Hf0 : free_at a now new_accounting) by (intros p Hp; discriminate).
  pose proof (free_run c a now ops _ (wf_new c) Hf0 Ho) as Hf; fold s in Hf.
  split.
  - intros fails d. unfold astep, OnAccept. destruct (accounts c) eqn:Hacc.
    + assert (Hg : exists q, lookup a (Get a (ac_map s)) = Some q /\ pc_tarpit_until q <= now /\
                             (tarpit c = false -> pc_delay q = 0)).
      { assert (Hnt : tarpit c = false -> forall q, lookup a (ac_map s) = Some q -> pc_delay q = 0).
        { intros Hnt. clear - Hnt.
          assert (Hall : forall s', Forall (fun p => pc_delay p = 0) (ac_map s') ->
                    Forall (fun p => pc_delay p = 0) (ac_map (arun c ops s'))).
          { assert (Hch : forall b f m, (forall p, pc_delay (f p) = pc_delay p) ->
               Forall (fun p => pc_delay p = 0) m -> Forall (fun p => pc_delay p = 0) (change b f m)).
            { intros b f m Hfd H; unfold change; apply Forall_map. eapply Forall_impl; [|exact H].
              cbn; intros p Hp; destruct (pc_address p =? b); [rewrite Hfd|]; exact Hp. }
            assert (Hup : forall now' over p, pc_delay (UpdateTokenBucket c now' over p) = pc_delay p).
            { intros; unfold UpdateTokenBucket; rewrite Hnt; reflexivity. }
            assert (Hop : forall k peer per s', Forall (fun p => pc_delay p = 0) (ac_map s') ->
               Forall (fun p => pc_delay p = 0) (ac_map (open_client k peer per s'))).
            { intros k peer per s' H; unfold open_client; cbn [ac_map mk_ac].
              destruct per; [apply Hch; auto|exact H]. }
            assert (Hde : forall now' x s', Forall (fun p => pc_delay p = 0) (ac_map s') ->
               Forall (fun p => pc_delay p = 0) (ac_map (destroy_client now' x s'))).
            { intros now' x s' H; unfold destroy_client; destruct (cl_per_client x); cbn [ac_map mk_ac];
                [apply Hch; auto|exact H]. }
            induction ops as [|o ops' IH]; intros s' H; [exact H|]. cbn [arun]; apply IH.
            destruct o as [n peer over fl|n id fl|n id|n id over|n]; unfold astep.
            - unfold OnAccept; destruct (if accounts c then peer else None) as [b|].
              + assert (Hu : Forall (fun p => pc_delay p = 0)
                     (change b (UpdateTokenBucket c n over) (Get b (ac_map s')))).
                { apply Hch; [apply Hup|]. unfold Get; destruct (lookup b (ac_map s')); [exact H|].
                  constructor; [reflexivity|exact H]. }
                destruct (lookup b (change b (UpdateTokenBucket c n over) (Get b (ac_map s')))); [|exact Hu].
                destruct (negb (Check c p)); [exact Hu|]. destruct (0 <? pc_delay p); [apply Hop; exact Hu|].
                unfold serve; destruct fl; [exact Hu|apply Hop; exact Hu].
              + unfold serve; destruct fl; [exact H|apply Hop; exact H].
            - destruct (find_client id s') as [x|]; [|exact H]. destruct (cl_kind x); [|exact H].
              cbn [snd]; unfold OnTimer; apply Hde; unfold serve; destruct fl; [exact H|apply Hop; exact H].
            - destruct (find_client id s') as [x|]; [|exact H]. apply Hde; exact H.
            - destruct (find_client id s') as [x|]; [|exact H]. destruct (cl_kind x); [exact H|].
              destruct (cl_per_client x); [|exact H]. cbn [snd ac_map mk_ac]. apply Hch; [apply Hup|exact H].
            - destruct (ac_cleanup s'); [|exact H]. cbn [snd]; unfold OnCleanupTimer; cbn [ac_map mk_ac].
              apply Forall_filter'; exact H. }
          intros q Hq. pose proof (Hall new_accounting (Forall_nil _)) as H.
          rewrite Forall_forall in H; apply H; apply (lookup_address _ _ _ Hq). }
        rewrite lookup_Get, N.eqb_refl. destruct (lookup a (ac_map s)) as [q|] eqn:El.
        - exists q; repeat split; [apply Hf; exact El|intros H; apply Hnt; auto].
        - exists (new_client a); repeat split; cbn; lia. }
      destruct Hg as (q & Hq & Hqt & Hqd).
      pose proof (lookup_change a a (UpdateTokenBucket c now false) (Get a (ac_map s)) (update_address c now false)) as Hl.
      rewrite N.eqb_refl, Hq in Hl; cbn [option_map] in Hl. rewrite Hl.
      assert (Hd : pc_delay (UpdateTokenBucket c now false q) = 0).
      { unfold UpdateTokenBucket. destruct (tarpit c); cbn [negb]; [|apply Hqd; reflexivity].
        destruct (N.ltb_spec now (pc_tarpit_until q)); [lia|reflexivity]. }
      destruct (negb (Check c (UpdateTokenBucket c now false q))); [discriminate|].
      rewrite Hd. change (0 <? 0) with false. cbn iota. unfold serve; destruct fails; discriminate.
    + unfold serve; destruct fails; discriminate.
  - intros id x E Ek Ep Ht.
    assert (Hacc : accounts c = true) by (unfold accounts; rewrite Ht; apply orb_true_r).
    destruct (find_client_spec _ _ _ E) as [Hx _].
    pose proof (per_in _ _ _ Hwf Hx) as Hper; rewrite Hacc, Ep in Hper.
    unfold astep; rewrite E, Ek, Hper; cbn [snd]. unfold GetDelay; rewrite Hper; cbn [ac_map mk_ac].
    rewrite lookup_change by apply update_address. rewrite N.eqb_refl.
    destruct (lookup a (ac_map s)) as [p|] eqn:El; [|reflexivity]. cbn [option_map].
    unfold UpdateTokenBucket; rewrite Ht; cbn [negb].
    destruct (N.ltb_spec now (pc_tarpit_until p)) as [H|H]; [|reflexivity].
    specialize (Hf p El); lia.
Qed.

(** For a minute after its token bucket was overdrawn, no client is served
    without delay, whatever it does: each of its new connections is rejected
    or held back for 100 ms or more, and so are its authentication requests. *)
Theorem C46_no_escape : forall c before o after now a t over fails,
  tarpit c = true ->
  In t (overdraft a o (arun c before new_accounting)) ->
  clock_ok 0 (before ++ o :: after ++ [AAccept now (Some a) over fails]) ->
  now < t + 60000 ->
  let s := arun c (before ++ o :: after) new_accounting in
  (fst (astep c (AAccept now (Some a) over fails) s) = Rejected \/
   exists d, fst (astep c (AAccept now (Some a) over fails) s) = Held d /\ 100 <= d) /\
  (forall x, In x (open_from a s) -> 100 <= GetDelay x s).
Proof.
  intros c before o after now a t over fails Ht Hin Hclock Hnow s.
  assert (Hacc : accounts c = true) by (unfold accounts; rewrite Ht; apply orb_true_r).
  pose proof (wf_run c before _ (wf_new c)) as Hw1.
  destruct (overdraft_marks c a o _ t Hw1 Ht Hin) as [Hto Hm].
  destruct (clock_app _ _ _ Hclock) as (_ & t0 & _ & Hck). cbn [clock_ok] in Hck. destruct Hck as [_ Hck].
  assert (Hafter : Forall (fun o => t <= time_of o /\ time_of o < t + 60000) after).
  { pose proof (clock_le _ _ _ Hck) as Hle. rewrite Forall_forall in *; intros x Hx; split.
    - rewrite Hto; apply (clock_ge _ _ _ Hck); apply in_or_app; left; exact Hx.
    - specialize (Hle x Hx); cbn [time_of] in Hle; lia. }
  assert (Htn : t <= now).
  { rewrite Hto. change now with (time_of (AAccept now (Some a) over fails)).
    apply (clock_ge _ _ _ Hck). apply in_or_app; right; left; reflexivity. }
  pose proof (wf_step c o _ Hw1) as Hw2.
  pose proof (marked_run c a t after _ Hw2 Hafter Hm) as Hm2.
  pose proof (wf_run c after _ Hw2) as Hw3.
  assert (Es : s = arun c after (snd (astep c o (arun c before new_accounting)))).
  { unfold s; rewrite arun_app; reflexivity. }
  rewrite <- Es in Hm2, Hw3. split.
  - unfold astep. apply (marked_accept c a t now over fails s); auto.
  - intros x Hx; unfold open_from in Hx; apply filter_In in Hx as [Hx Hp].
    unfold is_peer in Hp; destruct (cl_peer x) as [b|] eqn:Eb; [|discriminate]. apply N.eqb_eq in Hp; subst b.
    pose proof (per_in _ _ _ Hw3 Hx) as Hper; rewrite Hacc, Eb in Hper.
    destruct Hm2 as (p & Hl & _ & Hd & _). unfold GetDelay; rewrite Hper, Hl; exact Hd.
Qed.

(** The accounting entry of a connected client is never dropped, it is the
    only one for its address, and it lists exactly the open sockets of the
    address. *)
Theorem C46_kept : forall c ops x a,
  let s := arun c ops new_accounting in
  accounts c = true ->
  In x (ac_open s) -> cl_peer x = Some a ->
  cl_per_client x = Some a /\
  exists p, List.filter (fun p => pc_address p =? a) (ac_map s) = [p] /\
            pc_connections p = map cl_id (open_from a s).
Proof.
  intros c ops x a s Hacc Hx Hp; pose proof (wf_run c ops _ (wf_new c)) as Hwf; fold s in Hwf.
  pose proof (per_in _ _ _ Hwf Hx) as Hper; rewrite Hacc, Hp in Hper. split; [exact Hper|].
  destruct (per_entry _ _ _ _ Hwf Hx Hper) as (p & Hl & _). exists p; split.
  - pose proof (wf_map _ _ Hwf) as Hnd. clear - Hl Hnd. revert Hl; induction (ac_map s) as [|q m IH]; [discriminate|].
    cbn [map] in Hnd; inversion Hnd as [|? ? Hni Hnd']; subst.
    unfold lookup; cbn [find List.filter]. destruct (N.eqb_spec (pc_address q) a) as [E|E].
    + intros Hq; assert (q = p) by congruence; subst q. f_equal.
      destruct (List.filter (fun p0 => pc_address p0 =? a) m) as [|r l] eqn:Ef; [reflexivity|].
      exfalso; apply Hni. assert (Hr : In r (List.filter (fun p0 => pc_address p0 =? a) m)) by (rewrite Ef; left; reflexivity).
      apply filter_In in Hr as [Hr Hra]; apply N.eqb_eq in Hra. rewrite E, <- Hra. apply in_map; exact Hr.
    + apply IH; exact Hnd'.
  - rewrite (wf_conns _ _ Hwf a p Hl). apply ids_open_from with c; auto.
Qed.

(** The entries of clients which are gone do not accumulate (as long as no
    constructor of a connection fails): the cleanup timer is pending while
    there is one, and a run of it five minutes after everything else leaves
    only the entries of connected clients. *)
Theorem C46_cleanup : forall c ops now,
  let s := arun c ops new_accounting in
  Forall (fun o => constructs o = true) ops ->
  Forall (fun o => time_of o + 300000 <= now) ops ->
  (forall p, In p (ac_map s) -> open_from (pc_address p) s = [] -> ac_cleanup s = true) /\
  (forall p, In p (ac_map (snd (astep c (ACleanup now) s))) -> open_from (pc_address p) s <> []).
Proof.
  intros c ops now s Hc Ht; pose proof (wf_run c ops _ (wf_new c)) as Hwf; fold s in Hwf.
  assert (Hlook : forall p, In p (ac_map s) -> lookup (pc_address p) (ac_map s) = Some p).
  { pose proof (wf_map _ _ Hwf) as Hnd. clear - Hnd. induction (ac_map s) as [|q m IH]; intros p Hp; [destruct Hp|].
    cbn [map] in Hnd; inversion Hnd as [|? ? Hni Hnd']; subst. unfold lookup; cbn [find].
    destruct Hp as [->|Hp]; [rewrite N.eqb_refl; reflexivity|].
    destruct (N.eqb_spec (pc_address q) (pc_address p)) as [E|E].
    - exfalso; apply Hni; rewrite E; apply in_map; exact Hp.
    - apply IH; auto. }
  assert (Hany : ac_map s <> [] -> accounts c = true).
  { destruct (accounts c) eqn:Hacc; [reflexivity|]. intros Hne; exfalso; apply Hne.
    unfold s; clear - Hacc. assert (H : forall s, ac_map s = [] /\ Forall (fun x => cl_per_client x = None) (ac_open s) ->
       ac_map (arun c ops s) = [] /\ Forall (fun x => cl_per_client x = None) (ac_open (arun c ops s))).
    { assert (Hdes : forall n x s, cl_per_client x = None -> ac_map s = [] ->
         Forall (fun x => cl_per_client x = None) (ac_open s) ->
         ac_map (destroy_client n x s) = [] /\ Forall (fun x => cl_per_client x = None) (ac_open (destroy_client n x s))).
      { intros n x s Hx Hm Ho; unfold destroy_client; rewrite Hx; split; [exact Hm|apply Forall_filter'; exact Ho]. }
      assert (Hopn : forall k peer s, ac_map s = [] ->
         Forall (fun x => cl_per_client x = None) (ac_open s) ->
         ac_map (open_client k peer None s) = [] /\
         Forall (fun x => cl_per_client x = None) (ac_open (open_client k peer None s))).
      { intros k peer s Hm Ho; unfold open_client; split; [exact Hm|cbn [ac_open mk_ac]].
        apply Forall_app; split; [exact Ho|constructor; [reflexivity|constructor]]. }
      induction ops as [|o l IH]; intros s [Hm Ho]; [split; assumption|]. cbn [arun]; apply IH.
      destruct o as [n peer over fl|n id fl|n id|n id over|n]; unfold astep.
      - unfold OnAccept; rewrite Hacc; unfold serve; destruct fl; [split; assumption|apply Hopn; assumption].
      - destruct (find_client id s) as [x|] eqn:E; [|split; assumption]. destruct (cl_kind x); [|split; assumption].
        destruct (find_client_spec _ _ _ E) as [Hx _].
        assert (Hpx : cl_per_client x = None) by (rewrite Forall_forall in Ho; auto).
        cbn [snd]; unfold OnTimer, serve; rewrite Hpx; destruct fl; cbn [snd]; [apply Hdes; assumption|].
        destruct (Hopn Served (cl_peer x) s Hm Ho); apply Hdes; assumption.
      - destruct (find_client id s) as [x|] eqn:E; [|split; assumption].
        destruct (find_client_spec _ _ _ E) as [Hx _]. rewrite Forall_forall in Ho; cbn [snd]; apply Hdes; auto.
        rewrite Forall_forall; exact Ho.
      - destruct (find_client id s) as [x|] eqn:E; [|split; assumption]. destruct (cl_kind x); [split; assumption|].
        destruct (find_client_spec _ _ _ E) as [Hx _].
        assert (Hpx : cl_per_client x = None) by (rewrite Forall_forall in Ho; auto).
        rewrite Hpx; split; assumption.
      - destruct (ac_cleanup s); [|split; assumption]. cbn [snd]; unfold OnCleanupTimer; cbn [ac_map ac_open mk_ac].
        rewrite Hm; split; [reflexivity|assumption]. }
    apply H; split; [reflexivity|constructor]. }
  assert (Hconn : forall p, In p (ac_map s) -> pc_connections p = map cl_id (open_from (pc_address p) s)).
  { intros p Hp. rewrite (wf_conns _ _ Hwf _ _ (Hlook p Hp)). apply ids_open_from with c; auto.
    apply Hany; intros E; rewrite E in Hp; destruct Hp. }
  assert (Htidy : tidy s).
  { apply tidy_run; [apply wf_new|exact Hc|]. intros a p H; discriminate. }
  assert (Hfresh : fresh_until now s).
  { apply fresh_run; [apply wf_new|exact Ht|]. intros a p H; discriminate. }
  split.
  - intros p Hp Ho. apply (Htidy _ _ (Hlook p Hp)). rewrite (Hconn p Hp), Ho; reflexivity.
  - intros p Hp Ho. unfold astep in Hp. destruct (ac_cleanup s) eqn:Ecl; cbn [snd] in Hp.
    + unfold OnCleanupTimer in Hp; cbn [ac_map mk_ac] in Hp. apply filter_In in Hp as [Hp Hex].
      unfold expired in Hex; rewrite (Hconn p Hp), Ho in Hex; cbn [map] in Hex.
      specialize (Hfresh _ _ (Hlook p Hp)). destruct (N.leb_spec (pc_expires p) now); [discriminate|lia].
    + assert (E : ac_cleanup s = true); [|congruence].
      apply (Htidy _ _ (Hlook p Hp)). rewrite (Hconn p Hp), Ho; reflexivity.
Qed.

(** ** A concrete case: two connections are allowed; the client at address 7
    overdraws its token bucket with the second one, is held back, is served
    after the delay, is rejected, goes away, comes back within the minute and
    after it; other clients are not affected. *)
Definition C46_demo_cfg := {| max_connections := 2; tarpit := true |}.
Definition C46_demo : list aop :=
  [AAccept 1000 (Some 7) false false; AAccept 1001 (Some 7) true false; AAccept 1002 (Some 8) false false].

Example C46_demo_state :
  let s := arun C46_demo_cfg C46_demo new_accounting in
  map (fun x => (cl_id x, cl_kind x)) (open_from 7 s) = [(0, Served); (1, Delayed)] /\
  overdrafts C46_demo_cfg 7 C46_demo new_accounting = [1001] /\
  fst (astep C46_demo_cfg (AAccept 1003 (Some 7) false false) s) = Rejected /\
  fst (astep C46_demo_cfg (AAccept 1003 (Some 9) false false) s) = Accepted /\
  clock_ok 0 (C46_demo ++ [AClose 1003 0; AAccept 60000 (Some 7) false false]) /\
  fst (astep C46_demo_cfg (AAccept 60000 (Some 7) false false) (arun C46_demo_cfg [AClose 1003 0] s)) = Held 100 /\
  fst (astep C46_demo_cfg (AAccept 61001 (Some 7) false false) (arun C46_demo_cfg [AClose 1003 0] s)) = Accepted /\
  map (fun x => (cl_id x, cl_kind x)) (open_from 7 (arun C46_demo_cfg [ATimer 1101 1 false] s)) = [(0, Served); (3, Served)] /\
  map pc_address (ac_map (arun C46_demo_cfg [AClose 1003 0; AClose 1004 1; ACleanup 61004] s)) = [8; 7] /\
  map pc_address (ac_map (arun C46_demo_cfg [AClose 1003 0; AClose 1004 1; ACleanup 301004] s)) = [8].
Proof. vm_compute. repeat split; discriminate. Qed.

Print Assumptions C46_limit.
Print Assumptions C46_admits.
Print Assumptions C46_delay.
Print Assumptions C46_recovers.
Print Assumptions C46_no_escape.
Print Assumptions C46_kept.
Print Assumptions C46_cleanup.
