(** Facts about the accounting of clients. *)

From Coq Require Import NArith List Bool Lia.
From Verif.Model Require Import Accounting.
From Verif.Spec Require Import AccountingSpec.
Import ListNotations.
Open Scope N_scope.

(** * The map *)

Lemma lookup_change : forall a b f m,
  (forall p, pc_address (f p) = pc_address p) ->
  lookup a (change b f m) = if a =? b then option_map f (lookup a m) else lookup a m.
Proof.
  intros a b f m H; induction m as [|p m IH].
  - destruct (a =? b); reflexivity.
  - unfold lookup, change in *; cbn [map find].
    destruct (N.eqb_spec (pc_address p) b) as [E|E].
    + rewrite H, IH. destruct (N.eqb_spec (pc_address p) a) as [E'|E'].
      * destruct (N.eqb_spec a b); [|congruence]. reflexivity.
      * reflexivity.
    + rewrite IH. destruct (N.eqb_spec (pc_address p) a) as [E'|E']; [|reflexivity].
      destruct (N.eqb_spec a b); [congruence|reflexivity].
Qed.

Lemma change_addresses : forall b f m,
  (forall p, pc_address (f p) = pc_address p) ->
  map pc_address (change b f m) = map pc_address m.
Proof.
  intros b f m H; unfold change; rewrite map_map; apply map_ext.
  intros p; destruct (pc_address p =? b); auto.
Qed.

Lemma lookup_address : forall a m p, lookup a m = Some p -> pc_address p = a /\ In p m.
Proof.
  intros a m p H; unfold lookup in H; apply find_some in H as [H1 H2].
  apply N.eqb_eq in H2; auto.
Qed.

Lemma lookup_none : forall a m, lookup a m = None -> ~ In a (map pc_address m).
Proof.
  intros a m H Hin; apply in_map_iff in Hin as (p & <- & Hp).
  unfold lookup in H; apply (find_none _ _ H) in Hp; rewrite N.eqb_refl in Hp; discriminate.
Qed.

Lemma lookup_filter : forall g a m, NoDup (map pc_address m) ->
  lookup a (List.filter g m) = match lookup a m with Some p => if g p then Some p else None | None => None end.
Proof.
  intros g a m; induction m as [|p m IH]; intros Hnd; [reflexivity|].
  cbn [map] in Hnd; inversion Hnd as [|? ? Hni Hnd']; subst; specialize (IH Hnd').
  unfold lookup in *; cbn [List.filter find].
  destruct (N.eqb_spec (pc_address p) a) as [E|E].
  - destruct (g p) eqn:Eg; cbn [find].
    + rewrite (proj2 (N.eqb_eq _ _) E); reflexivity.
    + rewrite IH. destruct (find (fun q => pc_address q =? a) m) as [q|] eqn:Ef; [|reflexivity].
      exfalso; apply Hni; apply find_some in Ef as [Hq Ha]; apply N.eqb_eq in Ha.
      rewrite E, <- Ha; apply in_map; exact Hq.
  - destruct (g p); cbn [find].
    + rewrite (proj2 (N.eqb_neq _ _) E); exact IH.
    + exact IH.
Qed.

Lemma filter_addresses : forall g m, NoDup (map pc_address m) -> NoDup (map pc_address (List.filter g m)).
Proof.
  intros g m; induction m as [|p m IH]; intros Hnd; [constructor|].
  cbn [map] in Hnd; inversion Hnd as [|? ? Hni Hnd']; subst.
  cbn [List.filter]; destruct (g p); [|auto].
  cbn [map]; constructor; [|auto].
  intros Hin; apply Hni; apply in_map_iff in Hin as (q & <- & Hq).
  apply filter_In in Hq as [Hq _]; apply in_map; exact Hq.
Qed.

Lemma lookup_Get : forall a b m,
  lookup a (Get b m) =
    match lookup a m with Some p => Some p | None => if a =? b then Some (new_client a) else None end.
Proof.
  intros a b m; unfold Get; destruct (lookup b m) as [q|] eqn:Eb.
  - destruct (lookup a m) eqn:Ea; [reflexivity|].
    destruct (N.eqb_spec a b); [subst; congruence|reflexivity].
  - unfold lookup at 1; cbn [find]. unfold new_client at 1; cbn [pc_address mk_pc].
    destruct (N.eqb_spec b a) as [->|E].
    + rewrite Eb, N.eqb_refl; reflexivity.
    + fold (lookup a m); destruct (lookup a m); [reflexivity|].
      destruct (N.eqb_spec a b); [congruence|reflexivity].
Qed.

Lemma Get_addresses : forall b m, NoDup (map pc_address m) -> NoDup (map pc_address (Get b m)).
Proof.
  intros b m H; unfold Get; destruct (lookup b m) eqn:E; [exact H|].
  cbn [map]; constructor; [|exact H].
  unfold new_client; cbn [pc_address mk_pc]; apply lookup_none; exact E.
Qed.

(** * The invariant *)

Definition per_is (a : N) (x : client) : bool :=
  match cl_per_client x with Some b => a =? b | None => false end.
Definition ids_of (a : N) (l : list client) : list N := map cl_id (List.filter (per_is a) l).

Definition delay_ok (d : N) : Prop := (exists k, d = 100 * k) /\ d <= 60000.

Record wf (c : acfg) (s : accounting) : Prop := {
  wf_map : NoDup (map pc_address (ac_map s));
  wf_ids : NoDup (map cl_id (ac_open s));
  wf_next : Forall (fun x => cl_id x < ac_next s) (ac_open s);
  wf_per : Forall (fun x => cl_per_client x = if accounts c then cl_peer x else None) (ac_open s);
  wf_conns : forall a p, lookup a (ac_map s) = Some p -> pc_connections p = ids_of a (ac_open s);
  wf_entry : forall a, ids_of a (ac_open s) <> [] -> exists p, lookup a (ac_map s) = Some p;
  wf_delay : forall a p, lookup a (ac_map s) = Some p -> delay_ok (pc_delay p)
}.

Lemma wf_new : forall c, wf c new_accounting.
Proof.
  intros c; split; cbn [ac_map ac_open new_accounting mk_ac].
  - constructor.
  - constructor.
  - constructor.
  - constructor.
  - intros a p H; discriminate.
  - intros a H; exfalso; apply H; reflexivity.
  - intros a p H; discriminate.
Qed.

Lemma update_address : forall c now over p, pc_address (UpdateTokenBucket c now over p) = pc_address p.
Proof.
  intros; unfold UpdateTokenBucket; destruct (negb (tarpit c)), over; try reflexivity;
    destruct (now <? pc_tarpit_until p); reflexivity.
Qed.
Lemma update_conns : forall c now over p, pc_connections (UpdateTokenBucket c now over p) = pc_connections p.
Proof.
  intros; unfold UpdateTokenBucket; destruct (negb (tarpit c)), over; try reflexivity;
    destruct (now <? pc_tarpit_until p); reflexivity.
Qed.
Lemma update_expires : forall c now over p, pc_expires (UpdateTokenBucket c now over p) = pc_expires p.
Proof.
  intros; unfold UpdateTokenBucket; destruct (negb (tarpit c)), over; try reflexivity;
    destruct (now <? pc_tarpit_until p); reflexivity.
Qed.
Lemma update_delay_ok : forall c now over p, delay_ok (pc_delay p) ->
  delay_ok (pc_delay (UpdateTokenBucket c now over p)).
Proof.
  intros c now over p [[k Hk] Hm]; unfold UpdateTokenBucket.
  destruct (negb (tarpit c)); [split; [exists k; exact Hk|exact Hm]|].
  destruct over; [|destruct (now <? pc_tarpit_until p)]; cbn [pc_delay mk_pc].
  - destruct (N.ltb_spec (pc_delay p) 60000).
    + split; [exists (k + 1); lia|lia].
    + split; [exists k; exact Hk|exact Hm].
  - destruct (N.ltb_spec 100 (pc_delay p)).
    + split; [exists (k - 1); lia|lia].
    + split; [exists k; exact Hk|exact Hm].
  - split; [exists 0; reflexivity|lia].
Qed.
Lemma add_address : forall id p, pc_address (AddConnection id p) = pc_address p.
Proof. reflexivity. Qed.
Lemma remove_address : forall now id p, pc_address (RemoveConnection now id p) = pc_address p.
Proof. reflexivity. Qed.

(** ** Updating the token bucket *)
Lemma wf_update : forall c now over a s,
  wf c s ->
  wf c (mk_ac (change a (UpdateTokenBucket c now over) (ac_map s)) (ac_cleanup s) (ac_open s) (ac_next s)).
Proof.
  intros c now over a s [H1 H2 H3 H4 H5 H6 H7]; constructor; cbn [ac_map ac_open ac_next mk_ac]; auto.
  - rewrite change_addresses; [exact H1|apply update_address].
  - intros b p Hl; rewrite lookup_change in Hl by apply update_address.
    destruct (b =? a); [|auto].
    destruct (lookup b (ac_map s)) as [q|] eqn:E; [|discriminate].
    cbn [option_map] in Hl; assert (p = UpdateTokenBucket c now over q) by congruence; subst p.
    rewrite update_conns; auto.
  - intros b Hb; rewrite lookup_change by apply update_address.
    destruct (H6 b Hb) as [p Hp]; rewrite Hp; destruct (b =? a); eexists; reflexivity.
  - intros b p Hl; rewrite lookup_change in Hl by apply update_address.
    destruct (b =? a); [|eauto].
    destruct (lookup b (ac_map s)) as [q|] eqn:E; [|discriminate].
    cbn [option_map] in Hl; assert (p = UpdateTokenBucket c now over q) by congruence; subst p.
    apply update_delay_ok; eauto.
Qed.

Lemma wf_Get : forall c a s,
  wf c s -> wf c (mk_ac (Get a (ac_map s)) (ac_cleanup s) (ac_open s) (ac_next s)).
Proof.
  intros c a s [H1 H2 H3 H4 H5 H6 H7]; constructor; cbn [ac_map ac_open ac_next mk_ac]; auto.
  - apply Get_addresses; exact H1.
  - intros b p Hl; rewrite lookup_Get in Hl.
    destruct (lookup b (ac_map s)) as [q|] eqn:E.
    + assert (p = q) by congruence; subst; auto.
    + destruct (b =? a); [|discriminate].
      assert (p = new_client b) by congruence; subst p. cbn [new_client pc_connections mk_pc].
      destruct (ids_of b (ac_open s)) eqn:Ei; [reflexivity|].
      destruct (H6 b) as [p Hp]; [rewrite Ei; discriminate|congruence].
  - intros b Hb; rewrite lookup_Get; destruct (H6 b Hb) as [p Hp]; rewrite Hp; eauto.
  - intros b p Hl; rewrite lookup_Get in Hl.
    destruct (lookup b (ac_map s)) as [q|] eqn:E.
    + assert (p = q) by congruence; subst; eauto.
    + destruct (b =? a); [|discriminate].
      assert (p = new_client b) by congruence; subst p; cbn [new_client pc_delay mk_pc].
      split; [exists 0; reflexivity|lia].
Qed.

(** ** A new connection *)
Lemma ids_of_app : forall a l l', ids_of a (l ++ l') = ids_of a l ++ ids_of a l'.
Proof. intros; unfold ids_of; rewrite filter_app, map_app; reflexivity. Qed.

Lemma NoDup_snoc_N : forall (l : list N) n, NoDup l -> ~ In n l -> NoDup (l ++ [n]).
Proof.
  induction l as [|x l IH]; intros n H Hn; cbn [app]; [constructor; [auto|constructor]|].
  inversion H; subst; constructor.
  - intros Hin; apply in_app_or in Hin as [Hin|[->|[]]]; [auto|apply Hn; left; reflexivity].
  - apply IH; [auto|]. intros Hin; apply Hn; right; exact Hin.
Qed.

Lemma wf_open : forall c k peer per s,
  wf c s ->
  per = (if accounts c then peer else None) ->
  (forall a, per = Some a -> exists p, lookup a (ac_map s) = Some p) ->
  wf c (open_client k peer per s).
Proof.
  intros c k peer per s [H1 H2 H3 H4 H5 H6 H7] Hper Hmap.
  assert (Hids : NoDup (map cl_id (ac_open s) ++ [ac_next s])).
  { apply NoDup_snoc_N; [exact H2|]. intros Hin; apply in_map_iff in Hin as (x & Hx & Hin).
    rewrite Forall_forall in H3; specialize (H3 x Hin); lia. }
  assert (Hnext : Forall (fun x => cl_id x < ac_next s + 1)
            (ac_open s ++ [{| cl_id := ac_next s; cl_kind := k; cl_peer := peer; cl_per_client := per |}])).
  { apply Forall_app; split.
    - eapply Forall_impl; [|exact H3]; cbn; intros; lia.
    - constructor; [cbn; lia|constructor]. }
  assert (Hpers : Forall (fun x => cl_per_client x = if accounts c then cl_peer x else None)
            (ac_open s ++ [{| cl_id := ac_next s; cl_kind := k; cl_peer := peer; cl_per_client := per |}])).
  { apply Forall_app; split; [exact H4|]. constructor; [exact Hper|constructor]. }
  unfold open_client; destruct per as [a|].
  - destruct (Hmap a eq_refl) as [pa Hpa].
    constructor; cbn [ac_map ac_open ac_next mk_ac]; auto.
    + rewrite change_addresses; [exact H1|apply add_address].
    + rewrite map_app; exact Hids.
    + intros b p Hl; rewrite lookup_change in Hl by apply add_address.
      rewrite ids_of_app; unfold ids_of at 2; cbn [List.filter per_is cl_per_client].
      unfold per_is; cbn [cl_per_client].
      destruct (N.eqb_spec b a) as [->|E].
      * rewrite Hpa in Hl; cbn [option_map] in Hl.
        assert (p = AddConnection (ac_next s) pa) by congruence; subst p.
        cbn [AddConnection pc_connections mk_pc map]. rewrite (H5 a pa Hpa); reflexivity.
      * cbn [map]; rewrite app_nil_r; auto.
    + intros b Hb; rewrite lookup_change by apply add_address.
      rewrite ids_of_app in Hb; unfold ids_of at 2 in Hb; cbn [List.filter] in Hb.
      destruct (N.eq_dec b a) as [E|E]; [subst b; rewrite N.eqb_refl|].
      * rewrite Hpa; eexists; reflexivity.
      * unfold per_is in Hb; cbn [cl_per_client] in Hb.
        rewrite (proj2 (N.eqb_neq _ _) E) in *; cbn [map] in Hb; rewrite app_nil_r in Hb; auto.
    + intros b p Hl; rewrite lookup_change in Hl by apply add_address.
      destruct (b =? a); [|eauto].
      destruct (lookup b (ac_map s)) as [q|] eqn:E; [|discriminate].
      cbn [option_map] in Hl; assert (p = AddConnection (ac_next s) q) by congruence; subst p.
      cbn [AddConnection pc_delay mk_pc]; eauto.
  - assert (Hi : forall b, ids_of b (ac_open s ++
       [{| cl_id := ac_next s; cl_kind := k; cl_peer := peer; cl_per_client := None |}]) = ids_of b (ac_open s)).
    { intros b; rewrite ids_of_app; unfold ids_of at 2; cbn. apply app_nil_r. }
    constructor; cbn [ac_map ac_open ac_next mk_ac]; auto.
    + rewrite map_app; exact Hids.
    + intros b p Hl; rewrite Hi; auto.
    + intros b Hb; rewrite Hi in Hb; auto.
Qed.

(** ** A connection goes away *)
Lemma ids_of_without : forall a id l,
  ids_of a (List.filter (fun y => negb (cl_id y =? id)) l) = List.filter (fun i => negb (i =? id)) (ids_of a l).
Proof.
  intros a id l; unfold ids_of; induction l as [|x l IH]; [reflexivity|].
  cbn [List.filter]; destruct (negb (cl_id x =? id)) eqn:E; cbn [List.filter]; destruct (per_is a x);
    cbn [map List.filter]; rewrite ?E, ?IH; reflexivity.
Qed.

Lemma find_client_spec : forall id s x, find_client id s = Some x -> In x (ac_open s) /\ cl_id x = id.
Proof. intros id s x H; unfold find_client in H; apply find_some in H as [H1 H2]; apply N.eqb_eq in H2; auto. Qed.

Lemma same_id : forall l x y, NoDup (map cl_id l) -> In x l -> In y l -> cl_id x = cl_id y -> x = y.
Proof.
  induction l as [|z l IH]; intros x y H Hx Hy E; [destruct Hx|].
  cbn [map] in H; inversion H as [|? ? Hni Hnd]; subst.
  destruct Hx as [->|Hx], Hy as [->|Hy]; auto.
  - exfalso; apply Hni; rewrite E; apply in_map; exact Hy.
  - exfalso; apply Hni; rewrite <- E; apply in_map; exact Hx.
Qed.

Lemma filter_noop : forall {A} (f : A -> bool) l, (forall x, In x l -> f x = true) -> List.filter f l = l.
Proof.
  induction l as [|x l IH]; intros H; [reflexivity|]. cbn [List.filter].
  rewrite (H x (or_introl eq_refl)), IH; [reflexivity|]. intros y Hy; apply H; right; exact Hy.
Qed.

(** Removing a client of another address changes nothing here. *)
Lemma ids_of_other : forall a x l, NoDup (map cl_id l) -> In x l -> per_is a x = false ->
  List.filter (fun i => negb (i =? cl_id x)) (ids_of a l) = ids_of a l.
Proof.
  intros a x l Hnd Hx Hp; apply filter_noop; intros i Hi.
  unfold ids_of in Hi; apply in_map_iff in Hi as (y & <- & Hy); apply filter_In in Hy as [Hy Hpy].
  destruct (N.eqb_spec (cl_id y) (cl_id x)) as [E|E]; [|reflexivity].
  assert (y = x) by (eapply same_id; eauto); subst; congruence.
Qed.

Lemma filter_NoDup_map : forall (f : client -> bool) l, NoDup (map cl_id l) -> NoDup (map cl_id (List.filter f l)).
Proof.
  induction l as [|x l IH]; intros H; [constructor|].
  cbn [map] in H; inversion H as [|? ? Hni Hnd]; subst.
  cbn [List.filter]; destruct (f x); [|auto]. cbn [map]; constructor; [|auto].
  intros Hin; apply Hni; apply in_map_iff in Hin as (y & <- & Hy); apply filter_In in Hy as [Hy _].
  apply in_map; exact Hy.
Qed.

Lemma Forall_filter' : forall {A} (P : A -> Prop) f l, Forall P l -> Forall P (List.filter f l).
Proof.
  intros A P f l H; rewrite Forall_forall in *; intros x Hx; apply filter_In in Hx as [Hx _]; auto.
Qed.

Lemma wf_destroy : forall c now x s, wf c s -> In x (ac_open s) -> wf c (destroy_client now x s).
Proof.
  intros c now x s [H1 H2 H3 H4 H5 H6 H7] Hx; unfold destroy_client.
  destruct (cl_per_client x) as [a|] eqn:Ep.
  - constructor; cbn [ac_map ac_open ac_next mk_ac].
    + rewrite change_addresses; [exact H1|apply remove_address].
    + apply filter_NoDup_map; exact H2.
    + apply Forall_filter'; exact H3.
    + apply Forall_filter'; exact H4.
    + intros b p Hl; rewrite lookup_change in Hl by apply remove_address.
      rewrite ids_of_without.
      destruct (N.eqb_spec b a) as [->|E].
      * destruct (lookup a (ac_map s)) as [q|] eqn:El; [|discriminate].
        cbn [option_map] in Hl; assert (p = RemoveConnection now (cl_id x) q) by congruence; subst p.
        cbn [RemoveConnection pc_connections mk_pc]. rewrite (H5 a q El); reflexivity.
      * rewrite ids_of_other; auto.
        unfold per_is; rewrite Ep. apply N.eqb_neq; exact E.
    + intros b Hb; rewrite lookup_change by apply remove_address. rewrite ids_of_without in Hb.
      destruct (H6 b) as [p Hp].
      { intros E; rewrite E in Hb; apply Hb; reflexivity. }
      rewrite Hp; destruct (b =? a); eexists; reflexivity.
    + intros b p Hl; rewrite lookup_change in Hl by apply remove_address.
      destruct (b =? a); [|eauto].
      destruct (lookup b (ac_map s)) as [q|] eqn:E; [|discriminate].
      cbn [option_map] in Hl; assert (p = RemoveConnection now (cl_id x) q) by congruence; subst p.
      cbn [RemoveConnection pc_delay mk_pc]; eauto.
  - assert (Hi : forall b, ids_of b (List.filter (fun y => negb (cl_id y =? cl_id x)) (ac_open s))
                           = ids_of b (ac_open s)).
    { intros b; rewrite ids_of_without; apply ids_of_other; auto. unfold per_is; rewrite Ep; reflexivity. }
    constructor; cbn [ac_map ac_open ac_next mk_ac]; auto.
    + apply filter_NoDup_map; exact H2.
    + apply Forall_filter'; exact H3.
    + apply Forall_filter'; exact H4.
    + intros b p Hl; rewrite Hi; auto.
    + intros b Hb; rewrite Hi in Hb; auto.
Qed.

(** ** Cleaning up *)
Lemma wf_cleanup : forall c now s, wf c s -> wf c (OnCleanupTimer now s).
Proof.
  intros c now s [H1 H2 H3 H4 H5 H6 H7]; unfold OnCleanupTimer; constructor;
    cbn [ac_map ac_open ac_next mk_ac]; auto.
  - apply filter_addresses; exact H1.
  - intros b p Hl; rewrite lookup_filter in Hl by exact H1.
    destruct (lookup b (ac_map s)) as [q|] eqn:E; [|discriminate].
    destruct (negb (expired now q)); [|discriminate].
    assert (p = q) by congruence; subst; auto.
  - intros b Hb; rewrite lookup_filter by exact H1. destruct (H6 b Hb) as [p Hp]; rewrite Hp.
    unfold expired. rewrite (H5 b p Hp).
    destruct (ids_of b (ac_open s)) eqn:E; [congruence|]. eexists; reflexivity.
  - intros b p Hl; rewrite lookup_filter in Hl by exact H1.
    destruct (lookup b (ac_map s)) as [q|] eqn:E; [|discriminate].
    destruct (negb (expired now q)); [|discriminate].
    assert (p = q) by congruence; subst; eauto.
Qed.

(** ** All events *)
Lemma wf_accept : forall c now peer over fails s, wf c s -> wf c (snd (OnAccept c now peer over fails s)).
Proof.
  intros c now peer over fails s H; unfold OnAccept.
  destruct (if accounts c then peer else None) as [a|] eqn:Ep.
  - pose proof (wf_Get c a s H) as Hg.
    pose proof (wf_update c now over a _ Hg) as Hu; cbn [ac_map ac_cleanup ac_open ac_next mk_ac] in Hu.
    destruct (lookup a (change a (UpdateTokenBucket c now over) (Get a (ac_map s)))) as [p|] eqn:El; [|exact Hu].
    destruct (negb (Check c p)); [exact Hu|].
    destruct (0 <? pc_delay p).
    + apply wf_open; [exact Hu|symmetry; exact Ep|].
      intros b Hb; assert (b = a) by congruence; subst; eauto.
    + unfold serve; destruct fails; [exact Hu|]. apply wf_open; [exact Hu|symmetry; exact Ep|].
      intros b Hb; assert (b = a) by congruence; subst; eauto.
  - unfold serve; destruct fails; [exact H|]. apply wf_open; [exact H|symmetry; exact Ep|discriminate].
Qed.

Lemma per_in : forall c s x, wf c s -> In x (ac_open s) ->
  cl_per_client x = (if accounts c then cl_peer x else None).
Proof. intros c s x H Hx; pose proof (wf_per _ _ H) as Hp; rewrite Forall_forall in Hp; auto. Qed.

Lemma per_entry : forall c s x a, wf c s -> In x (ac_open s) -> cl_per_client x = Some a ->
  exists p, lookup a (ac_map s) = Some p /\ In (cl_id x) (pc_connections p).
Proof.
  intros c s x a H Hx Ha.
  assert (Hin : In (cl_id x) (ids_of a (ac_open s))).
  { unfold ids_of; apply in_map; apply filter_In; split; [exact Hx|].
    unfold per_is; rewrite Ha; apply N.eqb_refl. }
  destruct (wf_entry _ _ H a) as [p Hp]; [intros E; rewrite E in Hin; destruct Hin|].
  exists p; split; [exact Hp|]. rewrite (wf_conns _ _ H a p Hp); exact Hin.
Qed.

Lemma wf_serve : forall c fails s x, wf c s -> In x (ac_open s) ->
  wf c (snd (serve fails (cl_peer x) (cl_per_client x) s)).
Proof.
  intros c fails s x H Hx; unfold serve; destruct fails; [exact H|].
  apply wf_open; [exact H|apply (per_in _ _ _ H Hx)|].
  intros a Ha; destruct (per_entry _ _ _ _ H Hx Ha) as (p & Hp & _); eauto.
Qed.

Lemma open_still : forall k peer per s x, In x (ac_open s) -> In x (ac_open (open_client k peer per s)).
Proof. intros; unfold open_client; cbn [ac_open mk_ac]; apply in_or_app; left; assumption. Qed.

Lemma wf_step : forall c o s, wf c s -> wf c (snd (astep c o s)).
Proof.
  intros c o s H; destruct o as [now peer over fails|now id fails|now id|now id over|now]; unfold astep.
  - apply wf_accept; exact H.
  - destruct (find_client id s) as [x|] eqn:E; [|exact H].
    destruct (cl_kind x); [|exact H]. cbn [snd]; unfold OnTimer.
    destruct (find_client_spec _ _ _ E) as [Hx _].
    apply wf_destroy; [apply wf_serve; auto|].
    unfold serve; destruct fails; [exact Hx|apply open_still; exact Hx].
  - destruct (find_client id s) as [x|] eqn:E; [|exact H]. cbn [snd].
    destruct (find_client_spec _ _ _ E) as [Hx _]. apply wf_destroy; auto.
  - destruct (find_client id s) as [x|] eqn:E; [|exact H].
    destruct (cl_kind x); [exact H|]. destruct (cl_per_client x); [|exact H]. cbn [snd]; apply wf_update; exact H.
  - destruct (ac_cleanup s); [|exact H]. cbn [snd]; apply wf_cleanup; exact H.
Qed.

Lemma wf_run : forall c ops s, wf c s -> wf c (arun c ops s).
Proof. induction ops as [|o ops IH]; intros s H; [exact H|]. cbn [arun]; apply IH; apply wf_step; exact H. Qed.

Lemma arun_app : forall c l l' s, arun c (l ++ l') s = arun c l' (arun c l s).
Proof. induction l as [|o l IH]; intros l' s; [reflexivity|]. cbn [app arun]; apply IH. Qed.

(** * The limit *)

Definition within (c : acfg) (s : accounting) : Prop :=
  max_connections c <> 0 -> forall a, N.of_nat (List.length (ids_of a (ac_open s))) <= max_connections c.

Lemma filter_length_le' : forall {A} (f : A -> bool) l, (List.length (List.filter f l) <= List.length l)%nat.
Proof. induction l as [|x l IH]; [apply le_n|]. cbn [List.filter]; destruct (f x); cbn [List.length]; lia. Qed.

Lemma filter_length_lt : forall (f : N -> bool) l n, In n l -> f n = false ->
  (List.length (List.filter f l) < List.length l)%nat.
Proof.
  induction l as [|x l IH]; intros n Hin Hf; [destruct Hin|]. cbn [List.filter].
  destruct Hin as [->|Hin].
  - rewrite Hf; cbn [List.length]; pose proof (filter_length_le' f l); lia.
  - specialize (IH n Hin Hf); destruct (f x); cbn [List.length]; lia.
Qed.

Lemma ids_open : forall a k peer per s,
  ids_of a (ac_open (open_client k peer per s)) =
    ids_of a (ac_open s) ++ (match per with Some b => if a =? b then [ac_next s] else [] | None => [] end).
Proof.
  intros a k peer per s; unfold open_client; cbn [ac_open mk_ac]; rewrite ids_of_app; f_equal.
  unfold ids_of; cbn [List.filter]; unfold per_is; cbn [cl_per_client]. destruct per as [b|]; [|reflexivity].
  destruct (a =? b); reflexivity.
Qed.

Lemma ids_destroy : forall a now x s,
  ids_of a (ac_open (destroy_client now x s)) = List.filter (fun i => negb (i =? cl_id x)) (ids_of a (ac_open s)).
Proof.
  intros a now x s; rewrite <- ids_of_without; unfold destroy_client; destruct (cl_per_client x); reflexivity.
Qed.

Lemma accept_ids : forall c now peer over fails s, wf c s -> within c s ->
  within c (snd (OnAccept c now peer over fails s)).
Proof.
  intros c now peer over fails s H Hw Hm a; specialize (Hw Hm a). unfold OnAccept.
  destruct (if accounts c then peer else None) as [b|] eqn:Ep.
  - pose proof (wf_Get c b s H) as Hg.
    pose proof (wf_update c now over b _ Hg) as Hu; cbn [ac_map ac_cleanup ac_open ac_next mk_ac] in Hu.
    destruct (lookup b (change b (UpdateTokenBucket c now over) (Get b (ac_map s)))) as [p|] eqn:El;
      [|exact Hw].
    destruct (Check c p) eqn:Ec; cbn [negb]; [|exact Hw].
    assert (Hroom : N.of_nat (List.length (ids_of b (ac_open s))) < max_connections c).
    { pose proof (wf_conns _ _ Hu b p El) as Hp; cbn [ac_open mk_ac] in Hp; rewrite <- Hp.
      unfold Check in Ec; apply orb_true_iff in Ec as [Ec|Ec]; [apply N.eqb_eq in Ec; congruence|].
      apply N.ltb_lt in Ec; exact Ec. }
    assert (Hopen : forall k m, N.of_nat (List.length (ids_of a (ac_open
              (open_client k peer (Some b) (mk_ac m (ac_cleanup s) (ac_open s) (ac_next s)))))) <= max_connections c).
    { intros k m; rewrite ids_open; cbn [ac_open ac_next mk_ac]; rewrite app_length.
      destruct (N.eqb_spec a b) as [->|E]; cbn [List.length]; lia. }
    destruct (0 <? pc_delay p); [apply Hopen|].
    unfold serve; destruct fails; [exact Hw|apply Hopen].
  - unfold serve; destruct fails; [exact Hw|]. cbn [snd]; rewrite ids_open, app_nil_r; exact Hw.
Qed.

Lemma timer_ids : forall c now fails s x, wf c s -> In x (ac_open s) -> within c s ->
  within c (OnTimer now fails x s).
Proof.
  intros c now fails s x H Hx Hw Hm a; specialize (Hw Hm a). unfold OnTimer; rewrite ids_destroy.
  unfold serve; destruct fails; cbn [snd].
  - pose proof (filter_length_le' (fun i => negb (i =? cl_id x)) (ids_of a (ac_open s))); lia.
  - rewrite ids_open.
    destruct (cl_per_client x) as [b|] eqn:Ep; [|rewrite app_nil_r;
      pose proof (filter_length_le' (fun i => negb (i =? cl_id x)) (ids_of a (ac_open s))); lia].
    destruct (N.eqb_spec a b) as [->|E].
    + rewrite filter_app, app_length. cbn [List.filter].
      assert (Hin : In (cl_id x) (ids_of b (ac_open s))).
      { unfold ids_of; apply in_map; apply filter_In; split; [exact Hx|].
        unfold per_is; rewrite Ep; apply N.eqb_refl. }
      pose proof (filter_length_lt (fun i => negb (i =? cl_id x)) _ _ Hin) as Hl.
      cbn beta in Hl; rewrite N.eqb_refl in Hl; specialize (Hl eq_refl).
      destruct (negb (ac_next s =? cl_id x)); cbn [List.length]; lia.
    + rewrite app_nil_r; pose proof (filter_length_le' (fun i => negb (i =? cl_id x)) (ids_of a (ac_open s))); lia.
Qed.

Lemma within_step : forall c o s, wf c s -> within c s -> within c (snd (astep c o s)).
Proof.
  intros c o s H Hw; destruct o as [now peer over fails|now id fails|now id|now id over|now]; unfold astep.
  - apply accept_ids; auto.
  - destruct (find_client id s) as [x|] eqn:E; [|exact Hw].
    destruct (cl_kind x); [|exact Hw]. cbn [snd].
    destruct (find_client_spec _ _ _ E) as [Hx _]. apply timer_ids; auto.
  - destruct (find_client id s) as [x|] eqn:E; [|exact Hw]. cbn [snd].
    intros Hm a; rewrite ids_destroy; specialize (Hw Hm a).
    pose proof (filter_length_le' (fun i => negb (i =? cl_id x)) (ids_of a (ac_open s))); lia.
  - destruct (find_client id s) as [x|] eqn:E; [|exact Hw].
    destruct (cl_kind x); [exact Hw|]. destruct (cl_per_client x); exact Hw.
  - destruct (ac_cleanup s); exact Hw.
Qed.

Lemma within_run : forall c ops s, wf c s -> within c s -> within c (arun c ops s).
Proof.
  induction ops as [|o ops IH]; intros s H Hw; [exact Hw|]. cbn [arun].
  apply IH; [apply wf_step; exact H|apply within_step; auto].
Qed.

(** With accounting, who is counted is who is connected. *)
Lemma ids_open_from : forall c s a, wf c s -> accounts c = true ->
  ids_of a (ac_open s) = map cl_id (open_from a s).
Proof.
  intros c s a H Ha; unfold ids_of, open_from; f_equal.
  pose proof (wf_per _ _ H) as Hp. clear H. induction Hp as [|x l Hx Hl IH]; [reflexivity|].
  cbn [List.filter]; rewrite IH. unfold per_is, is_peer; rewrite Hx, Ha. reflexivity.
Qed.

(** * The tarpit *)

(** ** Forgetting *)

Definition free_at (a B : N) (s : accounting) : Prop :=
  forall p, lookup a (ac_map s) = Some p -> pc_tarpit_until p <= B.

Lemma update_until : forall c now over p B, pc_tarpit_until p <= B -> (over = true -> now + 60000 <= B) ->
  pc_tarpit_until (UpdateTokenBucket c now over p) <= B.
Proof.
  intros c now over p B Hp Ho; unfold UpdateTokenBucket; destruct (negb (tarpit c)); [exact Hp|].
  destruct over; [exact (Ho eq_refl)|]. destruct (now <? pc_tarpit_until p); exact Hp.
Qed.

Lemma free_change : forall a b f m B,
  (forall p, pc_address (f p) = pc_address p) ->
  (forall p, a = b -> pc_tarpit_until p <= B -> pc_tarpit_until (f p) <= B) ->
  (forall p, lookup a m = Some p -> pc_tarpit_until p <= B) ->
  forall p, lookup a (change b f m) = Some p -> pc_tarpit_until p <= B.
Proof.
  intros a b f m B Ha Hf Hm p Hl; rewrite lookup_change in Hl by exact Ha.
  destruct (N.eqb_spec a b) as [E|E]; [|auto].
  destruct (lookup a m) as [q|] eqn:El; [|discriminate].
  cbn [option_map] in Hl; assert (p = f q) by congruence; subst p; auto.
Qed.

Lemma free_open : forall a B k peer per s, free_at a B s -> free_at a B (open_client k peer per s).
Proof.
  intros a B k peer per s H; unfold free_at, open_client; cbn [ac_map mk_ac].
  destruct per as [b|]; [|exact H]. apply free_change; auto.
Qed.

Lemma free_destroy : forall a B now x s, free_at a B s -> free_at a B (destroy_client now x s).
Proof.
  intros a B now x s H; unfold free_at, destroy_client.
  destruct (cl_per_client x) as [b|]; cbn [ac_map mk_ac]; [|exact H]. apply free_change; auto.
Qed.

Lemma free_step : forall c a B o s, wf c s -> free_at a B s ->
  Forall (fun t => t + 60000 <= B) (overdraft a o s) -> free_at a B (snd (astep c o s)).
Proof.
  intros c a B o s H Hf Ho; destruct o as [now peer over fails|now id fails|now id|now id over|now]; unfold astep.
  - unfold OnAccept; destruct (if accounts c then peer else None) as [b|] eqn:Ep.
    + assert (peer = Some b) by (destruct (accounts c); congruence); subst peer.
      assert (Hu : free_at a B (mk_ac (change b (UpdateTokenBucket c now over) (Get b (ac_map s)))
                                  (ac_cleanup s) (ac_open s) (ac_next s))).
      { unfold free_at; cbn [ac_map mk_ac]. apply free_change.
        - apply update_address.
        - intros p -> Hp; apply update_until; [exact Hp|]. intros ->.
          cbn [overdraft] in Ho; rewrite N.eqb_refl in Ho; inversion Ho; auto.
        - intros p Hl; rewrite lookup_Get in Hl. destruct (lookup a (ac_map s)) as [q|] eqn:El.
          + apply Hf; congruence.
          + destruct (a =? b); [|discriminate].
            assert (p = new_client a) by congruence; subst p; cbn; lia. }
      destruct (lookup b (change b (UpdateTokenBucket c now over) (Get b (ac_map s)))) as [p|]; [|exact Hu].
      destruct (negb (Check c p)); [exact Hu|].
      destruct (0 <? pc_delay p); [apply free_open; exact Hu|].
      unfold serve; destruct fails; [exact Hu|apply free_open; exact Hu].
    + unfold serve; destruct fails; [exact Hf|apply free_open; exact Hf].
  - destruct (find_client id s) as [x|]; [|exact Hf]. destruct (cl_kind x); [|exact Hf]. cbn [snd]; unfold OnTimer.
    apply free_destroy; unfold serve; destruct fails; [exact Hf|apply free_open; exact Hf].
  - destruct (find_client id s) as [x|]; [|exact Hf]. cbn [snd]; apply free_destroy; exact Hf.
  - destruct (find_client id s) as [x|] eqn:E; [|exact Hf]. destruct (cl_kind x) eqn:Ek; [exact Hf|].
    destruct (cl_per_client x) as [b|] eqn:Ep; [|exact Hf].
    unfold free_at; cbn [snd ac_map mk_ac]. apply free_change.
    + apply update_address.
    + intros p -> Hp; apply update_until; [exact Hp|]. intros ->.
      cbn [overdraft] in Ho. unfold find_client in E; rewrite E, Ek in Ho.
      destruct (find_client_spec _ _ _ E) as [Hx _].
      pose proof (per_in _ _ _ H Hx) as Hper; rewrite Ep in Hper.
      assert (Hpeer : cl_peer x = Some b) by (destruct (accounts c); congruence).
      unfold is_peer in Ho; rewrite Hpeer, N.eqb_refl in Ho; inversion Ho; auto.
    + exact Hf.
  - destruct (ac_cleanup s); [|exact Hf]. unfold free_at, OnCleanupTimer; cbn [snd ac_map mk_ac].
    intros p Hl; rewrite lookup_filter in Hl by apply (wf_map _ _ H).
    destruct (lookup a (ac_map s)) as [q|] eqn:El; [|discriminate].
    destruct (negb (expired now q)); [|discriminate]. apply Hf; congruence.
Qed.

Lemma free_run : forall c a B ops s, wf c s -> free_at a B s ->
  Forall (fun t => t + 60000 <= B) (overdrafts c a ops s) -> free_at a B (arun c ops s).
Proof.
  induction ops as [|o ops IH]; intros s H Hf Ho; [exact Hf|]. cbn [arun overdrafts] in *.
  apply Forall_app in Ho as [Ho1 Ho2]. apply IH; [apply wf_step; exact H|apply free_step; auto|exact Ho2].
Qed.

(** ** Remembering *)

Definition marked_entry (t : N) (p : per_client) : Prop :=
  t + 60000 <= pc_tarpit_until p /\ 100 <= pc_delay p /\
  (pc_connections p <> [] \/ t + 300000 <= pc_expires p).

Definition marked (a t : N) (s : accounting) : Prop :=
  exists p, lookup a (ac_map s) = Some p /\ marked_entry t p.

Lemma marked_change : forall a b f t s cl op n,
  (forall p, pc_address (f p) = pc_address p) ->
  (forall p, lookup a (ac_map s) = Some p -> marked_entry t p -> marked_entry t (f p)) ->
  marked a t s -> marked a t (mk_ac (change b f (ac_map s)) cl op n).
Proof.
  intros a b f t s cl op n Ha Hf (p & Hl & Hp); unfold marked; cbn [ac_map mk_ac].
  rewrite lookup_change by exact Ha. rewrite Hl. destruct (a =? b).
  - exists (f p); split; [reflexivity|auto].
  - exists p; auto.
Qed.

Lemma update_marked : forall c now over p t, delay_ok (pc_delay p) -> t <= now -> now < t + 60000 ->
  marked_entry t p -> marked_entry t (UpdateTokenBucket c now over p).
Proof.
  intros c now over p t [[k Hk] Hm] Ht1 Ht2 (H1 & H2 & H3).
  unfold marked_entry; rewrite update_conns, update_expires.
  unfold UpdateTokenBucket; destruct (negb (tarpit c)); [auto|].
  destruct over; [|destruct (N.ltb_spec now (pc_tarpit_until p)); [|lia]]; cbn [pc_tarpit_until pc_delay mk_pc].
  - repeat split; [lia| |exact H3]. destruct (pc_delay p <? 60000); lia.
  - repeat split; [lia| |exact H3]. destruct (N.ltb_spec 100 (pc_delay p)); lia.
Qed.

Lemma marked_open : forall a t k peer per s, marked a t s -> marked a t (open_client k peer per s).
Proof.
  intros a t k peer per s H; unfold open_client. destruct per as [b|].
  - apply marked_change; auto. intros p _ (H1 & H2 & H3).
    repeat split; [exact H1|exact H2|left; cbn; destruct (pc_connections p); discriminate].
  - destruct H as (p & Hl & Hp); exists p; auto.
Qed.

Lemma marked_destroy : forall a t now x s, t <= now -> marked a t s -> marked a t (destroy_client now x s).
Proof.
  intros a t now x s Ht H; unfold destroy_client. destruct (cl_per_client x) as [b|].
  - apply marked_change; auto. intros p _ (H1 & H2 & H3).
    repeat split; [exact H1|exact H2|right; cbn [RemoveConnection pc_expires mk_pc]; lia].
  - destruct H as (p & Hl & Hp); exists p; auto.
Qed.

Lemma marked_Get : forall a t b s, marked a t s ->
  marked a t (mk_ac (Get b (ac_map s)) (ac_cleanup s) (ac_open s) (ac_next s)).
Proof.
  intros a t b s (p & Hl & Hp); exists p; cbn [ac_map mk_ac]; rewrite lookup_Get, Hl; auto.
Qed.

(** The state of the accounting when OnAccept() looks at the entry. *)
Definition arrived (c : acfg) (now b : N) (over : bool) (s : accounting) : accounting :=
  mk_ac (change b (UpdateTokenBucket c now over) (Get b (ac_map s))) (ac_cleanup s) (ac_open s) (ac_next s).

Lemma marked_arrived : forall c a t now b over s, wf c s -> t <= now -> now < t + 60000 ->
  marked a t s -> marked a t (arrived c now b over s).
Proof.
  intros c a t now b over s H Ht1 Ht2 Hm; unfold arrived.
  pose proof (wf_Get c b s H) as Hg. pose proof (marked_Get a t b s Hm) as Hm'.
  apply (marked_change a b (UpdateTokenBucket c now over) t _ (ac_cleanup s) (ac_open s) (ac_next s)) in Hm'.
  - exact Hm'.
  - apply update_address.
  - intros p Hl Hp; apply update_marked; auto. apply (wf_delay _ _ Hg a p Hl).
Qed.

Lemma marked_step : forall c a t o s, wf c s -> t <= time_of o -> time_of o < t + 60000 ->
  marked a t s -> marked a t (snd (astep c o s)).
Proof.
  intros c a t o s H Ht1 Ht2 Hm; destruct o as [now peer over fails|now id fails|now id|now id over|now];
    cbn [time_of] in *; unfold astep.
  - unfold OnAccept; destruct (if accounts c then peer else None) as [b|] eqn:Ep.
    + pose proof (marked_arrived c a t now b over s H Ht1 Ht2 Hm) as Hu; unfold arrived in Hu.
      destruct (lookup b (change b (UpdateTokenBucket c now over) (Get b (ac_map s)))) as [p|]; [|exact Hu].
      destruct (negb (Check c p)); [exact Hu|].
      destruct (0 <? pc_delay p); [apply marked_open; exact Hu|].
      unfold serve; destruct fails; [exact Hu|apply marked_open; exact Hu].
    + unfold serve; destruct fails; [exact Hm|apply marked_open; exact Hm].
  - destruct (find_client id s) as [x|]; [|exact Hm]. destruct (cl_kind x); [|exact Hm]. cbn [snd]; unfold OnTimer.
    apply marked_destroy; [exact Ht1|]. unfold serve; destruct fails; [exact Hm|apply marked_open; exact Hm].
  - destruct (find_client id s) as [x|]; [|exact Hm]. cbn [snd]; apply marked_destroy; auto.
  - destruct (find_client id s) as [x|]; [|exact Hm]. destruct (cl_kind x); [exact Hm|].
    destruct (cl_per_client x) as [b|]; [|exact Hm]. cbn [snd].
    apply marked_change; [apply update_address| |exact Hm].
    intros p Hl Hp; apply update_marked; auto. apply (wf_delay _ _ H a p Hl).
  - destruct (ac_cleanup s); [|exact Hm]. destruct Hm as (p & Hl & Hp).
    exists p; split; [|exact Hp]. unfold OnCleanupTimer; cbn [snd ac_map mk_ac].
    rewrite lookup_filter by apply (wf_map _ _ H). rewrite Hl.
    destruct Hp as (_ & _ & [Hc|Hx]); unfold expired.
    + destruct (pc_connections p); [congruence|reflexivity].
    + destruct (pc_connections p); [|reflexivity].
      destruct (N.leb_spec (pc_expires p) now); [lia|reflexivity].
Qed.

Lemma clock_le : forall ops now o, clock_ok now (ops ++ [o]) -> Forall (fun x => time_of x <= time_of o) ops.
Proof.
  induction ops as [|x ops IH]; intros now o H; [constructor|].
  cbn [app clock_ok] in H; destruct H as [H1 H2]. pose proof (IH _ _ H2) as H3. constructor; [|exact H3].
  clear - H2. revert H2; generalize (time_of x); induction ops as [|y ops IH]; intros t H; cbn [app clock_ok] in H.
  - lia.
  - destruct H as [H1 H2]; specialize (IH _ H2); lia.
Qed.

Lemma clock_ge : forall ops now o, clock_ok now ops -> In o ops -> now <= time_of o.
Proof.
  induction ops as [|x ops IH]; intros now o H Hin; [destruct Hin|].
  cbn [clock_ok] in H; destruct H as [H1 H2]. destruct Hin as [->|Hin]; [exact H1|].
  specialize (IH _ _ H2 Hin); lia.
Qed.

Lemma clock_app : forall l now l', clock_ok now (l ++ l') -> clock_ok now l /\
  exists t, now <= t /\ clock_ok t l'.
Proof.
  induction l as [|x l IH]; intros now l' H; cbn [app clock_ok] in *.
  - split; [exact Logic.I|exists now; split; [lia|exact H]].
  - destruct H as [H1 H2]; destruct (IH _ _ H2) as (H3 & t & H4 & H5).
    split; [split; assumption|exists t; split; [lia|exact H5]].
Qed.

Lemma marked_run : forall c a t ops s, wf c s ->
  Forall (fun o => t <= time_of o /\ time_of o < t + 60000) ops ->
  marked a t s -> marked a t (arun c ops s).
Proof.
  induction ops as [|o ops IH]; intros s H Ho Hm; [exact Hm|]. cbn [arun].
  inversion Ho as [|? ? [H1 H2] H3]; subst. apply IH; [apply wf_step; exact H|exact H3|apply marked_step; auto].
Qed.

(** An overdraft marks the address. *)
Lemma update_over : forall c now p, tarpit c = true -> delay_ok (pc_delay p) ->
  100 <= pc_delay (UpdateTokenBucket c now true p) /\
  pc_tarpit_until (UpdateTokenBucket c now true p) = now + 60000.
Proof.
  intros c now p Ht [[k Hk] Hm]; unfold UpdateTokenBucket; rewrite Ht; cbn [negb pc_delay pc_tarpit_until mk_pc].
  split; [|reflexivity]. destruct (N.ltb_spec (pc_delay p) 60000); lia.
Qed.

Lemma overdraft_marks : forall c a o s t, wf c s -> tarpit c = true -> In t (overdraft a o s) ->
  t = time_of o /\ marked a t (snd (astep c o s)).
Proof.
  intros c a o s t H Ht Hin; assert (Hacc : accounts c = true).
  { unfold accounts; rewrite Ht; apply orb_true_r. }
  destruct o as [now peer over fails|now id fails|now id|now id over|now]; cbn [overdraft time_of] in *.
  - destruct peer as [b|]; [|destruct Hin]. destruct over; [|destruct Hin].
    destruct (N.eqb_spec a b) as [->|]; [|destruct Hin]. destruct Hin as [->|[]].
    split; [reflexivity|]. unfold astep, OnAccept; rewrite Hacc.
    pose proof (wf_Get c b s H) as Hg.
    pose proof (wf_update c t true b _ Hg) as Hu; cbn [ac_map ac_cleanup ac_open ac_next mk_ac] in Hu.
    pose proof (lookup_change b b (UpdateTokenBucket c t true) (Get b (ac_map s)) (update_address c t true)) as Hl.
    rewrite N.eqb_refl in Hl.
    assert (Hsome : exists q, lookup b (Get b (ac_map s)) = Some q).
    { rewrite lookup_Get, N.eqb_refl; destruct (lookup b (ac_map s)); eauto. }
    destruct Hsome as [q Hq]. rewrite Hq in Hl; cbn [option_map] in Hl.
    destruct (update_over c t q Ht (wf_delay _ _ Hg b q Hq)) as [Hd Htu].
    rewrite Hl. destruct (Check c (UpdateTokenBucket c t true q)) eqn:Ec; cbn [negb].
    + destruct (N.ltb_spec 0 (pc_delay (UpdateTokenBucket c t true q))); [|lia]. cbn [snd].
      unfold open_client, marked; cbn [ac_map mk_ac].
      rewrite lookup_change by apply add_address. rewrite N.eqb_refl, Hl; cbn [option_map].
      eexists; split; [reflexivity|]. repeat split; cbn [AddConnection pc_tarpit_until pc_delay pc_connections mk_pc].
      * rewrite Htu; lia.
      * exact Hd.
      * left; destruct (pc_connections (UpdateTokenBucket c t true q)); discriminate.
    + cbn [snd]; unfold marked; cbn [ac_map mk_ac]. eexists; split; [exact Hl|].
      repeat split; [rewrite Htu; lia|exact Hd|left].
      unfold Check in Ec; apply orb_false_iff in Ec as [E1 E2].
      apply N.eqb_neq in E1. apply N.ltb_ge in E2. intros E; rewrite E in E2; cbn in E2; lia.
  - destruct Hin.
  - destruct Hin.
  - destruct over; [|destruct Hin].
    destruct (find (fun x => cl_id x =? id) (ac_open s)) as [x|] eqn:E; [|destruct Hin].
    destruct (cl_kind x) eqn:Ek; [destruct Hin|].
    destruct (is_peer a x) eqn:Ea; [|destruct Hin]. destruct Hin as [->|[]]. split; [reflexivity|].
    unfold is_peer in Ea; destruct (cl_peer x) as [b|] eqn:Eb; [|discriminate]. apply N.eqb_eq in Ea; subst b.
    unfold astep. change (find (fun x => cl_id x =? id) (ac_open s)) with (find_client id s) in E. rewrite E, Ek.
    destruct (find_client_spec _ _ _ E) as [Hx _].
    pose proof (per_in _ _ _ H Hx) as Hper; rewrite Hacc, Eb in Hper. rewrite Hper.
    destruct (per_entry _ _ _ _ H Hx Hper) as (p & Hl & Hin).
    cbn [snd]; unfold marked; cbn [ac_map mk_ac]. rewrite lookup_change by apply update_address.
    rewrite N.eqb_refl, Hl; cbn [option_map]. eexists; split; [reflexivity|].
    destruct (update_over c t p Ht (wf_delay _ _ H a p Hl)) as [Hd Htu].
    repeat split; [rewrite Htu; lia|exact Hd|left]. rewrite update_conns. intros E'; rewrite E' in Hin; destruct Hin.
  - destruct Hin.
Qed.

(** A marked address is not served at once. *)
Lemma marked_accept : forall c a t now over fails s, wf c s -> accounts c = true ->
  t <= now -> now < t + 60000 -> marked a t s ->
  fst (OnAccept c now (Some a) over fails s) = Rejected \/
  exists d, fst (OnAccept c now (Some a) over fails s) = Held d /\ 100 <= d.
Proof.
  intros c a t now over fails s H Hacc Ht1 Ht2 Hm.
  destruct (marked_arrived c a t now a over s H Ht1 Ht2 Hm) as (p & Hl & _ & Hd & _).
  unfold arrived in Hl; cbn [ac_map mk_ac] in Hl. unfold OnAccept; rewrite Hacc, Hl.
  destruct (negb (Check c p)); [left; reflexivity|right].
  destruct (N.ltb_spec 0 (pc_delay p)); [|lia]. exists (pc_delay p); auto.
Qed.

(** * Cleaning up *)

Definition constructs (o : aop) : bool :=
  match o with AAccept _ _ _ fails => negb fails | _ => true end.

(** The timer is pending if there is something to clean up. *)
Definition tidy (s : accounting) : Prop :=
  forall a p, lookup a (ac_map s) = Some p -> pc_connections p = [] -> ac_cleanup s = true.

Definition fresh_until (B : N) (s : accounting) : Prop :=
  forall a p, lookup a (ac_map s) = Some p -> pc_expires p <= B.

Lemma tidy_open : forall k peer per s,
  (forall a p, per <> Some a -> lookup a (ac_map s) = Some p -> pc_connections p = [] -> ac_cleanup s = true) ->
  tidy (open_client k peer per s).
Proof.
  intros k peer per s H a p; unfold open_client; cbn [ac_map ac_cleanup mk_ac].
  destruct per as [b|]; [|apply H; discriminate].
  rewrite lookup_change by apply add_address. destruct (N.eqb_spec a b) as [->|E].
  - destruct (lookup b (ac_map s)) as [q|]; [|discriminate]. cbn [option_map]; intros Hp.
    assert (p = AddConnection (ac_next s) q) by congruence; subst p; cbn [AddConnection pc_connections mk_pc].
    destruct (pc_connections q); discriminate.
  - apply H; congruence.
Qed.

Lemma tidy_destroy : forall now x s, tidy s -> tidy (destroy_client now x s).
Proof.
  intros now x s H; unfold destroy_client; destruct (cl_per_client x) as [b|]; [|exact H].
  intros a p; cbn [ac_map ac_cleanup mk_ac]; intros Hl Hp.
  destruct (N.eq_dec a b) as [E|E].
  - subst b; rewrite Hl, Hp; apply orb_true_r.
  - rewrite lookup_change in Hl by apply remove_address. rewrite (proj2 (N.eqb_neq _ _) E) in Hl.
    rewrite (H a p Hl Hp); reflexivity.
Qed.

Lemma tidy_step : forall c o s, wf c s -> constructs o = true -> tidy s -> tidy (snd (astep c o s)).
Proof.
  intros c o s H Hc Ht; destruct o as [now peer over fails|now id fails|now id|now id over|now]; unfold astep.
  - cbn [constructs] in Hc; apply negb_true_iff in Hc; subst fails.
    unfold OnAccept; destruct (if accounts c then peer else None) as [b|] eqn:Ep.
    + assert (Hother : forall a p, Some b <> Some a ->
         lookup a (change b (UpdateTokenBucket c now over) (Get b (ac_map s))) = Some p ->
         pc_connections p = [] -> ac_cleanup s = true).
      { intros a p E Hl Hp; rewrite lookup_change in Hl by apply update_address.
        destruct (N.eqb_spec a b); [congruence|]. rewrite lookup_Get in Hl.
        destruct (lookup a (ac_map s)) as [q|] eqn:El.
        - apply (Ht a p); congruence.
        - destruct (N.eqb_spec a b); [congruence|discriminate]. }
      destruct (lookup b (change b (UpdateTokenBucket c now over) (Get b (ac_map s)))) as [p|] eqn:El.
      * destruct (Check c p) eqn:Ec; cbn [negb].
        -- destruct (0 <? pc_delay p); [apply tidy_open; exact Hother|].
           unfold serve; cbn [snd]; apply tidy_open; exact Hother.
        -- cbn [snd]; intros a q Hl Hq; cbn [ac_map ac_cleanup mk_ac] in *.
           destruct (N.eq_dec a b) as [E|E]; [|apply (Hother a q); congruence].
           subst a. assert (q = p) by congruence; subst q.
           unfold Check in Ec; rewrite Hq in Ec; apply orb_false_iff in Ec as [E1 E2].
           apply N.eqb_neq in E1. apply N.ltb_ge in E2. cbn in E2; lia.
      * rewrite lookup_change in El by apply update_address. rewrite N.eqb_refl, lookup_Get, N.eqb_refl in El.
        destruct (lookup b (ac_map s)); discriminate.
    + unfold serve; cbn [snd]; apply tidy_open. intros a p _; apply Ht.
  - destruct (find_client id s) as [x|] eqn:E; [|exact Ht]. destruct (cl_kind x); [|exact Ht]. cbn [snd]; unfold OnTimer.
    apply tidy_destroy; unfold serve; destruct fails; [exact Ht|]. cbn [snd]; apply tidy_open; intros a p _; apply Ht.
  - destruct (find_client id s) as [x|]; [|exact Ht]. cbn [snd]; apply tidy_destroy; exact Ht.
  - destruct (find_client id s) as [x|]; [|exact Ht]. destruct (cl_kind x); [exact Ht|].
    destruct (cl_per_client x) as [b|]; [|exact Ht]. cbn [snd]; intros a p Hl Hp; cbn [ac_map ac_cleanup mk_ac] in *.
    rewrite lookup_change in Hl by apply update_address. destruct (a =? b); [|eauto].
    destruct (lookup a (ac_map s)) as [q|] eqn:El; [|discriminate]. cbn [option_map] in Hl.
    assert (p = UpdateTokenBucket c now over q) by congruence; subst p. rewrite update_conns in Hp; eauto.
  - destruct (ac_cleanup s) eqn:E; [|exact Ht]. cbn [snd]; intros a p Hl Hp.
    unfold OnCleanupTimer in *; cbn [ac_map ac_cleanup mk_ac] in *.
    apply existsb_exists; exists p; split; [apply (lookup_address _ _ _ Hl)|]. unfold idle; rewrite Hp; reflexivity.
Qed.

Lemma fresh_change : forall b f s cl op n B,
  (forall p, pc_address (f p) = pc_address p) -> (forall p, pc_expires p <= B -> pc_expires (f p) <= B) ->
  fresh_until B s -> fresh_until B (mk_ac (change b f (ac_map s)) cl op n).
Proof.
  intros b f s cl op n B Ha Hf H a p; cbn [ac_map mk_ac]. rewrite lookup_change by exact Ha.
  destruct (a =? b); [|apply H]. destruct (lookup a (ac_map s)) as [q|] eqn:El; [|discriminate].
  cbn [option_map]; intros Hp; assert (p = f q) by congruence; subst p; eauto.
Qed.

Lemma fresh_open : forall B k peer per s, fresh_until B s -> fresh_until B (open_client k peer per s).
Proof.
  intros B k peer per s H; unfold open_client; destruct per as [b|]; [|exact H]. apply fresh_change; auto.
Qed.

Lemma fresh_destroy : forall B now x s, now + 300000 <= B -> fresh_until B s -> fresh_until B (destroy_client now x s).
Proof.
  intros B now x s Hn H; unfold destroy_client; destruct (cl_per_client x) as [b|]; [|exact H].
  apply fresh_change; auto.
Qed.

Lemma fresh_step : forall c B o s, wf c s -> time_of o + 300000 <= B -> fresh_until B s ->
  fresh_until B (snd (astep c o s)).
Proof.
  intros c B o s Hwf Hn H; destruct o as [now peer over fails|now id fails|now id|now id over|now];
    cbn [time_of] in Hn; unfold astep.
  - unfold OnAccept; destruct (if accounts c then peer else None) as [b|].
    + assert (Hg : fresh_until B (mk_ac (Get b (ac_map s)) (ac_cleanup s) (ac_open s) (ac_next s))).
      { intros a p; cbn [ac_map mk_ac]; rewrite lookup_Get. destruct (lookup a (ac_map s)) as [q|] eqn:El.
        - intros Hp; assert (p = q) by congruence; subst; eauto.
        - destruct (a =? b); [|discriminate]. intros Hp; assert (p = new_client a) by congruence; subst; cbn; lia. }
      assert (Hu : fresh_until B (mk_ac (change b (UpdateTokenBucket c now over) (Get b (ac_map s)))
                                  (ac_cleanup s) (ac_open s) (ac_next s))).
      { apply (fresh_change b (UpdateTokenBucket c now over)
                 (mk_ac (Get b (ac_map s)) (ac_cleanup s) (ac_open s) (ac_next s))); [apply update_address| |exact Hg].
        intros p Hp; rewrite update_expires; exact Hp. }
      destruct (lookup b (change b (UpdateTokenBucket c now over) (Get b (ac_map s)))) as [p|]; [|exact Hu].
      destruct (negb (Check c p)); [exact Hu|].
      destruct (0 <? pc_delay p); [apply fresh_open; exact Hu|].
      unfold serve; destruct fails; [exact Hu|apply fresh_open; exact Hu].
    + unfold serve; destruct fails; [exact H|apply fresh_open; exact H].
  - destruct (find_client id s) as [x|]; [|exact H]. destruct (cl_kind x); [|exact H]. cbn [snd]; unfold OnTimer.
    apply fresh_destroy; [exact Hn|]. unfold serve; destruct fails; [exact H|apply fresh_open; exact H].
  - destruct (find_client id s) as [x|]; [|exact H]. cbn [snd]; apply fresh_destroy; auto.
  - destruct (find_client id s) as [x|]; [|exact H]. destruct (cl_kind x); [exact H|].
    destruct (cl_per_client x) as [b|]; [|exact H]. cbn [snd]. apply fresh_change; [apply update_address| |exact H].
    intros p Hp; rewrite update_expires; exact Hp.
  - destruct (ac_cleanup s); [|exact H]. cbn [snd]; intros a p; unfold OnCleanupTimer; cbn [ac_map mk_ac].
    rewrite lookup_filter by apply (wf_map _ _ Hwf).
    destruct (lookup a (ac_map s)) as [q|] eqn:El; [|discriminate].
    destruct (negb (expired now q)); [|discriminate]. intros Hp; assert (p = q) by congruence; subst; eauto.
Qed.

Lemma tidy_run : forall c ops s, wf c s -> Forall (fun o => constructs o = true) ops -> tidy s -> tidy (arun c ops s).
Proof.
  induction ops as [|o ops IH]; intros s H Hc Ht; [exact Ht|]. inversion Hc; subst; cbn [arun].
  apply IH; [apply wf_step; exact H|assumption|apply tidy_step; auto].
Qed.

Lemma fresh_run : forall c B ops s, wf c s -> Forall (fun o => time_of o + 300000 <= B) ops ->
  fresh_until B s -> fresh_until B (arun c ops s).
Proof.
  induction ops as [|o ops IH]; intros s H Hc Ht; [exact Ht|]. inversion Hc; subst; cbn [arun].
  apply IH; [apply wf_step; exact H|assumption|apply fresh_step; auto].
Qed.
