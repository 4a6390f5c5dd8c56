(** Facts about connections which wait to be forwarded. *)

From Coq Require Import NArith Arith List Bool Lia String.
From Verif.Base Require Import Bytes.
From Verif.Spec Require Import WireSpec ChannelSpec ForwarderSpec.
From Verif.Model Require Import Wire Frame Packets Requests Channels Forwarders.
From Verif.Proofs Require Import ChannelSteps ChannelStatus ChannelObjects ChannelFactories ChannelFacts.
Import ListNotations.
Open Scope N_scope.

(** ** What an operation of the channel table can log *)

Definition other (e : cev) : Prop := match e with Asked _ | Revoked _ => False | _ => True end.
Definition adds (s s' : cstate) : Prop := exists evs, cs_log s' = evs ++ cs_log s /\ Forall other evs.

Lemma adds_refl : forall s, adds s s.
Proof. intros s. now exists []. Qed.
Lemma adds_trans : forall a b c, adds a b -> adds b c -> adds a c.
Proof.
  intros a b c (x & X & FX) (y & Y & FY). exists (y ++ x). rewrite Y, X, app_assoc. split; [reflexivity|]. apply Forall_app. now split.
Qed.
Lemma adds_log : forall e s, other e -> adds s (log e s).
Proof. intros e s O. exists [e]. split; [reflexivity|]. now constructor. Qed.
Lemma adds_same : forall s s', cs_log s' = cs_log s -> adds s s'.
Proof. intros s s' E. exists []. now rewrite E. Qed.
Lemma adds_die : forall r s, adds s (die r s).
Proof.
  intros r s. destruct (die_spec r s) as (L & _). exists (deaths (cs_slots s) ++ [Died r]). split; [rewrite L, <- app_assoc; reflexivity|].
  apply Forall_app. split; [|now constructor]. unfold deaths. apply Forall_rev. apply Forall_forall. intros e I. apply in_flat_map in I. destruct I as (n & _ & I).
  unfold death_event in I. destruct (cs_slots s n) as [[f w []|p w|c|c]|]; cbn in I; try contradiction; destruct I as [<-|[]]; exact Logic.I.
Qed.
Lemma adds_replies : forall n c rs s, adds s (send_replies n c rs s).
Proof.
  intros n c rs s. destruct (send_replies_spec n c rs s) as (L & _). eexists. split; [exact L|]. unfold reply_events. apply Forall_rev, Forall_forall.
  intros e I. apply in_map_iff in I. destruct I as (b & <- & _). exact Logic.I.
Qed.

Ltac add1 :=
  lazymatch goal with
  | |- adds ?s ?s => apply adds_refl
  | |- adds ?s (die ?r ?x) => apply (adds_trans s x); [|apply adds_die]
  | |- adds ?s (log ?e ?x) => apply (adds_trans s x); [|apply adds_log; exact Logic.I]
  | |- adds ?s (set_slot ?n ?v ?x) => apply (adds_trans s x); [|apply adds_same; reflexivity]
  | |- adds ?s (put ?n ?t ?v ?x) => apply (adds_trans s x); [|apply adds_same; reflexivity]
  | |- adds ?s (fresh ?x) => apply (adds_trans s x); [|apply adds_same; reflexivity]
  | |- adds ?s (send_replies ?n ?c ?r ?x) => apply (adds_trans s x); [|apply adds_replies]
  | |- adds ?s (delete_slot ?n ?o ?x) => apply (adds_trans s x); [|unfold delete_slot; destruct o as [[? ? []|? ?|?|?]|]]
  | |- adds ?s (if ?b then _ else _) => destruct b
  | |- adds ?s (match ?b with _ => _ end) => destruct b
  | |- adds ?s (let '(_, _) := ?b in _) => destruct b
  | |- adds ?s (let x := _ in _) => cbv zeta
  end.

Lemma adds_submit : forall n t c x s, adds s (submit_replies n t c x s).
Proof. intros n t c [[rs l] f] s. unfold submit_replies. repeat add1. Qed.

Lemma adds_notify : forall n call r s, adds s (notify n call r s).
Proof. intros. unfold notify. cbv zeta. repeat add1. Qed.

Lemma adds_deliver : forall n d call r s, adds s (deliver n d call r s).
Proof. intros. unfold deliver. cbv zeta. repeat add1. Qed.

Lemma adds_confirm : forall n p sw rw s, adds s (confirm n p sw rw s).
Proof. intros. unfold confirm. cbv zeta. repeat add1. Qed.
Ltac add2 := first [add1
  | lazymatch goal with
    | |- adds ?s (submit_replies ?n ?t ?c ?y ?x) => apply (adds_trans s x); [|apply adds_submit]
    | |- adds ?s (notify _ _ _ ?x) => apply (adds_trans s x); [|apply adds_notify]
    | |- adds ?s (deliver _ _ _ _ ?x) => apply (adds_trans s x); [|apply adds_deliver]
    | |- adds ?s (confirm _ _ _ _ ?x) => apply (adds_trans s x); [|apply adds_confirm]
    end].

Lemma adds_packet : forall E msg p r s s', HandlePacket E msg p r s = Some s' -> adds s s'.
Proof.
  intros E msg p r s s' H. unfold HandlePacket in H. cbv zeta in H.
  assert (A : adds s (log (Received msg p) s)) by (apply adds_log; exact Logic.I).
  revert H A. generalize (log (Received msg p) s) as t. intros t H A. apply (adds_trans s t); [exact A|]. clear A.
  destruct msg as [|q]; [discriminate|].
  do 7 (destruct q as [q|q|]; try discriminate); injection H as <-;
    unfold HandleChannelOpen, HandleChannelOpenConfirmation, HandleChannelOpenFailure, HandleChannelWindowAdjust, HandleChannelData,
      HandleChannelExtendedData, HandleChannelEof, HandleChannelClose, HandleChannelRequest, HandleChannelSuccess, HandleChannelFailure; cbv zeta; repeat add2.
Qed.

Definition own_op (o : cop) : Prop := match o with OpOpen _ _ _ _ | OpCancel _ => False | _ => True end.

Lemma adds_step : forall E s o, own_op o -> adds s (cstep E s o).
Proof.
  intros E s o O. unfold cstep. destruct (cs_dead s); [apply adds_refl|]. destruct o; try contradiction.
  { destruct (HandlePacket E msg payload r s) eqn:H; [exact (adds_packet _ _ _ _ _ _ H)|apply adds_refl]. }
  all: unfold on_chan, CloseChannel; cbv zeta; repeat add2.
Qed.

(** ** Changes in which factories only go away *)

Definition b2n (b : bool) : nat := if b then 1%nat else 0%nat.
Definition isfate (e : fev) : Prop := match e with FvGiven _ | FvClosed _ => True | _ => False end.
Definition ids (s : fstate) : list N := map fo_id (fs_live s).

Lemma fates_app : forall f a b, fates f (a ++ b) = (fates f a + fates f b)%nat.
Proof. intros. unfold fates. now rewrite filter_app, app_length. Qed.

Lemma alive_in : forall f s, alive f s = true <-> In f (ids s).
Proof.
  intros f s. unfold alive, ids. rewrite existsb_exists, in_map_iff. split.
  - intros (o & I & E). apply N.eqb_eq in E. eauto.
  - intros (o & E & I). exists o. split; [exact I|]. now apply N.eqb_eq.
Qed.
Lemma alive_not : forall f s, alive f s = false <-> ~ In f (ids s).
Proof. intros f s. rewrite <- alive_in. destruct (alive f s); intuition congruence. Qed.

Record shrinks (s s' : fstate) : Prop := {
  sh_chan : fs_chan s' = fs_chan s;
  sh_next : fs_next s' = fs_next s;
  sh_live : exists p, fs_live s' = filter p (fs_live s);
  sh_log : exists l, fs_log s' = l ++ fs_log s /\ Forall isfate l /\
             forall f, (fates f l + b2n (alive f s') = b2n (alive f s))%nat;
  sh_listeners : incl (fs_listeners s') (fs_listeners s);
  sh_home : (forall o, In o (fs_live s) -> In (fo_listener o) (map fst (fs_listeners s))) ->
            forall o, In o (fs_live s') -> In (fo_listener o) (map fst (fs_listeners s'))
}.

Lemma filter_filter : forall A (p q : A -> bool) l, filter q (filter p l) = filter (fun x => p x && q x) l.
Proof. intros A p q. induction l as [|x l IH]; [reflexivity|]. cbn. destruct (p x); cbn; [destruct (q x); now rewrite IH|exact IH]. Qed.

Lemma filter_all : forall A (l : list A), filter (fun _ => true) l = l.
Proof. induction l as [|x l IH]; [reflexivity|]. cbn. now rewrite IH. Qed.

Lemma sh_refl : forall s, shrinks s s.
Proof.
  intros s. constructor; try reflexivity.
  - exists (fun _ => true). now rewrite filter_all.
  - exists []. split; [reflexivity|]. split; [constructor|]. reflexivity.
  - apply incl_refl.
  - intros H. exact H.
Qed.
Lemma sh_trans : forall a b c, shrinks a b -> shrinks b c -> shrinks a c.
Proof.
  intros a b c [A1 A2 (p & A3) (l & A4 & A5 & A6) A7 A8] [B1 B2 (q & B3) (m & B4 & B5 & B6) B7 B8]. constructor.
  - congruence.
  - congruence.
  - exists (fun x => p x && q x). now rewrite B3, A3, filter_filter.
  - exists (m ++ l). split; [now rewrite B4, A4, app_assoc|]. split; [apply Forall_app; now split|]. intros f. rewrite fates_app. specialize (A6 f). specialize (B6 f). lia.
  - now apply (incl_tran B7).
  - intros H. apply B8. now apply A8.
Qed.

Lemma nodup_filter : forall A B (g : A -> B) p l, NoDup (map g l) -> NoDup (map g (filter p l)).
Proof.
  intros A B g p. induction l as [|x l IH]; intros H; [constructor|]. cbn in H. inversion H as [|? ? N H']; subst. cbn. destruct (p x); [|now apply IH].
  cbn. constructor; [|now apply IH]. intros I. apply N. apply in_map_iff in I. destruct I as (y & E & I). apply filter_In in I. apply in_map_iff. exists y. tauto.
Qed.
Lemma sh_nodup : forall s s', shrinks s s' -> NoDup (ids s) -> NoDup (ids s').
Proof. intros s s' [_ _ (p & E) _ _] H. unfold ids. rewrite E. now apply nodup_filter. Qed.
Lemma sh_alive : forall s s' f, shrinks s s' -> alive f s' = true -> alive f s = true.
Proof.
  intros s s' f [_ _ (p & E) _ _] H. apply alive_in in H. apply alive_in. unfold ids in *. rewrite E in H. apply in_map_iff in H. destruct H as (o & F & I).
  apply filter_In in I. apply in_map_iff. exists o. tauto.
Qed.

Lemma remove_alive : forall f g s, alive f (remove g s) = alive f s && negb (f =? g).
Proof.
  intros f g s. apply eq_true_iff_eq. rewrite andb_true_iff, !alive_in. unfold ids, remove. cbn [fs_live]. rewrite !in_map_iff, negb_true_iff, N.eqb_neq. split.
  - intros (o & <- & I). apply filter_In in I. destruct I as (I & X). apply negb_true_iff, N.eqb_neq in X. split; [eauto|exact X].
  - intros ((o & <- & I) & X). exists o. split; [reflexivity|]. apply filter_In. split; [exact I|]. now apply negb_true_iff, N.eqb_neq.
Qed.

(** one factory ends *)
Lemma sh_remove : forall f e s, (e = FvGiven f \/ e = FvClosed f) -> alive f s = true -> shrinks s (fsay e (remove f s)).
Proof.
  intros f e s E A. constructor; try reflexivity.
  - now exists (fun o => negb (fo_id o =? f)).
  - exists [e]. split; [reflexivity|]. split; [constructor; [destruct E as [-> | ->]; exact Logic.I|constructor]|]. intros g.
    change (alive g (fsay e (remove f s))) with (alive g (remove f s)). rewrite remove_alive. unfold fates.
    destruct E as [-> | ->]; cbn; rewrite (N.eqb_sym f g); destruct (N.eqb_spec g f) as [->|]; cbn; rewrite ?A, ?andb_true_r; reflexivity.
  - apply incl_refl.
  - intros H o I. apply H. cbn in I. apply filter_In in I. tauto.
Qed.

Lemma sh_delete_all : forall fs s, NoDup fs -> (forall f, In f fs -> alive f s = true) ->
  shrinks s (fold_left (fun s f => delete_factory f s) fs s) /\
  (forall f, alive f (fold_left (fun s f => delete_factory f s) fs s) = alive f s && negb (existsb (N.eqb f) fs)).
Proof.
  induction fs as [|f fs IH]; intros s N A; cbn [fold_left existsb].
  - split; [apply sh_refl|]. intros f. now rewrite andb_true_r.
  - inversion N as [|? ? Nf N']; subst. destruct (IH (delete_factory f s) N') as (S & L).
    + intros g I. unfold delete_factory. change (alive g (remove f s) = true). rewrite remove_alive, (A g (or_intror I)). cbn. apply negb_true_iff, N.eqb_neq. intros ->. contradiction.
    + split; [apply (sh_trans _ (delete_factory f s)); [apply sh_remove; [now right|apply A; now left]|exact S]|]. intros g. rewrite L. unfold delete_factory.
      change (alive g (fsay (FvClosed f) (remove f s))) with (alive g (remove f s)). rewrite remove_alive. destruct (g =? f); cbn; [now rewrite !andb_false_r|now rewrite !andb_true_r].
Qed.

Lemma sh_listen : forall p s, 
  (forall o, In o (fs_live s) -> In (fo_listener o) (map fst (fs_listeners s)) -> existsb (fun l => fst l =? fo_listener o) (filter p (fs_listeners s)) = false) ->
  shrinks s (with_listeners (filter (fun l => negb (p l)) (fs_listeners s)) s).
Proof.
  intros p s H. constructor; try reflexivity.
  - exists (fun _ => true). symmetry. apply filter_all.
  - exists []. split; [reflexivity|]. split; [constructor|]. reflexivity.
  - intros x I. cbn in I. apply filter_In in I. tauto.
  - intros F o I. cbn in I. specialize (F o I). specialize (H o I F). cbn. apply in_map_iff in F. destruct F as (l & E & L). apply in_map_iff. exists l. split; [exact E|].
    apply filter_In. split; [exact L|]. apply negb_true_iff. destruct (p l) eqn:P; [|reflexivity]. exfalso.
    assert (X : existsb (fun l => fst l =? fo_listener o) (filter p (fs_listeners s)) = true); [|congruence]. apply existsb_exists. exists l.
    split; [apply filter_In; now split|]. now apply N.eqb_eq.
Qed.

Lemma drop_spec : forall p s, NoDup (ids s) ->
  let '(s', fs) := drop_listeners p s in
  shrinks s s' /\ NoDup fs /\ (forall f, In f fs -> alive f s = true) /\ (forall f, alive f s' = alive f s && negb (existsb (N.eqb f) fs)) /\
  fs_listeners s' = filter (fun l => negb (p l)) (fs_listeners s).
Proof.
  intros p s N. unfold drop_listeners. cbv zeta. set (gone := filter p (fs_listeners s)).
  set (t := with_listeners (filter (fun l => negb (p l)) (fs_listeners s)) s).
  set (q := fun o => existsb (fun l => fst l =? fo_listener o) gone).
  change (fs_live t) with (fs_live s).
  set (fs := map fo_id (filter q (fs_live s))).
  assert (NF : NoDup fs) by (apply nodup_filter; exact N).
  assert (AF : forall f, In f fs -> alive f s = true).
  { intros f I. apply alive_in. apply in_map_iff in I. destruct I as (o & E & I). apply filter_In in I. apply in_map_iff. exists o. tauto. }
  destruct (sh_delete_all fs t NF AF) as (S & L). assert (LI : fs_listeners (fold_left (fun s f => delete_factory f s) fs t) = fs_listeners t).
  { generalize fs t. clear. induction fs as [|f fs IH]; intros t; [reflexivity|]. cbn. now rewrite IH. }
  split; [|split; [exact NF|split; [exact AF|split; [exact L|exact LI]]]].
  (* the order of the two changes does not matter *)
  destruct S as [S1 S2 S3 (l & S4 & S5 & S6) S7 S8]. constructor; [exact S1|exact S2|exact S3| | |].
  - exists l. split; [exact S4|]. split; [exact S5|exact S6].
  - intros x I. apply S7 in I. cbn in I. apply filter_In in I. tauto.
  - intros F o I. rewrite LI. destruct S3 as (r & S3). assert (IL : In o (fs_live s)) by (rewrite S3 in I; apply filter_In in I; tauto).
    assert (Q : q o = false).
    { destruct (q o) eqn:Q; [|reflexivity]. exfalso. assert (IN : In (fo_id o) fs) by (apply in_map_iff; exists o; split; [reflexivity|]; apply filter_In; now split).
      assert (AL : alive (fo_id o) (fold_left (fun s f => delete_factory f s) fs t) = true) by (apply alive_in, in_map_iff; now exists o).
      rewrite L in AL. apply andb_prop in AL. destruct AL as (_ & AL). apply negb_true_iff in AL.
      assert (X : existsb (N.eqb (fo_id o)) fs = true) by (apply existsb_exists; exists (fo_id o); split; [exact IN|apply N.eqb_refl]). congruence. }
    specialize (F o IL). apply in_map_iff in F. destruct F as (x & E & X). apply in_map_iff. exists x. split; [exact E|]. cbn. apply filter_In. split; [exact X|].
    apply negb_true_iff. destruct (p x) eqn:P; [|reflexivity]. exfalso. unfold q in Q. assert (X2 : existsb (fun l => fst l =? fo_listener o) gone = true); [|congruence].
    apply existsb_exists. exists x. split; [apply filter_In; now split|]. now apply N.eqb_eq.
Qed.

(** ** The callbacks of one operation *)

Definition given (evs : list cev) (s s' : fstate) : Prop :=
  forall f, In (FvGiven f) (fs_log s') -> In (FvGiven f) (fs_log s) \/ In (Factory f FCreate) evs.

Record batch (evs : list cev) (c : list N) (s : fstate) (c' : list N) (s' : fstate) : Prop := {
  ba_sh : shrinks s s';
  ba_nodup : NoDup c';
  ba_alive : forall f, alive f s' = true -> cnt (ends f) evs = O;
  ba_new : forall f, In f c' -> alive f s' = false /\ cnt (ends f) evs = O /\ (In f c \/ alive f s = true);
  ba_keep : forall f, alive f s = true \/ In f c -> alive f s' = true \/ In f c' \/ cnt (ends f) evs = 1%nat;
  ba_given : given evs s s'
}.

Lemma cnt_cons : forall P e l, cnt P (e :: l) = (nb (P e) + cnt P l)%nat.
Proof. intros. unfold cnt. cbn [filter]. destruct (P e); reflexivity. Qed.

Lemma existsb_in : forall f l, existsb (N.eqb f) l = true <-> In f l.
Proof.
  intros f l. rewrite existsb_exists. split; [intros (g & I & E); apply N.eqb_eq in E; now subst|]. intros I. exists f. split; [exact I|apply N.eqb_refl].
Qed.

Lemma delete_given : forall gs t f, In (FvGiven f) (fs_log (fold_left (fun s f => delete_factory f s) gs t)) -> In (FvGiven f) (fs_log t).
Proof.
  induction gs as [|g gs IH]; intros t f I; cbn [fold_left] in I; [exact I|]. apply IH in I. cbn in I. destruct I as [X|X]; [discriminate|exact X].
Qed.
Lemma drop_given : forall p s f, In (FvGiven f) (fs_log (fst (drop_listeners p s))) -> In (FvGiven f) (fs_log s).
Proof. intros p s f I. unfold drop_listeners in I. cbv zeta in I. cbn [fst] in I. apply delete_given in I. exact I. Qed.

Lemma nodup_app : forall A (a b : list A), NoDup a -> NoDup b -> (forall x, In x a -> ~ In x b) -> NoDup (a ++ b).
Proof.
  intros A a b NA NB H. induction NA as [|x a NI NA IH]; [exact NB|]. cbn. constructor.
  - rewrite in_app_iff. intros [X|X]; [contradiction|]. exact (H x (or_introl eq_refl) X).
  - apply IH. intros y I. apply H. now right.
Qed.

Lemma callbacks_spec : forall evs c s,
  (forall f, (cnt (ends f) evs <= 1)%nat) ->
  (forall f, cnt (ends f) evs = 1%nat -> alive f s = true \/ In f c) ->
  (forall f, In f c -> alive f s = false) -> NoDup c -> NoDup (ids s) -> Forall other evs ->
  batch evs c s (fst (callbacks evs c s)) (snd (callbacks evs c s)).
Proof.
  induction evs as [|e evs IH]; intros c s H1 H2 H3 H4 H5 H6.
  { cbn. constructor; [apply sh_refl|exact H4|reflexivity| | |].
    - intros f I. split; [now apply H3|]. split; [reflexivity|now left].
    - tauto.
    - intros f I. now left. }
  inversion H6 as [|? ? HO H6']; subst.
  assert (DROP : forall p, (forall f, ends f e = false) ->
    (forall c' s', (c', s') = callbacks evs (c ++ snd (drop_listeners p s)) (fst (drop_listeners p s)) -> batch (e :: evs) c s c' s')).
  { intros p NE c' s' EQ. pose proof (drop_given p s) as DG. pose proof (drop_spec p s H5) as DS. destruct (drop_listeners p s) as (t, fs). cbn [fst snd] in *.
    destruct DS as (DS1 & DS2 & DS3 & DS4 & _).
    assert (CE : forall f, cnt (ends f) (e :: evs) = cnt (ends f) evs) by (intros f; rewrite cnt_cons, NE; reflexivity).
    assert (AT : forall f, alive f t = true <-> alive f s = true /\ ~ In f fs).
    { intros f. rewrite DS4, andb_true_iff, negb_true_iff. rewrite <- existsb_in. destruct (existsb (N.eqb f) fs); intuition congruence. }
    destruct (IH (c ++ fs) t) as [B1 B2 B3 B4 B5 B6].
    - intros f. rewrite <- CE. apply H1.
    - intros f X. rewrite <- CE in X. destruct (H2 f X) as [A|A]; [|right; apply in_or_app; now left].
      destruct (in_dec N.eq_dec f fs) as [I|NI]; [right; apply in_or_app; now right|left; apply AT; now split].
    - intros f I. destruct (alive f t) eqn:A; [|reflexivity]. exfalso. apply AT in A. destruct A as (A & NI). apply in_app_or in I. destruct I as [I|I]; [|contradiction].
      rewrite (H3 f I) in A. discriminate.
    - apply nodup_app; [exact H4|exact DS2|]. intros x I J. specialize (H3 x I). rewrite (DS3 x J) in H3. discriminate.
    - exact (sh_nodup _ _ DS1 H5).
    - exact H6'.
    - rewrite <- EQ in B1, B2, B3, B4, B5, B6. cbn [fst snd] in *. constructor.
      + exact (sh_trans _ _ _ DS1 B1).
      + exact B2.
      + intros f. rewrite CE. apply B3.
      + intros f I. rewrite CE. destruct (B4 f I) as (X & Y & Z). split; [exact X|]. split; [exact Y|]. destruct Z as [Z|Z].
        * apply in_app_or in Z. destruct Z as [Z|Z]; [now left|right; now apply DS3].
        * right. apply AT in Z. tauto.
      + intros f X. rewrite CE. apply B5. destruct X as [X|X]; [|right; apply in_or_app; now left].
        destruct (in_dec N.eq_dec f fs) as [I|NI]; [right; apply in_or_app; now right|left; apply AT; now split].
      + intros f I. destruct (B6 f I) as [X|X]; [left; now apply DG|right; now right]. }
  assert (SKIP : (forall f, ends f e = false) -> batch (e :: evs) c s (fst (callbacks evs c s)) (snd (callbacks evs c s))).
  { intros NE. assert (CE : forall f, cnt (ends f) (e :: evs) = cnt (ends f) evs) by (intros f; rewrite cnt_cons, NE; reflexivity).
    destruct (IH c s) as [B1 B2 B3 B4 B5 B6]; try assumption.
    - intros f. rewrite <- CE. apply H1.
    - intros f X. apply H2. now rewrite CE.
    - constructor; try assumption; try (intros f; rewrite CE; auto). intros f I. destruct (B6 f I) as [X|X]; [now left|right; now right]. }
  destruct e; try contradiction; try (apply SKIP; reflexivity).
  - (* Factory *) cbn [callbacks]. assert (E1 : cnt (ends f) evs = O) by (specialize (H1 f); rewrite cnt_cons in H1; cbn [ends] in H1; rewrite N.eqb_refl in H1; cbn [nb] in H1; lia).
    assert (CE : forall g, g <> f -> cnt (ends g) (Factory f c0 :: evs) = cnt (ends g) evs).
    { intros g NE. rewrite cnt_cons. cbn [ends]. destruct (N.eqb_spec f g); [congruence|reflexivity]. }
    assert (CF : cnt (ends f) (Factory f c0 :: evs) = 1%nat) by (rewrite cnt_cons, E1; cbn [ends]; rewrite N.eqb_refl; reflexivity).
    destruct (existsb (N.eqb f) c) eqn:EC.
    + apply existsb_in in EC. set (c1 := filter (fun g => negb (g =? f)) c).
      assert (IC : forall g, In g c1 <-> In g c /\ g <> f). { intros g. unfold c1. rewrite filter_In, negb_true_iff, N.eqb_neq. tauto. }
      destruct (IH c1 s) as [B1 B2 B3 B4 B5 B6]; try assumption.
      * intros g. destruct (N.eq_dec g f) as [->|NE]; [lia|]. rewrite <- CE; [apply H1|exact NE].
      * intros g X. destruct (N.eq_dec g f) as [->|NE]; [congruence|]. rewrite <- CE in X; [|exact NE]. destruct (H2 g X) as [A|A]; [now left|right; apply IC; now split].
      * intros g I. apply IC in I. apply H3. tauto.
      * apply NoDup_filter. exact H4.
      * constructor; try assumption.
        { intros g A. destruct (N.eq_dec g f) as [->|NE]; [|rewrite CE; [now apply B3|exact NE]]. exfalso. apply (sh_alive _ _ _ B1) in A. rewrite (H3 f EC) in A. discriminate. }
        { intros g I. destruct (B4 g I) as (X & Y & Z). destruct (N.eq_dec g f) as [->|NE].
          - exfalso. destruct Z as [Z|Z]; [apply IC in Z; tauto|]. rewrite (H3 f EC) in Z. discriminate.
          - rewrite CE; [|exact NE]. split; [exact X|]. split; [exact Y|]. destruct Z as [Z|Z]; [left; apply IC in Z; tauto|now right]. }
        { intros g X. destruct (N.eq_dec g f) as [->|NE]; [right; right; exact CF|]. rewrite CE; [|exact NE]. apply B5. destruct X as [X|X]; [now left|right; apply IC; now split]. }
        { intros g I. destruct (B6 g I) as [X|X]; [now left|right; now right]. }
    + assert (NC : ~ In f c) by (rewrite <- existsb_in; congruence). destruct (alive f s) eqn:A.
      2:{ exfalso. destruct (H2 f CF) as [X|X]; [congruence|contradiction]. }
      set (e := match c0 with FCreate => FvGiven f | _ => FvClosed f end).
      assert (EE : e = FvGiven f \/ e = FvClosed f) by (unfold e; destruct c0; auto).
      assert (AR : forall g, alive g (fsay e (remove f s)) = alive g s && negb (g =? f)) by (intros g; exact (remove_alive g f s)).
      pose proof (sh_remove f e s EE A) as SR. destruct (IH c (fsay e (remove f s))) as [B1 B2 B3 B4 B5 B6]; try assumption.
      * intros g. destruct (N.eq_dec g f) as [->|NE]; [lia|]. rewrite <- CE; [apply H1|exact NE].
      * intros g X. destruct (N.eq_dec g f) as [->|NE]; [congruence|]. rewrite <- CE in X; [|exact NE]. rewrite AR. destruct (N.eqb_spec g f); [congruence|]. cbn. rewrite andb_true_r. now apply H2.
      * intros g I. rewrite AR, (H3 g I). reflexivity.
      * exact (sh_nodup _ _ SR H5).
      * constructor; try assumption.
        { exact (sh_trans _ _ _ SR B1). }
        { intros g X. destruct (N.eq_dec g f) as [->|NE]; [|rewrite CE; [now apply B3|exact NE]]. exfalso. apply (sh_alive _ _ _ B1) in X. rewrite AR, N.eqb_refl, andb_false_r in X. discriminate. }
        { intros g I. destruct (B4 g I) as (X & Y & Z). destruct (N.eq_dec g f) as [->|NE].
          - exfalso. destruct Z as [Z|Z]; [contradiction|]. rewrite AR, N.eqb_refl, andb_false_r in Z. discriminate.
          - rewrite CE; [|exact NE]. split; [exact X|]. split; [exact Y|]. destruct Z as [Z|Z]; [now left|right]. rewrite AR in Z. apply andb_prop in Z. tauto. }
        { intros g X. destruct (N.eq_dec g f) as [->|NE]; [right; right; exact CF|]. rewrite CE; [|exact NE]. apply B5. rewrite AR. destruct (N.eqb_spec g f); [congruence|]. cbn. now rewrite andb_true_r. }
        { intros g I. destruct (B6 g I) as [X|X]; [|right; now right]. cbn in X. destruct X as [X|X]; [|now left]. right. left. unfold e in X. destruct c0; congruence. }
  - (* Destroyed *) cbn [callbacks]. pose proof (DROP (fun l => match snd l with Some v => v =? u | None => false end) (fun _ => eq_refl)) as D.
    destruct (drop_listeners (fun l => match snd l with Some v => v =? u | None => false end) s) as (t, fs). cbn [fst snd] in D.
    apply D. symmetry. apply surjective_pairing.
  - (* Died *) cbn [callbacks]. destruct r; try (apply SKIP; reflexivity);
      (pose proof (DROP (fun _ => true) (fun _ => eq_refl)) as D; destruct (drop_listeners (fun _ => true) s) as (t, fs); cbn [fst snd] in D; apply D; symmetry; apply surjective_pairing).
Qed.

(** ** Canceling *)

Notation nA f s := (cnt (asks f) (cs_log (fs_chan s))) (only parsing).
Notation nX f s := (cnt (ends f) (cs_log (fs_chan s))) (only parsing).


Lemma norej_cnt : forall c f, never_refused c -> cnt (rejected f) (cs_log c) = O.
Proof.
  intros c f H. specialize (H f). unfold cnt. induction (cs_log c) as [|e l IH]; [reflexivity|]. cbn. rewrite (H e (or_introl eq_refl)). apply IH. intros x I. apply H. now right.
Qed.
Lemma norej_less : forall c l l', cs_log c = l ++ l' -> never_refused c -> forall f e, In e l' -> rejected f e = false.
Proof. intros c l l' E H f e I. apply (H f e). rewrite E. apply in_or_app. now right. Qed.

Definition reachable (E : renv) (c : cstate) : Prop := exists ops, c = cruns E ops.

Lemma reachable_step : forall E c o, reachable E c -> reachable E (cstep E c o).
Proof. intros E c o (ops & ->). exists (ops ++ [o]). unfold cruns. now rewrite fold_left_app. Qed.

Lemma request_found : forall E c f, reachable E c -> cs_dead c = false -> cnt (rejected f) (cs_log c) = O ->
  cnt (asks f) (cs_log c) = 1%nat -> cnt (ends f) (cs_log c) = O ->
  exists n w, request_of f c = Some n /\ cs_slots c n = Some (SRequested f w false).
Proof.
  intros E c f (ops & ->) D R A X. destruct (cruns_I4 E ops) as (B & _). specialize (B D f). unfold balance in B. rewrite R, A, X in B.
  unfold request_of. destruct (find _ indexes) as [n|] eqn:F.
  - exists n. apply find_some in F. destruct F as (_ & F). destruct (cs_slots (cruns E ops) n) as [[g w []| | |]|]; try discriminate. apply N.eqb_eq in F. subst. eauto.
  - exfalso. rewrite pend_zero in B; [lia|]. intros n I. apply (find_none _ _ F) in I. exact I.
Qed.

Lemma revoke_one : forall E s f, reachable E (fs_chan s) -> cs_dead (fs_chan s) = false -> cnt (rejected f) (cs_log (fs_chan s)) = O ->
  nA f s = 1%nat -> nX f s = O ->
  exists c, revoke E s f = with_chan c s /\ reachable E c /\ cs_dead c = false /\ cs_log c = Revoked f :: cs_log (fs_chan s).
Proof.
  intros E s f R D J A X. destruct (request_found E _ f R D J A X) as (n & w & F & SL). unfold revoke. rewrite F.
  exists (cstep E (fs_chan s) (OpCancel n)). split; [reflexivity|]. split; [now apply reachable_step|]. unfold cstep. rewrite D, SL. split; [exact D|reflexivity].
Qed.

Lemma revoke_all : forall E fs s, NoDup fs -> reachable E (fs_chan s) ->
  (forall f, In f fs -> cs_dead (fs_chan s) = false /\ cnt (rejected f) (cs_log (fs_chan s)) = O /\ nA f s = 1%nat /\ nX f s = O) ->
  exists c l, fold_left (revoke E) fs s = with_chan c s /\ reachable E c /\ cs_dead c = cs_dead (fs_chan s) /\
    cs_log c = l ++ cs_log (fs_chan s) /\ (forall e, In e l -> exists f, e = Revoked f) /\ (forall f, cnt (ends f) l = b2n (existsb (N.eqb f) fs)).
Proof.
  intros E. induction fs as [|f fs IH]; intros s ND R H.
  - exists (fs_chan s), []. cbn. split; [now destruct s|]. split; [exact R|]. split; [reflexivity|]. split; [reflexivity|]. split; [contradiction|reflexivity].
  - inversion ND as [|? ? NI ND']; subst. destruct (H f (or_introl eq_refl)) as (D & J & A & X). destruct (revoke_one E s f R D J A X) as (c & RE & RC & DC & LC).
    cbn [fold_left]. rewrite RE. destruct (IH (with_chan c s) ND' RC) as (c2 & l & F & R2 & D2 & L2 & LR & LE).
    + intros g I. assert (NE : f <> g) by (intros ->; contradiction). cbn [with_chan fs_chan]. rewrite LC, !cnt_cons. cbn [rejected asks ends]. destruct (N.eqb_spec f g); [contradiction|]. cbn [nb].
      destruct (H g (or_intror I)) as (_ & J' & A' & X'). split; [exact DC|]. split; [exact J'|]. split; [exact A'|exact X'].
    + exists c2, (l ++ [Revoked f]). split; [rewrite F; reflexivity|]. split; [exact R2|]. split; [cbn in D2; congruence|].
      split; [rewrite L2; cbn; rewrite LC, <- app_assoc; reflexivity|]. split.
      * intros e I. apply in_app_or in I. destruct I as [I|[<-|[]]]; [now apply LR|now exists f].
      * intros g. rewrite cnt_app, LE. cbn [existsb]. rewrite cnt_cons. cbn [ends]. rewrite (N.eqb_sym g f). destruct (N.eqb_spec f g) as [->|]; cbn.
        { destruct (existsb (N.eqb g) fs) eqn:EX; [apply existsb_in in EX; contradiction|reflexivity]. }
        { lia. }
Qed.

(** ** The invariant *)


Record J (E : renv) (s : fstate) : Prop := {
  j_ops : reachable E (fs_chan s);
  j_nodup : NoDup (ids s);
  j_next : forall f, fs_next s <= f -> nA f s = O /\ alive f s = false;
  j_live : forall f, alive f s = true -> nA f s = 1%nat /\ nX f s = O;
  j_gone : forall f, alive f s = false -> nX f s = nA f s;
  j_home : forall o, In o (fs_live s) -> In (fo_listener o) (map fst (fs_listeners s));
  j_dead : cs_dead (fs_chan s) = true -> fs_live s = [] /\ fs_listeners s = [];
  j_safe : forall f, ~ In (FvUseAfterFree f) (fs_log s);
  j_acc : forall f, accepts f (fs_log s) = b2n (f <? fs_next s);
  j_fate : forall f, (fates f (fs_log s) + b2n (alive f s) = accepts f (fs_log s))%nat;
  j_given : forall f, In (FvGiven f) (fs_log s) -> In (Factory f FCreate) (cs_log (fs_chan s))
}.

Lemma isfate_accepts : forall f l, Forall isfate l -> accepts f l = O.
Proof. intros f l H. unfold accepts. induction H as [|e l He Hl IH]; [reflexivity|]. cbn. destruct e; try contradiction; exact IH. Qed.
Lemma isfate_safe : forall f l, Forall isfate l -> ~ In (FvUseAfterFree f) l.
Proof. intros f l H I. rewrite Forall_forall in H. exact (H _ I). Qed.
Lemma accepts_app : forall f a b, accepts f (a ++ b) = (accepts f a + accepts f b)%nat.
Proof. intros. unfold accepts. now rewrite filter_app, app_length. Qed.

(** what does not depend on the channel table *)
Lemma sh_J_log : forall E s s', J E s -> shrinks s s' ->
  (forall f, ~ In (FvUseAfterFree f) (fs_log s')) /\ (forall f, accepts f (fs_log s') = b2n (f <? fs_next s')) /\
  (forall f, (fates f (fs_log s') + b2n (alive f s') = accepts f (fs_log s'))%nat).
Proof.
  intros E s s' [_ _ _ _ _ _ _ J1 J2 J3 _] [_ S2 _ (l & S4 & S5 & S6) _ _]. split; [|split].
  - intros f I. rewrite S4 in I. apply in_app_or in I. destruct I as [I|I]; [exact (isfate_safe f l S5 I)|exact (J1 f I)].
  - intros f. rewrite S4, accepts_app, (isfate_accepts f l S5), S2. apply J2.
  - intros f. rewrite S4, accepts_app, fates_app, (isfate_accepts f l S5). specialize (S6 f). specialize (J3 f). lia.
Qed.

Lemma live_nil : forall s, (forall f, alive f s = false) -> fs_live s = [].
Proof.
  intros s H. destruct (fs_live s) as [|o l] eqn:L; [reflexivity|]. exfalso. specialize (H (fo_id o)). apply alive_not in H. apply H. unfold ids. rewrite L. now left.
Qed.

Lemma balanced : forall E c f, reachable E c -> never_refused c -> (cnt (ends f) (cs_log c) <= cnt (asks f) (cs_log c))%nat /\
  (cs_dead c = true -> cnt (ends f) (cs_log c) = cnt (asks f) (cs_log c)).
Proof.
  intros E c f (ops & ->) NR. pose proof (norej_cnt _ f NR) as R. destruct (cruns_I4 E ops) as (B1 & B2). unfold balance in *. destruct (cs_dead (cruns E ops)) eqn:D.
  - specialize (B2 eq_refl f). split; [lia|intros; lia].
  - specialize (B1 eq_refl f). split; [lia|discriminate].
Qed.

(** after the objects have gone: those of [fs] are not called anymore *)
Lemma J_revoke : forall E s t c fs, J E s -> shrinks s t -> reachable E c -> never_refused c ->
  (forall f, cnt (asks f) (cs_log c) = nA f s) ->
  (forall f, alive f t = true -> cnt (ends f) (cs_log c) = O) ->
  NoDup fs -> (forall f, In f fs -> alive f t = false /\ alive f s = true /\ cnt (ends f) (cs_log c) = O) ->
  (forall f, alive f t = false -> ~ In f fs -> cnt (ends f) (cs_log c) = cnt (asks f) (cs_log c)) ->
  (cs_dead c = true -> fs_listeners t = []) ->
  (forall f, In (FvGiven f) (fs_log t) -> In (Factory f FCreate) (cs_log c)) ->
  J E (fold_left (revoke E) fs (with_chan c t)).
Proof.
  intros E s t c fs JS SH R NR A1 A2 ND A3 A4 A5 A6.
  assert (LD : forall f, alive f t = true -> cnt (asks f) (cs_log c) = 1%nat) by (intros f L; rewrite A1; apply (j_live _ _ JS); exact (sh_alive _ _ _ SH L)).
  assert (AD : cs_dead c = true -> (forall f, alive f t = false) /\ fs = []).
  { intros D. split.
    - intros f. destruct (alive f t) eqn:L; [|reflexivity]. exfalso. destruct (balanced E c f R NR) as (_ & B). specialize (B D). rewrite (A2 f L), (LD f L) in B. discriminate.
    - destruct fs as [|f fs]; [reflexivity|]. exfalso. destruct (A3 f (or_introl eq_refl)) as (_ & L & X). destruct (balanced E c f R NR) as (_ & B). specialize (B D).
      rewrite X, A1 in B. destruct (j_live _ _ JS f L) as (Y & _). rewrite Y in B. discriminate. }
  destruct (revoke_all E fs (with_chan c t) ND R) as (c2 & l & F & R2 & D2 & L2 & LR & LE).
  { intros f I. destruct (A3 f I) as (_ & L & X). cbn [with_chan fs_chan]. split.
    - destruct (cs_dead c) eqn:D; [|reflexivity]. destruct (AD eq_refl) as (_ & ->). contradiction.
    - split; [now apply norej_cnt|]. split; [rewrite A1; now apply (j_live _ _ JS)|exact X]. }
  cbn [with_chan fs_chan] in *.
  assert (LA : forall f, cnt (asks f) l = O).
  { intros f. clear - LR. induction l as [|e l IH]; [reflexivity|]. rewrite cnt_cons, IH; [|intros x I; apply LR; now right]. destruct (LR e (or_introl eq_refl)) as (g & ->). reflexivity. }
  assert (NF : forall f, existsb (N.eqb f) fs = true -> alive f t = false) by (intros f X; apply existsb_in in X; now apply A3).
  rewrite F. destruct (sh_J_log E s t JS SH) as (Q1 & Q2 & Q3). pose proof (sh_next _ _ SH) as NX.
  constructor; cbn [with_chan fs_chan fs_next fs_listeners fs_live fs_log].
  - exact R2.
  - exact (sh_nodup _ _ SH (j_nodup _ _ JS)).
  - intros f I. rewrite NX in I. destruct (j_next _ _ JS f I) as (X & Y). rewrite L2, cnt_app, LA, A1. split; [exact X|].
    destruct (alive f t) eqn:L; [apply (sh_alive _ _ _ SH) in L; congruence|exact L].
  - intros f L. change (alive f t = true) in L. rewrite L2, !cnt_app, LA, LE, (LD f L), (A2 f L). split; [reflexivity|].
    destruct (existsb (N.eqb f) fs) eqn:X; [rewrite (NF f X) in L; discriminate|reflexivity].
  - intros f L. change (alive f t = false) in L. rewrite L2, !cnt_app, LA, LE. destruct (existsb (N.eqb f) fs) eqn:X.
    + apply existsb_in in X. destruct (A3 f X) as (_ & Y & Z). rewrite Z, A1. destruct (j_live _ _ JS f Y) as (-> & _). reflexivity.
    + rewrite (A4 f L); [reflexivity|]. rewrite <- existsb_in. congruence.
  - apply (sh_home _ _ SH). exact (j_home _ _ JS).
  - intros D. rewrite D2 in D. split; [apply live_nil; now apply AD|now apply A5].
  - exact Q1.
  - exact Q2.
  - exact Q3.
  - intros f I. rewrite L2. apply in_or_app. right. now apply A6.
Qed.

Lemma news_app : forall c c' l, cs_log c' = l ++ cs_log c -> news c c' = rev l.
Proof.
  intros c c' l E. unfold news. f_equal. rewrite E, app_length. replace (List.length l + List.length (cs_log c) - List.length (cs_log c))%nat with (List.length l) by lia.
  rewrite firstn_app, Nat.sub_diag, firstn_all. cbn. apply app_nil_r.
Qed.
Lemma cnt_rev : forall P l, cnt P (rev l) = cnt P l.
Proof. intros P. induction l as [|e l IH]; [reflexivity|]. cbn [rev]. change (e :: l) with ([e] ++ l). rewrite !cnt_app, IH. lia. Qed.
Lemma other_asks : forall f l, Forall other l -> cnt (asks f) l = O.
Proof. intros f l H. induction H as [|e l He Hl IH]; [reflexivity|]. rewrite cnt_cons, IH. destruct e; try contradiction; reflexivity. Qed.

Lemma J_chan : forall E s o, J E s -> own_op o -> never_refused (cstep E (fs_chan s) o) -> J E (chan_op E o s).
Proof.
  intros E s o JS HO NR. set (c := cstep E (fs_chan s) o) in *. assert (R : reachable E c) by (apply reachable_step; apply (j_ops _ _ JS)).
  destruct (adds_step E (fs_chan s) o HO) as (l & L & FO). fold c in L.
  assert (AC : forall f, cnt (asks f) (cs_log c) = nA f s) by (intros f; rewrite L, cnt_app, (other_asks f l FO); reflexivity).
  assert (XC : forall f, cnt (ends f) (cs_log c) = (cnt (ends f) l + nX f s)%nat) by (intros f; rewrite L; apply cnt_app).
  assert (BC : forall f, (alive f s = true /\ (cnt (ends f) l <= 1)%nat) \/ (alive f s = false /\ cnt (ends f) l = O)).
  { intros f. destruct (balanced E c f R NR) as (B & _). rewrite AC, XC in B. destruct (alive f s) eqn:A.
    - left. destruct (j_live _ _ JS f A). split; [reflexivity|lia].
    - right. pose proof (j_gone _ _ JS f A). split; [reflexivity|lia]. }
  unfold chan_op. cbv zeta. fold c. rewrite (news_app _ _ _ L).
  pose proof (callbacks_spec (rev l) [] s) as CS. destruct (callbacks (rev l) [] s) as (c', t). cbn [fst snd] in CS.
  destruct CS as [B1 B2 B3 B4 B5 B6].
  { intros f. rewrite cnt_rev. destruct (BC f) as [(_ & X)|(_ & X)]; lia. }
  { intros f. rewrite cnt_rev. destruct (BC f) as [(X & _)|(_ & X)]; intros; [now left|lia]. }
  { contradiction. }
  { constructor. }
  { exact (j_nodup _ _ JS). }
  { now apply Forall_rev. }
  assert (GV : forall f, In (FvGiven f) (fs_log t) -> In (Factory f FCreate) (cs_log c)).
  { intros f I. rewrite L. apply in_or_app. destruct (B6 f I) as [X|X]; [right; now apply (j_given _ _ JS)|left; now apply in_rev]. }
  assert (P1 : forall f, alive f t = true -> cnt (ends f) (cs_log c) = O).
  { intros f A. rewrite XC. pose proof (B3 f A) as X. rewrite cnt_rev in X. apply (sh_alive _ _ _ B1) in A. destruct (j_live _ _ JS f A). lia. }
  assert (P2 : forall f, In f c' -> alive f t = false /\ alive f s = true /\ cnt (ends f) (cs_log c) = O).
  { intros f I. destruct (B4 f I) as (X & Y & [Z|Z]); [contradiction|]. rewrite cnt_rev in Y. split; [exact X|]. split; [exact Z|]. rewrite XC. destruct (j_live _ _ JS f Z). lia. }
  assert (P3 : forall f, alive f t = false -> ~ In f c' -> cnt (ends f) (cs_log c) = cnt (asks f) (cs_log c)).
  { intros f A NI. rewrite XC, AC. destruct (alive f s) eqn:AS.
    - destruct (B5 f (or_introl AS)) as [X|[X|X]]; [congruence|contradiction|]. rewrite cnt_rev in X. destruct (j_live _ _ JS f AS). lia.
    - destruct (BC f) as [(X & _)|(_ & X)]; [congruence|]. rewrite X. now apply (j_gone _ _ JS). }
  destruct (cs_dead c) eqn:D.
  - assert (C0 : c' = []).
    { destruct c' as [|f c']; [reflexivity|]. exfalso. destruct (P2 f (or_introl eq_refl)) as (_ & X & Y). destruct (balanced E c f R NR) as (_ & B). specialize (B D).
      rewrite Y, AC in B. destruct (j_live _ _ JS f X). lia. }
    assert (A0 : forall f, alive f t = false).
    { intros f. destruct (alive f t) eqn:A; [|reflexivity]. exfalso. destruct (balanced E c f R NR) as (_ & B). specialize (B D). rewrite (P1 f A), AC in B.
      apply (sh_alive _ _ _ B1) in A. destruct (j_live _ _ JS f A). lia. }
    rewrite C0. cbn [fold_left]. pose proof (drop_spec (fun _ => true) t (sh_nodup _ _ B1 (j_nodup _ _ JS))) as DS. pose proof (drop_given (fun _ => true) t) as DG.
    assert (DC : drop_listeners (fun _ => true) (with_chan c t) = (with_chan c (fst (drop_listeners (fun _ => true) t)), snd (drop_listeners (fun _ => true) t))).
    { unfold drop_listeners. cbv zeta. cbn [fst snd]. f_equal. cbn [with_chan with_listeners fs_listeners fs_live]. rewrite (live_nil t A0). reflexivity. }
    rewrite DC. destruct (drop_listeners (fun _ => true) t) as (u, fs). cbn [fst snd] in *. destruct DS as (D1 & D2 & D3 & D4 & D5).
    assert (F0 : fs = []) by (destruct fs as [|f fs]; [reflexivity|]; specialize (D3 f (or_introl eq_refl)); rewrite A0 in D3; discriminate). subst fs.
    apply (J_revoke E s u c []); try assumption.
    + exact (sh_trans _ _ _ B1 D1).
    + intros f A. rewrite D4, A0 in A. discriminate.
    + contradiction.
    + intros f A _. apply P3; [apply A0|rewrite C0; tauto].
    + intros _. rewrite D5. generalize (fs_listeners t). clear. intros ls. induction ls as [|x ls IH]; [reflexivity|exact IH].
    + intros f I. apply GV. now apply DG.
  - apply (J_revoke E s t c c'); try assumption. congruence.
Qed.

(** ** All histories *)

Lemma J_init : forall E, J E fs_init.
Proof.
  intros E. constructor.
  - now exists [].
  - constructor.
  - intros f _. split; reflexivity.
  - discriminate.
  - reflexivity.
  - contradiction.
  - discriminate.
  - intros f I. exact I.
  - intros f. cbn. destruct f; reflexivity.
  - reflexivity.
  - contradiction.
Qed.

Lemma J_listeners : forall E s x, J E s -> cs_dead (fs_chan s) = false -> J E (with_listeners (fs_listeners s ++ [x]) s).
Proof.
  intros E s x [J1 J2 J3 J4 J5 J6 J7 J8 J9 J10 J11] D. constructor; try assumption.
  - intros o I. cbn. rewrite map_app. apply in_or_app. left. now apply J6.
  - cbn. congruence.
Qed.

Lemma J_accept : forall E s l type window data, J E s -> J E (fstep E s (FAccept l type window data)).
Proof.
  intros E s l type window data JS. cbn [fstep] in *. destruct (existsb (fun x => fst x =? l) (fs_listeners s)) eqn:X; cbn [negb] in *; [|exact JS].
  set (f := fs_next s) in *. cbv zeta in *. cbn [fs_chan fsay] in *.
  assert (D : cs_dead (fs_chan s) = false).
  { destruct (cs_dead (fs_chan s)) eqn:D; [|reflexivity]. destruct (j_dead _ _ JS D) as (_ & L). rewrite L in X. discriminate. }
  destruct (j_next _ _ JS f (N.le_refl f)) as (A0 & L0). pose proof (j_gone _ _ JS f L0) as X0. rewrite A0 in X0.
  assert (Ef : f = fs_next s) by reflexivity. clearbody f.
  assert (LT : forall g, b2n (g <? f + 1) = Nat.add (nb (f =? g)) (b2n (g <? f))).
  { intros g. destruct (N.eqb_spec f g) as [<-|NE]; cbn [nb].
    - rewrite N.ltb_irrefl. destruct (N.ltb_spec f (f + 1)); [reflexivity|lia].
    - destruct (N.ltb_spec g (f + 1)), (N.ltb_spec g f); try reflexivity; lia. }
  destruct (AllocateChannelIndex (fs_chan s)) as [n|] eqn:AL.
  - cbn [fs_next fs_listeners fs_live fs_log with_chan fs_chan] in *. unfold cstep in *. rewrite D in *. unfold OpenChannel in *. rewrite AL in *. cbv zeta in *.
    assert (AC : forall g, cnt (asks g) (cs_log (fs_chan s)) = nA g s) by reflexivity.
    assert (R : reachable E (OpenChannel type window data f (fs_chan s))).
    { replace (OpenChannel type window data f (fs_chan s)) with (cstep E (fs_chan s) (OpOpen type window data f)); [apply reachable_step; apply (j_ops _ _ JS)|]. unfold cstep. now rewrite D. }
    unfold OpenChannel in R. rewrite AL in R. cbv zeta in R.
    assert (AN : forall g t, fs_live t = fs_live s ++ [{| fo_id := f; fo_listener := l |}] -> alive g t = alive g s || (f =? g)).
    { intros g t E1. unfold alive. rewrite E1, existsb_app. cbn. now rewrite orb_false_r. }
    constructor; cbn [fsay with_chan fs_chan fs_next fs_listeners fs_live fs_log cs_log log set_slot cs_dead] in *.
    + exact R.
    + unfold ids. cbn [fs_live]. rewrite map_app. cbn. apply nodup_app; [exact (j_nodup _ _ JS)|constructor; [tauto|constructor]|]. intros x I [<-|[]]. apply alive_not in L0. contradiction.
    + intros g G. assert (NE : f <> g) by lia. rewrite !cnt_cons. cbn [asks nb]. rewrite (AN g) by reflexivity. destruct (N.eqb_spec f g); [contradiction|]. rewrite orb_false_r. cbn [nb Nat.add].
      apply (j_next _ _ JS). lia.
    + intros g G. rewrite (AN g) in G by reflexivity. rewrite !cnt_cons. cbn [asks ends nb Nat.add]. destruct (N.eqb_spec f g) as [E1|NE].
      * subst g. cbn [nb]. rewrite A0, X0. split; reflexivity.
      * rewrite orb_false_r in G. cbn [nb Nat.add]. now apply (j_live _ _ JS).
    + intros g G. rewrite (AN g) in G by reflexivity. apply orb_false_iff in G. destruct G as (G & NE). rewrite !cnt_cons. cbn [asks ends]. rewrite NE. cbn [nb Nat.add]. now apply (j_gone _ _ JS).
    + intros o I. apply in_app_or in I. destruct I as [I|[<-|[]]]; [now apply (j_home _ _ JS)|]. cbn. apply existsb_exists in X. destruct X as (y & IY & Y). apply N.eqb_eq in Y. subst l. now apply in_map.
    + rewrite D. discriminate.
    + intros g [I|I]; [discriminate|exact (j_safe _ _ JS g I)].
    + intros g. rewrite LT, Ef, <- (j_acc _ _ JS g), <- Ef. unfold accepts. cbn. destruct (f =? g); reflexivity.
    + intros g. rewrite (AN g) by reflexivity. pose proof (j_fate _ _ JS g) as Q. unfold accepts, fates in *. cbn [filter accepted fate]. destruct (N.eqb_spec f g) as [E1|NE].
      * subst g. cbn [List.length]. rewrite L0 in *. cbn in *. lia.
      * rewrite orb_false_r. exact Q.
    + intros g [I|I]; [discriminate|]. right. right. exact (j_given _ _ JS g I).
  - destruct JS as [J1 J2 J3 J4 J5 J6 J7 J8 J9 J10 J11]. constructor; cbn [fsay fs_chan fs_next fs_listeners fs_live fs_log] in *; try assumption.
    + intros g G. apply J3. lia.
    + intros g [I|[I|I]]; [discriminate|discriminate|exact (J8 g I)].
    + intros g. rewrite LT, Ef, <- (J9 g), <- Ef. unfold accepts. cbn. destruct (f =? g); reflexivity.
    + intros g. specialize (J10 g). change (alive g _) with (alive g s) in *. unfold accepts, fates in *. cbn. destruct (f =? g); cbn in *; lia.
    + intros g [I|[I|I]]; [discriminate|discriminate|exact (J11 g I)].
Qed.

Lemma cancel_log : forall E c n, exists l, cs_log (cstep E c (OpCancel n)) = l ++ cs_log c.
Proof.
  intros E c n. unfold cstep. destruct (cs_dead c); [now exists []|]. destruct (cs_slots c n) as [[f w []| | |]|]; try (now exists []). now exists [Revoked f].
Qed.
Lemma revokes_log : forall E fs s, exists l, cs_log (fs_chan (fold_left (revoke E) fs s)) = l ++ cs_log (fs_chan s).
Proof.
  intros E. induction fs as [|f fs IH]; intros s; [now exists []|]. cbn [fold_left]. destruct (IH (revoke E s f)) as (l & L).
  assert (M : exists m, cs_log (fs_chan (revoke E s f)) = m ++ cs_log (fs_chan s)).
  { unfold revoke. destruct (request_of f (fs_chan s)) as [n|]; [apply cancel_log|now exists []]. }
  destruct M as (m & M). exists (l ++ m). now rewrite L, M, app_assoc.
Qed.
Lemma delete_chan : forall fs s, fs_chan (fold_left (fun s f => delete_factory f s) fs s) = fs_chan s.
Proof. induction fs as [|f fs IH]; intros s; [reflexivity|]. cbn [fold_left]. now rewrite IH. Qed.
Lemma drop_chan : forall p s, fs_chan (fst (drop_listeners p s)) = fs_chan s.
Proof. intros p s. unfold drop_listeners. cbv zeta. cbn [fst]. now rewrite delete_chan. Qed.

Lemma chan_log : forall E o s, exists l, cs_log (fs_chan (chan_op E o s)) = l ++ cs_log (cstep E (fs_chan s) o).
Proof.
  intros E o s. unfold chan_op. cbv zeta. destruct (callbacks _ [] s) as (c', t). destruct (revokes_log E c' (with_chan (cstep E (fs_chan s) o) t)) as (l & L).
  destruct (cs_dead (cstep E (fs_chan s) o)); [|exists l; exact L]. pose proof (drop_chan (fun _ => true) (fold_left (revoke E) c' (with_chan (cstep E (fs_chan s) o) t))) as DC.
  destruct (drop_listeners (fun _ => true) _) as (u, fs). cbn [fst] in DC. destruct (revokes_log E fs u) as (m & M). exists (m ++ l). rewrite M, DC, L, app_assoc. reflexivity.
Qed.
Lemma norej_chan : forall E o s, never_refused (fs_chan (chan_op E o s)) -> never_refused (cstep E (fs_chan s) o).
Proof. intros E o s H. destruct (chan_log E o s) as (l & L). exact (norej_less _ _ _ L H). Qed.

Lemma step_log : forall E s o, exists l, cs_log (fs_chan (fstep E s o)) = l ++ cs_log (fs_chan s).
Proof.
  intros E s o. destruct o as [l|l u|l type window data|f|l|o]; cbn [fstep].
  - destruct (_ || _); now exists [].
  - destruct (_ || _); now exists [].
  - destruct (negb _); [now exists []|]. cbv zeta. cbn [fs_chan fsay]. destruct (AllocateChannelIndex (fs_chan s)) as [n|] eqn:AL; [|now exists []].
    cbn [fs_chan with_chan]. unfold cstep. destruct (cs_dead (fs_chan s)); [now exists []|]. unfold OpenChannel. rewrite AL. cbv zeta. cbn. eexists [_; _]. reflexivity.
  - destruct (alive f s); [|now exists []]. exact (revokes_log E [f] (delete_factory f s)).
  - pose proof (drop_chan (fun x => (fst x =? l) && match snd x with None => true | Some _ => false end) s) as DC. destruct (drop_listeners _ s) as (t, fs). cbn [fst] in DC.
    destruct (revokes_log E fs t) as (m & M). exists m. rewrite M, DC. reflexivity.
  - assert (G : own_op o -> exists m, cs_log (fs_chan (chan_op E o s)) = m ++ cs_log (fs_chan s)).
    { intros O. destruct (chan_log E o s) as (m & M). destruct (adds_step E (fs_chan s) o O) as (k & K & _). exists (m ++ k). now rewrite M, K, app_assoc. }
    destruct o; try (now exists []); exact (G Logic.I).
Qed.

Lemma J_step : forall E s o, J E s -> never_refused (fs_chan (fstep E s o)) -> never_refused (fs_chan s) -> J E (fstep E s o).
Proof.
  intros E s o JS NR' NR. destruct o as [l|l u|l type window data|f|l|o].
  - cbn. destruct (cs_dead (fs_chan s)) eqn:D; [exact JS|]. destruct (existsb _ _); [exact JS|]. now apply J_listeners.
  - cbn. destruct (cs_dead (fs_chan s)) eqn:D; [exact JS|]. destruct (_ || _); [exact JS|]. now apply J_listeners.
  - now apply J_accept.
  - cbn. destruct (alive f s) eqn:A; [|exact JS]. assert (SR : shrinks s (delete_factory f s)) by (apply sh_remove; [now right|exact A]).
    assert (AR : forall g, alive g (delete_factory f s) = alive g s && negb (g =? f)) by (intros g; exact (remove_alive g f s)).
    change (J E (fold_left (revoke E) [f] (with_chan (fs_chan s) (delete_factory f s)))). apply (J_revoke E s); try assumption.
    + apply (j_ops _ _ JS).
    + reflexivity.
    + intros g G. apply (sh_alive _ _ _ SR) in G. now apply (j_live _ _ JS).
    + constructor; [tauto|constructor].
    + intros g [<-|[]]. rewrite AR, N.eqb_refl, andb_false_r. split; [reflexivity|]. split; [exact A|]. now apply (j_live _ _ JS).
    + intros g G NI. rewrite AR in G. apply (j_gone _ _ JS). destruct (N.eqb_spec g f) as [E1|NE]; [exfalso; apply NI; now left|]. cbn in G. now rewrite andb_true_r in G.
    + intros D. now apply (j_dead _ _ JS).
    + intros g I. cbn in I. destruct I as [I|I]; [discriminate|]. now apply (j_given _ _ JS).
  - cbn [fstep]. set (p := fun x : N * option N => (fst x =? l) && match snd x with None => true | Some _ => false end).
    pose proof (drop_spec p s (j_nodup _ _ JS)) as DS. pose proof (drop_given p s) as DG. destruct (drop_listeners p s) as (t, fs). cbn [fst] in DG. destruct DS as (D1 & D2 & D3 & D4 & D5).
    replace t with (with_chan (fs_chan s) t) by (rewrite <- (sh_chan _ _ D1); now destruct t).
    apply (J_revoke E s); try assumption.
    + apply (j_ops _ _ JS).
    + reflexivity.
    + intros g G. apply (sh_alive _ _ _ D1) in G. now apply (j_live _ _ JS).
    + intros g I. assert (G : alive g s = true) by now apply D3. split; [rewrite D4; apply existsb_in in I; rewrite I; apply andb_false_r|]. split; [exact G|]. now apply (j_live _ _ JS).
    + intros g G NI. rewrite D4 in G. apply (j_gone _ _ JS). rewrite <- existsb_in in NI. destruct (existsb (N.eqb g) fs); [now contradiction NI|]. now rewrite andb_true_r in G.
    + intros D. rewrite D5. destruct (j_dead _ _ JS D) as (_ & ->). reflexivity.
    + intros g I. apply (j_given _ _ JS). now apply DG.
  - destruct o; try exact JS; (apply J_chan; [exact JS|exact Logic.I|]; exact (norej_chan E _ s NR')).
Qed.

Theorem J_runs : forall E ops, never_refused (fs_chan (fruns E ops)) -> J E (fruns E ops).
Proof.
  intros E ops. induction ops as [|o t IH] using rev_ind; intros NR; [apply J_init|]. unfold fruns in *. rewrite fold_left_app in *. cbn [fold_left] in *.
  assert (NR0 : never_refused (fs_chan (fold_left (fstep E) t fs_init))).
  { destruct (step_log E (fold_left (fstep E) t fs_init) o) as (l & L). exact (norej_less _ _ _ L NR). }
  apply J_step; auto.
Qed.
