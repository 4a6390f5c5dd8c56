(** Callbacks of channel factories. *)

From Coq Require Import NArith Arith List Bool Lia String FinFun.
From Verif.Base Require Import Bytes.
From Verif.Model Require Import Wire Frame Packets Requests Channels.
From Verif.Spec Require Import ChannelSpec.
From Verif.Proofs Require Import ChannelSteps ChannelStatus ChannelObjects.
Import ListNotations.
Open Scope N_scope.

Notation fails := rejected (only parsing).

Definition cnt (P : cev -> bool) (l : list cev) : nat := List.length (filter P l).

Lemma cnt_app : forall P a b, cnt P (a ++ b) = (cnt P a + cnt P b)%nat.
Proof. intros. unfold cnt. now rewrite filter_app, app_length. Qed.

(** the factory of a request which can still be answered *)
Definition waits (f : N) (o : option slot) : bool :=
  match o with Some (SRequested g _ false) => g =? f | _ => false end.

Definition nb (b : bool) : nat := if b then 1%nat else 0%nat.

(** number of waiting requests of [f] *)
Definition pend (f : N) (sl : N -> option slot) (l : list N) : nat :=
  List.length (filter (fun n => waits f (sl n)) l).

Lemma pend_cons : forall f sl n t, pend f sl (n :: t) = (nb (waits f (sl n)) + pend f sl t)%nat.
Proof. intros. unfold pend. cbn [filter]. destruct (waits f (sl n)); reflexivity. Qed.

Lemma pend_ext : forall f sl sl' l, (forall n, In n l -> waits f (sl n) = waits f (sl' n)) -> pend f sl l = pend f sl' l.
Proof.
  intros f sl sl' l. induction l as [|n t IH]; intros H; [reflexivity|]. rewrite !pend_cons.
  rewrite (H n (or_introl eq_refl)), IH; [reflexivity|]. intros; apply H. now right.
Qed.

Lemma pend_upd : forall f sl sl' n l, NoDup l -> In n l -> (forall k, k <> n -> sl' k = sl k) ->
  (pend f sl' l + nb (waits f (sl n)) = pend f sl l + nb (waits f (sl' n)))%nat.
Proof.
  intros f sl sl' n l ND Hin H. induction l as [|x t IH]; [contradiction|]. rewrite !pend_cons.
  inversion ND as [|? ? Hx ND']; subst. destruct (N.eq_dec x n) as [->|Hn].
  - rewrite (pend_ext f sl sl' t); [lia|]. intros k Hk. rewrite H; [reflexivity|]. intros ->. contradiction.
  - destruct Hin as [->|Hin]; [congruence|]. rewrite (H x Hn). specialize (IH ND' Hin). lia.
Qed.

Lemma pend_zero : forall f sl l, (forall n, In n l -> waits f (sl n) = false) -> pend f sl l = O.
Proof.
  intros f sl l. induction l as [|n t IH]; intros H; [reflexivity|]. rewrite pend_cons.
  rewrite (H n (or_introl eq_refl)), IH; [reflexivity|]. intros; apply H. now right.
Qed.

Lemma deaths_ends : forall f sl l, cnt (ends f) (rev (flat_map (death_event sl) l)) = pend f sl l.
Proof.
  intros f sl l. induction l as [|n t IH]; [reflexivity|]. cbn [flat_map]. rewrite rev_app_distr, cnt_app, IH, pend_cons.
  rewrite Nat.add_comm. f_equal. unfold death_event, waits, cnt.
  destruct (sl n) as [[g w []|p w|c|c]|]; cbn; try reflexivity. destruct (g =? f); reflexivity.
Qed.

Lemma deaths_none : forall P sl l, (forall g, P (Factory g FCancel) = false) -> (forall n u, P (Destroyed n u) = false) ->
  cnt P (rev (flat_map (death_event sl) l)) = O.
Proof.
  intros P sl l A B. induction l as [|n t IH]; [reflexivity|]. cbn [flat_map]. rewrite rev_app_distr, cnt_app, IH.
  unfold death_event, cnt. destruct (sl n) as [[g w []|p w|c|c]|]; cbn; rewrite ?A, ?B; reflexivity.
Qed.

(** asked = ended + still waiting; a failure counts twice *)
Definition balance (f : N) (l : list cev) (waiting : nat) : Prop :=
  (cnt (asks f) l + cnt (fails f) l = cnt (ends f) l + waiting)%nat.

Definition I4 (s : cstate) : Prop :=
  (cs_dead s = false -> forall f, balance f (cs_log s) (pend f (cs_slots s) indexes)) /\
  (cs_dead s = true -> forall f, balance f (cs_log s) 0).

Definition nofac (e : cev) : Prop :=
  match e with Asked _ | Factory _ _ | Revoked _ => False | _ => True end.

Lemma nofac_cnt : forall f evs, Forall nofac evs -> cnt (asks f) evs = O /\ cnt (fails f) evs = O /\ cnt (ends f) evs = O.
Proof.
  intros f evs H. induction H as [|e t He Ht (A & B & C)]; [repeat split|].
  destruct e; try contradiction; unfold cnt in *; cbn; auto.
Qed.

Lemma replies_nofac : forall n u p rs, Forall nofac (reply_events n u p rs).
Proof.
  intros. unfold reply_events. apply Forall_rev, Forall_forall. intros e He.
  apply in_map_iff in He. destruct He as (b & <- & _). exact I.
Qed.

(** what a step does to the balance of [f] *)
Definition moves (f : N) (old new : option slot) (evs : list cev) : Prop :=
  (cnt (asks f) evs + cnt (fails f) evs + nb (waits f old) = cnt (ends f) evs + nb (waits f new))%nat.

Lemma moves_nofac : forall f old new evs, Forall nofac evs -> waits f old = waits f new -> moves f old new evs.
Proof. intros f old new evs H W. unfold moves. destruct (nofac_cnt f evs H) as (-> & -> & ->). now rewrite W. Qed.

Lemma allowed_moves : forall E P s n v evs inc, allowed E P s n v evs inc -> I1 s -> cs_dead s = false ->
  forall f, moves f (cs_slots s n) v evs.
Proof.
  intros E P s n v evs inc H J D f.
  destruct H; try (solve [apply moves_nofac; [repeat constructor|try rewrite H; reflexivity]]).
  - rewrite H. unfold moves, cnt. cbn. destruct (f0 =? f); reflexivity.
  - rewrite H. unfold moves, cnt. cbn. destruct (f0 =? f); reflexivity.
  - apply moves_nofac; [|rewrite H; reflexivity].
    apply Forall_app; split; [apply replies_nofac|]. apply Forall_app; split; [destruct o|]; repeat constructor.
  - apply moves_nofac; [apply replies_nofac|rewrite H; reflexivity].
  - apply moves_nofac; [|rewrite H; reflexivity].
    apply Forall_app; split; [apply replies_nofac|]. repeat constructor.
  - rewrite H. unfold moves, cnt. cbn. destruct (f0 =? f); reflexivity.
  - rewrite H. unfold moves, cnt. cbn. destruct (f0 =? f); reflexivity.
Qed.

Lemma allowedD_moves : forall E P s n v evs inc, allowedD E P s n v evs inc -> I1 s -> cs_dead s = false ->
  forall f, moves f (cs_slots s n) v evs.
Proof.
  intros E P s n v evs inc H J D f.
  destruct H; try (solve [apply moves_nofac; [repeat constructor|try rewrite H; reflexivity]]).
  - rewrite H. unfold moves, cnt. cbn. destruct (f0 =? f); reflexivity.
  - apply moves_nofac; [|rewrite H; reflexivity].
    apply Forall_app; split; [destruct o|]; repeat constructor.
  - apply moves_nofac; [|rewrite H; reflexivity].
    apply Forall_app; split; [apply replies_nofac|]. apply Forall_app; split; [destruct o|]; repeat constructor.
  - apply moves_nofac; [apply replies_nofac|rewrite H; reflexivity].
  - apply moves_nofac; [|rewrite H; reflexivity].
    apply Forall_app; split; [apply replies_nofac|]. repeat constructor.
Qed.

Lemma balance_moves : forall f l sl sl' n v evs, (forall k, sl' k = if k =? n then v else sl k) ->
  (~ In n indexes -> waits f (sl n) = waits f v) ->
  balance f l (pend f sl indexes) -> moves f (sl n) v evs -> balance f (evs ++ l) (pend f sl' indexes).
Proof.
  intros f l sl sl' n v evs G O B M. unfold balance, moves in *. rewrite !cnt_app.
  assert (S : sl' n = v) by (rewrite G, N.eqb_refl; reflexivity).
  assert (X : forall k, k <> n -> sl' k = sl k).
  { intros k Hk. rewrite G. destruct (k =? n) eqn:E; [apply N.eqb_eq in E; contradiction|reflexivity]. }
  pose proof indexes_nodup as ND. revert O B ND. generalize indexes as ix. intros ix O B ND.
  destruct (in_dec N.eq_dec n ix) as [Hi|Hi].
  - pose proof (pend_upd f sl sl' n ix ND Hi X) as U. rewrite S in U. lia.
  - specialize (O Hi). rewrite O in M.
    rewrite <- (pend_ext f sl sl' ix).
    + destruct (waits f v); cbn in M; lia.
    + intros k Hk. rewrite X; [reflexivity|]. intros ->. contradiction.
Qed.

Lemma waits_bound : forall s n f, I1 s -> cs_dead s = false -> ~ In n indexes -> waits f (cs_slots s n) = false.
Proof.
  intros s n f (J & _) D Hn. destruct (J D n) as (_ & Sl).
  destruct (cs_slots s n) as [[g w []|p w|c|c]|]; try reflexivity. cbn in Sl. exfalso. apply Hn. now apply indexes_in.
Qed.

Theorem I4_reach : forall E P s, mreach E P s -> I4 s.
Proof.
  intros E P s H. unfold mreach in *.
  assert (G : mreach E P s /\ I4 s); [|exact (proj2 G)].
  induction H as [|s s' H IH M].
  - split; [apply MS_nil|]. split; [|discriminate]. intros _ f. unfold balance.
    rewrite pend_zero; [reflexivity|]. intros; reflexivity.
  - destruct IH as (R & IH & IHd). split; [eapply MS_snoc; eassumption|].
    pose proof (I1_reach E P s R) as J1.
    assert (J1' : I1 s') by (apply (I1_reach E P); eapply MS_snoc; eassumption).
    destruct M as [n v evs inc A G|n v evs inc s1 r A G ->]; destruct G as (GS & GL & GN & D & D').
    + split; [|rewrite D'; discriminate]. intros _ f. rewrite GL.
      apply (balance_moves f (cs_log s) (cs_slots s) (cs_slots s') n v evs GS).
      * intros Hn. rewrite (waits_bound s n f J1 D Hn).
        pose proof (waits_bound s' n f J1' D' Hn) as X. rewrite GS, N.eqb_refl in X. now symmetry.
      * apply IH. exact D.
      * exact (allowed_moves E P s n v evs inc A J1 D f).
    + destruct (die_spec r s1) as (L & Nx & Dd & _). clear J1'. set (sd := die r s1) in *. clearbody sd.
      split; [rewrite Dd; discriminate|]. intros _ f.
      assert (B : balance f (evs ++ cs_log s) (pend f (cs_slots s1) indexes)).
      { apply (balance_moves f (cs_log s) (cs_slots s) (cs_slots s1) n v evs GS).
        - intros Hn. rewrite (waits_bound s n f J1 D Hn).
          destruct A; try reflexivity. now rewrite (waits_bound s n f J1 D Hn).
        - apply IH. exact D.
        - exact (allowedD_moves E P s n v evs inc A J1 D f). }
      rewrite L, GL. unfold balance in *. change (Died r :: evs ++ cs_log s) with ([Died r] ++ evs ++ cs_log s).
      rewrite !(cnt_app _ (deaths (cs_slots s1))), !(cnt_app _ [Died r]).
      assert (X : cnt (asks f) (deaths (cs_slots s1)) = O) by (apply deaths_none; reflexivity).
      assert (Y : cnt (fails f) (deaths (cs_slots s1)) = O) by (apply deaths_none; reflexivity).
      assert (Z : cnt (ends f) (deaths (cs_slots s1)) = pend f (cs_slots s1) indexes) by apply deaths_ends.
      rewrite X, Y, Z. unfold cnt at 1 3 5. cbn [filter asks rejected ends List.length]. lia.
Qed.
