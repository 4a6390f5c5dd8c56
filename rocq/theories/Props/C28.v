(** * C28: running out of channel numbers

    [exhausted]: all 64 channel numbers are in use on the wire. *)

From Coq Require Import NArith Arith List Bool Lia String.
From Verif.Base Require Import Bytes.
From Verif.Spec Require Import WireSpec ChannelSpec.
From Verif.Model Require Import Wire Frame Packets Requests Channels.
From Verif.Proofs Require Import ChannelSteps ChannelStatus RequestFacts ChannelObjects ChannelRequests ChannelFactories ChannelFacts ChannelToy.
Import ListNotations.
Open Scope N_scope.

Definition exhausted (s : cstate) : Prop :=
  forall n, n < CHANNELS -> status false n (cs_log s) <> Some Free.

Lemma indexes_spec : forall n, In n indexes <-> n < CHANNELS.
Proof.
  intros n. unfold indexes. rewrite in_map_iff. split.
  - intros (k & <- & K). apply in_seq in K. unfold CHANNELS in *. lia.
  - intros H. exists (N.to_nat n). split; [apply N2Nat.id|]. apply in_seq. unfold CHANNELS in *. lia.
Qed.

Lemma first_free_none : forall f l, first_free f l = None <-> (forall n, In n l -> f n <> None).
Proof.
  intros f l. induction l as [|x t IH]; cbn; [split; [intros _ n []|reflexivity]|].
  destruct (f x) eqn:E.
  - rewrite IH. split; [intros H n [<-|Hn]; [congruence|auto]|intros H n Hn; apply H; now right].
  - split; [discriminate|]. intros H. exfalso. apply (H x); [now left|exact E].
Qed.

Lemma exhausted_alloc : forall E ops, cs_dead (cruns E ops) = false ->
  exhausted (cruns E ops) -> AllocateChannelIndex (cruns E ops) = None.
Proof.
  intros E ops D H. destruct (cruns_I1 E ops) as (J & _). specialize (J D).
  unfold AllocateChannelIndex. apply first_free_none. intros n Hn. apply indexes_spec in Hn. specialize (H n Hn).
  destruct (J n) as (A & B). rewrite A in H. intros X. rewrite X in H. now apply H.
Qed.

(** Our own attempt to open a channel fails without any effect. *)
Theorem C28_own_open_partial :
  forall E ops type window data f, let s := cruns E ops in
  cs_dead s = false -> exhausted s -> cstep E s (OpOpen type window data f) = s.
Proof.
  intros E ops type window data f s D X. apply exhausted_alloc in X; [|exact D].
  unfold cstep. rewrite D. unfold OpenChannel. fold s in X. now rewrite X.
Qed.
Print Assumptions C28_own_open_partial.

(** An open which the application rejects is answered with
    CHANNEL_OPEN_FAILURE and changes no channel. *)
Theorem C28_rejected_partial :
  forall E ops payload q code description r, let s := cruns E ops in
  cs_dead s = false -> (exists n, n < CHANNELS /\ cs_slots s n = None) -> ParseChannelOpen payload = Some q ->
  rx_create r = CrFail code description ->
  let s' := cstep E s (OpPacket 90 payload r) in
  cs_dead s' = false /\
  (exists n, cs_log s' = [Sent n 0 (COpenFail (co_peer_channel q) code description);
     Opening n (co_peer_channel q) (co_initial_window_size q) (co_channel_type q) (co_data q); Received 90 payload] ++ cs_log s) /\
  forall k, cs_slots s' k = cs_slots s k.
Proof.
  intros E ops payload q code description r s D X Q R s'. unfold s', cstep. rewrite D.
  unfold HandlePacket, HandleChannelOpen. cbv zeta. rewrite Q.
  change (AllocateChannelIndex (log (Received 90 payload) s)) with (AllocateChannelIndex s).
  destruct (AllocateChannelIndex s) as [n|] eqn:A; [|exfalso; destruct X as (n & Hn & X); eapply (proj1 (first_free_none _ _) A n); [now apply indexes_spec|exact X]].
  rewrite R. split; [exact D|]. split; [exists n; reflexivity|].
  intros k. cbn. unfold upd. destruct (k =? n) eqn:K; [|reflexivity]. apply N.eqb_eq in K. subst k.
  symmetry. clear -A. revert A. unfold AllocateChannelIndex. induction indexes as [|x t IH]; cbn; [discriminate|].
  destruct (cs_slots s x) eqn:F; [exact IH|]. intros H. injection H as <-. exact F.
Qed.
Print Assumptions C28_rejected_partial.

(** The full statement: with all numbers in use, the peer's CHANNEL_OPEN is
    answered with CHANNEL_OPEN_FAILURE and nothing else happens. *)
Definition C28_full_statement : Prop :=
  forall E ops payload q r, let s := cruns E ops in
  cs_dead s = false -> exhausted s -> ParseChannelOpen payload = Some q ->
  let s' := cstep E s (OpPacket 90 payload r) in
  cs_dead s' = false /\ exists n code description,
  cs_log s' = [Sent n 0 (COpenFail (co_peer_channel q) code description); Received 90 payload] ++ cs_log s.

(** What really happens: the connection ends, with all other channels. *)
Theorem C28_exhaustion_is_fatal :
  forall E ops payload q r, let s := cruns E ops in
  cs_dead s = false -> exhausted s -> ParseChannelOpen payload = Some q ->
  let s' := cstep E s (OpPacket 90 payload r) in
  cs_dead s' = true /\
  exists evs, cs_log s' = evs ++ [Died DError; Received 90 payload] ++ cs_log s /\ forallb farewell evs = true.
Proof.
  intros E ops payload q r s D X Q s'. apply exhausted_alloc in X; [|exact D]. fold s in X.
  assert (Y : s' = die DError (log (Received 90 payload) s)).
  { unfold s', cstep. rewrite D. unfold HandlePacket, HandleChannelOpen. cbv zeta. rewrite Q.
    change (AllocateChannelIndex (log (Received 90 payload) s)) with (AllocateChannelIndex s). now rewrite X. }
  rewrite Y. split; [apply die_spec|]. apply die_farewell.
Qed.
Print Assumptions C28_exhaustion_is_fatal.

Definition sixty_four : list cop := map (fun k => p_open k 100 50) indexes.

Definition used (l : list cev) (n : N) : bool :=
  match status false n l with Some Free => false | _ => true end.
Lemma used_all : forall s, forallb (used (cs_log s)) indexes = true -> exhausted s.
Proof.
  intros s F n Hn X. apply indexes_spec in Hn. rewrite forallb_forall in F. specialize (F n Hn).
  unfold used in F. rewrite X in F. discriminate.
Qed.

Lemma sixty_four_ok : cs_dead (cruns dbg sixty_four) = false /\ exhausted (cruns dbg sixty_four).
Proof. split; [|apply used_all]; vm_compute; reflexivity. Qed.

Theorem C28_refuted : ~ C28_full_statement.
Proof.
  intros H. destruct sixty_four_ok as (D & X). unfold C28_full_statement in H.
  generalize dependent sixty_four. intros ops D X.
  destruct (ParseChannelOpen (string_enc (bs "session") ++ be32 64 ++ be32 9 ++ be32 32768)) as [q|] eqn:Q;
    [|vm_compute in Q; discriminate].
  specialize (H dbg ops _ q (rx (CrNow 5)) D X Q).
  destruct (C28_exhaustion_is_fatal dbg ops _ q (rx (CrNow 5)) D X Q) as (K & _).
  destruct H as (H & _). rewrite K in H. discriminate.
Qed.
Print Assumptions C28_refuted.

(** ** Examples *)

Example C28_rejected_witness :
  cs_dead (cruns dbg busy) = false /\ cs_slots (cruns dbg busy) 5 = None /\
  cs_log (cstep dbg (cruns dbg busy) (p_open_refused 3 4)) <> cs_log (cruns dbg busy).
Proof. vm_compute. repeat split. discriminate. Qed.
