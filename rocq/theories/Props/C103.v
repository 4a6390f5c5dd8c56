(** * C103: each request to open a channel is answered exactly once *)

From Coq Require Import NArith Arith List Bool Lia String.
From Verif.Base Require Import Bytes.
From Verif.Spec Require Import WireSpec ChannelSpec OpenSpec.
From Verif.Model Require Import Wire Frame Packets Requests Channels.
From Verif.Proofs Require Import ChannelSteps ChannelStatus ChannelObjects ChannelFactories ChannelFacts ChannelToy OpenFacts.
Import ListNotations.
Open Scope N_scope.

Lemma waiting_at : forall s k, waiting s k = opening_at k (cs_slots s) indexes.
Proof.
  intros s k. unfold waiting, opening_at.
  assert (X : map N.of_nat (seq 0 64) = indexes) by reflexivity. rewrite X. clear X. generalize indexes. intros l.
  induction l as [|n t IH]; [reflexivity|]. cbn [filter]. change (opens k (cs_slots s n)) with (undecided s k n).
  destruct (undecided s k n); cbn [List.length]; now rewrite IH.
Qed.

(** As long as the connection lives: for every number [k] the peer uses, the
    CHANNEL_OPEN messages received for it are as many as the confirmations and
    refusals sent for it and the decisions still to be made. *)
Theorem C103_exactly_once :
  forall E ops k, let s := cruns E ops in
  cs_dead s = false ->
  number (requests_open k) (cs_log s) = (number (answers_open k) (cs_log s) + waiting s k)%nat.
Proof.
  intros E ops k s D. rewrite waiting_at. destruct (cruns_I6 E ops) as (B & _). destruct (B D) as (_ & B2). fold s in B2.
  rewrite <- B2. destruct (cruns_I7 E ops) as (b & k0 & Bd & H). fold s in Bd, H. rewrite (H k).
  destruct b; [specialize (Bd eq_refl); congruence|]. cbn [andb nb]. lia.
Qed.
Print Assumptions C103_exactly_once.

(** At no time, not even when the connection has ended, has anything been
    answered which was not asked. *)
Theorem C103_never_twice :
  forall E ops k, let s := cruns E ops in
  (number (answers_open k) (cs_log s) <= number (requests_open k) (cs_log s))%nat.
Proof.
  intros E ops k s. destruct (cruns_I6 E ops) as (_ & sl & _ & B2). fold s in B2. specialize (B2 k).
  destruct (cruns_I7 E ops) as (b & k0 & Bd & H). fold s in H. rewrite (H k). lia.
Qed.
Print Assumptions C103_never_twice.

(** Answers are not mixed up: when the application was offered the peer's
    channel [k] under our number [n], the answer names the same [k] and the
    same [n]; at most one offer of a number is undecided. *)
Theorem C103_own_number :
  forall E ops n k, let s := cruns E ops in
  cs_dead s = false ->
  number (offered n k) (cs_log s) = (number (settled n k) (cs_log s) + if undecided s k n then 1 else 0)%nat.
Proof.
  intros E ops n k s D. destruct (cruns_I6 E ops) as (B & _). destruct (B D) as (B1 & _). fold s in B1. exact (B1 n k).
Qed.
Print Assumptions C103_own_number.

(** The decision, when it comes, is told to the peer at once, and nothing else
    is; no other number is touched.  [window] and [code] are the
    application's. *)
Theorem C103_decision :
  forall E ops n k, let s := cruns E ops in
  cs_dead s = false -> undecided s k n = true ->
  (forall window, let s' := cstep E s (OpAsyncSuccess n window) in
     (exists u w, cs_log s' = [Sent n u (CConf k n (window mod pow32) MAXIMUM_PACKET_SIZE); Created n u k w window] ++ cs_log s) /\
     undecided s' k n = false /\ cs_dead s' = false /\ forall m, m <> n -> cs_slots s' m = cs_slots s m) /\
  (forall code description, let s' := cstep E s (OpAsyncFailure n code description) in
     cs_log s' = [Sent n 0 (COpenFail k code description)] ++ cs_log s /\
     undecided s' k n = false /\ cs_dead s' = false /\ forall m, m <> n -> cs_slots s' m = cs_slots s m).
Proof.
  intros E ops n k s D U. unfold undecided in U. destruct (cs_slots s n) as [[g w c|p w|c|c]|] eqn:S; try discriminate.
  apply N.eqb_eq in U. subst p.
  assert (O : forall v m, m <> n -> (if m =? n then v else cs_slots s m) = cs_slots s m).
  { intros v m Hm. destruct (m =? n) eqn:Q; [apply N.eqb_eq in Q; contradiction|reflexivity]. }
  split.
  - intros window s'. unfold s', cstep. rewrite D, S. unfold confirm, undecided. cbn [cs_log log set_slot fresh cs_slots cs_dead cs_next].
    split; [exists (cs_next s), w; reflexivity|]. unfold upd. rewrite N.eqb_refl. split; [reflexivity|]. split; [exact D|].
    intros m Hm. destruct (m =? n) eqn:Q; [apply N.eqb_eq in Q; contradiction|]. reflexivity.
  - intros code description s'. unfold s', cstep. rewrite D, S. unfold undecided. cbn [cs_log log set_slot cs_slots cs_dead].
    split; [reflexivity|]. unfold upd. rewrite N.eqb_refl. split; [reflexivity|]. split; [exact D|].
    intros m Hm. apply (O None m Hm).
Qed.
Print Assumptions C103_decision.

(** ** Examples *)

(** The peer asks for channel 7 three times (it is allowed to reuse its
    number): one is confirmed later, one refused at once, one undecided. *)
Definition thrice : list cop :=
  [p_open_async 7 100; p_open_refused 7 5; OpAsyncSuccess 0 50; p_open 8 1 1; p_open_async 7 9].

Example C103_thrice : let s := cruns dbg thrice in
  cs_dead s = false /\ number (requests_open 7) (cs_log s) = 3%nat /\
  number (answers_open 7) (cs_log s) = 2%nat /\ waiting s 7 = 1%nat /\ undecided s 7 2 = true.
Proof. vm_compute. repeat split. Qed.

(** The connection ends before the decision: never answered. *)
Example C103_cut_short : let s := cruns dbg [p_open_async 7 100; OpEnd; OpAsyncSuccess 0 50] in
  cs_dead s = true /\ number (requests_open 7) (cs_log s) = 1%nat /\ number (answers_open 7) (cs_log s) = 0%nat.
Proof. vm_compute. repeat split. Qed.
