(** * C27: the end of every channel request of ours

    [asks f]: OpenChannel() was called with the factory [f]; [ends f]: one
    of the factory's methods was called, or its owner canceled the request;
    [rejected f]: OnChannelOpenFailure() was called (Spec/ChannelSpec.v). *)

From Coq Require Import NArith Arith List Bool Lia String.
From Verif.Base Require Import Bytes.
From Verif.Spec Require Import WireSpec ChannelSpec.
From Verif.Model Require Import Wire Frame Packets Requests Channels.
From Verif.Proofs Require Import ChannelSteps ChannelStatus RequestFacts ChannelObjects ChannelRequests ChannelFactories ChannelFacts ChannelToy.
Import ListNotations.
Open Scope N_scope.

Lemma ends_balance : forall E ops f, exists k,
  (count_asked f (cs_log (cruns E ops)) + List.length (filter (rejected f) (cs_log (cruns E ops))) =
   count_ends f (cs_log (cruns E ops)) + k)%nat /\ (cs_dead (cruns E ops) = true -> k = O).
Proof.
  intros E ops f. destruct (cruns_I4 E ops) as (A & B). destruct (cs_dead (cruns E ops)) eqn:D.
  - exists O. split; [exact (B eq_refl f)|reflexivity].
  - exists (pend f (cs_slots (cruns E ops)) indexes). split; [exact (A eq_refl f)|discriminate].
Qed.

(** Unless the peer rejects the channel: no more ends than requests. *)
Theorem C27_at_most_once_partial :
  forall E ops f, (forall e, In e (cs_log (cruns E ops)) -> rejected f e = false) ->
  (count_ends f (cs_log (cruns E ops)) <= count_asked f (cs_log (cruns E ops)))%nat.
Proof.
  intros E ops f H. destruct (ends_balance E ops f) as (k & B & _).
  assert (X : filter (rejected f) (cs_log (cruns E ops)) = []).
  { clear B. revert H. induction (cs_log (cruns E ops)) as [|e t IH]; intros H; [reflexivity|]. cbn.
    rewrite (H e (or_introl eq_refl)). apply IH. intros; apply H; now right. }
  rewrite X in B. cbn in B. lia.
Qed.
Print Assumptions C27_at_most_once_partial.

(** A factory is never forgotten: when the connection has ended, every
    request has ended. *)
Theorem C27_at_least_once :
  forall E ops f, cs_dead (cruns E ops) = true ->
  (count_asked f (cs_log (cruns E ops)) <= count_ends f (cs_log (cruns E ops)))%nat.
Proof. intros E ops f D. destruct (ends_balance E ops f) as (k & B & K). rewrite (K D) in B. lia. Qed.
Print Assumptions C27_at_least_once.

(** Each rejection ends the request twice: the exact count. *)
Theorem C27_exact_partial :
  forall E ops f, cs_dead (cruns E ops) = true ->
  count_ends f (cs_log (cruns E ops)) =
  (count_asked f (cs_log (cruns E ops)) + List.length (filter (rejected f) (cs_log (cruns E ops))))%nat.
Proof. intros E ops f D. destruct (ends_balance E ops f) as (k & B & K). rewrite (K D) in B. lia. Qed.
Print Assumptions C27_exact_partial.

Definition C27_full_statement : Prop :=
  forall E ops f, (count_asked f (cs_log (cruns E ops)) <= 1)%nat ->
  (count_ends f (cs_log (cruns E ops)) <= 1)%nat.

(** The full statement is false: when the peer rejects the channel, the
    factory gets OnChannelCancel() and then OnChannelOpenFailure(). *)
Theorem C27_at_most_once_refuted : ~ C27_full_statement.
Proof.
  intros H. specialize (H rel [OpOpen (bs "x") 10 [] 5; p_fail 0 1] 5). vm_compute in H.
  specialize (H (le_n 1)). inversion H as [|m M]. inversion M.
Qed.
Print Assumptions C27_at_most_once_refuted.

Theorem C27_rejection :
  forall E ops n r payload f w q, let s := cruns E ops in
  cs_dead s = false -> cs_slots s n = Some (SRequested f w false) -> n < CHANNELS ->
  ParseChannelOpenFailure payload = Some q -> cf_local_channel q = n ->
  cs_log (cstep E s (OpPacket 92 payload r)) =
  [Factory f (FFailure (cf_reason_code q)); Factory f FCancel; Received 92 payload] ++ cs_log s.
Proof.
  intros E ops n r payload f w q s D S Hn Q T. unfold cstep. rewrite D.
  unfold HandlePacket, HandleChannelOpenFailure. cbv zeta. rewrite Q, pop_recv, T. unfold PopRequestedChannel.
  apply N.leb_gt in Hn. rewrite Hn, S. reflexivity.
Qed.
Print Assumptions C27_rejection.

(** ** Examples *)

Definition three_ends : list cop :=
  [OpOpen (bs "x") 10 [] 5; OpOpen (bs "x") 10 [] 6; OpOpen (bs "x") 10 [] 7; OpCancel 1; p_conf 0 3 9; p_conf 1 4 9; OpEnd].
Example C27_witness :
  let l := cs_log (cruns dbg three_ends) in
  cs_dead (cruns dbg three_ends) = true /\
  map (fun f => (count_asked f l, count_ends f l)) [5; 6; 7] = [(1, 1); (1, 1); (1, 1)]%nat /\
  forallb (fun e => negb (rejected 5 e)) l = true /\
  filter (ends 5) l = [Factory 5 FCreate] /\ filter (ends 6) l = [Revoked 6] /\ filter (ends 7) l = [Factory 7 FCancel].
Proof. vm_compute. repeat split. Qed.

Example C27_rejection_witness :
  cs_slots (cruns dbg [OpOpen (bs "x") 10 [] 5]) 0 = Some (SRequested 5 10 false) /\
  exists q, ParseChannelOpenFailure (be32 0 ++ be32 1 ++ string_enc [] ++ string_enc []) = Some q /\ cf_local_channel q = 0.
Proof. split; [reflexivity|]. eexists. vm_compute. split; reflexivity. Qed.
