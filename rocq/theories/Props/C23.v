(** * C23: each channel is closed exactly once

    [said u log] are the messages sent by the channel object [u], newest
    first (Spec/ChannelSpec.v). *)

From Coq Require Import NArith Arith List Bool Lia String.
From Verif.Base Require Import Bytes.
From Verif.Spec Require Import WireSpec ChannelSpec.
From Verif.Model Require Import Wire Frame Packets Requests Channels.
From Verif.Proofs Require Import ChannelSteps ChannelStatus RequestFacts ChannelObjects ChannelRequests ChannelFactories ChannelFacts ChannelToy.
Import ListNotations.
Open Scope N_scope.

(** Never more than one CHANNEL_CLOSE. *)
Theorem C23_at_most_once :
  forall E ops u, u <> 0 -> (List.length (filter is_close (said u (cs_log (cruns E ops)))) <= 1)%nat.
Proof.
  intros E ops u Hu. destruct (i2_gone _ (cruns_I2 E ops) u Hu) as (H & _ & _).
  assert (NC : forall ms, no_close ms -> filter is_close ms = []).
  { intros ms F. induction F as [|m t Hm Ht IH]; [reflexivity|]. cbn. now rewrite Hm. }
  destruct H as [H|(a & p & b & -> & Ha & Hb)].
  - rewrite NC by exact H. apply Nat.le_0_l.
  - rewrite filter_app. cbn. rewrite (NC b Hb), app_length. cbn.
    assert (filter is_close a = []) as ->; [|cbn; lia].
    apply NC. eapply Forall_impl; [|exact Ha]. intros m (q & ->). reflexivity.
Qed.
Print Assumptions C23_at_most_once.

(** After its CHANNEL_CLOSE a channel sends nothing, except CHANNEL_FAILURE. *)
Theorem C23_nothing_after_partial :
  forall E ops u a p b, u <> 0 -> said u (cs_log (cruns E ops)) = a ++ CClose p :: b ->
  forall m, In m a -> exists q, m = CReply q false.
Proof.
  intros E ops u a p b Hu EQ m Hm.
  pose proof (C23_at_most_once E ops u Hu) as ONE.
  destruct (i2_gone _ (cruns_I2 E ops) u Hu) as (H & _ & _). rewrite EQ in H, ONE.
  destruct H as [H|(a' & p' & b' & EQ' & Ha & Hb)].
  - exfalso. apply Forall_app in H. destruct H as (_ & H). inversion H; discriminate.
  - assert (X : a = a').
    { clear Hm ONE EQ. revert a' EQ' Ha. induction a as [|x a IH]; intros a' EQ' Ha.
      - destruct a' as [|y a']; [reflexivity|]. injection EQ' as <- EQ'. inversion Ha as [|? ? Q]. destruct Q as (q & Q). discriminate.
      - destruct a' as [|y a'].
        + cbn in EQ'. injection EQ' as -> EQ'. exfalso.
          rewrite <- EQ' in Hb. apply Forall_app in Hb. destruct Hb as (_ & Hb). inversion Hb; discriminate.
        + cbn in EQ'. injection EQ' as <- EQ'. f_equal. apply IH; [|now inversion Ha].
          exact EQ'. }
    subst a'. rewrite Forall_forall in Ha. exact (Ha m Hm).
Qed.
Print Assumptions C23_nothing_after_partial.

(** The full statement has no exception. *)
Definition C23_full_statement : Prop :=
  forall E ops u a p b, u <> 0 -> said u (cs_log (cruns E ops)) = a ++ CClose p :: b -> a = [].

(** It is false: a CHANNEL_REQUEST that crosses our CHANNEL_CLOSE on the wire
    is answered with CHANNEL_FAILURE. *)
Theorem C23_nothing_after_refuted : ~ C23_full_statement.
Proof.
  intros H.
  specialize (H rel [p_open 7 100 50; OpClose 0; p_request 0 true RAsync] 1 [CReply 7 false] 7 [CConf 7 0 50 32768]).
  discriminate H; [discriminate|vm_compute; reflexivity].
Qed.
Print Assumptions C23_nothing_after_refuted.

(** CHANNEL_CLOSE from the peer is answered at once with our own. *)
Theorem C23_peer_closes :
  forall E ops n p u r payload, let s := cruns E ops in
  cs_dead s = false -> status false n (cs_log s) = Some (Live p) -> object n (cs_log s) = Some u ->
  ParseChannelClose payload = Some n ->
  let s' := cstep E s (OpPacket 97 payload r) in
  cs_log s' = [Destroyed n u; Sent n u (CClose p); Received 97 payload] ++ cs_log s /\
  status false n (cs_log s') = Some Free.
Proof.
  intros E ops n p u r payload s D S O Q s'.
  destruct (live_object E ops n p D S) as (c & O' & S1 & S2 & S3 & _).
  fold s in O', S1, S3. rewrite O in O'. injection O' as ->.
  assert (L : cs_log s' = [Destroyed n (c_uid c); Sent n (c_uid c) (CClose p); Received 97 payload] ++ cs_log s).
  { unfold s', cstep. rewrite D. unfold HandlePacket, HandleChannelClose. cbv zeta. rewrite Q, get_recv, S3.
    cbn [log cs_slots]. rewrite S1. cbn. now rewrite S2. }
  split; [exact L|]. rewrite L. cbn [app status]. rewrite S. cbn [on_event]. rewrite N.eqb_refl.
  unfold on_received. cbn [target]. rewrite Q, N.eqb_refl. cbn. now rewrite N.eqb_refl.
Qed.
Print Assumptions C23_peer_closes.

(** When the local side ends, CHANNEL_CLOSE is sent. *)
Theorem C23_we_close :
  forall E ops n p u, let s := cruns E ops in
  cs_dead s = false -> status false n (cs_log s) = Some (Live p) -> object n (cs_log s) = Some u ->
  let s' := cstep E s (OpClose n) in
  cs_log s' = [Destroyed n u; Sent n u (CClose p)] ++ cs_log s.
Proof.
  intros E ops n p u s D S O s'.
  destruct (live_object E ops n p D S) as (c & O' & S1 & S2 & S3 & _).
  fold s in O', S1, S3. rewrite O in O'. injection O' as ->.
  unfold s', cstep, on_chan. rewrite D, S1. cbn. now rewrite S2.
Qed.
Print Assumptions C23_we_close.

(** A channel object is never destroyed without CHANNEL_CLOSE, unless the
    connection has ended. *)
Theorem C23_never_forgotten :
  forall E ops a n u b, cs_log (cruns E ops) = a ++ Destroyed n u :: b ->
  (exists p, In (CClose p) (said u b)) \/ (exists r, In (Died r) b).
Proof. intros E ops a n u b EQ. exact (proj2 (every_split both _ (cruns_both E ops) a _ b EQ)). Qed.
Print Assumptions C23_never_forgotten.

(** ** Examples *)

Example C23_witness :
  filter is_close (said 1 (cs_log (cruns dbg busy))) = [CClose 7] /\
  filter is_close (said 2 (cs_log (cruns dbg busy))) = [CClose 8] /\
  (exists m, said 1 (cs_log (cruns dbg busy)) = [] ++ CClose 7 :: m) /\
  (let s := cruns dbg busy in
   cs_dead s = false /\ status false 1 (cs_log s) = Some (Live 77) /\ object 1 (cs_log s) = Some 6 /\
   ParseChannelClose (be32 1) = Some 1).
Proof. vm_compute. repeat split. eexists. reflexivity. Qed.
