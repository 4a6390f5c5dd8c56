(** * C20: channel numbers are unique and stable

    [cruns E ops] is the state after a history of packets and operations of
    the application, [cs_log] what could be observed, newest first.
    [status] follows RFC 4254 for one channel number, [announces n e] means
    that [e] tells the peer to use number [n] for a new channel, [target] and
    [admissible] tell which number a received message is about and whether it
    makes sense in a state of that number (Spec/ChannelSpec.v). *)

From Coq Require Import NArith Arith List Bool Lia String.
From Verif.Base Require Import Bytes.
From Verif.Spec Require Import WireSpec ChannelSpec.
From Verif.Model Require Import Wire Frame Packets Requests Channels.
From Verif.Proofs Require Import ChannelSteps ChannelStatus RequestFacts ChannelObjects ChannelRequests ChannelFactories ChannelFacts ChannelToy.
Import ListNotations.
Open Scope N_scope.

(** At most 64 numbers are in use, namely 0 to 63. *)
Theorem C20_limit :
  forall E ops n st, status false n (cs_log (cruns E ops)) = Some st -> st <> Free -> n < 64.
Proof.
  intros E ops n st S F.
  destruct (existsb (announces n) (cs_log (cruns E ops))) eqn:A.
  - apply existsb_exists in A. destruct A as (e & Hin & A). apply in_split in Hin. destruct Hin as (a & b & EQ).
    pose proof (every_split both _ (cruns_both E ops) a e b EQ) as (L & _). exact (L n A).
  - exfalso. apply F. eapply unannounced_free; eassumption.
Qed.
Print Assumptions C20_limit.

(** A number is announced only if it is free, i.e. if both sides have sent
    CHANNEL_CLOSE for its previous use (or it was never used, or the open
    failed). *)
Theorem C20_reuse_only_when_free :
  forall E ops a n e b, cs_log (cruns E ops) = a ++ e :: b -> announces n e = true ->
  n < 64 /\ status false n b = Some Free.
Proof.
  intros E ops a n e b EQ A. pose proof (every_split both _ (cruns_both E ops) a e b EQ) as (L & _).
  split; [exact (L n A)|].
  destruct (cruns_I1 E ops) as (_ & NN). specialize (NN n). rewrite EQ in NN.
  apply status_suffix in NN. cbn [status] in NN. destruct (status false n b) as [st|]; [|contradiction].
  destruct e; try discriminate. destruct m; try discriminate; cbn in A, NN; rewrite A in NN;
    destruct st; try contradiction; reflexivity.
Qed.
Print Assumptions C20_reuse_only_when_free.

(** Whatever we send about a number is about the channel which has that
    number: the peer's number in it is the one the peer chose for this
    channel, and the channel is in a state in which the message is allowed
    ([status] would be [None] otherwise; not strict, see C23). *)
Theorem C20_protocol :
  forall E ops n, exists st, status false n (cs_log (cruns E ops)) = Some st.
Proof.
  intros E ops n. destruct (cruns_I1 E ops) as (_ & NN). specialize (NN n).
  destruct (status false n (cs_log (cruns E ops))) as [st|]; [eauto|contradiction].
Qed.
Print Assumptions C20_protocol.

(** Everything the application is told about a number between two
    announcements is told to the same channel object. *)
Theorem C20_same_channel :
  forall E ops a n u2 c2 m u1 c1 b,
  cs_log (cruns E ops) = a ++ Called n u2 c2 :: m ++ Called n u1 c1 :: b ->
  u1 <> u2 -> exists e, In e m /\ announces n e = true.
Proof.
  intros E ops a n u2 c2 m u1 c1 b EQ Hu.
  pose proof (i2_good _ (cruns_I2 E ops)) as G. rewrite EQ in G. apply every_suffix in G. destruct G as ((G & _) & GM).
  destruct (existsb (announces n) m) eqn:X; [apply existsb_exists in X; exact X|].
  exfalso. rewrite (holder_fixed n u1 c1 b m X GM) in G. destruct G; congruence.
Qed.
Print Assumptions C20_same_channel.

(** Only the channel object that was created for a number is told anything
    about it. *)
Theorem C20_right_channel :
  forall E ops a n u c b, cs_log (cruns E ops) = a ++ Called n u c :: b -> object n b = Some u.
Proof. intros E ops a n u c b EQ. exact (every_split called_right _ (proj2 (cruns_I5 E ops)) a _ b EQ). Qed.
Print Assumptions C20_right_channel.

(** Data for a number in use reaches its channel object, or the connection ends. *)
Theorem C20_delivered :
  forall E ops n p q r, let s := cruns E ops in
  cs_dead s = false -> status false n (cs_log s) = Some (Live p) ->
  forall payload, ParseChannelData payload = Some q -> cd_local_channel q = n ->
  let s' := cstep E s (OpPacket 94 payload r) in
  cs_dead s' = true \/
  (exists u, object n (cs_log s) = Some u /\
             cs_log s' = Called n u (CbData (cd_data q)) :: Received 94 payload :: cs_log s).
Proof.
  intros E ops n p q r s D S payload Q T s'. destruct (live_object E ops n p D S) as (c & O & S1 & S2 & S3 & _).
  fold s in S3. unfold s', cstep. rewrite D. unfold HandlePacket, HandleChannelData, deliver. cbv zeta.
  rewrite Q, T, get_recv, S3.
  destruct (c_rwin c <? len (cd_data q)); [left; apply die_spec|].
  destruct (rx_throws r); [left; apply die_spec|]. right. exists (c_uid c). split; [exact O|reflexivity].
Qed.
Print Assumptions C20_delivered.

(** A message which does not fit the state of its number disconnects the
    peer.  No channel sees it: all that happens is the end of the connection
    ("Bad channel"; an adjustment by zero bytes, which is malformed anyway,
    ends it without that message). *)
Theorem C20_bad_number :
  forall E ops msg payload r n st, let s := cruns E ops in
  cs_dead s = false -> target msg payload = Some n ->
  status false n (cs_log s) = Some st -> admissible msg st = false ->
  let s' := cstep E s (OpPacket msg payload r) in
  cs_dead s' = true /\
  exists evs d, cs_log s' = evs ++ Died d :: Received msg payload :: cs_log s /\ forallb farewell evs = true /\
    (d = DDisconnect 2 (bs "Bad channel") \/
     exists q, msg = 93 /\ ParseChannelWindowAdjust payload = Some q /\ wa_nbytes q = 0).
Proof.
  intros E ops msg payload r n st s D T S A s'.
  destruct (bad_number_dies E s msg payload r n st (cruns_I1 E ops) D T S A) as (d & EQ & Hd).
  unfold s'. rewrite EQ. split; [apply die_spec|].
  destruct (die_farewell d (log (Received msg payload) s)) as (evs & L & F).
  exists evs, d. split; [exact L|]. split; [exact F|exact Hd].
Qed.
Print Assumptions C20_bad_number.

(** ** Examples *)

(** a history with two channels at a time in which number 0 is used twice and
    number 1 is later used for a channel we opened *)
Example C20_reuse_witness :
  cs_dead (cruns dbg busy) = false /\
  status false 0 (cs_log (cruns dbg busy)) = Some (Live 9) /\
  status false 1 (cs_log (cruns dbg busy)) = Some (Live 77) /\
  List.length (filter (announces 0) (cs_log (cruns dbg busy))) = 2%nat /\
  List.length (filter (announces 1) (cs_log (cruns dbg busy))) = 2%nat.
Proof. vm_compute. repeat split. Qed.

(** data for a number that is not in use, after that history *)
Example C20_bad_witness :
  target 94 (be32 2 ++ string_enc [1]) = Some 2 /\
  status false 2 (cs_log (cruns dbg busy)) = Some Free /\ admissible 94 Free = false /\
  cs_dead (cruns dbg (busy ++ [p_data 2 [1]])) = true.
Proof. vm_compute. repeat split. Qed.

(** calls on the same number for different objects *)
Example C20_same_witness :
  nodup N.eq_dec (flat_map (fun e => match e with Called 0 u _ => [u] | _ => [] end)
                   (cs_log (cruns dbg (busy ++ [p_data 0 [8]])))) = [5; 1].
Proof. vm_compute. reflexivity. Qed.
