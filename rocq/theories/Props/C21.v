(** * C21: receive windows are enforced

    For the channel object [u]: [receive_credit] is its initial window plus
    all adjustments it sent, [delivered] the bytes passed to it, [consumed]
    the bytes it declared as consumed (Spec/ChannelSpec.v). *)

From Coq Require Import NArith Arith List Bool Lia String.
From Verif.Base Require Import Bytes.
From Verif.Spec Require Import WireSpec ChannelSpec.
From Verif.Model Require Import Wire Frame Packets Requests Channels.
From Verif.Proofs Require Import ChannelSteps ChannelStatus RequestFacts ChannelObjects ChannelRequests ChannelFactories ChannelFacts ChannelToy.
Import ListNotations.
Open Scope N_scope.

(** No packet larger than what is left of the granted windows is delivered. *)
Theorem C21_each_packet :
  forall E ops a n u c d b, cs_log (cruns E ops) = a ++ Called n u c :: b ->
  c = CbData d \/ (exists ty, c = CbExt ty d) ->
  consumed u b + len d <= receive_credit u b.
Proof.
  intros E ops a n u c d b EQ H.
  pose proof (every_split good_event _ (i2_good _ (cruns_I2 E ops)) a _ b EQ) as (_ & G).
  destruct H as [->|(ty & ->)]; exact G.
Qed.
Print Assumptions C21_each_packet.

(** The bytes which a channel has consumed never exceed what it granted. *)
Theorem C21_consumed :
  forall E ops u, u <> 0 -> consumed u (cs_log (cruns E ops)) <= receive_credit u (cs_log (cruns E ops)).
Proof. intros E ops u Hu. exact (proj2 (proj2 (i2_gone _ (cruns_I2 E ops) u Hu))). Qed.
Print Assumptions C21_consumed.

(** [prompt u log]: whenever data arrives, the channel has consumed all it got
    before *)
Definition prompt (u : N) (l : list cev) : Prop :=
  forall a n c d b, l = a ++ Called n u c :: b -> c = CbData d \/ (exists ty, c = CbExt ty d) ->
  delivered u b <= consumed u b.

Lemma credit_mono : forall u e l, receive_credit u l <= receive_credit u (e :: l).
Proof.
  intros u e l. unfold receive_credit. destruct e; cbn [initial_window said]; try lia.
  - destruct (u0 =? u); [|lia]. cbn [map]. rewrite sumN_cons. lia.
  - destruct (u0 =? u); lia.
Qed.

(** For a channel which consumes promptly, the total of all data delivered
    never exceeds the windows granted. *)
Theorem C21_delivered_partial :
  forall E ops u, prompt u (cs_log (cruns E ops)) ->
  delivered u (cs_log (cruns E ops)) <= receive_credit u (cs_log (cruns E ops)).
Proof.
  intros E ops u P. pose proof (i2_good _ (cruns_I2 E ops)) as G. revert P G.
  induction (cs_log (cruns E ops)) as [|e l IH]; intros P G; [cbn; lia|].
  assert (IH' : delivered u l <= receive_credit u l).
  { apply IH; [|apply G]. intros a n c d b EQ. apply (P (e :: a) n c d b). now rewrite EQ. }
  pose proof (credit_mono u e l) as M.
  destruct e; cbn [delivered]; try lia. destruct c; try lia.
  - destruct (u0 =? u) eqn:Eu; [|lia]. apply N.eqb_eq in Eu. subst u0.
    pose proof (P [] n (CbData data) data l eq_refl (or_introl eq_refl)) as Q. destruct G as ((_ & G) & _). lia.
  - destruct (u0 =? u) eqn:Eu; [|lia]. apply N.eqb_eq in Eu. subst u0.
    pose proof (P [] n (CbExt type data) data l eq_refl (or_intror (ex_intro _ type eq_refl))) as Q.
    destruct G as ((_ & G) & _). lia.
Qed.
Print Assumptions C21_delivered_partial.

(** The full statement has no condition on the consumer. *)
Definition C21_full_statement : Prop :=
  forall E ops u, delivered u (cs_log (cruns E ops)) <= receive_credit u (cs_log (cruns E ops)).

(** It is false: the window is not reduced by data which was received but not
    consumed yet.  With a window of 50 bytes a peer can send any number of
    packets of 40 bytes to a channel which cannot consume them now. *)
Theorem C21_delivered_refuted : ~ C21_full_statement.
Proof.
  intros H. specialize (H rel [p_open 7 100 50; p_data 0 (repeat 1 40); p_data 0 (repeat 1 40)] 1).
  vm_compute in H. now apply H.
Qed.
Print Assumptions C21_delivered_refuted.

(** Data beyond the window terminates the connection and is not delivered. *)
Theorem C21_over_window :
  forall E ops n p u r payload msg d, let s := cruns E ops in
  cs_dead s = false -> status false n (cs_log s) = Some (Live p) -> object n (cs_log s) = Some u ->
  (exists q, msg = 94 /\ ParseChannelData payload = Some q /\ cd_local_channel q = n /\ cd_data q = d) \/
  (exists q, msg = 95 /\ ParseChannelExtendedData payload = Some q /\ ce_local_channel q = n /\ ce_data q = d) ->
  receive_credit u (cs_log s) < consumed u (cs_log s) + len d ->
  let s' := cstep E s (OpPacket msg payload r) in
  cs_dead s' = true /\
  exists evs, cs_log s' = evs ++ Died DError :: Received msg payload :: cs_log s /\ forallb farewell evs = true.
Proof.
  intros E ops n p u r payload msg d s D S O H W s'.
  destruct (live_object E ops n p D S) as (c & O' & S1 & S2 & S3 & (_ & _ & K)).
  fold s in O', S1, S3, K. rewrite O in O'. injection O' as ->.
  assert (L : (c_rwin c <? len d) = true) by (apply N.ltb_lt; lia).
  assert (X : s' = die DError (log (Received msg payload) s)).
  { unfold s', cstep. rewrite D. unfold HandlePacket. cbv zeta. destruct H as [(q & -> & Q & T & F)|(q & -> & Q & T & F)].
    - unfold HandleChannelData, deliver. rewrite Q, T, get_recv, S3, F, L. reflexivity.
    - unfold HandleChannelExtendedData, deliver. rewrite Q, T, get_recv, S3, F, L. reflexivity. }
  rewrite X. split; [apply die_spec|].
  destruct (die_farewell DError (log (Received msg payload) s)) as (evs & A & B). exists evs. split; [exact A|exact B].
Qed.
Print Assumptions C21_over_window.

(** ** Examples *)

(** a prompt consumer which receives exactly what it granted *)
Definition prompt_ops : list cop :=
  [p_open 7 100 5; p_data 0 [1; 2; 3]; OpConsume 0 3; p_ext 0 1 [4; 5]; OpConsume 0 2; OpAdjust 0 2; p_data 0 [6; 7]].

Fixpoint promptb (u : N) (l : list cev) : bool :=
  match l with
  | [] => true
  | Called _ v (CbData _) :: t | Called _ v (CbExt _ _) :: t =>
      (negb (v =? u) || (delivered u t <=? consumed u t)) && promptb u t
  | _ :: t => promptb u t
  end.
Lemma promptb_ok : forall u l, promptb u l = true -> prompt u l.
Proof.
  intros u l H a n c d b ->. induction a as [|e a IH].
  - intros [->|(ty & ->)]; cbn in H; rewrite N.eqb_refl in H; cbn in H; apply andb_true_iff in H;
      apply N.leb_le, H.
  - apply IH. destruct e; cbn in H; try exact H. destruct c0; try exact H; now apply andb_true_iff in H.
Qed.

Example C21_prompt_witness :
  prompt 1 (cs_log (cruns dbg prompt_ops)) /\
  delivered 1 (cs_log (cruns dbg prompt_ops)) = 7 /\ receive_credit 1 (cs_log (cruns dbg prompt_ops)) = 7.
Proof. split; [apply promptb_ok|]; vm_compute; auto. Qed.

Example C21_over_witness :
  let s := cruns dbg prompt_ops in
  cs_dead s = false /\ status false 0 (cs_log s) = Some (Live 7) /\ object 0 (cs_log s) = Some 1 /\
  receive_credit 1 (cs_log s) < consumed 1 (cs_log s) + len [1; 2; 3] /\
  (exists q, ParseChannelData (be32 0 ++ string_enc [1; 2; 3]) = Some q /\ cd_local_channel q = 0 /\ cd_data q = [1; 2; 3]) /\
  cs_dead (cstep dbg s (p_data 0 [1; 2; 3])) = true.
Proof. vm_compute. repeat split. eexists. repeat split. Qed.
