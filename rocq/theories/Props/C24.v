(** * C24: replies to channel requests

    [asked u log]: the requests handed to the channel object [u], oldest
    first; [wanted]: those with "want reply"; [replies u log]: the replies it
    sent, oldest first; [result u id log]: what the handler of request [id]
    returned (Spec/ChannelSpec.v). *)

From Coq Require Import NArith Arith List Bool Lia String.
From Verif.Base Require Import Bytes.
From Verif.Spec Require Import WireSpec ChannelSpec.
From Verif.Model Require Import Wire Frame Packets Requests Channels.
From Verif.Proofs Require Import ChannelSteps ChannelStatus RequestFacts ChannelObjects ChannelRequests ChannelFactories ChannelFacts ChannelToy.
Import ListNotations.
Open Scope N_scope.

Definition closed (u : N) (l : list cev) : Prop := exists p, In (CClose p) (said u l).

(** The [k]-th reply is the result of the [k]-th request which wants one. *)
Definition in_order (u : N) (l : list cev) : Prop :=
  forall k b, nth_error (replies u l) k = Some b ->
  exists id, nth_error (wanted (asked u l)) k = Some (id, true) /\ result u id l = Some b.

(** [considerate E op]: handlers of requests without "want reply" do not
    finish synchronously (Spec/ChannelSpec.v). *)
Theorem C24_order_partial :
  forall E ops u, Forall (considerate E) ops -> u <> 0 -> ~ closed u (cs_log (cruns E ops)) ->
  in_order u (cs_log (cruns E ops)).
Proof.
  intros E ops u C Hu NC k b H. destruct (i3_all _ (cruns_I3 E ops C) u Hu) as (j & R & K).
  destruct j as [|j].
  - cbn in R. rewrite app_nil_r in R. rewrite R in H. exact (answers_nth _ _ k b H).
  - exfalso. apply NC. destruct (K ltac:(discriminate)) as (a & p & m & EQ & _). exists p. rewrite EQ.
    apply in_or_app. right. now left.
Qed.
Print Assumptions C24_order_partial.

(** Also for a channel which we have closed: requests which its object never
    saw are rejected. *)
Theorem C24_closed_partial :
  forall E ops u, Forall (considerate E) ops -> u <> 0 ->
  forall k b, nth_error (replies u (cs_log (cruns E ops))) k = Some b ->
  (exists id, nth_error (wanted (asked u (cs_log (cruns E ops)))) k = Some (id, true) /\
              result u id (cs_log (cruns E ops)) = Some b) \/
  (b = false /\ closed u (cs_log (cruns E ops))).
Proof.
  intros E ops u C Hu k b H. destruct (i3_all _ (cruns_I3 E ops C) u Hu) as (j & R & K). rewrite R in H.
  destruct (Nat.lt_ge_cases k (List.length (due u (cs_log (cruns E ops))))) as [L|L].
  - left. rewrite nth_error_app1 in H by exact L. exact (answers_nth _ _ k b H).
  - right. rewrite nth_error_app2 in H by exact L. apply nth_error_In in H.
    assert (J : j <> O) by (intros ->; contradiction).
    apply repeat_spec in H. split; [exact H|]. destruct (K J) as (a & p & m & EQ & _). exists p. rewrite EQ.
    apply in_or_app. right. now left.
Qed.
Print Assumptions C24_closed_partial.

(** No request that wants a reply and whose handler has finished is left
    unanswered, as soon as all older handlers have finished. *)
Theorem C24_complete_partial :
  forall E ops u pre id rest, let l := cs_log (cruns E ops) in
  Forall (considerate E) ops -> u <> 0 ->
  asked u l = pre ++ (id, true) :: rest ->
  (forall i w, In (i, w) (pre ++ [(id, true)]) -> result u i l <> None) ->
  nth_error (replies u l) (List.length (wanted pre)) = result u id l /\ result u id l <> None.
Proof.
  intros E ops u pre id rest l C Hu EQ F. split; [|apply (F id true), in_or_app; right; now left].
  destruct (i3_all _ (cruns_I3 E ops C) u Hu) as (j & R & _). fold l in R. rewrite R. unfold due. rewrite EQ.
  clear R EQ C. induction pre as [|(i & w) pre IH]; cbn [app answers]; unfold res at 1.
  - destruct (result u id l) as [b|] eqn:B; [reflexivity|]. exfalso. apply (F id true); [now left|exact B].
  - destruct (result u i l) as [b|] eqn:B; [|exfalso; apply (F i w); [now left|exact B]].
    assert (F' : forall i w, In (i, w) (pre ++ [(id, true)]) -> result u i l <> None) by (intros; eapply F; right; eassumption).
    specialize (IH F'). unfold wanted in *. cbn [filter snd]. destruct w; exact IH.
Qed.
Print Assumptions C24_complete_partial.

(** The full statement is about all handlers. *)
Definition C24_full_statement : Prop :=
  forall E ops u, u <> 0 -> ~ closed u (cs_log (cruns E ops)) -> in_order u (cs_log (cruns E ops)).

Lemma not_closed : forall u l, existsb is_close (said u l) = false -> ~ closed u l.
Proof.
  intros u l H (p & P). assert (X : existsb is_close (said u l) = true) by (apply existsb_exists; exists (CClose p); auto).
  congruence.
Qed.

Definition confusing : list cop :=
  [p_open 7 100 50; p_request 0 true RAsync; p_request 0 false (RSync true); OpRequestDone 0 2 (RDone false)].

(** It is false: the reply to a request is sent although none was wanted, if
    its handler finishes synchronously (without assertions), and the peer
    will take it for the reply to another request. *)
Theorem C24_order_refuted : ~ C24_full_statement.
Proof.
  intros H. specialize (H rel confusing 1 ltac:(discriminate)).
  assert (A : existsb is_close (said 1 (cs_log (cruns rel confusing))) = false) by (vm_compute; reflexivity).
  assert (B : nth_error (replies 1 (cs_log (cruns rel confusing))) 1 = Some true) by (vm_compute; reflexivity).
  assert (C : nth_error (wanted (asked 1 (cs_log (cruns rel confusing)))) 1 = None) by (vm_compute; reflexivity).
  destruct (H (not_closed _ _ A) 1%nat true B) as (id & D & _). rewrite C in D. discriminate.
Qed.
Print Assumptions C24_order_refuted.

(** With assertions enabled, such a request ends the process. *)
Theorem C24_assertion_refuted :
  ~ (forall E ops, r_dbg E = true ->
     (forall o, In o ops -> exists w d, o = p_open 7 100 50 \/ o = p_request 0 w (RSync d)) ->
     ~ In (Died DAssert) (cs_log (cruns E ops))).
Proof.
  intros H. apply (H dbg [p_open 7 100 50; p_request 0 false (RSync true)] eq_refl).
  - intros o [<-|[<-|[]]]; exists false, true; auto.
  - vm_compute. right. left. reflexivity.
Qed.
Print Assumptions C24_assertion_refuted.

(** ** Examples *)

Definition three : list cop :=
  [p_open 7 100 50; p_request 0 true RAsync; p_request 0 false RAsync; p_request 0 true (RSync false);
   OpRequestDone 0 3 (RDone true); OpRequestDone 0 2 (RDone true)].

Example C24_witness :
  Forall (considerate dbg) three /\ ~ closed 1 (cs_log (cruns dbg three)) /\
  asked 1 (cs_log (cruns dbg three)) = [(2, true); (3, false); (4, true)] /\
  replies 1 (cs_log (cruns dbg three)) = [true; false] /\
  map (fun i => result 1 i (cs_log (cruns dbg three))) [2; 3; 4] = [Some true; Some true; Some false] /\
  replies 1 (cs_log (cruns dbg (firstn 5 three))) = [].
Proof.
  split.
  { unfold three. repeat (apply Forall_cons; [|]); try apply Forall_nil; try exact I;
      intros q Q; try (right; left; reflexivity).
    right. right. split; [|now exists false].
    assert (X : option_map cr_want_reply (ParseChannelRequest (be32 0 ++ string_enc (bs "shell") ++ [1])) = Some true)
      by (vm_compute; reflexivity).
    rewrite Q in X. now injection X. }
  split; [apply not_closed; vm_compute; reflexivity|].
  vm_compute. auto.
Qed.
