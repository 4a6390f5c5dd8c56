(** * C25: global requests are answered once, in order, and are bounded

    [gasked], [gresult], [greplies]: the requests handed to the handler, what
    it returned, and the replies sent (Spec/GlobalSpec.v). *)

From Coq Require Import NArith List Bool Lia Arith String.
From Verif.Base Require Import Bytes.
From Verif.Spec Require Import WireSpec ChannelSpec GlobalSpec.
From Verif.Model Require Import Wire Packets Requests Channels Globals.
From Verif.Proofs Require Import RequestFacts ChannelRequests ChannelFacts ChannelToy GlobalFacts.
Import ListNotations.
Open Scope N_scope.

(** Never more than 16 requests are pending. *)
Theorem C25_bounded :
  forall E ops, N.of_nat (List.length (gs_pending (gruns E ops))) <= 16.
Proof. intros E ops. exact (gruns_bounded E ops). Qed.
Print Assumptions C25_bounded.

(** The same in terms of the handler's calls. *)
Theorem C25_bounded_calls_partial :
  forall E ops, Forall (gconsiderate E) ops -> gs_dead (gruns E ops) = false ->
  N.of_nat (List.length (gunfinished (gs_log (gruns E ops)))) <= 16.
Proof.
  intros E ops C D. pose proof (gruns_bounded E ops) as B. unfold bounded in B.
  rewrite (j_pending _ (gruns_J E ops C) D) in B.
  pose proof (unfinished_pending (gres (gs_log (gruns E ops))) (gasked (gs_log (gruns E ops)))) as U.
  unfold gunfinished. unfold gres in U at 1. unfold MAX_PENDING_REQUESTS in B. lia.
Qed.
Print Assumptions C25_bounded_calls_partial.

(** One request more ends the connection, and is not handled. *)
Theorem C25_excess_partial :
  forall E ops payload o, let s := gruns E ops in
  Forall (gconsiderate E) ops -> gs_dead s = false ->
  (16 <= List.length (gunfinished (gs_log s)))%nat ->
  let s' := gstep E s (GopRequest payload o) in
  gs_dead s' = true /\
  gs_log s' = [GDied (DDisconnect 11 (bs "Too many global requests")); GReceived payload] ++ gs_log s.
Proof.
  intros E ops payload o s C D L s'.
  pose proof (unfinished_pending (gres (gs_log s)) (gasked (gs_log s))) as U.
  rewrite <- (j_pending s (gruns_J E ops C) D) in U. unfold gunfinished in L. unfold gres in U.
  assert (X : (MAX_PENDING_REQUESTS <=? N.of_nat (List.length (gs_pending s))) = true).
  { apply N.leb_le. unfold MAX_PENDING_REQUESTS. lia. }
  unfold s', gstep. rewrite D. cbn [gHandlePacketIf negb orb]. change (80 =? 80) with true. cbn match.
  unfold HandleGlobalRequest. cbv zeta. change (gs_pending (glog (GReceived payload) s)) with (gs_pending s).
  rewrite X. split; reflexivity.
Qed.
Print Assumptions C25_excess_partial.

(** Requests below the limit are handed to the handler. *)
Theorem C25_handled :
  forall E ops payload q o, let s := gruns E ops in
  gs_dead s = false -> (List.length (gs_pending s) < 16)%nat -> ParseGlobalRequest payload = Some q ->
  In (GCalled (gs_next s) (gr_want_reply q) (gr_request_name q) (gr_data q)) (gs_log (gstep E s (GopRequest payload o))).
Proof.
  intros E ops payload q o s D L Q. unfold gstep. rewrite D. cbn [gHandlePacketIf negb orb]. change (80 =? 80) with true. cbn match.
  unfold HandleGlobalRequest. cbv zeta. change (gs_pending (glog (GReceived payload) s)) with (gs_pending s).
  replace (MAX_PENDING_REQUESTS <=? N.of_nat (List.length (gs_pending s))) with false
    by (symmetry; apply N.leb_gt; unfold MAX_PENDING_REQUESTS; lia).
  rewrite Q. change (gs_next (glog (GReceived payload) s)) with (gs_next s).
  match goal with |- context [start_request ?a ?b ?c ?d ?e] => destruct (start_request a b c d e) as [[[rs l] f]|] end.
  - destruct f; cbn [gsubmit gdie gs_log]; [right|]; apply in_or_app; right; destruct o; cbn; auto.
  - cbn [gdie gs_log]. right. destruct o; cbn; auto.
Qed.
Print Assumptions C25_handled.

(** The [k]-th reply is the result of the [k]-th request which wants one. *)
Definition g_in_order (l : list gev) : Prop :=
  forall k b, nth_error (greplies l) k = Some b ->
  exists id, nth_error (wanted (gasked l)) k = Some (id, true) /\ gresult id l = Some b.

Theorem C25_order_partial :
  forall E ops, Forall (gconsiderate E) ops -> g_in_order (gs_log (gruns E ops)).
Proof.
  intros E ops C k b H. rewrite (j_replies _ (gruns_J E ops C)) in H. exact (answers_nth _ _ k b H).
Qed.
Print Assumptions C25_order_partial.

(** Every request that wants a reply gets it when it and all older requests
    are finished. *)
Theorem C25_complete_partial :
  forall E ops pre id more, let l := gs_log (gruns E ops) in
  Forall (gconsiderate E) ops ->
  gasked l = pre ++ (id, true) :: more ->
  (forall i w, In (i, w) (pre ++ [(id, true)]) -> gresult i l <> None) ->
  nth_error (greplies l) (List.length (wanted pre)) = gresult id l /\ gresult id l <> None.
Proof.
  intros E ops pre id more l C EQ F. split; [|apply (F id true), in_or_app; right; now left].
  pose proof (j_replies _ (gruns_J E ops C)) as R. fold l in R. rewrite R, EQ.
  clear R EQ C. induction pre as [|(i & w) pre IH]; cbn [app answers]; unfold gres at 1.
  - destruct (gresult id l) as [b|] eqn:B; [reflexivity|]. exfalso. apply (F id true); [now left|exact B].
  - destruct (gresult i l) as [b|] eqn:B; [|exfalso; apply (F i w); [now left|exact B]].
    assert (F' : forall i w, In (i, w) (pre ++ [(id, true)]) -> gresult i l <> None) by (intros; eapply F; right; eassumption).
    specialize (IH F'). unfold wanted in *. cbn [filter snd]. destruct w; exact IH.
Qed.
Print Assumptions C25_complete_partial.

Definition C25_full_statement : Prop := forall E ops, g_in_order (gs_log (gruns E ops)).

Definition greq (want : bool) (o : routcome) : gop :=
  GopRequest (string_enc (bs "x") ++ [if want then 1 else 0]) o.

(** The full statement is false: a request without "want reply" whose handler
    finishes synchronously is answered, too.  The coroutine in
    src/Connection.cxx:1179-1249 never suspends for most requests, e.g.
    "no-more-sessions@openssh.com". *)
Theorem C25_order_refuted : ~ C25_full_statement.
Proof.
  intros H. specialize (H rel [greq false (RSync true)]).
  assert (B : nth_error (greplies (gs_log (gruns rel [greq false (RSync true)]))) 0 = Some true) by (vm_compute; reflexivity).
  assert (C : wanted (gasked (gs_log (gruns rel [greq false (RSync true)]))) = []) by (vm_compute; reflexivity).
  destruct (H 0%nat true B) as (id & D & _). rewrite C in D. discriminate.
Qed.
Print Assumptions C25_order_refuted.

(** ** Examples *)

Definition gthree : list gop :=
  [greq true RAsync; greq false RAsync; greq true (RSync false); GopDone 2 (RDone true); GopDone 1 (RDone true)].
Example C25_witness :
  Forall (gconsiderate dbg) gthree /\ gs_dead (gruns dbg gthree) = false /\
  gasked (gs_log (gruns dbg gthree)) = [(1, true); (2, false); (3, true)] /\
  greplies (gs_log (gruns dbg gthree)) = [true; false] /\
  greplies (gs_log (gruns dbg (firstn 4 gthree))) = [].
Proof.
  split; [|vm_compute; auto].
  unfold gthree. repeat (apply Forall_cons; [|]); try apply Forall_nil; try exact I;
    intros q Q; try (right; left; reflexivity).
  right. right. split; [|now exists false].
  assert (X : option_map gr_want_reply (ParseGlobalRequest (string_enc (bs "x") ++ [1])) = Some true) by (vm_compute; reflexivity).
  rewrite Q in X. now injection X.
Qed.

Example C25_excess_witness :
  let ops := repeat (greq true RAsync) 16 in
  Forall (gconsiderate dbg) ops /\ gs_dead (gruns dbg ops) = false /\
  List.length (gunfinished (gs_log (gruns dbg ops))) = 16%nat.
Proof.
  split; [|vm_compute; auto]. apply Forall_forall. intros o H. apply repeat_spec in H. subst o.
  intros q Q. right. left. reflexivity.
Qed.
