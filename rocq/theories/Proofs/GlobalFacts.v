(** Invariants of the global request list. *)

From Coq Require Import NArith List Bool Lia Arith.
From Verif.Base Require Import Bytes.
From Verif.Model Require Import Packets Requests Channels Globals.
From Verif.Spec Require Import ChannelSpec GlobalSpec.
From Verif.Proofs Require Import RequestFacts ChannelRequests.
Import ListNotations.
Open Scope N_scope.

Definition gres (l : list gev) : N -> option bool := fun id => gresult id l.

Lemma greplies_replies : forall rs l, greplies (rev (map GReply rs) ++ l) = greplies l ++ rs.
Proof.
  intros rs. induction rs as [|b t IH]; intros l; [cbn; now rewrite app_nil_r|].
  cbn [map rev]. rewrite <- app_assoc, IH. cbn. now rewrite <- app_assoc.
Qed.
Lemma gasked_replies : forall rs l, gasked (rev (map GReply rs) ++ l) = gasked l.
Proof.
  intros rs l. rewrite <- (rev_involutive rs), map_rev, rev_involutive.
  induction (rev rs) as [|b t IH]; [reflexivity|]. exact IH.
Qed.
Lemma gresult_replies : forall rs l id, gresult id (rev (map GReply rs) ++ l) = gresult id l.
Proof.
  intros rs l id. rewrite <- (rev_involutive rs), map_rev, rev_involutive.
  induction (rev rs) as [|b t IH]; [reflexivity|]. exact IH.
Qed.

(** ** The bound *)

Lemma submit_length : forall dbg l rs l' f, submit dbg l = (rs, l', f) -> (List.length l' <= List.length l)%nat.
Proof.
  intros dbg l. induction l as [|r t IH]; intros rs l' f H; cbn in H; [injection H as <- <- <-; reflexivity|].
  destruct (pq_done r); [|injection H as <- <- <-; reflexivity].
  destruct (dbg && negb (pq_want r)); [injection H as <- <- <-; reflexivity|].
  destruct (submit dbg t) as [[rs0 t0] f0] eqn:S. injection H as <- <- <-.
  specialize (IH _ _ _ eq_refl). cbn. lia.
Qed.
Lemma mark_length : forall id b l, List.length (mark_done id b l) = List.length l.
Proof. intros id b l. induction l as [|r t IH]; [reflexivity|]. cbn. destruct (pq_id r =? id); cbn; congruence. Qed.
Lemma erase_length : forall id l, (List.length (erase_request id l) <= List.length l)%nat.
Proof. intros id l. induction l as [|r t IH]; [reflexivity|]. cbn. destruct (pq_id r =? id); cbn; lia. Qed.
Lemma finish_length : forall dbg id b l rs l' f, finish_request dbg id b l = (rs, l', f) ->
  (List.length l' <= List.length l)%nat.
Proof.
  intros dbg id b l rs l' f H. unfold finish_request in H. destruct (find_request id l); [|injection H as <- <- <-; reflexivity].
  apply submit_length in H. pose proof (mark_length id b l) as M.
  destruct (pq_want p); [lia|]. pose proof (erase_length id (mark_done id b l)). lia.
Qed.
Lemma start_length : forall E id w o l rs l' f, start_request E id w o l = Some (rs, l', f) ->
  (List.length l' <= S (List.length l))%nat.
Proof.
  intros E id w o l rs l' f H. unfold start_request in H.
  assert (X : forall d, List.length (l ++ [{| pq_id := id; pq_want := w; pq_done := d |}]) = S (List.length l)).
  { intros d. rewrite app_length. cbn. lia. }
  destruct o as [b|g|].
  - destruct (r_sync_done E); injection H as H; [apply submit_length in H|apply finish_length in H]; rewrite X in H; exact H.
  - destruct (r_sync_done E); [|discriminate]. injection H as H. apply submit_length in H. rewrite X in H. exact H.
  - injection H as <- <- <-. rewrite X. reflexivity.
Qed.

Lemma gsubmit_length : forall rs l f s, (List.length (gs_pending (gsubmit (rs, l, f) s)) <= List.length l)%nat.
Proof. intros rs l [] s; cbn; [apply Nat.le_0_l|reflexivity]. Qed.

Definition bounded (s : gstate) : Prop := N.of_nat (List.length (gs_pending s)) <= MAX_PENDING_REQUESTS.

Lemma gstep_bounded : forall E s o, bounded s -> bounded (gstep E s o).
Proof.
  intros E s o B. unfold bounded in *. unfold gstep. destruct (gs_dead s); [exact B|]. destruct o as [p out|id r|].
  - cbn [gHandlePacketIf negb orb]. change (80 =? 80) with true. cbn match. unfold HandleGlobalRequest. cbv zeta.
    change (gs_pending (glog (GReceived p) s)) with (gs_pending s).
    destruct (MAX_PENDING_REQUESTS <=? N.of_nat (List.length (gs_pending s))) eqn:L; [cbn; lia|]. apply N.leb_gt in L.
    destruct (ParseGlobalRequest p) as [q|]; [|cbn; lia].
    match goal with |- context [start_request ?E0 ?i ?w ?o0 ?l0] =>
      assert (P : l0 = gs_pending s) by (destruct out; reflexivity); rewrite P; destruct (start_request E0 i w o0 (gs_pending s)) as [[[rs l'] f]|] eqn:S; [|cbn; lia] end.
    apply start_length in S. match goal with |- context [gsubmit ?x ?t] => pose proof (gsubmit_length rs l' f t) as G end. lia.
  - destruct (find_request id (gs_pending s)) as [[i w [d|]]|]; try exact B. destruct r as [b|]; [|cbn; lia].
    destruct (finish_request (r_dbg E) id b (gs_pending s)) as [[rs l'] f] eqn:F. apply finish_length in F.
    pose proof (gsubmit_length rs l' f (glog (GFinished id b) s)) as G. lia.
  - cbn. lia.
Qed.

Lemma gruns_bounded : forall E ops, bounded (gruns E ops).
Proof.
  intros E ops. unfold gruns.
  assert (G : forall ops s, bounded s -> bounded (fold_left (gstep E) ops s)).
  { clear ops. intros ops. induction ops as [|o t IH]; intros s H; [exact H|]. apply IH. now apply gstep_bounded. }
  apply G. cbn. unfold bounded. cbn. lia.
Qed.

(** ** The order *)

Record J (s : gstate) : Prop := {
  j_ids : forall id w, In (id, w) (gasked (gs_log s)) -> id < gs_next s;
  j_fresh : forall id, gs_next s <= id -> gresult id (gs_log s) = None;
  j_nodup : NoDup (map fst (gasked (gs_log s)));
  j_pending : gs_dead s = false -> gs_pending s = backlog (gres (gs_log s)) (gasked (gs_log s));
  j_replies : greplies (gs_log s) = answers (gres (gs_log s)) (gasked (gs_log s))
}.

Lemma J_die : forall r s, J s -> J (gdie r s).
Proof. intros r s [H1 H2 H3 H4 H5]. constructor; cbn; auto. discriminate. Qed.

Lemma J_step : forall E s o, gconsiderate E o -> J s -> J (gstep E s o).
Proof.
  intros E s o C HJ. unfold gstep. destruct (gs_dead s) eqn:D; [exact HJ|]. destruct o as [p out|id r|].
  - cbn [gHandlePacketIf negb orb]. change (80 =? 80) with true. cbn match. unfold HandleGlobalRequest. cbv zeta.
    change (gs_pending (glog (GReceived p) s)) with (gs_pending s).
    assert (JR : J (glog (GReceived p) s)) by (destruct HJ as [H1 H2 H3 H4 H5]; constructor; cbn; auto).
    destruct (MAX_PENDING_REQUESTS <=? N.of_nat (List.length (gs_pending s))) eqn:L; [now apply J_die|].
    destruct (ParseGlobalRequest p) as [q|] eqn:Q; [|now apply J_die]. specialize (C q Q).
    destruct HJ as [H1 H2 H3 H4 H5]. specialize (H4 D).
    set (id := gs_next s) in *. change (gs_next (glog (GReceived p) s)) with id.
    assert (NI : ~ In id (map fst (gasked (gs_log s)))).
    { intros K. apply in_map_iff in K. destruct K as ((i & w) & <- & K). apply H1 in K. cbn in K. unfold id in K. lia. }
    set (call := GCalled id (gr_want_reply q) (gr_request_name q) (gr_data q)).
    assert (KEY : exists mid, (match out with RSync b => mid = [GFinished id b] | _ => mid = [] end) /\
      gs_log (match out with RSync b => glog (GFinished id b) (glog call (glog (GReceived p) s)) | _ => glog call (glog (GReceived p) s) end)
       = mid ++ call :: GReceived p :: gs_log s /\
      gs_pending (match out with RSync b => glog (GFinished id b) (glog call (glog (GReceived p) s)) | _ => glog call (glog (GReceived p) s) end)
       = gs_pending s).
    { destruct out; eexists; repeat split; cbn; reflexivity. }
    destruct KEY as (mid & M & KL & KP). cbn [gs_pending]. rewrite KP, KL. clear KL KP.
    assert (A : gasked (mid ++ call :: GReceived p :: gs_log s) = gasked (gs_log s) ++ [(id, gr_want_reply q)]).
    { destruct out; rewrite M; reflexivity. }
    assert (RS : forall k, gresult k (mid ++ call :: GReceived p :: gs_log s) =
              match out with RSync b => upres (gres (gs_log s)) id b k | _ => gres (gs_log s) k end).
    { intros k. destruct out; rewrite M; cbn; try reflexivity. unfold upres, gres. now rewrite (N.eqb_sym id k). }
    assert (RP : greplies (mid ++ call :: GReceived p :: gs_log s) = greplies (gs_log s)).
    { destruct out; rewrite M; reflexivity. }
    assert (IDS : forall i w, In (i, w) (gasked (gs_log s) ++ [(id, gr_want_reply q)]) -> i < id + 1).
    { intros i w K. apply in_app_or in K. destruct K as [K|[K|[]]]; [apply H1 in K; unfold id; lia|injection K as <- _; lia]. }
    assert (FR : forall i, id + 1 <= i -> gresult i (mid ++ call :: GReceived p :: gs_log s) = None).
    { intros i Hi. rewrite RS. destruct out; unfold upres, gres; try (apply H2; unfold id in Hi; lia).
      replace (i =? id) with false by (symmetry; apply N.eqb_neq; lia). apply H2. unfold id in Hi. lia. }
    assert (ND : NoDup (map fst (gasked (gs_log s) ++ [(id, gr_want_reply q)]))).
    { rewrite map_app. cbn. apply NoDup_app_snoc; assumption. }
    rewrite H4.
    destruct (start_request E id (gr_want_reply q) out (backlog (gres (gs_log s)) (gasked (gs_log s)))) as [[[rs l'] f]|] eqn:S.
    + destruct (start_spec E (gres (gs_log s)) id (gr_want_reply q) out (gasked (gs_log s)) rs l' f H3 NI (H2 id (N.le_refl _)) C S)
        as (-> & res' & R' & P' & A').
      cbn [gsubmit gs_log gs_next gs_dead].
      assert (RR : forall k, res' k = gres (rev (map GReply rs) ++ mid ++ call :: GReceived p :: gs_log s) k).
      { intros k. unfold gres. rewrite gresult_replies, RS. apply R'. }
      constructor; cbn [gs_log gs_next gs_dead gs_pending]; rewrite ?gasked_replies, ?A; auto.
      * intros i Hi. rewrite gresult_replies. now apply FR.
      * intros _. rewrite P'. now apply backlog_ext.
      * rewrite greplies_replies, RP, H5, <- A'. apply answers_ext. intros; apply RR.
    + unfold start_request in S. destruct out as [b|g|]; try (destruct (r_sync_done E); discriminate); try discriminate.
      constructor; cbn [gs_log gs_next gs_dead gs_pending gdie].
      * intros i w K. cbn [gasked] in K. rewrite A in K. exact (IDS i w K).
      * exact FR.
      * cbn [gasked]. now rewrite A.
      * discriminate.
      * cbn [greplies gasked]. rewrite A, RP, H5, <- (answers_app_open (gres (gs_log s)) _ (id, gr_want_reply q)).
        -- apply answers_ext. intros r _. unfold gres at 2. cbn [gresult]. now rewrite RS.
        -- apply H2. apply N.le_refl.
  - destruct (find_request id (gs_pending s)) as [[i w [d|]]|] eqn:F; try exact HJ.
    destruct r as [b|]; [|now apply J_die].
    destruct HJ as [H1 H2 H3 H4 H5]. specialize (H4 D). rewrite H4 in F |- *. pose proof F as FI.
    apply find_in in FI. unfold backlog, kept in FI. apply in_map_iff in FI.
    destruct FI as ((i' & w') & M & FI). apply filter_In in FI. destruct FI as (FI & _).
    unfold mk in M. cbn [fst snd] in M. injection M as -> -> RN. apply rest_incl in FI.
    assert (i = id) as ->.
    { clear -F. revert F. generalize (backlog (gres (gs_log s)) (gasked (gs_log s))) as l. intros l.
      induction l as [|x t IH]; [discriminate|]. cbn. destruct (pq_id x =? id) eqn:X; [|exact IH].
      apply N.eqb_eq in X. intros K. injection K as ->. exact X. }
    destruct (finish_spec (r_dbg E) (gres (gs_log s)) id b (gasked (gs_log s)) w H3 RN FI) as (rs & FN & A).
    rewrite FN. cbn [gsubmit glog gs_log gs_next gs_dead].
    assert (RS : forall k, upres (gres (gs_log s)) id b k = gres (rev (map GReply rs) ++ GFinished id b :: gs_log s) k).
    { intros k. unfold gres. rewrite gresult_replies. cbn. unfold upres. now rewrite (N.eqb_sym id k). }
    constructor; cbn [gs_log gs_next gs_dead gs_pending]; rewrite ?gasked_replies; cbn [gasked]; auto.
    + intros k Hk. rewrite gresult_replies. cbn. destruct (id =? k) eqn:X; [|now apply H2].
      apply N.eqb_eq in X. apply H1 in FI. lia.
    + intros _. now apply backlog_ext.
    + rewrite greplies_replies. cbn [greplies]. rewrite H5, <- A. apply answers_ext. intros; apply RS.
  - now apply J_die.
Qed.

Lemma gruns_J : forall E ops, Forall (gconsiderate E) ops -> J (gruns E ops).
Proof.
  intros E ops C. unfold gruns.
  assert (G : forall s, J s -> J (fold_left (gstep E) ops s)).
  { induction C as [|o t Ho Ht IH]; intros s H; [exact H|]. apply IH. now apply J_step. }
  apply G. constructor; cbn; auto; try contradiction. constructor.
Qed.

(** every unfinished request is in the list *)
Lemma unfinished_pending : forall r l, (List.length (filter (fun x => match r (fst x) with None => true | Some _ => false end) l)
  <= List.length (backlog r l))%nat.
Proof.
  intros r l. unfold backlog, kept. rewrite map_length.
  assert (X : filter (fun x => match r (fst x) with None => true | Some _ => false end) l =
              filter (fun x => match r (fst x) with None => true | Some _ => false end) (rest r l)).
  { induction l as [|x t IH]; [reflexivity|]. cbn [filter rest]. destruct (r (fst x)) eqn:E; [exact IH|].
    cbn [filter]. now rewrite E. }
  rewrite X. clear X. generalize (rest r l) as t. intros t. induction t as [|x t IH]; [reflexivity|]. cbn [filter].
  unfold keep at 1. destruct (r (fst x)); [rewrite orb_false_r; destruct (snd x); cbn [List.length]; lia|].
  rewrite orb_true_r. cbn [List.length]. lia.
Qed.
