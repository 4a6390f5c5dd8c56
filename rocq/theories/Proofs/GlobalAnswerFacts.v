(** Proofs about global requests and their answers, end to end. *)

From Coq Require Import String NArith List Bool Lia.
From Verif.Base Require Import Bytes.
From Verif.Model Require Import Wire Frame Packets Makers Requests Channels Globals.
From Verif.Spec Require Import ChannelSpec OutputSpec EndToEndSpec PipelineSpec AnswerSpec GlobalSpec GlobalAnswerSpec.
From Verif.Proofs Require Import WireFacts RequestFacts ChannelRequests GlobalFacts AnswerFacts.
Import ListNotations.
Open Scope N_scope.

Lemma read_global : forall p, global_of (80 :: p) =
  match ParseGlobalRequest p with
  | Some q => [{| q_name := gr_request_name q; q_want := gr_want_reply q; q_data := gr_data q |}]
  | None => []
  end.
Proof.
  intros p. unfold ParseGlobalRequest, ReadString, ReadLengthEncoded, ReadU32, ReadN, ReadBool. destruct p as [|f [|g [|h [|i p]]]]; try reflexivity.
  cbn [obind global_of]. cbv zeta. destruct (len p <? un_be32 f g h i) eqn:L; cbn [obind].
  - apply N.ltb_lt in L. destruct (N.leb_spec (un_be32 f g h i) (len p)); [lia|reflexivity].
  - apply N.ltb_ge in L. destruct (N.leb_spec (un_be32 f g h i) (len p)); [|lia].
    destruct (drop (un_be32 f g h i) p) as [|w t]; reflexivity.
Qed.

Lemma gtold_gasked : forall l, map (fun x => (fst x, q_want (snd x))) (gtold l) = gasked l.
Proof. induction l as [|e l IH]; [reflexivity|]. destruct e; cbn [gtold gasked]; try exact IH. now rewrite map_app, IH. Qed.
Lemma gtold_replies : forall rs l, gtold (rev (map GReply rs) ++ l) = gtold l.
Proof.
  intros rs l. induction rs as [|r rs IH] in l |- *; [reflexivity|]. cbn [map rev]. rewrite <- app_assoc. rewrite IH. reflexivity.
Qed.
Lemma gsubmit_told : forall x s, gtold (gs_log (gsubmit x s)) = gtold (gs_log s).
Proof. intros ((rs & l) & f) s. unfold gsubmit. destruct f; cbn [gdie gs_log gtold]; apply gtold_replies. Qed.
Lemma gstep_told : forall E s o,
  (exists m, gtold (gs_log (gstep E s o)) = gtold (gs_log s) ++ m /\
     (gs_dead s = true -> m = []) /\
     (map snd m = globals (ghanded [o]) \/ (m = [] /\ gs_dead (gstep E s o) = true))) /\ (gs_dead s = true -> gs_dead (gstep E s o) = true).
Proof.
  intros E s o. unfold gstep. destruct (gs_dead s) eqn:D.
  { split; [|auto]. exists []. rewrite app_nil_r. auto. }
  split; [|discriminate].
  destruct o as [p out|id r|].
  - cbn [gHandlePacketIf negb orb]. change (80 =? 80) with true. cbn match. unfold HandleGlobalRequest. cbv zeta.
    change (gs_pending (glog (GReceived p) s)) with (gs_pending s).
    destruct (MAX_PENDING_REQUESTS <=? _); [exists []; rewrite app_nil_r; split; [reflexivity|]; split; [auto|]; right; auto|].
    assert (IT : globals (ghanded [GopRequest p out]) = global_of (80 :: p)) by (unfold globals, ghanded; cbn [flat_map app]; apply app_nil_r). rewrite IT, read_global. clear IT.
    destruct (ParseGlobalRequest p) as [q|]; [|exists []; rewrite app_nil_r; split; [reflexivity|]; split; [auto|]; right; auto].
    exists [(gs_next s, {| q_name := gr_request_name q; q_want := gr_want_reply q; q_data := gr_data q |})]. split; [|split; [discriminate|left; reflexivity]].
    destruct (start_request _ _ _ _ _) as [x|]; [rewrite gsubmit_told|]; destruct out; reflexivity.
  - exists []. rewrite app_nil_r. split; [|split; [auto|left; reflexivity]].
    destruct (find_request id (gs_pending s)) as [q|]; [|reflexivity]. destruct q as [? ? [b|]]; [reflexivity|]. destruct r; [|reflexivity]. now rewrite gsubmit_told.
  - exists []. rewrite app_nil_r. split; [reflexivity|]. auto.
Qed.
Lemma ghanded_app : forall a b, ghanded (a ++ b) = ghanded a ++ ghanded b.
Proof. intros. unfold ghanded. apply flat_map_app. Qed.
Lemma globals_app : forall a b, globals (a ++ b) = globals a ++ globals b.
Proof. intros. unfold globals. apply flat_map_app. Qed.
Lemma gruns_told : forall E ops, exists more, globals (ghanded ops) = map snd (gtold (gs_log (gruns E ops))) ++ more /\
  (gs_dead (gruns E ops) = false -> more = []).
Proof.
  intros E ops. induction ops as [|o t (more & IH & D)] using rev_ind; [exists []; auto|].
  unfold gruns. rewrite fold_left_app. cbn [fold_left]. fold (gruns E t).
  destruct (gstep_told E (gruns E t) o) as ((m & M & M1 & M2) & DD). rewrite ghanded_app, globals_app, IH, M, map_app.
  destruct (gs_dead (gruns E t)) eqn:DT.
  - specialize (M1 eq_refl). subst m. exists (more ++ globals (ghanded [o])). rewrite app_nil_r, <- !app_assoc. split; [reflexivity|]. intros X. rewrite (DD eq_refl) in X. discriminate.
  - rewrite (D eq_refl), app_nil_r. destruct M2 as [->|(-> & X)].
    + exists []. now rewrite app_nil_r.
    + exists (globals (ghanded [o])). rewrite app_nil_r. split; [reflexivity|]. rewrite X. discriminate.
Qed.

(** ** The packets *)

Lemma gemitted_verdict : forall v b, gemitted v b -> b = [if v then 81 else 82].
Proof.
  intros v b (h & s & L & M & ->). unfold MakeGlobalResponse, new_packet, WriteU8, WriteN in M.
  destruct (_ <? _) in M; [discriminate|]. injection M as <-. rewrite drop_app_ge by lia. replace (5 - len h) with 0 by lia. now destruct v.
Qed.
Lemma verdicts_kind : forall ms, verdicts (filter answers_global ms) = verdicts ms.
Proof.
  induction ms as [|m ms IH]; [reflexivity|]. cbn [filter]. destruct (answers_global m) eqn:A; unfold verdicts in *; cbn [flat_map]; [now rewrite IH|].
  rewrite IH. destruct m as [|b m]; [reflexivity|]. cbn [answers_global] in A. apply orb_false_iff in A as (A1 & A2). apply N.eqb_neq in A1, A2.
  unfold verdict_of. destruct b as [|b]; [reflexivity|]. do 7 (destruct b as [b|b|]; try reflexivity); destruct m; try reflexivity; congruence.
Qed.
Lemma verdicts_emitted : forall rs bs, Forall2 gemitted rs bs -> verdicts bs = rs.
Proof.
  intros rs bs H. induction H as [|v b rs bs G H IH]; [reflexivity|]. unfold verdicts in *. cbn [flat_map]. rewrite IH. apply gemitted_verdict in G as ->. now destruct v.
Qed.
