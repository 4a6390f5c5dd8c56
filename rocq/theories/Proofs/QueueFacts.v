(** SendQueue: nothing is lost or duplicated. *)

From Coq Require Import NArith List Bool Lia.
From Verif.Base Require Import Bytes.
From Verif.Model Require Import Queue.
Import ListNotations.
Open Scope N_scope.

(** the bytes that are still to be sent *)
Definition sq_bytes (q : SendQueue) : bytes := drop (sq_consumed q) (concat (sq_queue q)).

(** representation invariant: no empty buffer, the first one is not yet
    completely consumed *)
Definition sq_ok (q : SendQueue) : Prop :=
  Forall (fun b => b <> []) (sq_queue q) /\
  match sq_queue q with [] => sq_consumed q = 0 | b :: _ => sq_consumed q < len b end.

Lemma sq_ok_new : sq_ok new_SendQueue.
Proof. split; [constructor|reflexivity]. Qed.

Lemma nonempty_len : forall (b : bytes), b <> [] -> 0 < len b.
Proof. intros [|x b] H; [contradiction|]. rewrite len_cons. lia. Qed.

Lemma sq_MoveFrom_ok : forall q src, sq_ok q -> Forall (fun b => b <> []) src ->
  sq_ok (sq_MoveFrom q src) /\ sq_bytes (sq_MoveFrom q src) = sq_bytes q ++ concat src.
Proof.
  intros [queue c] src [H1 H2] Hs. unfold sq_ok, sq_bytes in *. simpl in *. split.
  - split; [now apply Forall_app|]. destruct queue as [|b queue]; simpl; [|assumption].
    subst c. destruct src as [|b src]; [reflexivity|]. inversion Hs; subst. now apply nonempty_len.
  - rewrite concat_app. destruct queue as [|b queue].
    + subst c. simpl. now rewrite !drop_0.
    + simpl. apply drop_app_le. rewrite len_app. lia.
Qed.

Lemma sq_Push_ok : forall q b, sq_ok q -> b <> [] ->
  sq_ok (sq_Push q b) /\ sq_bytes (sq_Push q b) = sq_bytes q ++ b.
Proof.
  intros q b H Hb. change (sq_Push q b) with (sq_MoveFrom q [b]).
  destruct (sq_MoveFrom_ok q [b] H) as [H1 H2]; [repeat constructor; assumption|].
  split; [assumption|]. rewrite H2. simpl. now rewrite app_nil_r.
Qed.

Lemma sq_Prepare_loop_spec : forall room queue skip,
  Forall (fun b => b <> []) queue ->
  match queue with [] => skip = 0 | b :: _ => skip < len b end ->
  exists v, sq_Prepare_loop queue skip room = Some v /\
    (exists rest, drop skip (concat queue) = concat v ++ rest /\
                  ((length queue <= room)%nat -> rest = [])) /\
    (length v <= room)%nat /\ Forall (fun b => b <> []) v /\
    (queue <> [] -> room <> O -> v <> []).
Proof.
  induction room as [|room IH]; intros queue skip H1 H2.
  - exists []. split; [destruct queue; reflexivity|].
    split; [exists (drop skip (concat queue)); split; [reflexivity|]|].
    + intro L. destruct queue; [subst; reflexivity|simpl in L; lia].
    + repeat split; auto.
  - destruct queue as [|b queue].
    + exists []. subst skip. split; [reflexivity|].
      split; [exists []; split; reflexivity|]. repeat split; auto; simpl; lia.
    + inversion H1; subst. simpl sq_Prepare_loop.
      replace (len b <=? skip) with false by (symmetry; apply N.leb_gt; assumption).
      destruct (IH queue 0 H4) as (v & E & (rest & R1 & R2) & L & F & _).
      { destruct queue as [|c queue]; [reflexivity|]. inversion H4; subst. now apply nonempty_len. }
      rewrite E. exists (drop skip b :: v). split; [reflexivity|].
      rewrite drop_0 in R1.
      split; [exists rest; split|].
      * simpl. rewrite drop_app_le by lia. rewrite R1. now rewrite app_assoc.
      * intro Ln. apply R2. simpl in Ln. lia.
      * repeat split.
        -- simpl. lia.
        -- constructor; [|assumption].
           intro D. apply (f_equal len) in D. rewrite len_drop in D.
           change (len []) with 0 in D. lia.
        -- intros _ _ D. discriminate.
Qed.

Lemma sq_Prepare_spec : forall q n, sq_ok q ->
  exists v, sq_Prepare q n = Some v /\
    (exists rest, sq_bytes q = concat v ++ rest /\
                  ((length (sq_queue q) <= n)%nat -> rest = [])) /\
    (length v <= n)%nat /\ Forall (fun b => b <> []) v /\
    (sq_queue q <> [] -> n <> O -> v <> []).
Proof. intros [queue c] n [H1 H2]. now apply sq_Prepare_loop_spec. Qed.

Lemma sq_Consume_loop_spec : forall queue consumed nbytes,
  Forall (fun b => b <> []) queue ->
  match queue with [] => consumed = 0 | b :: _ => consumed < len b end ->
  nbytes <= len (drop consumed (concat queue)) ->
  exists q', sq_Consume_loop queue consumed nbytes = Some q' /\ sq_ok q' /\
    sq_bytes q' = drop nbytes (drop consumed (concat queue)).
Proof.
  induction queue as [|b queue IH]; intros consumed nbytes H1 H2 H3.
  - subst consumed. simpl in *. change (len (drop 0 [])) with 0 in H3.
    assert (nbytes = 0) by lia. subst. simpl. eexists. split; [reflexivity|].
    split; [apply sq_ok_new|reflexivity].
  - inversion H1; subst. simpl sq_Consume_loop.
    replace (len b <? consumed) with false by (symmetry; apply N.ltb_ge; lia).
    simpl concat in *. rewrite drop_app_le in * by lia.
    rewrite len_app, len_drop in H3.
    destruct (nbytes <? len b - consumed) eqn:E; rewrite ?N.ltb_lt, ?N.ltb_ge in E.
    + eexists. split; [reflexivity|]. split.
      * split; simpl; [assumption|lia].
      * unfold sq_bytes. simpl. rewrite drop_app_le by lia.
        rewrite drop_app_le by (rewrite len_drop; lia).
        now rewrite drop_drop.
    + destruct (IH 0 (nbytes - (len b - consumed))) as (q' & Q1 & Q2 & Q3); auto.
      * destruct queue as [|c queue]; [reflexivity|]. inversion H5; subst. now apply nonempty_len.
      * rewrite drop_0. lia.
      * exists q'. split; [assumption|]. split; [assumption|].
        rewrite Q3. rewrite drop_0. symmetry.
        rewrite drop_app_ge by (rewrite len_drop; lia).
        rewrite len_drop. reflexivity.
Qed.

Lemma sq_Consume_spec : forall q nbytes, sq_ok q -> nbytes <= len (sq_bytes q) ->
  exists q', sq_Consume q nbytes = Some q' /\ sq_ok q' /\ sq_bytes q' = drop nbytes (sq_bytes q).
Proof. intros [queue c] nbytes [H1 H2] H3. now apply sq_Consume_loop_spec. Qed.
