(** The list of pending requests, as a function of all requests so far and
    the results known so far. *)

From Coq Require Import NArith List Bool Lia.
From Verif.Base Require Import Bytes.
From Verif.Model Require Import Requests Channels.
From Verif.Spec Require Import ChannelSpec.
Import ListNotations.
Open Scope N_scope.

Definition mk (res : N -> option bool) (r : N * bool) : preq :=
  {| pq_id := fst r; pq_want := snd r; pq_done := res (fst r) |}.

Definition keep (res : N -> option bool) (r : N * bool) : bool :=
  snd r || match res (fst r) with None => true | Some _ => false end.

Definition kept res l := map (mk res) (filter (keep res) l).

(** without the longest finished prefix *)
Fixpoint rest (res : N -> option bool) (l : list (N * bool)) : list (N * bool) :=
  match l with
  | [] => []
  | r :: t => match res (fst r) with None => l | Some _ => rest res t end
  end.

Definition backlog res l := kept res (rest res l).

Definition head_open (res : N -> option bool) (l : list (N * bool)) : Prop :=
  match l with [] => True | r :: _ => res (fst r) = None end.

Lemma rest_open : forall res l, head_open res (rest res l).
Proof. intros res l. induction l as [|r t IH]; [exact I|]. cbn. destruct (res (fst r)) eqn:E; [exact IH|exact E]. Qed.

Lemma kept_cons : forall res r t,
  kept res (r :: t) = if keep res r then mk res r :: kept res t else kept res t.
Proof. intros. unfold kept. cbn [filter]. destruct (keep res r); reflexivity. Qed.

Lemma submit_kept : forall dbg res l,
  submit dbg (kept res l) = (answers res l, backlog res l, false).
Proof.
  intros dbg res l. unfold backlog. induction l as [|[id w] t IH]; [reflexivity|].
  rewrite kept_cons. cbn [answers rest fst]. unfold keep. cbn [fst snd].
  destruct (res id) as [b|] eqn:E.
  - destruct w; cbn [orb]; [|exact IH].
    cbn [submit mk pq_done pq_want fst snd negb]. rewrite E, andb_false_r, IH. reflexivity.
  - rewrite orb_true_r. cbn [submit mk pq_done fst]. rewrite E.
    rewrite kept_cons. unfold keep. cbn [fst snd]. rewrite E, orb_true_r. reflexivity.
Qed.

Definition upres (res : N -> option bool) (id : N) (b : bool) : N -> option bool :=
  fun k => if k =? id then Some b else res k.

Lemma kept_ext : forall res res' l, (forall r, In r l -> res (fst r) = res' (fst r)) -> kept res l = kept res' l.
Proof.
  intros res res' l. induction l as [|r t IH]; intros H; [reflexivity|].
  rewrite !kept_cons. unfold keep, mk. rewrite (H r (or_introl eq_refl)).
  rewrite IH by (intros; apply H; now right). reflexivity.
Qed.

Lemma kept_mark : forall res id b l, NoDup (map fst l) -> res id = None ->
  forall want, In (id, want) l ->
  find_request id (kept res l) = Some (mk res (id, want)) /\
  (if want then mark_done id b (kept res l) else erase_request id (mark_done id b (kept res l)))
  = kept (upres res id b) l.
Proof.
  intros res id b l. induction l as [|[i w] t IH]; intros ND R want Hin; [contradiction|].
  cbn [map fst] in ND. inversion ND as [|? ? Hni ND']; subst.
  rewrite !kept_cons. destruct (N.eq_dec i id) as [->|Hi].
  - assert (want = w) as ->.
    { destruct Hin as [Hin|Hin]; [congruence|]. exfalso. apply Hni. apply in_map_iff. now exists (id, want). }
    assert (K1 : keep res (id, w) = true) by (unfold keep; cbn [fst snd]; now rewrite R, orb_true_r).
    assert (U : upres res id b id = Some b) by (unfold upres; now rewrite N.eqb_refl).
    assert (K2 : keep (upres res id b) (id, w) = w) by (unfold keep; cbn [fst snd]; now rewrite U, orb_false_r).
    assert (K : kept (upres res id b) t = kept res t).
    { apply kept_ext. intros r Hr. unfold upres. destruct (fst r =? id) eqn:E; [|reflexivity].
      apply N.eqb_eq in E. exfalso. apply Hni. rewrite <- E. now apply in_map. }
    rewrite K1, K2, K. cbn [find_request mark_done mk pq_id fst]. rewrite N.eqb_refl.
    split; [reflexivity|]. destruct w.
    + unfold mk. cbn [fst snd pq_want]. now rewrite U.
    + cbn [erase_request pq_id]. now rewrite N.eqb_refl.
  - destruct Hin as [Hin|Hin]; [congruence|]. destruct (IH ND' R want Hin) as (F & M).
    assert (U : upres res id b i = res i).
    { unfold upres. destruct (i =? id) eqn:E; [apply N.eqb_eq in E; contradiction|reflexivity]. }
    assert (KK : keep (upres res id b) (i, w) = keep res (i, w)) by (unfold keep; cbn [fst snd]; now rewrite U).
    assert (MM : mk (upres res id b) (i, w) = mk res (i, w)) by (unfold mk; cbn [fst snd]; now rewrite U).
    assert (Ei : (i =? id) = false) by now apply N.eqb_neq.
    rewrite KK, MM. destruct (keep res (i, w)).
    + cbn [find_request mark_done mk pq_id fst]. rewrite Ei. split; [exact F|].
      destruct want; cbn [erase_request mk pq_id fst]; rewrite ?Ei; f_equal; exact M.
    + split; [exact F|]. destruct want; exact M.
Qed.

Lemma answers_ext : forall res res' l, (forall r, In r l -> res (fst r) = res' (fst r)) -> answers res l = answers res' l.
Proof.
  intros res res' l. induction l as [|[i w] t IH]; intros H; [reflexivity|]. cbn [answers].
  pose proof (H (i, w) (or_introl eq_refl)) as H0. cbn [fst] in H0. rewrite H0. rewrite IH by (intros; apply H; now right). reflexivity.
Qed.

(** adding a result of a request which is not yet finished *)
Lemma answers_finish : forall res id b l, NoDup (map fst l) -> res id = None ->
  answers (upres res id b) l = answers res l ++ answers (upres res id b) (rest res l) /\
  rest (upres res id b) l = rest (upres res id b) (rest res l).
Proof.
  intros res id b l ND R. induction l as [|[i w] t IH]; [split; reflexivity|].
  cbn [map fst] in ND. inversion ND; subst. destruct (IH H2) as (I1 & I2).
  cbn [answers rest fst]. destruct (res i) as [x|] eqn:E.
  - assert (U : upres res id b i = Some x).
    { unfold upres. destruct (i =? id) eqn:Ei; [apply N.eqb_eq in Ei; congruence|exact E]. }
    rewrite U. split; [|exact I2]. destruct w; [cbn [app]; now f_equal|exact I1].
  - split; [|reflexivity]. reflexivity.
Qed.

Lemma rest_incl : forall res l r, In r (rest res l) -> In r l.
Proof.
  intros res l. induction l as [|x t IH]; intros r H; [contradiction|]. cbn [rest] in H.
  destruct (res (fst x)); [right; auto|assumption].
Qed.

Lemma rest_in : forall res l r, In r l -> res (fst r) = None -> In r (rest res l).
Proof.
  intros res l. induction l as [|x t IH]; intros r H E; [contradiction|]. cbn [rest].
  destruct (res (fst x)) eqn:X; [|exact H]. destruct H as [<-|H]; [congruence|auto].
Qed.

Lemma rest_nodup : forall res l, NoDup (map fst l) -> NoDup (map fst (rest res l)).
Proof.
  intros res l. induction l as [|x t IH]; intros H; [exact H|]. cbn [rest].
  destruct (res (fst x)); [|exact H]. apply IH. now inversion H.
Qed.

Theorem finish_spec : forall dbg res id b l want, NoDup (map fst l) -> res id = None -> In (id, want) l ->
  exists rs, finish_request dbg id b (backlog res l) = (rs, backlog (upres res id b) l, false) /\
    answers (upres res id b) l = answers res l ++ rs.
Proof.
  intros dbg res id b l want ND R Hin.
  pose proof (rest_in res l _ Hin R) as Hr. pose proof (rest_nodup res l ND) as NR.
  destruct (kept_mark res id b (rest res l) NR R want Hr) as (F & M).
  destruct (answers_finish res id b l ND R) as (A1 & A2).
  exists (answers (upres res id b) (rest res l)). split; [|exact A1].
  unfold finish_request. unfold backlog at 1. rewrite F. cbn [mk pq_want snd].
  unfold backlog at 1 2. rewrite M, submit_kept. unfold backlog. now rewrite A2.
Qed.

Lemma answers_app_open : forall res l r, res (fst r) = None -> answers res (l ++ [r]) = answers res l.
Proof.
  intros res l [i w] R. cbn [fst] in R. induction l as [|[j v] t IH].
  - cbn. now rewrite R.
  - cbn [app answers]. rewrite IH. reflexivity.
Qed.

Lemma rest_app_open : forall res l r, res (fst r) = None -> rest res (l ++ [r]) = rest res l ++ [r].
Proof.
  intros res l r R. induction l as [|x t IH]; cbn [app rest]; [now rewrite R|].
  destruct (res (fst x)); [exact IH|reflexivity].
Qed.

Lemma backlog_app_open : forall res l id w, res id = None ->
  backlog res (l ++ [(id, w)]) = backlog res l ++ [{| pq_id := id; pq_want := w; pq_done := None |}].
Proof.
  intros res l id w R. unfold backlog, kept. rewrite rest_app_open by exact R.
  rewrite filter_app, map_app. f_equal. cbn [filter]. unfold keep. cbn [fst snd]. rewrite R, orb_true_r.
  cbn. unfold mk. cbn. now rewrite R.
Qed.

Lemma NoDup_app_snoc : forall A (l : list A) x, NoDup l -> ~ In x l -> NoDup (l ++ [x]).
Proof.
  intros A l x H N. induction H as [|y t Hy Ht IH]; cbn; [repeat constructor; auto|].
  constructor; [|apply IH; intros K; apply N; now right].
  intros K. apply in_app_or in K. destruct K as [K|[<-|[]]]; [contradiction|]. apply N. now left.
Qed.

Theorem start_spec : forall E res id want o l rs p f,
  NoDup (map fst l) -> ~ In id (map fst l) -> res id = None ->
  r_sync_done E = false \/ o = RAsync \/ (want = true /\ exists b, o = RSync b) ->
  start_request E id want o (backlog res l) = Some (rs, p, f) ->
  f = false /\
  exists res', (forall k, res' k = match o with RSync b => upres res id b k | _ => res k end) /\
    p = backlog res' (l ++ [(id, want)]) /\
    answers res' (l ++ [(id, want)]) = answers res l ++ rs.
Proof.
  intros E res id want o l rs p f ND NI R Hp H. unfold start_request in H.
  destruct o as [b|g|].
  - destruct (r_sync_done E) eqn:SD.
    + destruct Hp as [Hp|[Hp|(-> & _)]]; try discriminate. injection H as H.
      assert (Ext : kept (upres res id b) (rest res l) = backlog res l).
      { apply kept_ext. intros r Hr. unfold upres. destruct (fst r =? id) eqn:Ek; [|reflexivity].
        apply N.eqb_eq in Ek. exfalso. apply NI. rewrite <- Ek. apply in_map. now apply rest_incl in Hr. }
      assert (K : backlog res l ++ [{| pq_id := id; pq_want := true; pq_done := Some b |}]
                  = kept (upres res id b) (rest res l ++ [(id, true)])).
      { unfold kept. rewrite filter_app, map_app. fold (kept (upres res id b) (rest res l)). rewrite Ext. f_equal.
        cbn [filter]. unfold keep. cbn [fst snd orb map]. unfold mk. cbn [fst snd]. unfold upres. now rewrite N.eqb_refl. }
      rewrite K, submit_kept in H. injection H as <- <- <-. split; [reflexivity|].
      exists (upres res id b). split; [reflexivity|].
      assert (ND2 : NoDup (map fst (l ++ [(id, true)]))).
      { rewrite map_app. cbn. apply NoDup_app_snoc; assumption. }
      destruct (answers_finish res id b (l ++ [(id, true)]) ND2 R) as (A1 & A2).
      rewrite (rest_app_open res l (id, true) R) in A1, A2. rewrite (answers_app_open res l (id, true) R) in A1.
      split; [|exact A1]. unfold backlog. now rewrite A2.
    + injection H as H. rewrite <- (backlog_app_open res l id want R) in H.
      assert (ND2 : NoDup (map fst (l ++ [(id, want)]))).
      { rewrite map_app. cbn. apply NoDup_app_snoc; assumption. }
      destruct (finish_spec (r_dbg E) res id b (l ++ [(id, want)]) want ND2 R) as (rs' & F & A).
      { apply in_or_app. right. now left. }
      rewrite F in H. injection H as <- <- <-. split; [reflexivity|].
      exists (upres res id b). split; [reflexivity|]. split; [reflexivity|].
      rewrite (answers_app_open res l (id, want) R) in A. exact A.
  - destruct (r_sync_done E) eqn:SD; [|discriminate].
    destruct Hp as [Hp|[Hp|(_ & b & Hp)]]; discriminate.
  - injection H as <- <- <-. split; [reflexivity|]. exists res. split; [reflexivity|].
    split; [symmetry; now apply backlog_app_open|].
    rewrite answers_app_open by exact R. now rewrite app_nil_r.
Qed.
