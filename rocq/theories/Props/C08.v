(** * C08: the send queue loses and duplicates nothing under partial writes *)

From Coq Require Import NArith List Bool Lia.
From Verif.Base Require Import Bytes.
From Verif.Model Require Import Queue.
From Verif.Proofs Require Import QueueFacts.
Import ListNotations.
Open Scope N_scope.

(** What happens to a send queue: a buffer is pushed, a list of (encrypted)
    buffers is moved into it, or a vectored write with at most 32 buffers is
    attempted, of which the kernel accepts [k] bytes. *)
Inductive event :=
| Push (b : bytes)
| MoveFrom (l : list bytes)
| Write (k : N).

(** What is observable: everything that was enqueued, everything that was
    written to the socket, and every vector that was offered. *)
Record history := {
  h_queue : SendQueue;
  h_enqueued : bytes;
  h_written : bytes;
  h_offered : list (list bytes)
}.

Definition start : history :=
  {| h_queue := new_SendQueue; h_enqueued := []; h_written := []; h_offered := [] |}.

(** One event.  [None] means that an assertion in the code failed or that the
    kernel accepted more than it was offered.  (Flush() does not call the
    kernel when there is nothing to send, then [k] must be 0.) *)
Definition happen (h : history) (e : event) : option history :=
  match e with
  | Push b => Some {| h_queue := sq_Push (h_queue h) b; h_enqueued := h_enqueued h ++ b;
                      h_written := h_written h; h_offered := h_offered h |}
  | MoveFrom l => Some {| h_queue := sq_MoveFrom (h_queue h) l;
                          h_enqueued := h_enqueued h ++ concat l;
                          h_written := h_written h; h_offered := h_offered h |}
  | Write k =>
      match sq_Prepare (h_queue h) 32 with
      | None => None
      | Some v =>
          match sq_Consume (h_queue h) k with
          | None => None
          | Some q => Some {| h_queue := q; h_enqueued := h_enqueued h;
                              h_written := h_written h ++ take k (concat v);
                              h_offered := h_offered h ++ [v] |}
          end
      end
  end.

Fixpoint happens (h : history) (es : list event) : option history :=
  match es with
  | [] => Some h
  | e :: es => match happen h e with Some h => happens h es | None => None end
  end.

(** The environment: no empty buffers are enqueued (a packet has at least a
    header), and the kernel accepts no more than it was offered. *)
Fixpoint env_ok (h : history) (es : list event) : Prop :=
  match es with
  | [] => True
  | e :: es =>
      match e with
      | Push b => b <> []
      | MoveFrom l => Forall (fun b => b <> []) l
      | Write k => forall v, sq_Prepare (h_queue h) 32 = Some v -> k <= len (concat v)
      end /\
      forall h', happen h e = Some h' -> env_ok h' es
  end.

Definition good (h : history) : Prop :=
  sq_ok (h_queue h) /\
  h_enqueued h = h_written h ++ sq_bytes (h_queue h) /\
  Forall (fun v => (List.length v <= 32)%nat /\ Forall (fun b => b <> []) v) (h_offered h).

Lemma good_step : forall h e, good h ->
  match e with
  | Push b => b <> []
  | MoveFrom l => Forall (fun b => b <> []) l
  | Write k => forall v, sq_Prepare (h_queue h) 32 = Some v -> k <= len (concat v)
  end ->
  exists h', happen h e = Some h' /\ good h'.
Proof.
  intros h e (G1 & G2 & G3) E. destruct e as [b|l|k]; simpl happen.
  - destruct (sq_Push_ok (h_queue h) b G1 E) as [P1 P2].
    eexists. split; [reflexivity|]. unfold good; simpl. rewrite P2, G2, app_assoc. auto.
  - destruct (sq_MoveFrom_ok (h_queue h) l G1 E) as [P1 P2].
    eexists. split; [reflexivity|]. unfold good; simpl. rewrite P2, G2, app_assoc. auto.
  - destruct (sq_Prepare_spec (h_queue h) 32 G1) as (v & V1 & (rest & R1 & R2) & V3 & V4 & _).
    rewrite V1. specialize (E v V1).
    destruct (sq_Consume_spec (h_queue h) k G1) as (q & Q1 & Q2 & Q3).
    { rewrite R1, len_app. lia. }
    rewrite Q1. eexists. split; [reflexivity|]. unfold good; simpl.
    split; [assumption|]. split.
    + rewrite G2, Q3, <- app_assoc, R1. rewrite drop_app_le by assumption.
      rewrite (app_assoc (take k _)), take_drop. reflexivity.
    + apply Forall_app. split; [assumption|]. constructor; [split; assumption|constructor].
Qed.

Lemma happens_good : forall es h, good h -> env_ok h es ->
  exists h', happens h es = Some h' /\ good h'.
Proof.
  induction es as [|e es IH]; intros h G E.
  - exists h. auto.
  - destruct E as [E1 E2]. destruct (good_step h e G E1) as (h' & H1 & H2).
    simpl. rewrite H1. apply IH; auto.
Qed.

Lemma start_good : good start.
Proof. split; [apply sq_ok_new|]. split; [reflexivity|constructor]. Qed.

(** For every history, no assertion fails, what was written plus what the
    queue still holds is exactly what was enqueued, in order, and the
    vectors offered are never empty and at most 32. *)
Theorem C08_no_loss_no_duplication : forall es,
  env_ok start es ->
  exists h, happens start es = Some h /\
    h_enqueued h = h_written h ++ drop (sq_consumed (h_queue h)) (concat (sq_queue (h_queue h))) /\
    Forall (fun v => (List.length v <= 32)%nat /\ Forall (fun b => b <> []) v) (h_offered h).
Proof.
  intros es E. destruct (happens_good es start start_good E) as (h & H1 & _ & H2 & H3).
  exists h. auto.
Qed.
Print Assumptions C08_no_loss_no_duplication.

(** If the queue reports to be empty, everything has been written; and as long
    as it is not empty, at least one vector is offered. *)
Theorem C08_empty_means_sent : forall es h,
  env_ok start es -> happens start es = Some h ->
  (sq_empty (h_queue h) = true -> h_written h = h_enqueued h) /\
  (sq_empty (h_queue h) = false ->
     exists v, sq_Prepare (h_queue h) 32 = Some v /\ v <> []).
Proof.
  intros es h E H. destruct (happens_good es start start_good E) as (h' & H1 & G1 & G2 & G3).
  rewrite H in H1. injection H1 as <-. unfold sq_empty. split; intro Q.
  - destruct (sq_queue (h_queue h)) eqn:EQ; [|discriminate].
    rewrite G2. unfold sq_bytes. rewrite EQ. destruct G1 as [_ G1]. rewrite EQ in G1.
    rewrite G1. change (drop 0 (concat [])) with (@nil N). now rewrite app_nil_r.
  - destruct (sq_Prepare_spec (h_queue h) 32 G1) as (v & V1 & _ & _ & _ & V5).
    exists v. split; [assumption|]. apply V5; [|discriminate].
    destruct (sq_queue (h_queue h)); [discriminate|discriminate].
Qed.
Print Assumptions C08_empty_means_sent.

(** A concrete history with partial writes that end inside a buffer, at a
    buffer boundary, and across buffers. *)
Example C08_witness :
  let es := [Push [1;2;3]; Push [4;5]; Write 2; MoveFrom [[6]; [7;8]]; Write 3; Write 0; Write 2] in
  env_ok start es /\
  exists h, happens start es = Some h /\
    h_written h = [1;2;3;4;5;6;7] /\ h_enqueued h = [1;2;3;4;5;6;7;8].
Proof.
  split.
  - simpl. repeat (split; [try discriminate; try (repeat constructor; discriminate);
      try (intros v H; vm_compute in H; injection H as <-; vm_compute; discriminate)|];
      intros h' H; vm_compute in H; injection H as <-).
    exact I.
  - eexists. split; [vm_compute; reflexivity|]. split; reflexivity.
Qed.
