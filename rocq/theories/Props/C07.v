(** * C07: outgoing packets keep their order, cipher and sequence number

    [runs allowed ops s sub w] (Proofs/OutputFacts.v): [ops] is any
    interleaving of main thread and worker steps from a new connection whose
    main thread steps obey [allowed]; it leads to state [s]; [sub] is the list
    of packets and ciphers submitted so far, and [w] is everything that was
    written to the socket.  [wire] (Spec/OutputSpec.v) is what must appear
    on the wire.  The cipher type [C] and the function [encrypt] are
    arbitrary; a cipher may have internal state and may fail. *)

From Coq Require Import NArith List Bool Lia.
From Verif.Base Require Import Bytes.
From Verif.Model Require Import Queue Output.
From Verif.Spec Require Import OutputSpec.
From Verif.Proofs Require Import QueueFacts OutputFacts.
Import ListNotations.
Open Scope N_scope.

(** The caller: packets are not empty; a new cipher is not installed while
    the previous one has not yet been picked up by the worker. *)
Definition polite {C} (s : ostate C) (o : op C) : Prop :=
  packets_ok C s o /\ one_cipher_at_a_time C s o.

(** Safety, partial: under the restriction [one_cipher_at_a_time] (see
    [C07_order_refuted] for why it is needed) the bytes written are always
    a prefix of what must appear on the wire. *)
Theorem C07_wire_prefix_partial :
  forall (C : Type) (encrypt : C -> N -> bytes -> option (C * bytes)),
  (forall c n p c' b, encrypt c n p = Some (c', b) -> b <> []) ->
  forall ops s sub w,
  runs C encrypt polite ops s sub w ->
  exists rest, wire C encrypt None 0 sub = w ++ rest.
Proof.
  intros C encrypt He ops s sub w H. apply inv_runs in H; [|assumption]. apply H.
Qed.
Print Assumptions C07_wire_prefix_partial.

(** No packet is lost: when the worker is at rest and all queues are empty
    (IsEmpty), and encryption has not failed, everything has been written. *)
Theorem C07_nothing_lost_partial :
  forall (C : Type) (encrypt : C -> N -> bytes -> option (C * bytes)),
  (forall c n p c' b, encrypt c n p = Some (c', b) -> b <> []) ->
  forall ops s sub w,
  runs C encrypt polite ops s sub w ->
  o_error C s = false ->
  (forall src dest, o_job C s <> JBusy src dest) ->
  IsEmpty C s = true ->
  w = wire C encrypt None 0 sub.
Proof.
  intros C encrypt He ops s sub w H E J Emp. apply inv_runs in H; [|assumption].
  destruct H as [S A _]. destruct (A E) as (done & -> & D).
  unfold IsEmpty in Emp. apply andb_true_iff in Emp as [E1 E2].
  destruct (o_plain C s) eqn:P1; [|discriminate].
  destruct (o_next_plain C s) eqn:P2; [|discriminate].
  destruct (o_enc C s) eqn:P3; [|discriminate].
  assert (U : srcs C s = [] /\ dests C s = []).
  { unfold srcs, dests. destruct (o_job C s) eqn:EJ; auto. exfalso. eapply J. reflexivity. }
  destruct U as [U1 U2]. rewrite D. unfold upcoming. rewrite U1, U2, P1, P2. cbn.
  assert (B : sq_bytes (o_pending C s) = []).
  { unfold sq_empty in E1. unfold sq_bytes. destruct (sq_queue (o_pending C s)); [|discriminate].
    cbn. unfold drop. now rewrite skipn_nil. }
  rewrite B, !app_nil_r. destruct (o_next_cipher C s); cbn; now rewrite app_nil_r.
Qed.
Print Assumptions C07_nothing_lost_partial.

(** Nothing gets stuck: whenever the worker's job is idle, there is nothing
    left to be encrypted (everything is waiting for the socket). *)
Theorem C07_not_stuck_partial :
  forall (C : Type) (encrypt : C -> N -> bytes -> option (C * bytes)),
  (forall c n p c' b, encrypt c n p = Some (c', b) -> b <> []) ->
  forall ops s sub w,
  runs C encrypt polite ops s sub w ->
  o_error C s = false -> o_job C s = JInitial ->
  wire C encrypt None 0 sub = w ++ sq_bytes (o_pending C s) ++ concat (o_enc C s).
Proof.
  intros C encrypt He ops s sub w H E J. apply inv_runs in H; [|assumption].
  destruct H as [S A _]. destruct (A E) as (done & -> & D).
  destruct (sh_rest C s S (or_introl J) E) as [R1 R2].
  rewrite D. unfold upcoming, srcs, dests. rewrite J, R1, R2. cbn.
  rewrite app_nil_r. destruct (o_next_cipher C s); cbn; rewrite app_nil_r; reflexivity.
Qed.
Print Assumptions C07_not_stuck_partial.

(** No assertion in the code fails. *)
Theorem C07_no_assertion_fails_partial :
  forall (C : Type) (encrypt : C -> N -> bytes -> option (C * bytes)),
  (forall c n p c' b, encrypt c n p = Some (c', b) -> b <> []) ->
  forall ops s sub w o,
  runs C encrypt polite ops s sub w -> polite s o ->
  step C encrypt s o <> AssertFailed C.
Proof.
  intros C encrypt He ops s sub w o H [P1 P2]. apply inv_runs in H; [|assumption].
  now destruct (inv_step C encrypt He s sub w o H P1 P2).
Qed.
Print Assumptions C07_no_assertion_fails_partial.

(** ** Witnesses and refutation with a toy cipher: the key and the sequence
    number are put in front of the packet. *)
Definition toy (c : N) (seq : N) (p : bytes) : option (N * bytes) := Some (c, c :: seq :: p).

Lemma toy_nonempty : forall c n p c' b, toy c n p = Some (c', b) -> b <> [].
Proof. intros c n p c' b H. injection H as <- <-. discriminate. Qed.

(** executes a list of operations; [None] if one is not possible *)
Fixpoint exec (s : ostate N) (sub : list (submitted N)) (w : bytes) (ops : list (op N))
  : option (ostate N * list (submitted N) * bytes) :=
  match ops with
  | [] => Some (s, sub, w)
  | o :: ops =>
      match step N toy s o with
      | Ok _ s' b => exec s' (sub ++ submits N s o) (w ++ b) ops
      | _ => None
      end
  end.

Fixpoint exec_ok (allowed : ostate N -> op N -> Prop) (s : ostate N) (ops : list (op N)) : Prop :=
  match ops with
  | [] => True
  | o :: ops => allowed s o /\
      match step N toy s o with
      | Ok _ s' _ => exec_ok allowed s' ops
      | _ => False
      end
  end.

Lemma exec_runs : forall allowed ops ops0 s0 sub0 w0 s sub w,
  runs N toy allowed ops0 s0 sub0 w0 ->
  exec_ok allowed s0 ops ->
  exec s0 sub0 w0 ops = Some (s, sub, w) -> runs N toy allowed (ops0 ++ ops) s sub w.
Proof.
  intros allowed ops. induction ops as [|o ops IH]; intros ops0 s0 sub0 w0 s sub w H A E; simpl in *.
  - injection E as <- <- <-. now rewrite app_nil_r.
  - destruct A as [A1 A2]. destruct (step N toy s0 o) as [s1 b| | |] eqn:ES; try contradiction.
    replace (ops0 ++ o :: ops) with ((ops0 ++ [o]) ++ ops) by (rewrite <- app_assoc; reflexivity).
    eapply IH; eauto. now apply runs_snoc with (s := s0).
Qed.

(** A polite run: plaintext, first cipher, rekey with reset; partial writes;
    the worker runs twice. *)
Definition good_ops : list (op N) :=
  [AutoResetSeq N; Push N [1]; Push N [21]; SetCipher N 100; Push N [2]; Flush N (Some 1);
   RunBegin N; Push N [3]; RunEncrypt N; RunEnd N; Wakeup N; Flush N (Some 3); RunBegin N;
   RunEncrypt N; RunEnd N; Wakeup N;
   SetCipher N 101; Push N [4]; RunBegin N; RunEncrypt N; RunEnd N; Wakeup N;
   Flush N (Some 7)].

Example C07_witness :
  exists s sub,
    runs N toy polite good_ops s sub [1; 21; 100;0;2; 100;1;3; 101;0;4] /\
    IsEmpty N s = true /\ o_job N s = JInitial /\
    wire N toy None 0 sub = [1; 21; 100;0;2; 100;1;3; 101;0;4].
Proof.
  do 2 eexists. split.
  - change good_ops with ([] ++ good_ops). eapply exec_runs; [apply runs_nil| |].
    + vm_compute. repeat split; discriminate.
    + vm_compute. reflexivity.
  - repeat split.
Qed.

(** Without the restriction the claim is false: if a second key exchange
    installs its cipher before the worker has picked up the first one
    (which it does not do before another packet is pushed), the pending
    cipher is overwritten and packets that must be encrypted with the
    first cipher are encrypted with the second one. *)
Theorem C07_order_refuted :
  exists ops s sub w,
    runs N toy (packets_ok N) ops s sub w /\
    ~ exists rest, wire N toy None 0 sub = w ++ rest.
Proof.
  set (ops := [Push N [21]; SetCipher N 100; Push N [20]; Push N [31]; Push N [21];
               SetCipher N 101; Push N [5]; RunBegin N; RunEncrypt N; RunEncrypt N; RunEncrypt N;
               RunEncrypt N; RunEnd N; Wakeup N; Flush N (Some 4)]).
  exists ops. do 3 eexists. split.
  - change ops with ([] ++ ops). eapply exec_runs; [apply runs_nil| |].
    + vm_compute. repeat split; discriminate.
    + vm_compute. reflexivity.
  - intros [rest H]. vm_compute in H. discriminate.
Qed.
Print Assumptions C07_order_refuted.
