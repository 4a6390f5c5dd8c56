(** * C05: encrypted input is decrypted with the right cipher and sequence
    number under every schedule

    [iruns ops s stream trace] (Proofs/InputFacts.v): [ops] is any
    interleaving of steps of the main thread and of the decryption worker;
    [stream] is everything received so far; [trace] is what the connection
    has seen: the messages delivered (with their sequence numbers) and the
    ciphers it has installed.  [reads_all (start stream) trace r]
    (Spec/InputSpec.v): a single sequential reader of [stream] produces
    exactly [trace].  The cipher is arbitrary; [contract] is the documented
    size of what DecryptPayload() returns. *)

From Coq Require Import NArith List Bool Lia.
From Verif.Base Require Import Bytes.
From Verif.Model Require Import Input.
From Verif.Spec Require Import InputSpec.
From Verif.Proofs Require Import InputFacts.
Import ListNotations.
Open Scope N_scope.

Definition contract {C} (auth_size : C -> N) (dec_payload : C -> N -> bytes -> option (C * bytes)) : Prop :=
  forall c n src c' r, dec_payload c n src = Some (c', r) -> len r + 4 + auth_size c = len src.

Theorem C05_like_sequential_reader :
  forall (C : Type) auth_size dec_header dec_payload, contract auth_size dec_payload ->
  forall ops s stream trace,
  iruns C auth_size dec_header dec_payload ops s stream trace ->
  exists r, reads_all C auth_size dec_header dec_payload (start C stream) trace r.
Proof.
  intros C a dh dp K ops s stream trace H. apply inv_runs in H; [|exact K].
  destruct H as (r & H & _). eauto.
Qed.
Print Assumptions C05_like_sequential_reader.

(** Nothing is held back: if the worker is idle and ReadPacket() returns
    nothing, then the sequential reader has nothing more to deliver. *)
Theorem C05_nothing_held_back :
  forall (C : Type) auth_size dec_header dec_payload, contract auth_size dec_payload ->
  forall ops s stream trace s',
  iruns C auth_size dec_header dec_payload ops s stream trace ->
  i_job C s = IInitial ->
  istep C auth_size dec_header dec_payload s (Read C) = IOk C s' [] ->
  i_closed C s' = false ->
  exists r, reads_all C auth_size dec_header dec_payload (start C stream) trace r /\
    decode C auth_size dec_header dec_payload (r_cipher C r) (r_seq C r) (r_rest C r) = NeedMore C.
Proof.
  intros C a dh dp K ops s stream trace s' H J E Hc. apply inv_runs in H; [|exact K].
  assert (X : i_closed C s = false /\ i_cur C s = None).
  { unfold istep in E. destruct (i_closed C s); [discriminate|]. split; [reflexivity|].
    unfold do_Read in E. destruct (i_cur C s); [discriminate|reflexivity]. }
  destruct X as [X1 X2].
  destruct (Read_cases _ _ _ _ _ _ _ H X1 X2) as (r & R1 & _ & s1 & e & E1 & O).
  rewrite E in E1. injection E1 as <- <-.
  destruct O as [(n & m & O & _)|[(_ & O & _)|(_ & _ & O)]]; [discriminate|congruence|].
  exists r. auto.
Qed.
Print Assumptions C05_nothing_held_back.

(** The connection fails only because of what was received: the sequential
    reader reaches a bad packet (after what was delivered, and possibly
    some more messages which are lost). *)
Theorem C05_fails_only_on_bad_packet :
  forall (C : Type) auth_size dec_header dec_payload, contract auth_size dec_payload ->
  forall ops s stream trace,
  iruns C auth_size dec_header dec_payload ops s stream trace ->
  i_closed C s = true ->
  exists lost r,
    (forall e, In e lost -> exists n m, e = Message n m) /\
    reads_all C auth_size dec_header dec_payload (start C stream) (trace ++ lost) r /\
    decode C auth_size dec_header dec_payload (r_cipher C r) (r_seq C r) (r_rest C r) = Bad C.
Proof.
  intros C a dh dp K ops s stream trace H Hc. apply inv_runs in H; [|exact K].
  destruct H as (r & H & [_ _ X]). destruct (X Hc) as (l & r' & F1 & F2 & F3).
  destruct (chain_reads_all _ _ _ _ _ _ _ _ _ H F1) as (ms & Y1 & Y2). exists ms, r'. auto.
Qed.
Print Assumptions C05_fails_only_on_bad_packet.

(** No schedule leads to a data race or to a failed assertion. *)
Theorem C05_no_race :
  forall (C : Type) auth_size dec_header dec_payload, contract auth_size dec_payload ->
  forall ops s stream trace o,
  iruns C auth_size dec_header dec_payload ops s stream trace ->
  istep C auth_size dec_header dec_payload s o <> IRace C /\
  istep C auth_size dec_header dec_payload s o <> IAssert C.
Proof.
  intros C a dh dp K ops s stream trace o H. apply inv_runs in H; [|exact K].
  pose proof (inv_step C a dh dp K s stream trace o H) as G.
  destruct (istep C a dh dp s o); cbn in G; try contradiction; split; discriminate.
Qed.
Print Assumptions C05_no_race.

(** ** Witness: a toy cipher with state and authentication.  The header is
    in plain text; the last byte is key plus sequence number; the key
    changes with each packet. *)
Definition toy_auth (c : N) : N := 1.
Definition toy_header (c n : N) (src : bytes) : option (N * bytes) := Some (c, src).
Definition toy_payload (c n : N) (src : bytes) : option (N * bytes) :=
  if len src <? 5 then None
  else if last src 0 =? c + n then Some (c + 10, take (len src - 5) (drop 4 src)) else None.

Lemma toy_contract : contract toy_auth toy_payload.
Proof.
  intros c n src c' r H. unfold toy_payload in H.
  destruct (len src <? 5) eqn:E; [discriminate|]. apply N.ltb_ge in E.
  destruct (_ =? _); [|discriminate].
  assert (X : r = take (len src - 5) (drop 4 src)) by congruence. subst r.
  unfold toy_auth. rewrite len_take by (rewrite len_drop; lia). lia.
Qed.

Fixpoint iexec (s : istate N) (stream : bytes) (trace : list (revent N)) (ops : list (iop N))
  : option (istate N * bytes * list (revent N)) :=
  match ops with
  | [] => Some (s, stream, trace)
  | o :: ops =>
      match istep N toy_auth toy_header toy_payload s o with
      | IOk _ s' e => iexec s' (stream ++ fed N o) (trace ++ map (seen N) e) ops
      | _ => None
      end
  end.

Lemma iexec_runs : forall ops ops0 s0 stream0 trace0 s stream trace,
  iruns N toy_auth toy_header toy_payload ops0 s0 stream0 trace0 ->
  iexec s0 stream0 trace0 ops = Some (s, stream, trace) ->
  iruns N toy_auth toy_header toy_payload (ops0 ++ ops) s stream trace.
Proof.
  intros ops. induction ops as [|o ops IH]; intros ops0 s0 stream0 trace0 s stream trace H E; cbn [iexec] in E.
  - injection E as <- <- <-. now rewrite app_nil_r.
  - destruct (istep _ _ _ _ s0 o) as [s1 b| | |] eqn:ES; try discriminate.
    replace (ops0 ++ o :: ops) with ((ops0 ++ [o]) ++ ops) by (rewrite <- app_assoc; reflexivity).
    eapply IH; [|exact E]. now apply iruns_snoc with (s := s0).
Qed.

(** NEWKEYS in plain text; then, already in the same chunk, an encrypted
    message and NEWKEYS; then a message under the second cipher, with the
    sequence number reset. *)
Definition demo_ops : list (iop N) :=
  [Feed N [0;0]; Read N; Feed N [0;3; 1;21;9; 0;0;0;3; 1;99;9; 51; 0;0;0;3; 1;21;9; 62; 0;0;0;2; 0;98];
   Read N; SetCipher N 50; RunBegin N 7; Consume N; RunLoop N; Read N; RunEnd N 20; Wakeup N; AutoResetSeq N;
   RunBegin N 1; RunLoop N; RunLoop N; RunEnd N 0; Wakeup N;
   Read N; Consume N; Read N; SetCipher N 70; Consume N; RunBegin N 0; RunLoop N; RunEnd N 0; Feed N [70];
   Wakeup N; RunBegin N 1; RunLoop N; RunLoop N; RunEnd N 0; Wakeup N; Read N; Consume N].

Example C05_witness :
  exists s stream, iruns N toy_auth toy_header toy_payload demo_ops s stream
    [Message 0 [21]; Cipher 50 false; Message 1 [99]; Message 2 [21]; Cipher 70 true; Message 0 [98]] /\
    i_job N s = IInitial /\ i_closed N s = false.
Proof.
  do 2 eexists. split.
  - change demo_ops with ([] ++ demo_ops). eapply iexec_runs; [constructor|]. vm_compute. reflexivity.
  - split; reflexivity.
Qed.

(** and a failing one: a good message and then a bad padding length *)
Example C05_witness_bad :
  exists s stream, iruns N toy_auth toy_header toy_payload
    [Feed N [0;0;0;2; 0;42; 0;0;0;2; 1;42]; Read N; Consume N; Read N] s stream
    [Message 0 [42]] /\ i_closed N s = true.
Proof.
  do 2 eexists. split.
  - match goal with |- iruns _ _ _ _ ?l _ _ _ => change l with ([] ++ l) end.
    eapply iexec_runs; [constructor|]. vm_compute. reflexivity.
  - reflexivity.
Qed.
