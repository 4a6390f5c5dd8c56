(** * C58: what one endpoint sends is what the other endpoint receives

    Two endpoints, each with its main thread and its worker thread, and a
    network which transports bytes in order, in any chunks.

    [runs .. ops s sub w]: any interleaving of the sender's threads; it has
    submitted [sub] (packets and ciphers) and has written the bytes [w].
    [iruns .. ops' s' stream seen]: any interleaving of the receiver's
    threads; it has received [stream], and its connection has seen [seen]
    (messages with their sequence numbers, and the ciphers it installed).
    [same] and [proper] are in Spec/EndToEndSpec.v.  The ciphers are those
    of Model/Ciphers.v, with arbitrary cryptographic primitives [P] whose
    tags have the documented sizes. *)

From Coq Require Import NArith List Bool Lia.
From Verif.Base Require Import Bytes.
From Verif.Model Require Import Queue Ciphers.
From Verif.Model Require Output Input.
From Verif.Spec Require Import FrameSpec CipherSpec OutputSpec InputSpec EndToEndSpec.
From Verif.Proofs Require Import CipherFacts EndToEndFacts.
From Verif.Proofs Require OutputFacts InputFacts.
From Verif.Props Require C07.
Import ListNotations.
Open Scope N_scope.

(** A connection between two endpoints: the receiver has received a prefix
    of what the sender has written, and the ciphers belong together.
    [allowed]: what the sender's main thread does.  [C07.polite] excludes a
    second SetCipher() before the worker has picked up the first cipher; see
    [C58_refuted] for why this is needed. *)
Record connected (allowed : Output.ostate running -> Output.op running -> Prop) (P : crypto) (ops : list (Output.op running)) (s : Output.ostate running)
    (sub : list (submitted running)) (w : bytes)
    (ops' : list (Input.iop running)) (s' : Input.istate running) (stream : bytes)
    (seen : list (revent running)) (inflight : bytes) : Prop := {
  cn_sender : OutputFacts.runs running (out_encrypt P) allowed ops s sub w;
  cn_receiver : InputFacts.iruns running run_auth_size (in_header P) (in_payload P) ops' s' stream seen;
  cn_network : w = stream ++ inflight;
  cn_proper : proper running false sub;
  cn_keys : keys_match running running run_mirror sub seen
}.

Lemma keys_more : forall S R mirror sub seen ms,
  keys_match S R mirror sub seen -> (forall e, In e ms -> exists n m, e = Message n m) ->
  keys_match S R mirror sub (seen ++ ms).
Proof.
  intros S R mirror sub seen ms H Y i d reset Hi. apply (H i d reset). unfold receiver_ciphers in *.
  rewrite flat_map_app in Hi.
  replace (flat_map _ ms) with (@nil (R * bool)) in Hi; [rewrite app_nil_r in Hi; exact Hi|].
  clear - Y. induction ms as [|e ms IH]; [reflexivity|].
  destruct (Y e (or_introl eq_refl)) as (n & m & ->). cbn [flat_map app]. apply IH.
  intros e' He'; apply Y; right; exact He'.
Qed.

Lemma connected_tracks : forall P, tags_ok P ->
  forall ops s sub w ops' s' stream seen inflight,
  connected C07.polite P ops s sub w ops' s' stream seen inflight ->
  exists rest, tracks running running run_mirror (out_encrypt P) false None 0 sub (start running stream) rest.
Proof.
  intros P T ops s sub w ops' s' stream seen inflight [H1 H2 H3 H4 H5].
  destruct (C07.C07_wire_prefix_partial _ _ (encrypt_nonempty P T) _ _ _ _ H1) as (rest & W).
  exists (inflight ++ rest). rewrite H3, <- app_assoc in W.
  apply tracks_start; [exact H4|symmetry; exact W|discriminate].
Qed.

(** Safety: the receiver has seen exactly the first items which the sender
    has submitted: no message is lost, changed, duplicated or reordered,
    and both ends assign the same sequence number to each of them. *)
Theorem C58_received_is_sent_partial :
  forall P, tags_ok P ->
  forall ops s sub w ops' s' stream seen inflight,
  connected C07.polite P ops s sub w ops' s' stream seen inflight ->
  exists sub1 sub2, sub = sub1 ++ sub2 /\ same running running run_mirror 0 sub1 seen.
Proof.
  intros P T ops s sub w ops' s' stream seen inflight H.
  destruct (connected_tracks P T _ _ _ _ _ _ _ _ _ H) as (rest & Tr).
  destruct H as [H1 H2 H3 H4 H5]. apply InputFacts.inv_runs in H2; [|exact (payload_size P)].
  destruct H2 as (r & Hr & _).
  destruct (tracks_run _ _ _ _ _ _ _ (run_inverse P T) _ _ _ _ _ _ _ _ Tr Hr H5) as (s1 & s2 & _ & _ & -> & S & _).
  eauto.
Qed.
Print Assumptions C58_received_is_sent_partial.

(** The receiver never closes the connection because of what it has
    received. *)
Theorem C58_no_failure_partial :
  forall P, tags_ok P ->
  forall ops s sub w ops' s' stream seen inflight,
  connected C07.polite P ops s sub w ops' s' stream seen inflight ->
  Input.i_closed running s' = false.
Proof.
  intros P T ops s sub w ops' s' stream seen inflight H.
  destruct (connected_tracks P T _ _ _ _ _ _ _ _ _ H) as (rest & Tr).
  destruct H as [H1 H2 H3 H4 H5]. apply InputFacts.inv_runs in H2; [|exact (payload_size P)].
  destruct H2 as (r & Hr & [_ _ Hc]).
  destruct (Input.i_closed running s') eqn:E; [|reflexivity]. exfalso.
  destruct (Hc eq_refl) as (l & r' & F1 & F2 & F3).
  destruct (InputFacts.chain_reads_all _ _ _ _ _ _ _ _ _ Hr F1) as (ms & Y1 & Y2).
  assert (K : keys_match running running run_mirror sub (seen ++ ms)) by (apply keys_more; assumption).
  destruct (tracks_run _ _ _ _ _ _ _ (run_inverse P T) _ _ _ _ _ _ _ _ Tr Y1 K) as (s1 & s2 & c' & q' & _ & _ & T').
  exact (tracks_not_bad _ _ _ _ _ _ _ (run_inverse P T) _ _ _ _ _ _ T' F2 F3).
Qed.
Print Assumptions C58_no_failure_partial.

(** Nothing is held back: if the sender has written everything, all of it
    has arrived, all packets were padded for the cipher in use (see C03),
    the receiver's worker is idle and ReadPacket() returns
    nothing, then the receiver has seen everything. *)
Theorem C58_everything_arrives_partial :
  forall P, tags_ok P ->
  forall ops s sub w ops' s' stream seen s2,
  connected C07.polite P ops s sub w ops' s' stream seen [] ->
  w = wire running (out_encrypt P) None 0 sub ->
  padded running run_block_size run_header_excluded sends None sub ->
  Input.i_job running s' = Input.IInitial ->
  Input.istep running run_auth_size (in_header P) (in_payload P) s' (Input.Read running) = Input.IOk running s2 [] ->
  same running running run_mirror 0 sub seen.
Proof.
  intros P T ops s sub w ops' s' stream seen s2 H Hw En J E.
  pose proof (C58_no_failure_partial P T _ _ _ _ _ _ _ _ _ H) as Hc.
  apply (padded_encryptable P _ _ 0) in En; [|exact Logic.I].
  destruct H as [H1 H2 H3 H4 H5]. apply InputFacts.inv_runs in H2; [|exact (payload_size P)].
  assert (Tr : tracks running running run_mirror (out_encrypt P) true None 0 sub (start running stream) []).
  { apply tracks_start; [exact H4|congruence|intros _; exact En]. }
  assert (X2 : Input.i_cur running s' = None).
  { unfold Input.istep in E. rewrite Hc in E. unfold Input.do_Read in E.
    destruct (Input.i_cur running s'); [discriminate|reflexivity]. }
  destruct (InputFacts.Read_cases _ _ _ _ _ _ _ H2 Hc X2) as (r & R1 & Rw & s1 & e & E1 & O).
  rewrite E in E1. assert (s1 = s2) by congruence. assert (e = []) by congruence. subst s1 e.
  destruct (tracks_run _ _ _ _ _ _ _ (run_inverse P T) _ _ _ _ _ _ _ _ Tr R1 H5) as (sa & sb & c' & q' & -> & S & T').
  assert (Z : sb = []).
  { destruct O as [(n & m & O & _)|[(_ & _ & (l & r' & F1 & F2 & F3))|(_ & _ & O)]].
    - discriminate.
    - exfalso. destruct (InputFacts.chain_reads_all _ _ _ _ _ _ _ _ _ R1 F1) as (ms & Y1 & Y2).
      assert (K : keys_match running running run_mirror (sa ++ sb) (seen ++ ms)) by (apply keys_more; assumption).
      destruct (tracks_run _ _ _ _ _ _ _ (run_inverse P T) _ _ _ _ _ _ _ _ Tr Y1 K) as (a1 & a2 & c2 & q2 & _ & _ & T2).
      exact (tracks_not_bad _ _ _ _ _ _ _ (run_inverse P T) _ _ _ _ _ _ T2 F2 F3).
    - eapply tracks_end; [exact (run_inverse P T)|exact T'|exact Rw|exact (O J)]. }
  subst sb. rewrite app_nil_r. exact S.
Qed.
Print Assumptions C58_everything_arrives_partial.

(** ** Witness: toy primitives *)
Definition toy : crypto := {|
  chacha20 k n i := (hd 0 k + last n 0 + i) mod 256;
  poly1305 k m := take 16 (firstn 8 k ++ rev m ++ repeat 0 16);
  aes_ctr k iv i := (hd 0 k + hd 0 iv + i) mod 256;
  aes_gcm k iv i := (hd 0 k + last iv 0 + i) mod 256;
  gcm_tag k iv a c := take 16 (firstn 4 k ++ rev (a ++ c) ++ repeat 0 16);
  hmac_sha256 k m := take 32 (firstn 8 k ++ rev m ++ repeat 0 32)
|}.

Lemma len_repeat : forall (x : N) n, len (repeat x n) = N.of_nat n.
Proof. intros x n. unfold len. rewrite repeat_length. reflexivity. Qed.

Lemma toy_ok : tags_ok toy.
Proof.
  split; intros; cbn [toy poly1305 gcm_tag hmac_sha256]; apply len_take; rewrite !len_app, len_repeat; lia.
Qed.

Fixpoint exec (s : Output.ostate running) (sub : list (submitted running)) (w : bytes) (ops : list (Output.op running))
  : option (Output.ostate running * list (submitted running) * bytes) :=
  match ops with
  | [] => Some (s, sub, w)
  | o :: ops =>
      match Output.step running (out_encrypt toy) s o with
      | Output.Ok _ s' b => exec s' (sub ++ OutputFacts.submits running s o) (w ++ b) ops
      | _ => None
      end
  end.

Fixpoint exec_ok (allowed : Output.ostate running -> Output.op running -> Prop) (s : Output.ostate running)
    (ops : list (Output.op running)) : Prop :=
  match ops with
  | [] => True
  | o :: ops => allowed s o /\
      match Output.step running (out_encrypt toy) s o with
      | Output.Ok _ s' _ => exec_ok allowed s' ops
      | _ => False
      end
  end.

Lemma exec_runs : forall allowed ops ops0 s0 sub0 w0 s sub w,
  OutputFacts.runs running (out_encrypt toy) allowed ops0 s0 sub0 w0 ->
  exec_ok allowed s0 ops ->
  exec s0 sub0 w0 ops = Some (s, sub, w) -> OutputFacts.runs running (out_encrypt toy) allowed (ops0 ++ ops) s sub w.
Proof.
  intros allowed ops. induction ops as [|o ops IH]; intros ops0 s0 sub0 w0 s sub w H A E; cbn [exec exec_ok] in *.
  - assert (s0 = s) by congruence. assert (sub0 = sub) by congruence. assert (w0 = w) by congruence. subst.
    now rewrite app_nil_r.
  - destruct A as [A1 A2]. destruct (Output.step running (out_encrypt toy) s0 o) as [s1 b| | |] eqn:ES; try contradiction.
    replace (ops0 ++ o :: ops) with ((ops0 ++ [o]) ++ ops) by (rewrite <- app_assoc; reflexivity).
    eapply IH; [|exact A2|exact E]. now apply OutputFacts.runs_snoc with (s := s0).
Qed.

Fixpoint iexec (s : Input.istate running) (stream : bytes) (trace : list (revent running)) (ops : list (Input.iop running))
  : option (Input.istate running * bytes * list (revent running)) :=
  match ops with
  | [] => Some (s, stream, trace)
  | o :: ops =>
      match Input.istep running run_auth_size (in_header toy) (in_payload toy) s o with
      | Input.IOk _ s' e => iexec s' (stream ++ InputFacts.fed running o) (trace ++ map (InputFacts.seen running) e) ops
      | _ => None
      end
  end.

Lemma iexec_runs : forall ops ops0 s0 stream0 trace0 s stream trace,
  InputFacts.iruns running run_auth_size (in_header toy) (in_payload toy) ops0 s0 stream0 trace0 ->
  iexec s0 stream0 trace0 ops = Some (s, stream, trace) ->
  InputFacts.iruns running run_auth_size (in_header toy) (in_payload toy) (ops0 ++ ops) s stream trace.
Proof.
  intros ops. induction ops as [|o ops IH]; intros ops0 s0 stream0 trace0 s stream trace H E; cbn [iexec] in E.
  - assert (s0 = s) by congruence. assert (stream0 = stream) by congruence. assert (trace0 = trace) by congruence. subst.
    now rewrite app_nil_r.
  - destruct (Input.istep _ _ _ _ s0 o) as [s1 b| | |] eqn:ES; try discriminate.
    replace (ops0 ++ o :: ops) with ((ops0 ++ [o]) ++ ops) by (rewrite <- app_assoc; reflexivity).
    eapply IH; [|exact E]. now apply InputFacts.iruns_snoc with (s := s0).
Qed.

(** a packet with message [m] for block size 16 without the length field *)
Definition pk (m : bytes) : bytes :=
  let pad := 31 - len m in be32 32 ++ [pad] ++ m ++ repeat 7 (N.to_nat pad).

Definition gcm e := Plain (Gcm [5;6;7;8] [1;2;3;4] 9 e).
Definition chacha := Plain (ChaCha [11;12;13;14] [21;22;23;24]).

(** NEWKEYS without cipher; a message and NEWKEYS with AES-GCM; a message
    with ChaCha20. *)
Definition send_ops : list (Output.op running) :=
  [Output.Push _ (pk [21]); Output.SetCipher _ (gcm true); Output.Push _ (pk [94; 1]); Output.Push _ (pk [21]);
   Output.RunBegin _; Output.RunEncrypt _; Output.RunEncrypt _; Output.RunEnd _; Output.Wakeup _;
   Output.SetCipher _ chacha; Output.Push _ (pk [94; 2; 3]);
   Output.RunBegin _; Output.RunEncrypt _; Output.RunEnd _; Output.Wakeup _; Output.Flush _ (Some 192)].

Definition sent : bytes :=
  match exec (Output.new_output running) [] [] send_ops with Some (_, _, w) => w | None => [] end.

Definition receive_ops : list (Input.iop running) :=
  [Input.Feed _ (take 50 sent); Input.Read _; Input.SetCipher _ (gcm false);
   Input.Consume _; Input.Feed _ (drop 50 sent);
   Input.RunBegin _ 30; Input.RunLoop _; Input.RunEnd _ 0; Input.Wakeup _;
   Input.RunBegin _ 200; Input.RunLoop _; Input.RunLoop _; Input.RunEnd _ 0; Input.Wakeup _;
   Input.Read _; Input.Consume _; Input.Read _; Input.SetCipher _ chacha; Input.Consume _;
   Input.RunBegin _ 0; Input.RunLoop _; Input.RunLoop _; Input.RunEnd _ 0; Input.Wakeup _;
   Input.Read _; Input.Consume _].

Definition received : list (revent running) :=
  [Message 0 [21]; Cipher (gcm false) false; Message 1 [94; 1]; Message 2 [21]; Cipher chacha false;
   Message 3 [94; 2; 3]].

Lemma pk_carries : forall m, 1 <= len m -> len m <= 31 -> carries (pk m) m.
Proof.
  intros m H1 H2. unfold pk, carries, framed. exists (repeat 7 (N.to_nat (31 - len m))).
  rewrite len_repeat, N2Nat.id. replace (1 + len m + (31 - len m)) with 32 by lia.
  split; [reflexivity|]. rewrite !len_app, len_be32, len_repeat, N2Nat.id. change (len [31 - len m]) with 1. lia.
Qed.

Definition submitted_items : list (submitted running) :=
  [Packet (pk [21]); NewCipher (gcm true) false; Packet (pk [94; 1]); Packet (pk [21]);
   NewCipher chacha false; Packet (pk [94; 2; 3])].

Lemma items_proper : proper running false submitted_items.
Proof.
  cbn [submitted_items proper]. split; [reflexivity|]. exists [21]. split; [apply pk_carries; vm_compute; discriminate|].
  split; [reflexivity|]. split; [reflexivity|]. exists [94; 1]. split; [apply pk_carries; vm_compute; discriminate|].
  split; [reflexivity|]. exists [21]. split; [apply pk_carries; vm_compute; discriminate|].
  split; [reflexivity|]. split; [reflexivity|]. exists [94; 2; 3]. split; [apply pk_carries; vm_compute; discriminate|].
  exact Logic.I.
Qed.

Example C58_witness :
  exists s s', connected C07.polite toy send_ops s submitted_items sent receive_ops s' sent received [] /\
    padded running run_block_size run_header_excluded sends None submitted_items /\
    sent = wire running (out_encrypt toy) None 0 submitted_items /\
    Input.i_job running s' = Input.IInitial /\
    Input.istep running run_auth_size (in_header toy) (in_payload toy) s' (Input.Read running) = Input.IOk running s' [] /\
    len sent = 192.
Proof.
  do 2 eexists. split; [|split; [|split; [|split; [|split]]]].
  - split.
    + change send_ops with ([] ++ send_ops). eapply exec_runs; [apply OutputFacts.runs_nil| |].
      * vm_compute. repeat split; discriminate.
      * vm_compute. reflexivity.
    + change receive_ops with ([] ++ receive_ops). eapply iexec_runs; [apply InputFacts.iruns_nil|].
      vm_compute. reflexivity.
    + rewrite app_nil_r. reflexivity.
    + exact items_proper.
    + intros [|[|i]] d reset H; cbn in H.
      * assert (d = gcm false) by congruence. assert (reset = false) by congruence. subst.
        exists (gcm true). split; [reflexivity|]. repeat split; reflexivity.
      * assert (d = chacha) by congruence. assert (reset = false) by congruence. subst.
        exists chacha. split; [reflexivity|]. repeat split; reflexivity.
      * destruct i; discriminate.
  - vm_compute. repeat split; discriminate.
  - vm_compute. reflexivity.
  - vm_compute. reflexivity.
  - vm_compute. reflexivity.
  - vm_compute. reflexivity.
Qed.

(** The full claim, without the restriction on the sender. *)
Definition C58_full_statement : Prop :=
  forall P, tags_ok P ->
  forall ops s sub w ops' s' stream seen inflight,
  connected (OutputFacts.packets_ok running) P ops s sub w ops' s' stream seen inflight ->
  Input.i_closed running s' = false.

(** It is false, because of [C07_order_refuted]: two key exchanges in a row,
    while the worker thread does not get to run; the message between them
    is encrypted with the wrong cipher. *)
Definition bad_ops : list (Output.op running) :=
  [Output.Push _ (pk [21]); Output.SetCipher _ (gcm true); Output.Push _ (pk [94; 1]); Output.Push _ (pk [21]);
   Output.SetCipher _ chacha; Output.RunBegin _; Output.RunEncrypt _; Output.RunEncrypt _; Output.RunEnd _;
   Output.Wakeup _; Output.Flush _ (Some 140)].
Definition bad_sent : bytes :=
  match exec (Output.new_output running) [] [] bad_ops with Some (_, _, w) => w | None => [] end.
Definition bad_receive : list (Input.iop running) :=
  [Input.Feed _ bad_sent; Input.Read _; Input.SetCipher _ (gcm false); Input.Consume _;
   Input.RunBegin _ 200; Input.RunLoop _; Input.Wakeup _; Input.Read _].

Theorem C58_refuted : ~ C58_full_statement.
Proof.
  intros F.
  assert (X : exists s s' sub, connected (OutputFacts.packets_ok running) toy bad_ops s sub bad_sent bad_receive s'
                bad_sent [Message 0 [21]; Cipher (gcm false) false] [] /\ Input.i_closed running s' = true).
  { do 2 eexists. exists [Packet (pk [21]); NewCipher (gcm true) false; Packet (pk [94; 1]); Packet (pk [21]);
                          NewCipher chacha false]. split.
    - split.
      + change bad_ops with ([] ++ bad_ops). eapply exec_runs; [apply OutputFacts.runs_nil| |].
        * vm_compute. repeat split; discriminate.
        * vm_compute. reflexivity.
      + change bad_receive with ([] ++ bad_receive). eapply iexec_runs; [apply InputFacts.iruns_nil|].
        vm_compute. reflexivity.
      + rewrite app_nil_r. reflexivity.
      + cbn [proper]. split; [reflexivity|]. exists [21]. split; [apply pk_carries; vm_compute; discriminate|].
        split; [reflexivity|]. split; [reflexivity|]. exists [94; 1]. split; [apply pk_carries; vm_compute; discriminate|].
        split; [reflexivity|]. exists [21]. split; [apply pk_carries; vm_compute; discriminate|].
        split; [reflexivity|]. exact Logic.I.
      + intros [|i] d reset H; cbn in H; [|destruct i; discriminate].
        assert (d = gcm false) by congruence. assert (reset = false) by congruence. subst.
        exists (gcm true). split; [reflexivity|]. repeat split; reflexivity.
    - vm_compute. reflexivity. }
  destruct X as (s & s' & sub & H & C). pose proof (F toy toy_ok _ _ _ _ _ _ _ _ _ H). congruence.
Qed.
Print Assumptions C58_refuted.
