(** * C26: channel data reaches the program in order, with end-of-file last

    First for any destination of a buffered channel (Spec/BufferedSpec.v says
    what a destination is: it consumes prefixes of what it is offered), then
    for the standard input of a program. *)

From Coq Require Import NArith List Bool Lia.
From Verif.Base Require Import Bytes.
From Verif.Model Require Import Buffered.
From Verif.Spec Require Import BufferedSpec.
From Verif.Proofs Require Import BufferedFacts.
Import ListNotations.
Open Scope N_scope.

(** ** Any destination *)

(** What was consumed, followed by what is waiting, is what was received. *)
Theorem C26_in_order :
  forall (D : Type) (on_data : D -> bytes -> N * D) (on_eof : D -> D) (got : D -> bytes) (ends : D -> N) dbg d ops,
  destination on_data on_eof got ends -> got d = [] -> ends d = 0 -> Forall (harmless got ends) ops ->
  let s := bruns on_data on_eof dbg d ops in
  bc_assert s = false ->
  got (bc_dst s) ++ concat (bc_queue s) = received ops.
Proof. intros D on_data on_eof got ends dbg d ops HD G E F s A. exact (proj1 (bruns_BI on_data on_eof got ends HD dbg d ops G E F A)). Qed.
Print Assumptions C26_in_order.

(** End of file is delivered only when all data received so far has been
    consumed, and never more often than it was received. *)
Theorem C26_eof_last :
  forall (D : Type) (on_data : D -> bytes -> N * D) (on_eof : D -> D) (got : D -> bytes) (ends : D -> N) dbg d ops o,
  destination on_data on_eof got ends -> got d = [] -> ends d = 0 -> Forall (harmless got ends) (ops ++ [o]) ->
  let s := bruns on_data on_eof dbg d ops in
  let s' := bruns on_data on_eof dbg d (ops ++ [o]) in
  bc_assert s' = false -> ends (bc_dst s') <> ends (bc_dst s) ->
  got (bc_dst s') = received (ops ++ [o]).
Proof.
  intros D on_data on_eof got ends dbg d ops o HD G E F s s' A NE. subst s s'.
  pose proof (bruns_BI on_data on_eof got ends HD dbg d _ G E F A) as (I1 & _). rewrite bruns_snoc in *.
  apply Forall_app in F as (F1 & F2). inversion F2; subst.
  pose proof (bstep_assert on_data on_eof _ _ _ A) as A0.
  destruct (bstep_fact on_data on_eof got ends HD dbg _ o H1 A0 A) as (_ & _ & _ & _ & S5 & _).
  rewrite (S5 NE) in I1. cbn in I1. now rewrite app_nil_r in I1.
Qed.
Print Assumptions C26_eof_last.

Theorem C26_eof_bounded :
  forall (D : Type) (on_data : D -> bytes -> N * D) (on_eof : D -> D) (got : D -> bytes) (ends : D -> N) dbg d ops,
  destination on_data on_eof got ends -> got d = [] -> ends d = 0 -> Forall (harmless got ends) ops ->
  let s := bruns on_data on_eof dbg d ops in
  bc_assert s = false -> ends (bc_dst s) <= eof_packets ops.
Proof.
  intros D on_data on_eof got ends dbg d ops HD G E F s A.
  pose proof (bruns_BI on_data on_eof got ends HD dbg d ops G E F A) as (_ & _ & I3). fold s in I3. lia.
Qed.
Print Assumptions C26_eof_bounded.

(** If the peer sends nothing after its CHANNEL_EOF, no assertion fails, end
    of file is delivered at most once, and exactly once when all data has been
    consumed. *)
Theorem C26_eof_once_partial :
  forall (D : Type) (on_data : D -> bytes -> N * D) (on_eof : D -> D) (got : D -> bytes) (ends : D -> N) dbg d ops,
  destination on_data on_eof got ends -> got d = [] -> ends d = 0 -> Forall (harmless got ends) ops -> polite ops ->
  let s := bruns on_data on_eof dbg d ops in
  bc_assert s = false /\ ends (bc_dst s) <= 1 /\
  (bc_queue s = [] -> ends (bc_dst s) = eof_packets ops).
Proof.
  intros D on_data on_eof got ends dbg d ops HD G E F P s.
  destruct (bruns_polite on_data on_eof got ends HD dbg d ops G E F P) as (A & C). fold s in A, C.
  pose proof (bruns_BI on_data on_eof got ends HD dbg d ops G E F A) as (_ & I2 & _). fold s in I2.
  split; [exact A|]. split.
  - assert (L : eof_packets ops <= 1).
    { clear - P. induction ops as [|o t IH]; [cbn; lia|]. destruct o; cbn [polite eof_packets] in *; auto.
      assert (Z : eof_packets t = 0); [|lia]. clear IH. induction t as [|x t IH]; [reflexivity|]. inversion P; subst. destruct x; try contradiction; cbn; auto. }
    lia.
  - intros Q. destruct (bc_eof s); [now elim (I2 eq_refl)|]. lia.
Qed.
Print Assumptions C26_eof_once_partial.

(** The missing part: a peer which sends CHANNEL_EOF twice. *)
Definition C26_eof_once_full_statement : Prop :=
  forall (D : Type) (on_data : D -> bytes -> N * D) (on_eof : D -> D) (got : D -> bytes) (ends : D -> N) dbg d ops,
  destination on_data on_eof got ends -> got d = [] -> ends d = 0 -> Forall (harmless got ends) ops ->
  let s := bruns on_data on_eof dbg d ops in
  bc_assert s = false /\ ends (bc_dst s) <= 1.

(** a destination which accepts up to three bytes at a time, and sometimes
    nothing: the state is what it got, the number of ends, and its patience *)
Definition toy : Type := (bytes * N * N)%type.
Definition toy_data (d : toy) (p : bytes) : N * toy :=
  let '(g, e, k) := d in
  if k =? 0 then (0, (g, e, 3)) else let n := N.min k (len p) in (n, (g ++ take n p, e, k - n)).
Definition toy_eof (d : toy) : toy := let '(g, e, k) := d in (g, 1 + e, k).
Definition toy_got (d : toy) : bytes := let '(g, e, k) := d in g.
Definition toy_ends (d : toy) : N := let '(g, e, k) := d in e.
Lemma toy_destination : destination toy_data toy_eof toy_got toy_ends.
Proof.
  split.
  - intros [[g e] k] p. unfold toy_data. destruct (k =? 0); cbn [fst]; lia.
  - intros [[g e] k] p. unfold toy_data. destruct (k =? 0); cbn [fst snd toy_got]; [|reflexivity]. unfold take. cbn. now rewrite app_nil_r.
  - intros [[g e] k] p. unfold toy_data. destruct (k =? 0); reflexivity.
  - intros [[g e] k]. reflexivity.
  - intros [[g e] k]. reflexivity.
Qed.

Theorem C26_eof_once_refuted : ~ C26_eof_once_full_statement.
Proof.
  intros H. specialize (H toy toy_data toy_eof toy_got toy_ends true ([], 0, 3) [BEof; BEof] toy_destination eq_refl eq_refl).
  destruct H as (_ & H); [repeat constructor|]. vm_compute in H. now apply H.
Qed.
Print Assumptions C26_eof_once_refuted.

(** ... and one which sends data after it, while older data waits, makes the
    assertion fail. *)
Theorem C26_assertion_refuted :
  bc_assert (bruns toy_data toy_eof true ([], 0, 3) [BData [1; 2; 3; 4]; BEof; BData [5]]) = true.
Proof. reflexivity. Qed.
Print Assumptions C26_assertion_refuted.

(** a run with portions, pauses and a pending end of file *)
Example C26_demo :
  let ops := [BData [1; 2; 3; 4]; BData [5]; BRead; BEof; BRead; BRead] in
  let s := bruns toy_data toy_eof true ([], 0, 3) ops in
  Forall (harmless toy_got toy_ends) ops /\ polite ops /\
  bc_dst (bruns toy_data toy_eof true ([], 0, 3) [BData [1; 2; 3; 4]; BData [5]; BRead; BEof]) = ([1; 2; 3], 0, 3) /\
  bc_dst s = ([1; 2; 3; 4; 5], 1, 1).
Proof. split; [repeat constructor|]. split; [repeat constructor|]. split; reflexivity. Qed.

(** ** The standard input of a program *)

(** Whatever the peer, the program and the kernel do: every byte received is
    written to the program, discarded or waiting, in this order. *)
Theorem C26_stdin_in_order :
  forall dbg ops, bc_assert (iruns dbg ops) = false ->
  concat (map fate_bytes (i_fate (bc_dst (iruns dbg ops)))) ++ concat (bc_queue (iruns dbg ops)) = ireceived ops.
Proof. intros dbg ops A. rewrite (iruns_same dbg ops A). apply (si_got _ _ (iruns_SI ops)). Qed.
Print Assumptions C26_stdin_in_order.

(** If no write fails and the peer sends nothing after CHANNEL_EOF, nothing is
    discarded: what the program got is always a prefix of what was received,
    and the rest is waiting. *)
Theorem C26_stdin_written :
  forall dbg ops, Forall no_failure ops -> ipolite ops ->
  bc_assert (iruns dbg ops) = false /\
  written (i_fate (bc_dst (iruns dbg ops))) ++ concat (bc_queue (iruns dbg ops)) = ireceived ops.
Proof.
  intros dbg ops F P. destruct (iruns_SW dbg ops F P) as (S0 & E). split; [apply S0|].
  rewrite <- (sw_written _ _ S0), E. apply (si_got _ _ (iruns_SI ops)).
Qed.
Print Assumptions C26_stdin_written.

(** Input never gets stuck: while data is waiting and the program was started,
    the event loop waits for its standard input to become writable. *)
Theorem C26_stdin_not_stuck :
  forall dbg ops, let s := iruns dbg ops in
  bc_assert s = false -> i_enabled (bc_dst s) = true -> i_destination (bc_dst s) = true ->
  bc_queue s <> [] -> i_sched (bc_dst s) = true.
Proof. intros dbg ops s A. subst s. rewrite (iruns_same dbg ops A). apply (si_live _ _ (iruns_SI ops)). Qed.
Print Assumptions C26_stdin_not_stuck.

(** The pipe is closed by the end of file only after all data was written. *)
Theorem C26_stdin_eof_last :
  forall dbg ops, Forall no_failure ops -> ipolite ops ->
  i_pipe (bc_dst (iruns dbg ops)) = PClosed ->
  In InEof ops /\ written (i_fate (bc_dst (iruns dbg ops))) = ireceived ops.
Proof.
  intros dbg ops F P C. destruct (iruns_SW dbg ops F P) as (S0 & E). destruct (sw_closed _ _ S0 C) as (Q & _ & I0).
  split; [exact I0|]. destruct (C26_stdin_written dbg ops F P) as (_ & W0). rewrite Q in W0. cbn in W0. now rewrite app_nil_r in W0.
Qed.
Print Assumptions C26_stdin_eof_last.

(** The program sees the end of file ... *)
Definition C26_stdin_eof_full_statement : Prop :=
  forall pre post, let ops := pre ++ InEof :: post in
  Forall no_failure ops -> ipolite ops -> ~ In InPty ops ->
  i_pipe (bc_dst (iruns false ops)) <> PNone -> bc_queue (iruns false ops) = [] -> i_ended (bc_dst (iruns false ops)) = true.

(** ... if it had been started when CHANNEL_EOF arrived, or data was waiting
    for it, *)
Theorem C26_stdin_eof_partial :
  forall pre post, let ops := pre ++ InEof :: post in
  Forall no_failure ops -> ipolite ops -> ~ In InPty ops ->
  i_pipe (bc_dst (iruns false pre)) = POpen \/ bc_queue (iruns false pre) <> [] ->
  bc_queue (iruns false ops) = [] -> i_ended (bc_dst (iruns false ops)) = true.
Proof.
  intros pre post ops F P NP H Q. destruct (iruns_SE pre post F P NP H) as [(_ & X)|X]; [exact X|].
  exfalso. apply (si_eof _ _ (iruns_SI ops) X Q).
Qed.
Print Assumptions C26_stdin_eof_partial.

(** and not if it arrived while the program was about to be started: the
    standard input of that program never ends. *)
Theorem C26_stdin_eof_refuted : ~ C26_stdin_eof_full_statement.
Proof.
  intros H. specialize (H [] [InPipes; InEnable]). vm_compute in H.
  assert (X : false = true); [|discriminate]. apply H; try discriminate; try reflexivity; repeat constructor; intuition discriminate.
Qed.
Print Assumptions C26_stdin_eof_refuted.

(** data before the program was started, portions, and the end of file *)
Definition stdin_demo : list iop :=
  [InData [1; 2] []; InPipes; InData [3] []; InEnable; InReady [Wrote 1; Again]; InEof; InReady [Again]; InReady [Wrote 9; Wrote 9]].
Example C26_stdin_demo :
  Forall no_failure stdin_demo /\ ipolite stdin_demo /\
  i_fate (bc_dst (iruns true stdin_demo)) = [Written [1]; Written [2]; Written [3]] /\
  i_pipe (bc_dst (iruns true stdin_demo)) = PClosed /\ i_ended (bc_dst (iruns true stdin_demo)) = true.
Proof.
  split; [repeat constructor; cbn; intuition discriminate|]. split; [cbn; intuition discriminate|].
  split; [reflexivity|]. split; reflexivity.
Qed.
Example C26_stdin_stuck_witness :
  let s := iruns true [InData [1; 2] []; InPipes; InEnable; InReady [Wrote 1]] in
  bc_assert s = false /\ i_enabled (bc_dst s) = true /\ i_destination (bc_dst s) = true /\ bc_queue s <> [].
Proof. repeat split; discriminate. Qed.
