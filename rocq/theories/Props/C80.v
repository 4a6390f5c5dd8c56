(** * C80: flow control of incoming channel data *)

From Coq Require Import NArith List Bool Lia.
From Verif.Base Require Import Bytes.
From Verif.Model Require Import Wire Buffered RecvWindow.
From Verif.Spec Require Import BufferedSpec RecvWindowSpec.
From Verif.Proofs Require Import RecvWindowFacts.
Import ListNotations.
Open Scope N_scope.

(** A peer which sends no more than it was granted is never disconnected
    because of it, whatever the program does with the data and whenever it
    does; and no assertion about the window fails. *)
Theorem C80_obeying_session : forall dbg ops, obeys session_size (sruns dbg) ops ->
  refused (sruns dbg ops) = false /\ broken (sruns dbg ops) = false.
Proof. intros dbg ops O. pose proof (sruns_inv dbg ops O) as I. split; [apply (in_accepted _ _ I)|apply (in_intact _ _ I)]. Qed.
Print Assumptions C80_obeying_session.

Theorem C80_obeying_socket : forall dbg ops, obeys socket_size (kruns dbg) ops ->
  refused (kruns dbg ops) = false /\ broken (kruns dbg ops) = false.
Proof. intros dbg ops O. destruct (kruns_inv dbg ops O) as (A & B & _). split; assumption. Qed.
Print Assumptions C80_obeying_socket.

(** What is waiting in the server plus what the peer may still send never
    exceeds 1 MiB per channel. *)
Theorem C80_memory_session : forall dbg ops, obeys session_size (sruns dbg) ops -> crashed (sruns dbg ops) = false ->
  waiting (sruns dbg ops) + remaining session_size (sruns dbg) ops <= 1048576.
Proof.
  intros dbg ops O C. pose proof (sruns_inv dbg ops O) as I. destruct (in_window _ _ I C) as (A & B). pose proof (in_granted _ _ I). unfold remaining, RW in *. lia.
Qed.
Print Assumptions C80_memory_session.

Theorem C80_memory_socket : forall dbg ops, obeys socket_size (kruns dbg) ops -> crashed (kruns dbg ops) = false -> socket_failed (kruns dbg ops) = false ->
  waiting (kruns dbg ops) + remaining socket_size (kruns dbg) ops <= 1048576.
Proof.
  intros dbg ops O C F. destruct (kruns_inv dbg ops O) as (_ & _ & I). specialize (I F). destruct (in_window _ _ I C) as (A & B). pose proof (in_granted _ _ I). unfold remaining, RW in *. lia.
Qed.
Print Assumptions C80_memory_socket.

Lemma sruns_inv2 : forall dbg ops, Forall session_plain ops -> Forall (fun o => session_size o <= 35000) ops -> inv2 (sruns dbg ops).
Proof.
  intros dbg. induction ops as [|o ops IH] using rev_ind; intros P S; [apply inv2_init|]. apply Forall_app in P, S. destruct P as (P & Po), S as (S & So). inversion Po; inversion So; subst.
  rewrite sruns_snoc. apply sstep_inv2; [now apply IH|assumption|lia].
Qed.
Lemma kruns_inv2 : forall dbg ops, Forall socket_plain ops -> Forall (fun o => socket_size o <= 35000) ops -> inv2 (kruns dbg ops).
Proof.
  intros dbg. induction ops as [|o ops IH] using rev_ind; intros P S; [apply inv2_init|]. apply Forall_app in P, S. destruct P as (P & Po), S as (S & So). inversion Po; inversion So; subst.
  rewrite kruns_snoc. apply kstep_inv2; [now apply IH|assumption|lia].
Qed.

(** The transfer never stalls: when all data has been passed on, the peer may
    send at least 512 KiB more.  In any other state it may send all but what is
    waiting and what was thrown away.  Missing: extended data, and data which
    was thrown away, for which see below. *)
Theorem C80_flow_session_partial : forall dbg ops, obeys session_size (sruns dbg) ops -> crashed (sruns dbg ops) = false ->
  Forall session_plain ops -> Forall (fun o => session_size o <= 35000) ops ->
  524288 <= remaining session_size (sruns dbg) ops + waiting (sruns dbg ops) + discarded (session_fate (sruns dbg ops)).
Proof.
  intros dbg ops O C P S. pose proof (sruns_inv dbg ops O) as I. destruct (in_window _ _ I C) as (A & B). pose proof (in_granted _ _ I).
  pose proof (i2_low _ (sruns_inv2 dbg ops P S)) as L. pose proof (sruns_counted dbg ops) as D. unfold counted in D. unfold remaining, session_fate. rewrite <- D. lia.
Qed.
Print Assumptions C80_flow_session_partial.

Theorem C80_flow_socket_partial : forall dbg ops, obeys socket_size (kruns dbg) ops -> crashed (kruns dbg ops) = false -> socket_failed (kruns dbg ops) = false ->
  Forall socket_plain ops -> Forall (fun o => socket_size o <= 35000) ops ->
  524288 <= remaining socket_size (kruns dbg) ops + waiting (kruns dbg ops).
Proof.
  intros dbg ops O C F P S. destruct (kruns_inv dbg ops O) as (_ & _ & I). specialize (I F). destruct (in_window _ _ I C) as (A & B). pose proof (in_granted _ _ I).
  pose proof (i2_low _ (kruns_inv2 dbg ops P S)) as L. pose proof (kruns_dropped dbg ops) as D. unfold nothing_dropped in D. unfold remaining. lia.
Qed.
Print Assumptions C80_flow_socket_partial.

(** Any peer, even one which ignores the window: without extended data no
    assertion about the window fails, and the window does not wrap around. *)
Theorem C80_any_session_partial : forall dbg ops, Forall session_plain ops -> Forall (fun o => session_size o <= 35000) ops ->
  broken (sruns dbg ops) = false /\ 524288 <= window (sruns dbg ops) <= 1048576.
Proof. intros dbg ops P S. destruct (sruns_inv2 dbg ops P S) as [A _ B C]. split; [exact A|]. split; [exact B|exact C]. Qed.
Print Assumptions C80_any_session_partial.

Theorem C80_any_socket_partial : forall dbg ops, Forall socket_plain ops -> Forall (fun o => socket_size o <= 35000) ops ->
  broken (kruns dbg ops) = false /\ 524288 <= window (kruns dbg ops) <= 1048576.
Proof. intros dbg ops P S. destruct (kruns_inv2 dbg ops P S) as [A _ B C]. split; [exact A|]. split; [exact B|exact C]. Qed.
Print Assumptions C80_any_socket_partial.

(** The data of a forwarded connection is delivered in order; what has not been
    delivered yet is waiting, and then the server is waiting for the socket to
    become writable.  It is told about the end only if the peer said so. *)
Theorem C80_socket_order : forall dbg ops, refused (kruns dbg ops) = false -> broken (kruns dbg ops) = false -> crashed (kruns dbg ops) = false ->
  socket_failed (kruns dbg ops) = false ->
  concat (k_written (socket (kruns dbg ops))) ++ concat (bc_queue (ws_ch (kruns dbg ops))) = socket_received ops /\
  (bc_queue (ws_ch (kruns dbg ops)) <> [] -> k_sched (socket (kruns dbg ops)) = true) /\
  k_shut (socket (kruns dbg ops)) <= socket_eofs ops.
Proof.
  intros dbg ops R B C F. assert (S : stopped (kruns dbg ops) = false) by (unfold stopped; unfold refused, broken, crashed in *; rewrite R, B, C; reflexivity).
  destruct (kruns_order dbg ops S F) as (X & Y). split; [exact X|]. split; [exact (kruns_awake dbg ops F)|]. unfold kpending, kends in Y. unfold socket. lia.
Qed.
Print Assumptions C80_socket_order.

(** ** What does not hold *)

Definition chunk : bytes := repeat 0 (N.to_nat 32768).

(** "No peer, however it behaves, can make an assertion about the window fail,
    or gets more than 1 MiB of window." *)
Definition C80_any_full_statement : Prop :=
  (forall ops, Forall (fun o => session_size o <= 35000) ops -> broken (sruns true ops) = false) /\
  (forall ops, Forall (fun o => session_size o <= 35000) ops -> window (sruns false ops) <= 1048576).

(** Data is queued before the program has been started; it does not count.
    Then extended data, which is ignored, uses up the window.  Then the queued
    data is written. *)
Definition C80_attack : list sop :=
  [SIn (InData chunk [])] ++ repeat (SExt chunk) 32 ++ [SIn InPipes; SIn InEnable; SIn (InReady [Wrote 32768])].

(** Only the length of extended data matters (this makes the proofs below
    short to check). *)
Definition ext_step (dbg : bool) (n : N) (s : wst stdin) : wst stdin :=
  if stopped s then s else if window s <? n then reject s
  else on_ch (fun c => bstep (wdata session_data dbg) (weof stdin_eof) dbg c (BOther (ConsumeReceiveWindow dbg n))) s.
Lemma ext_repeat : forall dbg p n k s, len p = n -> fold_left (sstep dbg) (repeat (SExt p) k) s = Nat.iter k (ext_step dbg n) s.
Proof.
  intros dbg p n k s <-. revert s. induction k as [|k IH]; intros s; [reflexivity|]. cbn [repeat fold_left].
  change (sstep dbg s (SExt p)) with (ext_step dbg (len p) s). rewrite IH. clear.
  induction k as [|k IH]; [reflexivity|]. cbn [Nat.iter nat_rect]. f_equal. exact IH.
Qed.
Lemma chunk_len : len chunk = 32768.
Proof. unfold chunk, len. rewrite repeat_length. apply N2Nat.id. Qed.
Lemma attack_run_of : forall dbg c, len c = 32768 ->
  sruns dbg ([SIn (InData c [])] ++ repeat (SExt c) 32 ++ [SIn InPipes; SIn InEnable; SIn (InReady [Wrote 32768])]) =
  fold_left (sstep dbg) [SIn InPipes; SIn InEnable; SIn (InReady [Wrote 32768])]
    (Nat.iter 32 (ext_step dbg 32768) (sstep dbg (wst_init stdin_init) (SIn (InData c [])))).
Proof. intros dbg c L. unfold sruns. rewrite !fold_left_app. rewrite (ext_repeat dbg c 32768 32 _ L). reflexivity. Qed.
Lemma attack_run : forall dbg, sruns dbg C80_attack =
  fold_left (sstep dbg) [SIn InPipes; SIn InEnable; SIn (InReady [Wrote 32768])]
    (Nat.iter 32 (ext_step dbg 32768) (sstep dbg (wst_init stdin_init) (SIn (InData chunk [])))).
Proof. intros dbg. exact (attack_run_of dbg chunk chunk_len). Qed.

Lemma attack_small : Forall (fun o => session_size o <= 35000) C80_attack.
Proof.
  assert (C : len chunk <= 35000) by (rewrite chunk_len; lia).
  unfold C80_attack. constructor; [exact C|]. apply Forall_app. split; [|repeat constructor; cbn; lia].
  apply Forall_forall. intros o I. apply repeat_spec in I. subst o. exact C.
Qed.

Theorem C80_any_refuted : ~ C80_any_full_statement.
Proof.
  intros (H & _). specialize (H C80_attack attack_small). assert (X : broken (sruns true C80_attack) = true) by (rewrite attack_run; vm_compute; reflexivity). rewrite X in H. exact (Bool.diff_true_false H).
Qed.
Print Assumptions C80_any_refuted.

(** without assertions, the window wraps around: the peer is not limited any
    more *)
Theorem C80_wrap : window (sruns false C80_attack) = 18446744073709518848 /\ refused (sruns false C80_attack) = false.
Proof. rewrite attack_run. split; vm_compute; reflexivity. Qed.
Print Assumptions C80_wrap.

(** "A peer which obeys can always go on as soon as all has been passed on." *)
Definition C80_flow_full_statement : Prop :=
  forall dbg ops, obeys session_size (sruns dbg) ops -> Forall (fun o => session_size o <= 35000) ops -> crashed (sruns dbg ops) = false ->
    waiting (sruns dbg ops) = 0 -> 0 < remaining session_size (sruns dbg) ops.

Fixpoint obeysb (dbg : bool) (st : wst stdin) (done : N) (ops : list sop) : bool :=
  match ops with
  | [] => true
  | o :: rest => (session_size o <=? granted st - done) && obeysb dbg (sstep dbg st o) (done + session_size o) rest
  end.
Lemma obeysb_from : forall dbg ops before, obeysb dbg (sruns dbg before) (sent session_size before) ops = true ->
  forall x o y, ops = x ++ o :: y -> session_size o <= remaining session_size (sruns dbg) (before ++ x).
Proof.
  induction ops as [|a ops IH]; intros before H x o y E; [destruct x; discriminate|]. cbn [obeysb] in H. apply andb_true_iff in H. destruct H as (H1 & H2).
  destruct x as [|b x]; cbn [app] in E; injection E as E1 E2; subst.
  - rewrite app_nil_r. now apply N.leb_le.
  - change (b :: x) with ([b] ++ x). rewrite app_assoc. apply (IH (before ++ [b])) with (y := y); [|reflexivity].
    rewrite sruns_snoc. replace (sent session_size (before ++ [b])) with (sent session_size before + session_size b); [exact H2|].
    unfold sent. rewrite map_app. change (map session_size [b]) with [session_size b]. clear. induction (map session_size before) as [|n l IH]; cbn [app map].
    + change (0 + session_size b = session_size b + 0). lia.
    + change (n + sum l + session_size b = n + sum (l ++ [session_size b])). rewrite <- IH. lia.
Qed.
Fixpoint obeysn (dbg : bool) (n : N) (k : nat) (st : wst stdin) (done : N) : bool :=
  match k with
  | O => true
  | S k => (n <=? granted st - done) && obeysn dbg n k (ext_step dbg n st) (done + n)
  end.
Lemma obeysn_eq : forall dbg p n k st done, len p = n -> obeysb dbg st done (repeat (SExt p) k) = obeysn dbg n k st done.
Proof.
  intros dbg p n k st done <-. revert st done. induction k as [|k IH]; intros st done; [reflexivity|]. cbn [repeat obeysb obeysn].
  change (sstep dbg st (SExt p)) with (ext_step dbg (len p) st). now rewrite IH.
Qed.
Lemma obeysb_spec : forall dbg ops, obeysb dbg (wst_init stdin_init) 0 ops = true -> obeys session_size (sruns dbg) ops.
Proof. intros dbg ops H x o y E. exact (obeysb_from dbg ops [] H x o y E). Qed.

(** The same with the result. *)
Fixpoint obeysf (dbg : bool) (st : wst stdin) (done : N) (ops : list sop) : option (wst stdin * N) :=
  match ops with
  | [] => Some (st, done)
  | o :: rest =>
      let size := session_size o in
      if size <=? granted st - done then obeysf dbg (sstep dbg st o) (done + size) rest else None
  end.
Lemma sent_snoc : forall l o, sent session_size (l ++ [o]) = sent session_size l + session_size o.
Proof.
  intros l o. unfold sent. rewrite map_app. change (map session_size [o]) with [session_size o]. induction (map session_size l) as [|n m IH]; cbn [app].
  - change (session_size o + 0 = 0 + session_size o). lia.
  - change (n + sum (m ++ [session_size o]) = n + sum m + session_size o). rewrite IH. lia.
Qed.
Lemma obeysf_spec : forall dbg ops before st n, obeysf dbg (sruns dbg before) (sent session_size before) ops = Some (st, n) ->
  obeysb dbg (sruns dbg before) (sent session_size before) ops = true /\
  st = sruns dbg (before ++ ops) /\ n = sent session_size (before ++ ops).
Proof.
  induction ops as [|o ops IH]; intros before st n H; cbn [obeysf obeysb] in *.
  - injection H as <- <-. rewrite app_nil_r. auto.
  - cbv zeta in H. destruct (session_size o <=? granted (sruns dbg before) - sent session_size before); [|discriminate H].
    rewrite <- sruns_snoc, <- sent_snoc in H. destruct (IH _ _ _ H) as (B & S & T). rewrite <- app_assoc in S, T.
    rewrite <- sruns_snoc, <- sent_snoc. auto.
Qed.

(** extended data is never granted back *)
Theorem C80_flow_refuted : ~ C80_flow_full_statement.
Proof.
  intros H. specialize (H false (repeat (SExt chunk) 32)).
  assert (X : obeysb false (wst_init stdin_init) 0 (repeat (SExt chunk) 32) = true) by (rewrite (obeysn_eq _ _ 32768) by exact chunk_len; vm_compute; reflexivity).
  assert (E : sruns false (repeat (SExt chunk) 32) = Nat.iter 32 (ext_step false 32768) (wst_init stdin_init)) by exact (ext_repeat false chunk 32768 32 _ chunk_len).
  assert (R : remaining session_size (sruns false) (repeat (SExt chunk) 32) = 0).
  { unfold remaining. rewrite E. assert (T : sent session_size (repeat (SExt chunk) 32) = 1048576).
    { unfold sent. assert (M : forall k, map session_size (repeat (SExt chunk) k) = repeat 32768 k).
      { induction k as [|k IH]; [reflexivity|]. cbn [repeat map]. rewrite IH. change (session_size (SExt chunk)) with (len chunk). now rewrite chunk_len. }
      rewrite M. vm_compute. reflexivity. }
    rewrite T. vm_compute. reflexivity. }
  rewrite R in H. assert (Z : 0 < 0); [|lia]. apply H.
  - exact (obeysb_spec _ _ X).
  - apply Forall_forall. intros o I. apply repeat_spec in I. subst o. change (len chunk <= 35000). rewrite chunk_len. lia.
  - rewrite E. vm_compute. reflexivity.
  - rewrite E. vm_compute. reflexivity.
Qed.
Print Assumptions C80_flow_refuted.

(** "The server keeps at most 1 MiB per channel, whatever the peer does." *)
Definition C80_memory_full_statement : Prop := exists bound, forall dbg ops, waiting (sruns dbg ops) <= bound.

Lemma deferred_run : forall dbg p k, len p <= 1048576 -> p <> [] ->
  sruns dbg (repeat (SIn (InData p [])) (S k)) =
  {| ws_ch := {| bc_queue := repeat p (S k); bc_eof := false; bc_dst := new_channel (i_defer stdin_init); bc_assert := false |}; ws_rejected := false |}.
Proof.
  intros dbg p k L NE. assert (F : (RECEIVE_WINDOW <? len p) = false) by (destruct (N.ltb_spec RECEIVE_WINDOW (len p)) as [H|H]; [unfold RECEIVE_WINDOW in H; lia|reflexivity]).
  assert (Z : (0 <? len p) = true) by (destruct p; [congruence|]; apply N.ltb_lt; unfold len; cbn [length]; lia).
  induction k as [|k IH].
  - cbn [repeat]. change (sruns dbg [SIn (InData p [])]) with (sstep dbg (wst_init stdin_init) (SIn (InData p []))). unfold sstep. cbv zeta.
    unfold wstep, stopped, on_ch, bstep, window. cbn [wst_init bc_init new_channel ws_ch ws_rejected bc_assert bc_dst w_broken orb bc_queue bc_eof w_set_dst w_window w_dst w_adjusts w_dropped]. rewrite F. unfold OnData.
    cbn [bc_eof bc_queue bc_dst bc_assert ws_ch]. rewrite andb_false_r. unfold wdata, session_data, stdin_data. cbn [w_dst w_set_dst stdin_init i_set_answers i_enabled negb andb w_window w_adjusts w_dropped w_broken].
    rewrite Z. reflexivity.
  - replace (repeat (SIn (InData p [])) (S (S k))) with (repeat (SIn (InData p [])) (S k) ++ [SIn (InData p [])]) by (symmetry; apply repeat_cons).
    rewrite sruns_snoc, IH. unfold sstep. cbv zeta.
    unfold wstep, stopped, on_ch, bstep, window. cbn [new_channel ws_ch ws_rejected bc_assert bc_dst w_broken orb bc_queue bc_eof w_set_dst w_window w_dst w_adjusts w_dropped]. rewrite F. unfold OnData.
    cbn [bc_eof bc_queue bc_dst bc_assert ws_ch]. rewrite andb_false_r. replace (repeat p (S (S k))) with (repeat p (S k) ++ [p]) by (symmetry; apply repeat_cons). reflexivity.
Qed.
Lemma sum_repeat : forall n k, sum (repeat n k) = N.of_nat k * n.
Proof. intros n. induction k as [|k IH]; [reflexivity|]. change (sum (repeat n (S k))) with (n + sum (repeat n k)). rewrite IH. lia. Qed.

Theorem C80_memory_refuted : ~ C80_memory_full_statement.
Proof.
  intros (b & H). specialize (H false (repeat (SIn (InData chunk [])) (S (N.to_nat b)))).
  assert (L : len chunk = 32768) by exact chunk_len. assert (NE : chunk <> []) by (intros E; rewrite E in L; change (len []) with 0 in L; clear -L; lia).
  assert (LE : len chunk <= 1048576) by (rewrite L; clear; lia). rewrite (deferred_run false chunk _ LE NE) in H. unfold waiting in H. cbn [ws_ch bc_queue] in H.
  assert (M : map len (repeat chunk (S (N.to_nat b))) = repeat 32768 (S (N.to_nat b))).
  { generalize (S (N.to_nat b)). induction n as [|n IH]; [reflexivity|]. cbn [repeat map]. now rewrite L, IH. }
  assert (B : sum (repeat 32768 (S (N.to_nat b))) <= b) by (rewrite <- M; exact H). rewrite sum_repeat in B. clear -B. lia.
Qed.
Print Assumptions C80_memory_refuted.

(** ** A concrete case: 640 KiB through a pipe which is slow at first *)
Definition C80_input : list sop :=
  [SIn InPipes; SIn (InData chunk []); SIn InEnable; SIn (InReady [Wrote 1000]); SIn (InReady [Again]); SIn (InReady [Wrote 40000])]
  ++ repeat (SIn (InData chunk [Wrote 40000])) 19.
Example C80_demo : obeys session_size (sruns true) C80_input /\ crashed (sruns true C80_input) = false /\ waiting (sruns true C80_input) = 0 /\
  sent session_size C80_input = 655360 /\ w_adjusts (bc_dst (ws_ch (sruns true C80_input))) = [557056] /\ remaining session_size (sruns true) C80_input = 950272.
Proof.
  assert (X : match obeysf true (wst_init stdin_init) 0 C80_input with
              | Some (st, n) => (crashed st, waiting st, n, w_adjusts (bc_dst (ws_ch st)), granted st - n)
              | None => (true, 0, 0, [], 0)
              end = (false, 0, 655360, [557056], 950272)) by (vm_compute; reflexivity).
  destruct (obeysf true (wst_init stdin_init) 0 C80_input) as [[st n]|] eqn:E; [|discriminate X].
  injection X as X1 X2 X3 X4 X5. destruct (obeysf_spec true C80_input [] st n E) as (B & S & T).
  cbn [app] in S, T. split; [exact (obeysb_spec _ _ B)|]. unfold remaining. rewrite <- S, <- T.
  repeat split; assumption.
Qed.

Example C80_socket_demo :
  let ops := [KData [1;2;3] [Wrote 1]; KData [4;5] []; KEof; KReady [Again]; KReady [Wrote 2; Wrote 1]; KReady [Wrote 9]] in
  refused (kruns true ops) = false /\ broken (kruns true ops) = false /\ crashed (kruns true ops) = false /\ socket_failed (kruns true ops) = false /\
  k_written (socket (kruns true ops)) = [[1]; [2;3]; [4]; [5]] /\ k_shut (socket (kruns true ops)) = 1.
Proof. vm_compute. repeat split. Qed.
