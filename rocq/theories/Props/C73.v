(** * C73: the end of a program is reported, then the channel is closed *)

From Coq Require Import NArith List Bool Lia String.
From Verif.Base Require Import Bytes.
From Verif.Spec Require Import WireSpec PacketSpec FlowSpec ExitSpec MessageSpec.
From Verif.Model Require Import Wire Frame Packets ChannelIO Makers.
From Verif.Proofs Require Import WireFacts FrameFacts PacketFacts KeyFacts MakerFacts FlowFacts ExitFacts.
Import ListNotations.
Open Scope N_scope.

Local Arguments bs : simpl never.
Local Arguments string_enc : simpl never.
Local Arguments be32 : simpl never.

(** The order of the messages on a session channel, for all interleavings of
    output, window adjustments, key exchanges, blocked writes and exits: no data
    after end-of-file, exactly one end-of-file, one report for each program, the
    channel is closed after the reports and end-of-file, and nothing follows. *)
Theorem C73_order : forall w b ops, Forall benign ops -> proper_end (ss_log (sruns w b ops)).
Proof. intros w b ops F. exact (proj1 (sruns_X w b ops F)). Qed.
Print Assumptions C73_order.

(** When a program has ended, its end has been reported, whatever happened
    before. *)
Lemma exit_child : forall s, ss_closed s = false -> ss_child (sstep s SExit) = false.
Proof.
  intros s C. unfold sstep. rewrite C. destruct (ss_child s) eqn:B; [|exact B]. unfold s_close_if_inactive.
  destruct (_ || _) eqn:O; [|reflexivity]. reflexivity.
Qed.
Lemma step_closed : forall s o, benign o -> ss_closed s = false -> ss_closed (sstep s o) = true ->
  exists older, ss_log (sstep s o) = IClosed :: older.
Proof.
  assert (I : forall s, ss_closed s = false -> ss_closed (s_close_if_inactive s) = true -> exists older, ss_log (s_close_if_inactive s) = IClosed :: older).
  { intros s C. unfold s_close_if_inactive. destruct (_ || _); [congruence|]. intros _. eexists. reflexivity. }
  assert (M : forall s, ss_closed s = false -> ss_closed (s_maybe_eof s) = true -> exists older, ss_log (s_maybe_eof s) = IClosed :: older).
  { intros s C. unfold s_maybe_eof. destruct (s_outputs s); [congruence|]. exact (I (slog ISentEof s) C). }
  assert (Q : forall x s, ss_closed s = false -> ss_closed (s_read x s) = true -> exists older, ss_log (s_read x s) = IClosed :: older).
  { intros x s C. unfold s_read. destruct (_ =? 0); [cbn; congruence|]. destruct (take _ _).
    - apply M. now rewrite (proj1 (close_source_same _ _ _)).
    - cbv zeta. destruct (_ =? 0); cbn; congruence. }
  assert (K : forall t s, ss_closed (s_tell t s) = ss_closed s) by (intros t s; exact (proj1 (alike_tell t s))).
  intros s o BN C. unfold sstep. rewrite C. destruct o; try destruct BN.
  - destruct (_ && _); cbn; congruence.
  - destruct (so_open _); cbn; congruence.
  - destruct (_ && _); [|congruence]. destruct x; try (destruct (so_data _); [destruct (so_eof _)|]; (apply Q; exact C) || congruence).
    unfold s_tty_ready. destruct (_ && _); [now apply Q|]. destruct (so_eof _); [|congruence]. apply M. now rewrite (proj1 (close_source_same _ _ _)).
  - cbn; congruence.
  - destruct (k =? 0); [congruence|]. cbv zeta. destruct (_ =? 0); cbn; congruence.
  - destruct (_ || _); cbn; congruence.
  - destruct (_ || _); [congruence|]. cbv zeta. destruct (so_open _); destruct (_ =? 0); cbn; congruence.
  - destruct (ss_child s); [|congruence]. apply I. exact C.
  - destruct (b_rekey _); [congruence|]. cbn [b_kexinit]. rewrite K. cbn. congruence.
  - destruct (b_rekey _); [|congruence]. cbn [b_newkeys]. rewrite K. cbn. congruence.
  - cbn [b_flush]. rewrite K. cbn. congruence.
Qed.
Lemma closed_last : forall w b ops, Forall benign ops -> ss_closed (sruns w b ops) = true ->
  exists older, ss_log (sruns w b ops) = IClosed :: older.
Proof.
  intros w b ops. induction ops as [|o t IH] using rev_ind; intros F C; [discriminate|].
  rewrite sruns_snoc in *. apply Forall_app in F. destruct F as (F1 & F2). destruct (ss_closed (sruns w b t)) eqn:D.
  - assert (E : sstep (sruns w b t) o = sruns w b t) by (unfold sstep; now rewrite D). rewrite E. now apply IH.
  - apply step_closed; [now inversion F2|exact D|exact C].
Qed.

Theorem C73_reported : forall w b ops, Forall benign ops ->
  reports (ss_log (sruns w b (ops ++ [SExit]))) = starts (ss_log (sruns w b (ops ++ [SExit]))).
Proof.
  intros w b ops F. set (ops' := ops ++ [SExit]). assert (F' : Forall benign ops') by (apply Forall_app; split; [exact F|constructor; [exact Logic.I|constructor]]).
  destruct (sruns_X w b ops' F') as (H & L). destruct (ss_closed (sruns w b ops')) eqn:C.
  - destruct (closed_last w b ops' F' C) as (older & E). rewrite E in H |- *. destruct H as ((_ & R & _) & _). exact R.
  - destruct (L eq_refl) as (_ & S' & _). rewrite S'. unfold ops' in *. rewrite sruns_snoc in *.
    rewrite exit_child; [cbn; lia|]. destruct (ss_closed (sruns w b ops)) eqn:D; [|reflexivity].
    unfold sstep in C. rewrite D in C. congruence.
Qed.
Print Assumptions C73_reported.

(** A channel whose program was started stays open only as long as a program
    runs or somebody holds an end of a pipe or terminal on which output can
    arrive; otherwise it has been closed. *)
Theorem C73_no_zombie : forall w b ops, Forall benign ops ->
  let s := sruns w b ops in
  (0 < starts (ss_log s))%nat -> ~ In IClosed (ss_log s) ->
  starts (ss_log s) = Datatypes.S (reports (ss_log s)) \/
  (starts (ss_log s) = reports (ss_log s) /\ exists x, so_open (sget s x) = true).
Proof.
  intros w b ops F s P N. destruct (sruns_X w b ops F) as (H & L). fold s in H, L. destruct (ss_closed s) eqn:C.
  - destruct (closed_last w b ops F C) as (older & E). fold s in E. destruct N. rewrite E. now left.
  - destruct (L eq_refl) as (_ & S' & _). destruct (ss_child s) eqn:B; cbn [b2n] in S'; [left; lia|right]. split; [lia|].
    assert (Q : ss_child s || s_outputs s = true) by (apply T_E; [apply sruns_TT|exact C|lia]).
    rewrite B in Q. unfold s_outputs in Q. cbn [orb] in Q. apply orb_true_iff in Q. destruct Q as [Q|Q]; [apply orb_true_iff in Q; destruct Q as [Q|Q]|].
    + now exists Stdout.
    + now exists Stderr.
    + now exists Tty.
Qed.
Print Assumptions C73_no_zombie.

(** A program which writes, closes its output late, exits; its child keeps
    stderr open until after the report. *)
Example C73_demo :
  let ops := [SSpawn; SProduce Stdout (bs "hello"); SReady Stdout; SFinish Stdout; SReady Stdout; SExit;
              SProduce Stderr (bs "late"); SReady Stderr; SFinish Stderr; SReady Stderr; SProduce Stdout (bs "x")] in
  Forall benign ops /\
  rev (ss_log (sruns 1000 {| b_write := false; b_rekey := false |} ops)) =
  [IStarted; IProduced Stdout (bs "hello"); ISent Stdout (bs "hello"); IEnded Stdout; ISentExit;
   IProduced Stderr (bs "late"); ISent Stderr (bs "late"); IEnded Stderr; ISentEof; IClosed].
Proof. split; [repeat constructor|vm_compute; reflexivity]. Qed.

(** ** What the report says *)

Lemma land127 : forall n, N.land n 127 = n mod 128.
Proof. intros n. change 127 with (N.ones 7). rewrite N.land_ones. reflexivity. Qed.
Lemma exited_status : forall c, c < 256 -> WIFSIGNALED (wait_status (Exited c)) = false /\ WEXITSTATUS (wait_status (Exited c)) = c.
Proof.
  intros c B. unfold WIFSIGNALED, WTERMSIG, WEXITSTATUS, wait_status. rewrite land127.
  replace (c * 256) with ((c * 2) * 128) by lia. rewrite N.mod_mul by discriminate. split; [reflexivity|].
  rewrite N.shiftr_div_pow2. change (2 ^ 8) with 256. replace (c * 2 * 128) with (c * 256) by lia. rewrite N.div_mul by discriminate.
  change 255 with (N.ones 8). rewrite N.land_ones. apply N.mod_small. exact B.
Qed.
Lemma killed_status : forall s core, 1 <= s < 127 ->
  WIFSIGNALED (wait_status (Killed s core)) = true /\ WTERMSIG (wait_status (Killed s core)) = s /\ WCOREDUMP (wait_status (Killed s core)) = core.
Proof.
  intros s core B.
  assert (T : WTERMSIG (wait_status (Killed s core)) = s).
  { unfold WTERMSIG, wait_status. rewrite land127. destruct core; [|rewrite N.add_0_r; apply N.mod_small; lia].
    replace (s + 128) with (s + 1 * 128) by lia. rewrite N.mod_add by discriminate. apply N.mod_small. lia. }
  split; [|split; [exact T|]].
  - unfold WIFSIGNALED. rewrite T. destruct (N.eqb_spec s 0); [lia|]. destruct (N.eqb_spec s 127); [lia|reflexivity].
  - unfold WCOREDUMP, wait_status. 
    assert (D : N.testbit (s + (if core then 128 else 0)) 7 = core).
    { rewrite N.testbit_eqb. change (2 ^ 7) with 128. destruct core.
      - replace (s + 128) with (s + 1 * 128) by lia. rewrite N.div_add by discriminate. rewrite N.div_small by lia. reflexivity.
      - rewrite N.add_0_r, N.div_small by lia. reflexivity. }
    set (n := s + (if core then 128 else 0)) in *. clearbody n. change 128 with (2 ^ 7).
    destruct (N.eqb_spec (N.land n (2 ^ 7)) 0) as [Z|Z]; cbn [negb].
    + rewrite <- D. assert (Q : N.testbit (N.land n (2 ^ 7)) 7 = false) by (rewrite Z; apply N.bits_0).
      rewrite N.land_spec, N.pow2_bits_true, andb_true_r in Q. now rewrite Q.
    + rewrite <- D. destruct (N.testbit n 7) eqn:Q; [reflexivity|]. destruct Z. apply N.bits_inj. intros i. rewrite N.land_spec, N.bits_0.
      rewrite N.pow2_bits_eqb. destruct (N.eqb_spec 7 i) as [<-|X]; [now rewrite Q|apply andb_false_r].
Qed.

(** An exit code is reported as it is. *)
Theorem C73_status : forall sigdescr header channel code, len header = 5 -> ending_ok (Exited code) ->
  MakeExit sigdescr header channel (wait_status (Exited code)) = made header 98 (report_fields channel (fun _ => []) (Exited code)).
Proof.
  intros sigdescr header channel code L B. destruct (exited_status code B) as (E1 & E2). unfold MakeExit. rewrite E1, E2.
  unfold report_fields. made (fun h => MakeExitStatus h channel code).
Qed.
Print Assumptions C73_status.

(** A signal should be reported by its name of RFC 4254 *)
Definition C73_signal_full_statement (sigdescr : N -> option bytes) : Prop :=
  forall header channel signal core name, len header = 5 -> In (signal, name) rfc_signals ->
    MakeExit sigdescr header channel (wait_status (Killed signal core)) =
    made header 98 (report_fields channel (fun _ => name) (Killed signal core)).

(** but what is sent is the C library's description of the signal; "UNKNOWN" if
    it has none. *)
Theorem C73_signal_partial : forall sigdescr header channel signal core, len header = 5 -> ending_ok (Killed signal core) ->
  MakeExit sigdescr header channel (wait_status (Killed signal core)) =
  made header 98 (report_fields channel (fun n => match sigdescr n with Some d => d | None => bs "UNKNOWN" end) (Killed signal core)).
Proof.
  intros sigdescr header channel signal core L B. destruct (killed_status signal core B) as (E1 & E2 & E3). unfold MakeExit. rewrite E1, E2, E3.
  unfold report_fields. set (name := match sigdescr signal with Some d => d | None => _ end). clearbody name.
  made (fun h => MakeExitSignal h channel name core []).
Qed.
Print Assumptions C73_signal_partial.

(** glibc: sigdescr_np(SIGKILL) is "Killed" *)
Theorem C73_signal_refuted : forall sigdescr, sigdescr 9 = Some (bs "Killed") -> ~ C73_signal_full_statement sigdescr.
Proof.
  intros sigdescr D F. assert (I : In (9, bs "KILL") rfc_signals) by (do 6 right; now left).
  specialize (F [0;0;0;0;0] 0 9 false (bs "KILL") eq_refl I).
  rewrite C73_signal_partial in F by (reflexivity || (split; [discriminate|reflexivity])). unfold report_fields in F. rewrite D in F.
  vm_compute in F. discriminate.
Qed.
Print Assumptions C73_signal_refuted.

Example C73_report_demo :
  MakeExit (fun _ => None) [0;0;0;0;0] 7 (wait_status (Exited 3)) = Some ([0;0;0;0;0] ++ [98; 0;0;0;7; 0;0;0;11] ++ bs "exit-status" ++ [0; 0;0;0;3]) /\
  ending_ok (Exited 3) /\ ending_ok (Killed 9 true) /\ wait_status (Killed 9 true) = 137.
Proof. split; [vm_compute; reflexivity|]. repeat split; discriminate || reflexivity. Qed.
