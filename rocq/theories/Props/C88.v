(** * C88: output which waits for a client *)

From Coq Require Import NArith List Bool Lia String.
From Verif.Base Require Import Bytes.
From Verif.Spec Require Import WireSpec AuthSpec AuthDemo FlowSpec BacklogSpec.
From Verif.Model Require Import Wire Packets StringList KeyOptions Auth Session Server ChannelIO Backlog.
From Verif.Proofs Require Import ServerFacts FlowFacts BacklogFacts.
Import ListNotations.
Open Scope N_scope.

Local Arguments bs : simpl never.

(** The full claim: what the server keeps for a client has a limit which
    depends only on what the client accepts; in particular, there is one for
    clients which accept nothing. *)
Definition C88_full_statement : Prop :=
  forall K, exists B, forall cfg session_id peer w evs, accepted evs <= K -> waiting (brun cfg session_id peer w (attentive evs)) <= B.

(** It is false even before the login: a client which sends messages that the
    server does not know, and reads no answer. *)
Definition unknown : bevent := BServer (OPacket 192 [] demo_env).
Definition flood (n : nat) : list (bevent * N) := (BServer OEncrypted, 0) :: repeat (unknown, 0) n.

Lemma flood_accepted : forall n, accepted (flood n) = 0.
Proof. intros n. unfold flood. cbn [accepted fold_right snd]. induction n as [|n IH]; [reflexivity|]. cbn [repeat fold_right snd]. exact IH. Qed.

Lemma repeat_snoc : forall A (x : A) n, repeat x (Datatypes.S n) = repeat x n ++ [x].
Proof. intros A x n. induction n as [|n IH]; [reflexivity|]. cbn [repeat app] in *. now rewrite <- IH. Qed.

Lemma flood_server : forall cfg sid peer w n,
  let s := brun cfg sid peer w (attentive (flood n)) in
  sv_alive (bk_server s) = true /\ ac_authenticated (sv_account (bk_server s)) = false /\ sv_proxy (bk_server s) = false /\
  sv_user_auth (bk_server s) = true /\ sv_channels (bk_server s) = false /\ sv_busy (bk_server s) = Idle /\
  bk_written s = 0 /\ server_bytes (sv_log (bk_server s)) = N.of_nat n.
Proof.
  intros cfg sid peer w n. induction n as [|n IH].
  - cbn. repeat split.
  - cbv zeta in *. unfold flood in *. rewrite repeat_snoc, app_comm_cons, attentive_snoc.
    change [unknown; BWork; BWrite 0] with ([unknown] ++ [BWork] ++ [BWrite 0]). rewrite !app_assoc, !brun_snoc.
    set (s := brun cfg sid peer w (attentive ((BServer OEncrypted, 0) :: repeat (unknown, 0) n))) in *. clearbody s.
    destruct IH as (A & B & C & D & E & I & F & G).
    set (s1 := bstep cfg sid s unknown).
    assert (V : bk_server s1 = emit [VSend [MSG_UNIMPLEMENTED]] (bk_server s) /\ bk_written s1 = 0).
    { unfold s1, unknown. cbn [bstep bk_server bk_written mk_backlog]. split; [|exact F]. unfold vstep. rewrite A. cbn [negb]. unfold Packet. rewrite D.
      assert (U : UserAuthPacket 192 [] (bk_server s) = (bk_server s, false)) by (unfold UserAuthPacket, busy_now; rewrite I; reflexivity).
      rewrite U, E, C. reflexivity. }
    clearbody s1. destruct V as (V1 & V2).
    assert (P : bk_server (bstep cfg sid (bstep cfg sid s1 BWork) (BWrite 0)) = bk_server s1 /\ bk_written (bstep cfg sid (bstep cfg sid s1 BWork) (BWrite 0)) = 0).
    { destruct (work_session cfg sid s1) as (_ & X & Y). set (s2 := bstep cfg sid s1 BWork) in *. clearbody s2. cbn [bstep].
      destruct (_ || _); cbn [bk_server bk_written mk_backlog]; split; try assumption; rewrite ?Y, ?V2; try reflexivity.
      now rewrite N.min_0_l. }
    destruct P as (P1 & P2). rewrite P1, P2, V1. cbn [emit sv_alive sv_account sv_proxy sv_user_auth sv_channels sv_busy sv_log mk_server].
    rewrite server_bytes_app, G. change (server_bytes [VSend [MSG_UNIMPLEMENTED]]) with 1.
    repeat split; try assumption. lia.
Qed.

Theorem C88_before_login_refuted : forall cfg session_id peer w B, exists evs,
  let s := brun cfg session_id peer w (attentive evs) in
  accepted evs = 0 /\ B < waiting s /\
  sv_alive (bk_server s) = true /\ ac_authenticated (sv_account (bk_server s)) = false.
Proof.
  intros cfg sid peer w B. exists (flood (N.to_nat (B + 1))). cbv zeta.
  destruct (flood_server cfg sid peer w (N.to_nat (B + 1))) as (A1 & A2 & _ & _ & _ & _ & A6 & A7).
  split; [apply flood_accepted|]. split; [|split; assumption].
  unfold waiting, bk_pushed. rewrite A6, A7. lia.
Qed.
Print Assumptions C88_before_login_refuted.

Theorem C88_refuted : ~ C88_full_statement.
Proof.
  intros H. destruct (H 0) as (B & HB).
  destruct (C88_before_login_refuted (demo_config true) demo_session_id (bs "192.0.2.1") 0 B) as (evs & A & L & _).
  specialize (HB (demo_config true) demo_session_id (bs "192.0.2.1") 0 evs ltac:(lia)). lia.
Qed.
Print Assumptions C88_refuted.

(** And after the login: a client which reads nothing, but extends its window
    whenever it is exhausted, receives more and more of the output of a
    program, although writing is blocked. *)
Definition login : list (bevent * N) :=
  map (fun op => (BServer op, 0)) (demo_start ++ demo_attempt (demo_key_request (bs "alice") (bs "KEY"))) ++ [(BSession SSpawn, 0)].
Definition page : bytes := repeat 120 (N.to_nat 4096).
Definition round : list (bevent * N) :=
  [(BSession (SProduce Stdout page), 0); (BSession (SReady Stdout), 0); (BSession (SAdjust 4096), 0)].
Fixpoint rounds (n : nat) : list (bevent * N) := match n with O => login | Datatypes.S n => rounds n ++ round end.

Definition running (s : backlog) : Prop :=
  sv_alive (bk_server s) = true /\ sv_channels (bk_server s) = true /\ ac_authenticated (sv_account (bk_server s)) = true /\
  server_bytes (sv_log (bk_server s)) <= 1000 /\
  ss_closed (bk_session s) = false /\ b_rekey (ss_block (bk_session s)) = false /\ ss_swin (bk_session s) = 4096 /\
  ss_out (bk_session s) = {| so_open := true; so_reg := true; so_read := true; so_data := []; so_eof := false |} /\
  bk_written s = 0 /\ bk_encrypted s = bk_pushed s /\ bk_defer s = false.

Lemma len_page : len page = 4096.
Proof. unfold len, page. now rewrite repeat_length, N2Nat.id. Qed.
Lemma take_all : forall n (d : bytes), len d = n -> take n d = d /\ drop n d = [].
Proof. intros n d H. unfold take, drop. rewrite <- H. unfold len. rewrite Nat2N.id. split; [apply firstn_all|apply skipn_all]. Qed.


(** what an event of the session does while the kernel takes nothing *)
Lemma quiet_event : forall cfg sid s o, (forall m, o <> SFlush m) -> sv_alive (bk_server s) = true -> sv_channels (bk_server s) = true ->
  bk_encrypted s = bk_pushed s -> bk_defer s = false ->
  ext silent_packet (bk_session s) (sstep (bk_session s) o) ->
  fold_left (bstep cfg sid) [BSession o; BWork; BWrite 0] s = mk_backlog (bk_server s) (sstep (bk_session s) o) (bk_encrypted s) (bk_written s) false.
Proof.
  intros cfg sid s o FL A C E D X. cbn [fold_left].
  assert (ST : bstep cfg sid s (BSession o) = mk_backlog (bk_server s) (sstep (bk_session s) o) (bk_encrypted s) (bk_written s)
    (bk_defer s || (session_packets (ss_log (bk_session s)) <? session_packets (ss_log (sstep (bk_session s) o))))).
  { cbn [bstep]. rewrite A, C. cbn [andb]. destruct o; try reflexivity. destruct (FL more eq_refl). }
  assert (SP : session_packets (ss_log (sstep (bk_session s) o)) = session_packets (ss_log (bk_session s)) /\
    session_bytes (ss_log (sstep (bk_session s) o)) = session_bytes (ss_log (bk_session s))).
  { destruct X as (l & -> & X). induction l as [|e l IH]; [split; reflexivity|]. cbn [forallb] in X. apply andb_true_iff in X as (X & Y).
    destruct e; try discriminate X; exact (IH Y). }
  destruct SP as (SP & SB). rewrite ST, D, SP, N.ltb_irrefl. cbn [orb]. set (s1 := mk_backlog _ _ _ _ _).
  assert (W1 : bstep cfg sid s1 BWork = s1).
  { cbn [bstep]. replace (bk_pushed s1) with (bk_encrypted s1); [now rewrite N.ltb_irrefl|].
    unfold bk_pushed, s1. cbn [bk_encrypted bk_server bk_session mk_backlog]. rewrite SB, E. reflexivity. }
  rewrite W1. reflexivity.
Qed.

Lemma loud_event : forall cfg sid s o, (forall m, o <> SFlush m) -> sv_alive (bk_server s) = true -> sv_channels (bk_server s) = true ->
  bk_encrypted s = bk_pushed s -> bk_written s = 0 ->
  session_bytes (ss_log (bk_session s)) < session_bytes (ss_log (sstep (bk_session s) o)) ->
  exists p, fold_left (bstep cfg sid) [BSession o; BWork; BWrite 0] s =
    mk_backlog (bk_server s) (sstep (sstep (bk_session s) o) (SFlush true)) p 0 false /\
    p = server_bytes (sv_log (bk_server s)) + session_bytes (ss_log (sstep (bk_session s) o)).
Proof.
  intros cfg sid s o FL A C E D X. cbn [fold_left].
  assert (ST : exists d, bstep cfg sid s (BSession o) = mk_backlog (bk_server s) (sstep (bk_session s) o) (bk_encrypted s) (bk_written s) d).
  { eexists. cbn [bstep]. rewrite A, C. cbn [andb]. destruct o; try reflexivity. destruct (FL more eq_refl). }
  destruct ST as (d & ST). rewrite ST, D. set (s1 := mk_backlog _ _ _ _ _). unfold bk_pushed in E.
  set (p := server_bytes (sv_log (bk_server s)) + session_bytes (ss_log (sstep (bk_session s) o))).
  assert (W1 : bstep cfg sid s1 BWork = mk_backlog (bk_server s) (sstep (bk_session s) o) p 0 true).
  { cbn [bstep]. change (bk_pushed s1) with p. change (bk_encrypted s1) with (bk_encrypted s).
    assert (L : bk_encrypted s <? p = true) by (apply N.ltb_lt; unfold p; lia). rewrite L. reflexivity. }
  rewrite W1. exists p. split; [|reflexivity]. cbn [bstep bk_defer bk_written bk_encrypted bk_session bk_server mk_backlog orb].
  rewrite N.add_0_r, N.min_0_l. assert (L : 0 <? p = true) by (apply N.ltb_lt; unfold p; lia). rewrite L. reflexivity.
Qed.

Definition ready (d : bytes) : source := {| so_open := true; so_reg := true; so_read := true; so_data := d; so_eof := false |}.

Lemma round_running : forall cfg sid s, running s ->
  let t := fold_left (bstep cfg sid) (attentive round) s in
  running t /\ session_bytes (ss_log (bk_session t)) = session_bytes (ss_log (bk_session s)) + 4096.
Proof.
  intros cfg sid s (A & B & C & SB & D & E & F & G & H & K & L).
  assert (PG : page <> []) by (intro X; pose proof len_page as Y; rewrite X in Y; discriminate).
  unfold round, attentive. cbn [flat_map fst snd].
  change ([BSession (SProduce Stdout page); BWork; BWrite 0] ++ [BSession (SReady Stdout); BWork; BWrite 0] ++ [BSession (SAdjust 4096); BWork; BWrite 0] ++ [])
    with ([BSession (SProduce Stdout page); BWork; BWrite 0] ++ [BSession (SReady Stdout); BWork; BWrite 0] ++ [BSession (SAdjust 4096); BWork; BWrite 0]).
  rewrite !fold_left_app.
  (* the program writes *)
  set (x0 := bk_session s) in *.
  assert (X1 : exists x1, sstep x0 (SProduce Stdout page) = x1 /\ ss_closed x1 = false /\ b_rekey (ss_block x1) = false /\ ss_swin x1 = 4096 /\
    ss_out x1 = ready page /\ ss_log x1 = IProduced Stdout page :: ss_log x0).
  { eexists. split; [reflexivity|]. unfold sstep. rewrite D. cbn [sget]. rewrite G. cbn [so_open so_eof andb negb so_data app].
    cbn [slog sput ss_closed ss_block ss_swin ss_out ss_log set_data so_open so_reg so_read so_eof]. auto. }
  destruct X1 as (x1 & X1 & D1 & E1 & F1 & G1 & L1).
  rewrite (quiet_event cfg sid s (SProduce Stdout page)); try assumption; [|discriminate|fold x0; rewrite X1; exists [IProduced Stdout page]; split; [exact L1|reflexivity]].
  fold x0. rewrite X1.
  (* the server reads and sends *)
  assert (X2 : exists x2, sstep x1 (SReady Stdout) = x2 /\ ss_closed x2 = false /\ b_rekey (ss_block x2) = false /\ ss_swin x2 = 0 /\
    ss_out x2 = cancel_all (ready []) /\ ss_log x2 = ISent Stdout page :: ss_log x1).
  { eexists. split; [reflexivity|]. destruct (take_all 4096 page len_page) as (TK & DR).
    unfold sstep. rewrite D1. cbn [sget]. rewrite G1. cbn [so_open so_reg so_eof andb so_data ready].
    assert (RD : (match page with [] => x1 | _ => s_read Stdout x1 end) = s_read Stdout x1) by (destruct page; [congruence|reflexivity]).
    rewrite RD. unfold s_read. rewrite F1. change (N.min 4096 4096 =? 0) with false. change (N.min 4096 4096) with 4096. cbv iota. cbn [sget].
    rewrite G1. cbn [so_data ready]. rewrite TK, DR.
    assert (MT : forall (T : Type) (a b : T), (match page with [] => a | _ => b end) = b) by (intros T a b; destruct page; [congruence|reflexivity]).
    rewrite MT. cbv zeta. cbn [ss_swin sput slog sswin]. rewrite F1, len_page. change (4096 - 4096 =? 0) with true. cbv iota.
    cbn [s_cancel sput slog sswin ss_closed ss_block ss_swin ss_out ss_log]. auto. }
  destruct X2 as (x2 & X2 & D2 & E2 & F2 & G2 & L2).
  match goal with |- context [fold_left (bstep cfg sid) [BSession (SReady Stdout); BWork; BWrite 0] ?u] => set (s1 := u) end.
  assert (PB : session_bytes (ss_log x2) = session_bytes (ss_log x0) + 4096).
  { rewrite L2, L1. cbn [session_bytes fold_right]. rewrite len_page. fold (session_bytes (ss_log x0)). lia. }
  assert (PB1 : session_bytes (ss_log x1) = session_bytes (ss_log x0)) by (rewrite L1; reflexivity).
  destruct (loud_event cfg sid s1 (SReady Stdout)) as (p & P & PE); try assumption; [discriminate| | |].
  { unfold s1, bk_pushed. cbn [bk_encrypted bk_server bk_session mk_backlog]. rewrite PB1. exact K. }
  { unfold s1. cbn [bk_session mk_backlog]. rewrite X2, PB, PB1. lia. }
  rewrite P. unfold s1 in *. cbn [bk_session bk_server mk_backlog] in *. rewrite X2 in *. clear s1 P.
  (* writing is blocked *)
  assert (X3 : exists x3, sstep x2 (SFlush true) = x3 /\ ss_closed x3 = false /\ b_rekey (ss_block x3) = false /\ ss_swin x3 = 0 /\
    ss_out x3 = cancel_all (ready []) /\ ss_log x3 = ss_log x2).
  { eexists. split; [reflexivity|]. unfold sstep. rewrite D2. unfold b_flush. rewrite E2. cbn [andb negb].
    destruct (b_write (ss_block x2)); cbn [andb s_tell]; unfold s_blocked, s_unblocked;
      repeat (cbn [sblock ss_swin]; rewrite F2; cbn [N.eqb]); cbn [sblock ss_closed ss_block b_rekey ss_swin ss_out ss_log]; auto. }
  destruct X3 as (x3 & X3 & D3 & E3 & F3 & G3 & L3). rewrite X3.
  (* the client extends its window *)
  assert (X4 : exists x4, sstep x3 (SAdjust 4096) = x4 /\ ss_closed x4 = false /\ b_rekey (ss_block x4) = false /\ ss_swin x4 = 4096 /\
    ss_out x4 = ready [] /\ ss_log x4 = IAdjusted 4096 :: ss_log x3).
  { eexists. split; [reflexivity|]. unfold sstep. rewrite D3. change (4096 =? 0) with false. cbv iota zeta. cbn [slog ss_swin]. rewrite F3. cbn [N.eqb].
    cbn [s_schedule sput slog sswin ss_closed ss_block ss_swin ss_out ss_log]. rewrite F3, G3. auto. }
  destruct X4 as (x4 & X4 & D4 & E4 & F4 & G4 & L4).
  rewrite quiet_event; cbn [bk_server bk_session bk_encrypted bk_written bk_defer mk_backlog]; try assumption; try reflexivity;
    [|discriminate| |rewrite X4; exists [IAdjusted 4096]; split; [exact L4|reflexivity]].
  2:{ unfold bk_pushed. cbn [bk_server bk_session mk_backlog]. rewrite L3, PE. reflexivity. }
  rewrite X4. cbv zeta. unfold running. unfold bk_pushed. cbn [bk_server bk_session bk_encrypted bk_written bk_defer mk_backlog].
  assert (PB4 : session_bytes (ss_log x4) = session_bytes (ss_log x2)) by (rewrite L4, L3; reflexivity).
  split; [|rewrite PB4; exact PB].
  repeat (split; [assumption|]). split; [reflexivity|]. split; [|reflexivity]. rewrite PB4. exact PE.
Qed.

Lemma rounds_running : forall n,
  let s := brun (demo_config true) demo_session_id (bs "192.0.2.1") 4096 (attentive (rounds n)) in
  running s /\ session_bytes (ss_log (bk_session s)) = 4096 * N.of_nat n.
Proof.
  induction n as [|n IH].
  - vm_compute. repeat split; discriminate.
  - cbv zeta in *. cbn [rounds]. unfold attentive. rewrite flat_map_app. fold (attentive (rounds n)). fold (attentive round). rewrite brun_app.
    destruct IH as (R & B). destruct (round_running (demo_config true) demo_session_id _ R) as (R' & B'). split; [exact R'|]. rewrite B', B. lia.
Qed.

Lemma rounds_accepted : forall n, accepted (rounds n) = 0.
Proof.
  assert (AP : forall a b, accepted (a ++ b) = accepted a + accepted b).
  { intros a b. unfold accepted. induction a as [|e a IH]; [reflexivity|]. cbn [app fold_right]. rewrite IH. lia. }
  induction n as [|n IH]; [reflexivity|]. cbn [rounds]. rewrite AP, IH. reflexivity.
Qed.

Theorem C88_data_refuted : forall B, exists evs,
  let s := brun (demo_config true) demo_session_id (bs "192.0.2.1") 4096 (attentive evs) in
  accepted evs = 0 /\ sv_alive (bk_server s) = true /\ ac_authenticated (sv_account (bk_server s)) = true /\
  server_bytes (sv_log (bk_server s)) <= 1000 /\ B < waiting s.
Proof.
  intros B. exists (rounds (N.to_nat (B + 1))). cbv zeta. destruct (rounds_running (N.to_nat (B + 1))) as (R & S). cbv zeta in R, S.
  destruct R as (A & _ & C & D & _ & _ & _ & _ & E & _). split; [apply rounds_accepted|]. split; [exact A|]. split; [exact C|]. split; [exact D|].
  unfold waiting, bk_pushed. rewrite S, E, N2Nat.id. lia.
Qed.
Print Assumptions C88_data_refuted.

(** ** What holds *)

(** In every schedule, the output of a program which waits is within what the
    client has allowed it to send; everything else that waits is the server's
    answers. *)
Theorem C88_granted : forall cfg session_id peer w evs, granted w evs < pow64 ->
  let s := brun cfg session_id peer w evs in
  session_bytes (ss_log (bk_session s)) <= granted w evs /\
  waiting s <= server_bytes (sv_log (bk_server s)) + granted w evs.
Proof.
  intros cfg sid peer w evs G s. destruct (brun_session cfg sid peer w evs) as (ops & E & C).
  destruct (run_W cfg sid peer w evs G) as (_ & B & _). fold s in B, C. unfold waiting, bk_pushed. rewrite session_bytes_total. lia.
Qed.
Print Assumptions C88_granted.

(** A server which encrypts and writes promptly: it keeps its answers, and
    one block of 4096 bytes for each time that a suspended program may go on.
    Without a limit on the client's messages, this is no limit; and key
    exchanges, which also suspend and resume programs, are excluded. *)
Theorem C88_linear_partial : forall cfg session_id peer w evs,
  Forall well_formed (map fst evs) -> granted w (map fst evs) < pow64 -> existsb rekeys (map fst evs) = false ->
  let s := brun cfg session_id peer w (attentive evs) in
  waiting s <= server_bytes (sv_log (bk_server s)) + 4096 * (1 + resumptions (map fst evs)).
Proof. intros cfg sid peer w evs F G R. exact (j_waiting _ _ (proj1 (attentive_J cfg sid peer w evs F G R))). Qed.
Print Assumptions C88_linear_partial.

(** Examples: three rounds in which the client reads nothing; nothing waits
    when the kernel takes everything; a program which writes to a client
    that does not read is stopped. *)
Example C88_rounds :
  let s := brun (demo_config true) demo_session_id (bs "192.0.2.1") 4096 (attentive (rounds 3)) in
  session_bytes (ss_log (bk_session s)) = 12288 /\ resumptions (map fst (rounds 3)) = 4 /\ existsb rekeys (map fst (rounds 3)) = false /\
  granted 4096 (map fst (rounds 3)) = 16384.
Proof. split; [exact (proj2 (rounds_running 3))|]. repeat split. Qed.

Definition chatty (k : N) : list (bevent * N) :=
  login ++ [(BSession (SProduce Stdout (bs "abc")), 0); (BSession (SReady Stdout), k); (BSession (SProduce Stdout (bs "def")), 0); (BSession (SReady Stdout), k)].
Example C88_chatty :
  let run k := brun (demo_config true) demo_session_id (bs "192.0.2.1") 4096 (attentive (chatty k)) in
  let answers := server_bytes (sv_log (bk_server (run 0))) in
  waiting (run 0) = answers + 3 /\ waiting (run 1000) = 0 /\
  so_data (ss_out (bk_session (run 0))) = bs "def" /\ so_data (ss_out (bk_session (run 1000))) = [].
Proof. vm_compute. repeat split. Qed.
