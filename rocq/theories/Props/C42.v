(** * C42: at most one program per session channel *)

From Coq Require Import NArith List Bool Lia String.
From Verif.Base Require Import Bytes.
From Verif.Spec Require Import WireSpec PacketSpec KeySpec AuthSpec SessionSpec SessionRun AuthDemo.
From Verif.Model Require Import Wire Packets StringList KeyOptions Auth Session Server.
From Verif.Proofs Require Import WireFacts PacketFacts KeyFacts AuthFacts ServerFacts SessionFacts RestrictFacts StepFacts SessionRunFacts AuthClientFacts.
Import ListNotations.
Open Scope N_scope.


(** The full statement, RFC 4254 section 6.5: on each session channel at most
    one program is started. *)
Definition C42_full_statement : Prop :=
  forall cfg session_id peer_address ops n, Forall op_ok ops ->
  (count is_started (session_log n (sv_log (vrun cfg session_id peer_address ops))) <= 1)%nat.

(** It is false: a second request which arrives before the spawner has
    answered to the first one is not refused (WasStarted() is still false,
    src/SessionChannel.hxx:85-87, src/SessionChannel.cxx:724). *)
Definition two_requests : list vop :=
  demo_attempt (demo_key_request (bs "alice") (bs "PLAIN")) ++
  [demo_open (bs "session") [] 0; demo_request 0 (bs "shell") []; demo_request 0 (bs "exec") (enc [FString (bs "id")]);
   OSession 0 (OSpawner 0 demo_spawn); OSession 0 (OSpawner 1 demo_spawn)].

Theorem C42_refuted : ~ C42_full_statement.
Proof.
  intro H.
  assert (O : Forall op_ok (demo_start ++ two_requests)) by (apply ok_ops; vm_compute; reflexivity).
  specialize (H (demo_config true) demo_session_id (bs "192.0.2.1") (demo_start ++ two_requests) 0 O).
  assert (X : count is_started (session_log 0 (sv_log (vrun (demo_config true) demo_session_id (bs "192.0.2.1") (demo_start ++ two_requests)))) = 2%nat)
    by (vm_compute; reflexivity).
  rewrite X in H. lia.
Qed.
Print Assumptions C42_refuted.

(** Also for a client which waits for each answer: the program has ended, but
    the channel still exists because somebody holds its output open; another
    program can be started. *)
Definition one_after_the_other : list vop :=
  demo_attempt (demo_key_request (bs "alice") (bs "PLAIN")) ++
  [demo_open (bs "session") [] 0; demo_request 0 (bs "shell") [];
   OSession 0 (OSpawner 0 demo_spawn); OSession 0 (OSpawned 1 true); OSession 0 OExit;
   demo_request 0 (bs "shell") []; OSession 0 (OSpawner 2 demo_spawn)].
Theorem C42_exit_refuted :
  Forall op_ok (demo_start ++ one_after_the_other) /\
  count is_started (session_log 0 (sv_log (demo_run true one_after_the_other))) = 2%nat.
Proof. split; [apply ok_ops; vm_compute; reflexivity|vm_compute; reflexivity]. Qed.
Print Assumptions C42_exit_refuted.

(** What holds.  First: every session channel of every run of the server is
    described by [srun] (Spec/SessionRun.v), that is by what happens to this
    channel alone. *)
Theorem C42_channel :
  forall cfg session_id peer_address ops n, Forall op_ok ops ->
  exists l, part (map snd l) (happened n ops) /\
    session_log n (sv_log (vrun cfg session_id peer_address ops)) = snd (srun cfg l).
Proof.
  intros cfg sid peer ops n F. destruct (vrun_projected cfg sid peer n ops F) as [l [L P _ _]]. exists l. auto.
Qed.
Print Assumptions C42_channel.

(** Every program was asked for: there are never more programs than requests
    to start one. *)
Theorem C42_requests_partial :
  forall cfg session_id peer_address ops n, Forall op_ok ops ->
  (count is_started (session_log n (sv_log (vrun cfg session_id peer_address ops))) <= count is_start (happened n ops))%nat.
Proof.
  intros cfg sid peer ops n F. destruct (C42_channel cfg sid peer ops n F) as (l & P & ->).
  pose proof (srun_counts cfg l) as [C _]. pose proof (part_count _ is_start _ _ P). lia.
Qed.
Print Assumptions C42_requests_partial.

(** A client which waits for each answer: a second program is started only
    after the first one has ended, or after it could not be executed. *)
Theorem C42_waiting_partial :
  forall cfg l, waits cfg l ->
  (count is_started (snd (srun cfg l)) <= 1 + count is_end (map snd l))%nat.
Proof.
  intros cfg l.
  assert (INV : waits cfg l ->
    let x := fst (srun cfg l) in
    (ntasks x <= 1)%nat /\
    ((se_child x = false /\ (count is_started (snd (srun cfg l)) <= count is_end (map snd l))%nat) \/
     (se_child x = true /\ pend x = 0%nat /\ (count is_started (snd (srun cfg l)) <= 1 + count is_end (map snd l))%nat))).
  2:{ intro W. destruct (INV W) as [_ [[_ H]|(_ & _ & H)]]; lia. }
  induction l as [|[a o] l IH] using rev_ind; intro W; cbv zeta.
  { cbn. split; [lia|]. left. split; [reflexivity|]. lia. }
  assert (W1 : waits cfg l).
  { intros l1 a' o' l2 E R. apply (W l1 a' o' (l2 ++ [(a, o)])); [|exact R]. rewrite E, <- app_assoc. reflexivity. }
  destruct (IH W1) as [NT C]. clear IH.
  assert (E1 : forall f : sop -> bool, count f [o] = if f o then 1%nat else 0%nat) by (intro f; unfold count; cbn; now destruct (f o)).
  rewrite srun_snoc, map_app. cbn [fst snd map]. rewrite !count_app, E1.
  set (x := fst (srun cfg l)) in *. set (ns := count is_started (snd (srun cfg l))) in *. set (ne := count is_end (map snd l)) in *.
  destruct o as [t d ok|n ans|n ok| |].
  - (* a request: nothing else is going on *)
    assert (Z : ntasks x = 0%nat).
    { pose proof (W l a (ORequest t d ok) [] eq_refl eq_refl) as H. pose proof (srun_counts cfg l) as [_ K]. fold x in K. lia. }
    change (sstep cfg a (ORequest t d ok) x) with (OnRequest cfg a t d ok x). cbn [is_end].
    destruct (OnRequest_shape cfg a t d ok x) as [(T & CH & S & _)|(CF & _ & t' & P & ->)].
    + rewrite S, (ntasks_same _ _ T), (pend_same _ _ T). split; [lia|].
      destruct C as [[C1 C2]|(C1 & C2 & C3)]; [left|right].
      * split; [destruct CH; congruence|lia].
      * rewrite (OnRequest_child cfg a t d ok x C1). repeat split; lia.
    + cbn [fst snd]. rewrite ntasks_add. split; [lia|]. left. change (se_child (add_task t' x)) with (se_child x). split; [exact CF|].
      destruct C as [[C1 C2]|(C1 & _)]; [|congruence]. unfold count. cbn. lia.
  - cbn [is_end]. destruct (OSpawner_shape cfg a n ans x) as [->|(k & t & I & -> & P & H)].
    { cbn [fst snd]. unfold count. cbn [filter List.length]. split; [exact NT|]. destruct C as [[C1 C2]|(C1 & C2 & C3)]; [left|right]; repeat split; auto; lia. }
    assert (PP : (pend x > 0)%nat) by (pose proof (pend_remove _ _ _ I P); lia).
    destruct C as [[C1 C2]|(C1 & C2 & C3)]; [|lia]. pose proof (ntasks_remove _ _ _ I) as NR.
    destruct H as [(T & CH & S & _)|(m & p & ->)].
    + rewrite S, (ntasks_same _ _ T). split; [lia|]. left. split; [|lia].
      destruct CH as [-> | ->]; [exact C1|reflexivity].
    + cbn [fst snd]. rewrite ntasks_add, pend_add.
      change (ntasks (with_child true (remove_task n x))) with (ntasks (remove_task n x)).
      change (pend (with_child true (remove_task n x))) with (pend (remove_task n x)).
      change (count is_started [SStarted p]) with 1%nat. cbn [pending]. split; [lia|]. right. split; [reflexivity|]. split; [|lia].
      assert (pend (remove_task n x) <= ntasks (remove_task n x))%nat by apply count_le. lia.
  - destruct (OSpawned_shape cfg a n ok x) as [->|(k & t & I & -> & P & (T & CH & S & _) & OKT)].
    { cbn [fst snd]. change (count is_started []) with 0%nat. split; [exact NT|].
      destruct C as [[C1 C2]|(C1 & C2 & C3)]; [left|right]; repeat split; auto; lia. }
    pose proof (ntasks_remove _ _ _ I) as NR. pose proof (pend_remove_le n x) as PR.
    rewrite S, (ntasks_same _ _ T), (pend_same _ _ T). split; [lia|]. cbn [is_end]. destruct ok.
    + rewrite OKT by reflexivity. change (se_child (remove_task n x)) with (se_child x).
      destruct C as [[C1 C2]|(C1 & C2 & C3)]; [left|right]; repeat split; auto; lia.
    + destruct CH as [->| ->].
      * change (se_child (remove_task n x)) with (se_child x).
        destruct C as [[C1 C2]|(C1 & C2 & C3)]; [left|right]; repeat split; auto; lia.
      * left. split; [reflexivity|]. destruct C as [[C1 C2]|(C1 & C2 & C3)]; lia.
  - cbn [sstep fst snd is_end]. change (count is_started []) with 0%nat.
    change (ntasks (with_child false x)) with (ntasks x). split; [exact NT|]. left. split; [reflexivity|].
    destruct C as [[C1 C2]|(C1 & C2 & C3)]; lia.
  - cbn [sstep fst snd is_end]. change (count is_started []) with 0%nat.
    change (ntasks (with_tty false x)) with (ntasks x). change (pend (with_tty false x)) with (pend x).
    change (se_child (with_tty false x)) with (se_child x). split; [exact NT|].
    destruct C as [[C1 C2]|(C1 & C2 & C3)]; [left|right]; repeat split; auto; lia.
Qed.
Print Assumptions C42_waiting_partial.

(** Two requests, one after the other, while the first program runs: the
    second one is refused. *)
Example C42_demo :
  let l := (demo_attempt (demo_key_request (bs "alice") (bs "PLAIN")) ++
    [demo_open (bs "session") [] 0; demo_request 0 (bs "shell") []; OSession 0 (OSpawner 0 demo_spawn); OSession 0 (OSpawned 1 true);
     demo_request 0 (bs "exec") (enc [FString (bs "id")]); OSession 0 (OSpawner 2 demo_spawn)]) in
  Forall op_ok (demo_start ++ l) /\
  map (fun e => match e with SStarted _ => None | e => Some e end) (session_log 0 (sv_log (demo_run true l))) =
    [None; Some (SAnswer true); Some (SAnswer false)].
Proof. split; [apply ok_ops; vm_compute; reflexivity|vm_compute; reflexivity]. Qed.

(** The hypothesis of [C42_waiting_partial]. *)
Example C42_waits_demo :
  let a := sv_account (demo_run true (demo_attempt (demo_key_request (bs "alice") (bs "PLAIN")))) in
  let l := [(a, ORequest (bs "shell") [] true); (a, OSpawner 0 demo_spawn); (a, OSpawned 1 true); (a, ORequest (bs "shell") [] true)] in
  waits (demo_config true) l /\ count is_started (snd (srun (demo_config true) l)) = 1%nat.
Proof.
  cbv zeta. split; [|vm_compute; reflexivity]. intros l1 a' o l2 E R.
  destruct l1 as [|x1 l1]; [reflexivity|]. injection E as <- E.
  destruct l1 as [|x2 l1]; [injection E as <- <- _; discriminate|]. injection E as <- E.
  destruct l1 as [|x3 l1]; [injection E as <- <- _; discriminate|]. injection E as <- E.
  destruct l1 as [|x4 l1]; [vm_compute; reflexivity|]. injection E as <- E. destruct l1; discriminate.
Qed.
