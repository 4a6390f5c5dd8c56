(** Proofs about how programs are run (C65). *)

From Coq Require Import NArith PeanoNat List Bool Lia String.
From Verif.Base Require Import Bytes.
From Verif.Spec Require Import WireSpec PacketSpec KeySpec AuthSpec SessionSpec SessionRun QuoteSpec OriginSpec RunSpec.
From Verif.Model Require Import Wire Frame Packets StringList KeyOptions Auth Session Server.
From Verif.Proofs Require Import WireFacts PacketFacts KeyFacts AuthFacts ServerFacts SessionFacts RestrictFacts StepFacts SessionRunFacts SizeFacts QuoteFacts OriginFacts.
Import ListNotations.
Open Scope N_scope.

Local Arguments bs : simpl never.

Lemma GetShell_login : forall a, login_shell a (GetShell a).
Proof.
  intro a. unfold login_shell, GetShell, response_of.
  assert (D : passwd_shell (ac_passwd a) match ac_passwd a with
    | Some p => if is_nil (pw_shell p) then bs "/bin/sh" else pw_shell p | None => bs "/bin/sh" end).
  { unfold passwd_shell. destruct (ac_passwd a) as [p|]; [|reflexivity]. destruct (pw_shell p); cbn [is_nil]; [right|left]; split; congruence. }
  destruct (ac_translation a) as [[u r]|]; cbn [option_map snd]; [|exact D].
  destruct (tr_execute_options r) as [eo|]; [|exact D]. destruct (eo_shell eo); [reflexivity|exact D].
Qed.

Lemma split_last : forall sep s, exists base, last (split sep s) [] = base /\ ~ In sep base /\
  (s = base \/ exists dir, s = dir ++ sep :: base).
Proof.
  intros sep s. induction s as [|c s IH].
  - exists []. cbn. split; [reflexivity|]. split; [auto|]. now left.
  - destruct IH as (base & L & N & S). cbn [split]. destruct (N.eqb_spec c sep) as [->|E].
    + exists base. split; [|split; [exact N|]].
      * destruct (split sep s) as [|q r] eqn:SP; [destruct s; cbn in SP; [discriminate|destruct (_ =? _); [discriminate|destruct (split sep s); discriminate]]|].
        exact L.
      * right. destruct S as [->|(dir & ->)]; [exists []; reflexivity|exists (sep :: dir); reflexivity].
    + destruct (split sep s) as [|q r] eqn:SP.
      { destruct s; cbn in SP; [discriminate|destruct (_ =? _); [discriminate|destruct (split sep s); discriminate]]. }
      destruct r as [|q' r].
      * cbn in L. subst q. assert (SB : s = base).
        { destruct S as [S|(dir & S)]; [exact S|]. exfalso. rewrite S in SP. clear -SP. revert SP. generalize base at 2. induction dir as [|d dir IHd]; intros b SP; cbn in SP.
          - rewrite N.eqb_refl in SP. destruct (split sep base) eqn:X; [destruct base; cbn in X; [discriminate|destruct (_ =? _); [discriminate|destruct (split sep base); discriminate]]|discriminate].
          - destruct (d =? sep); [destruct (split sep (dir ++ sep :: base)) eqn:X; [destruct dir; cbn in X; [rewrite N.eqb_refl in X; discriminate|destruct (_ =? _); [discriminate|destruct (split sep (dir ++ _)); discriminate]]|discriminate]|].
            destruct (split sep (dir ++ sep :: base)) as [|y [|z t]] eqn:X; [destruct dir; cbn in X; [rewrite N.eqb_refl in X; discriminate|destruct (_ =? _); [discriminate|destruct (split sep (dir ++ _)); discriminate]]| |discriminate].
            eapply IHd. reflexivity. }
        exists (c :: base). split; [reflexivity|]. split; [intros [X|X]; [congruence|contradiction]|]. left. congruence.
      * exists base. split; [exact L|]. split; [exact N|].
        destruct S as [S|(dir & S)]; [|right; exists (c :: dir); rewrite S; reflexivity]. exfalso. subst s.
        assert (X : forall b, ~ In sep b -> split sep b = [b]).
        { clear. induction b as [|d b IHb]; intro NI; [reflexivity|]. cbn. destruct (N.eqb_spec d sep) as [->|_]; [exfalso; apply NI; now left|].
          rewrite IHb; [reflexivity|]. intro X. apply NI. now right. }
        rewrite (X base N) in SP. discriminate.
Qed.

Lemma LoginShellName_spec : forall path, login_name path (LoginShellName path).
Proof.
  intro path. unfold LoginShellName. destruct (split_last 47 path) as (base & -> & N & S). cbv zeta.
  destruct base as [|c base]; cbn [is_nil].
  - exists path. split; [reflexivity|]. right. split; [reflexivity|]. destruct S as [->|(dir & ->)]; [now left|right; eauto].
  - exists (c :: base). split; [reflexivity|]. left. split; [discriminate|]. auto.
Qed.

(** ** The step which starts a program *)

Lemma started_how : forall cfg a o x p, In (SStarted p) (snd (sstep cfg a o x)) ->
  run_shell a (st_program p) /\ st_env p = se_env x /\ st_tty p = (is_shell (st_program p) && se_tty x)%bool /\
  st_home_read_only p = ko_home_read_only (ac_options a).
Proof.
  intros cfg a o x p I. destruct (started_by_spawner _ _ _ _ _ I) as (n & ans & ->). revert I.
  cbn [sstep]. destruct (find _ (se_tasks x)) as [[k t]|] eqn:F; [|contradiction].
  assert (ERR : forall m y, ~ In (SStarted p) (snd (OnSpawnError cfg m y))).
  { intros m y. unfold OnSpawnError. destruct (cf_verbose_errors cfg); cbn; intuition discriminate. }
  destruct t as [cmd|cmd eo|name path arg eo| |m]; [| | | |contradiction].
  - unfold ExecShell. cbv zeta. destruct (ShellIdentity a); [|cbn; intuition discriminate].
    destruct (negb (sa_ok ans)); [intro H; now apply ERR in H|].
    destruct (is_nil _); cbn [negb snd]; intros [H|[]]; injection H as <-; cbn [Spawn st_program st_env st_tty st_home_read_only];
      destruct cmd; cbn [run_shell is_shell andb];
      (split; [try split; try apply GetShell_login; apply LoginShellName_spec|]; repeat split).
  - unfold ExecRsync. destruct (eo_execute eo) eqn:EX; [|intro H; now apply ERR in H]. destruct (negb (sa_ok ans)); [intro H; now apply ERR in H|].
    intros [H|[]]; injection H as <-. repeat split.
  - unfold ExecGit. cbv zeta. destruct (negb (sa_ok ans)); [intro H; now apply ERR in H|].
    intros [H|[]]; injection H as <-. repeat split.
  - unfold ExecSftp. cbv zeta. destruct (se_tty _); [cbn; intuition discriminate|]. repeat (match goal with
      | |- context [if ?b then _ else _] => destruct b
      | |- context [match ?c with Some _ => _ | None => _ end] => destruct c end);
    solve [intro H; now apply ERR in H|cbn; intuition discriminate|
      intros [H|[]]; injection H as <-; repeat split].
Qed.

(** ** The terminal *)

Definition tty_rel (x : session) (o : sop) (r : session * list sevent) : Prop :=
  (se_tty (fst r) = true -> se_tty x = true \/ In SPty (snd r)) /\
  (o <> OTtyClosed -> (forall t, ~ In (SStderr t) (snd r)) -> se_tty x = true \/ In SPty (snd r) -> se_tty (fst r) = true).

Definition same_tty (x y : session) : Prop := se_tty y = se_tty x.

Lemma tty_step : forall cfg a o x, tty_rel x o (sstep cfg a o x).
Proof.
  intros cfg a o x.
  assert (ID : forall y es, same_tty x y -> ~ In SPty es ->
tty_rel x o (y, es)).
  { intros y es E N. red in E. unfold tty_rel. cbn [fst snd]. rewrite E. tauto. }
  assert (ST : forall m y, tty_rel x o (SetStderrString m y)).
  { intros m y. unfold tty_rel, SetStderrString. cbn [fst snd]. split; [discriminate|]. intros _ N _. exfalso. apply (N m). now left. }
  assert (ERR : forall m y, same_tty x y -> tty_rel x o (OnSpawnError cfg m y)).
  { intros m y E. unfold OnSpawnError. destruct (cf_verbose_errors cfg); [apply ST|apply ID; [exact E|cbn; intuition discriminate]]. }
  Ltac tty_leaf ID ST ERR := solve [apply ST | apply ERR; reflexivity | apply ID; [reflexivity|cbn; intuition discriminate]].
  destruct o as [type data ok|n ans|n ok| |]; cbn [sstep]; cbv zeta.
  - unfold OnRequest. destruct (WasStarted x).
    { unfold OnLateRequest. repeat (match goal with |- context [if ?b then _ else _] => destruct b
        | |- context [match ?c with Some _ => _ | None => _ end] => destruct c end); tty_leaf ID ST ERR. }
    assert (EX : forall cmd, tty_rel x (ORequest type data ok) (Exec cfg a cmd x)).
    { intro cmd. cbv zeta. unfold Exec. cbv zeta. repeat (match goal with |- context [if ?b then _ else _] => destruct b
        | |- context [match ?c with Some _ => _ | None => _ end] => destruct c end); tty_leaf ID ST ERR. }
    destruct (bytes_eqb type (bs "exec")).
    { destruct (parse_string data); [|tty_leaf ID ST ERR]. destruct (_ <? _); [|apply EX]. destruct (cf_exec_reject_stderr cfg); tty_leaf ID ST ERR. }
    destruct (bytes_eqb type (bs "shell")); [apply EX|].
    destruct (bytes_eqb type (bs "subsystem")).
    { destruct (parse_string data); [|tty_leaf ID ST ERR]. repeat (match goal with |- context [if ?b then _ else _] => destruct b end);
      tty_leaf ID ST ERR. }
    destruct (bytes_eqb type (bs "pty-req")).
    { destruct (_ || _); [tty_leaf ID ST ERR|]. destruct (parse_pty data) as [term|]; [|tty_leaf ID ST ERR]. destruct ok; cbn [negb]; [|tty_leaf ID ST ERR].
      unfold SetEnv. cbv zeta. unfold tty_rel. destruct (_ <=? _); cbn [fst snd with_tty with_env se_tty]; split; intros; try reflexivity; right; now left. }
    destruct (bytes_eqb type (bs "env")).
    { destruct (negb _); [tty_leaf ID ST ERR|]. destruct (parse_env data) as [[name value]|]; [|tty_leaf ID ST ERR].
      unfold SetEnv. cbv zeta. destruct (_ <=? _); tty_leaf ID ST ERR. }
    destruct (_ || _); tty_leaf ID ST ERR.
  - destruct (find _ (se_tasks x)) as [[k t]|]; [|tty_leaf ID ST ERR]. destruct t as [cmd|cmd eo|name path arg eo| |m]; [| | | |tty_leaf ID ST ERR].
    + unfold ExecShell. cbv zeta. destruct (ShellIdentity a); [|tty_leaf ID ST ERR]. destruct (negb (sa_ok ans)); [tty_leaf ID ST ERR|].
      destruct (negb _); tty_leaf ID ST ERR.
    + unfold ExecRsync. destruct (eo_execute eo); [|tty_leaf ID ST ERR]. destruct (negb (sa_ok ans)); tty_leaf ID ST ERR.
    + unfold ExecGit. cbv zeta. destruct (negb (sa_ok ans)); tty_leaf ID ST ERR.
    + unfold ExecSftp. cbv zeta. repeat (match goal with |- context [if ?b then _ else _] => destruct b
        | |- context [match ?c with Some _ => _ | None => _ end] => destruct c end); tty_leaf ID ST ERR.
  - destruct (find _ (se_tasks x)) as [[k t]|]; [|tty_leaf ID ST ERR]. destruct t; try tty_leaf ID ST ERR. destruct ok; tty_leaf ID ST ERR.
  - tty_leaf ID ST ERR.
  - unfold tty_rel. cbn [fst snd with_tty se_tty]. split; [discriminate|]. congruence.
Qed.

(** The channel has its terminal if one was allocated, unless it was lost. *)
Lemma srun_tty : forall cfg l, let r := srun cfg l in
  (se_tty (fst r) = true -> In SPty (snd r)) /\
  (~ In OTtyClosed (map snd l) -> (forall t, ~ In (SStderr t) (snd r)) -> In SPty (snd r) -> se_tty (fst r) = true).
Proof.
  intros cfg l. cbv zeta. induction l as [|[a o] l IH] using rev_ind; [split; [discriminate|contradiction]|].
  rewrite srun_snoc. cbn [fst snd]. destruct IH as [IH1 IH2]. destruct (tty_step cfg a o (fst (srun cfg l))) as [T1 T2]. split.
  - intro H. apply in_or_app. destruct (T1 H) as [X|X]; [left; auto|now right].
  - rewrite map_app. intros NC NS P. apply T2.
    + intros ->. apply NC. apply in_or_app. right. now left.
    + intros t X. apply (NS t). apply in_or_app. now right.
    + apply in_app_or in P as [P|P]; [left|now right]. apply IH2; [|intros t X; apply (NS t); apply in_or_app; now left|exact P].
      intro X. apply NC. apply in_or_app. now left.
Qed.

(** ** In a run of the server *)

Lemma vrun_how : forall cfg sid peer ops op events n p, Forall op_ok ops ->
  let s := vrun cfg sid peer ops in
  sv_log (vstep cfg sid op s) = sv_log s ++ events -> In (VSess n (SStarted p)) events ->
  run_shell (sv_account s) (st_program p) /\
  st_env p = rev (accepted_env (session_log n (sv_log s))) /\
  st_home_read_only p = ko_home_read_only (ac_options (sv_account s)) /\
  (st_tty p = true -> is_shell (st_program p) = true /\ In SPty (session_log n (sv_log s))) /\
  (is_shell (st_program p) = true -> In SPty (session_log n (sv_log s)) ->
   (forall t, ~ In (SStderr t) (session_log n (sv_log s))) -> ~ In OTtyClosed (happened n ops) -> st_tty p = true).
Proof.
  intros cfg sid peer ops op events n p F s L I.
  pose proof (vrun_good cfg sid peer ops F) as G. fold s in G.
  destruct (session_event cfg sid peer ops op n (SStarted p) events F L I) as (AL & _ & x & FS & _). fold s in AL, FS.
  destruct (vrun_projected cfg sid peer n ops F) as [l [PL PT PF _]]. fold s in PF, PL. specialize (PF x AL FS).
  assert (ST : exists o, In (SStarted p) (snd (sstep cfg (sv_account s) o x))).
  { destruct (step_log cfg sid op s G) as (l' & L' & [N|(w & payload & -> & _ & B)]).
    - assert (l' = events) by (rewrite L in L'; now apply app_inv_head in L'). subst l'.
      rewrite Forall_forall in N. pose proof (N _ I) as (x' & o & x'' & es & FS' & SS & IN). exists o.
      rewrite FS in FS'. injection FS' as <-. rewrite SS. exact IN.
    - exfalso. destruct (oauth_log cfg sid w s G) as (es & L'' & FE). rewrite L in L''. apply app_inv_head in L''. subst es.
      rewrite Forall_forall in FE. exact (FE _ I). }
  destruct ST as (o & ST). destruct (started_how _ _ _ _ _ ST) as (R & E & T & H). rewrite PF in E, T. rewrite PL.
  destruct (srun_env cfg l) as (A & _ & _). destruct (srun_tty cfg l) as [T1 T2].
  split; [exact R|]. split; [congruence|]. split; [exact H|]. rewrite T. split.
  - intro X. apply andb_prop in X as [X Y]. auto.
  - intros X P NS NC. rewrite X. cbn [andb]. apply T2; auto. intro C. apply NC. eapply part_In; eassumption.
Qed.
