(** Sizes of environment and command (C43), and what commands are made of
    (C45). *)

From Coq Require Import NArith PeanoNat List Bool Lia String.
From Verif.Base Require Import Bytes.
From Verif.Spec Require Import WireSpec KeySpec AuthSpec SessionSpec SessionRun.
From Verif.Model Require Import Wire Frame Packets StringList KeyOptions Auth Session Server.
From Verif.Proofs Require Import WireFacts KeyFacts AuthFacts ServerFacts SessionFacts RestrictFacts StepFacts SessionRunFacts.
Import ListNotations.
Open Scope N_scope.

Local Arguments bs : simpl never.

Lemma len_nil' : forall A, len ([] : list A) = 0. Proof. reflexivity. Qed.
Lemma len_S : forall A (x : A) l, len (x :: l) = 1 + len l.
Proof. intros. unfold len. cbn [List.length]. lia. Qed.

Lemma split_word_size : forall k cmd, (List.length cmd < k)%nat -> let '(s, rest) := split_word cmd in len s + len rest <= len cmd.
Proof.
  induction k as [|k IH]; intros cmd K; [lia|]. destruct cmd as [|ch cmd]; [cbn; unfold len; cbn; lia|]. cbn [List.length] in K.
  cbn [split_word]. destruct (ch =? 32); [rewrite len_S, len_nil'; lia|]. destruct (ch =? 92).
  - destruct cmd as [|c cmd]; [rewrite !len_S, !len_nil'; lia|]. cbn [List.length] in K.
    assert (KK : (List.length cmd < k)%nat) by lia. specialize (IH cmd KK).
    destruct (split_word cmd) as [s rest]. rewrite !len_S. lia.
  - assert (KK : (List.length cmd < k)%nat) by lia. specialize (IH cmd KK). destruct (split_word cmd) as [s rest]. rewrite !len_S. lia.
Qed.

Lemma skip_spaces_size : forall cmd, len (skip_spaces cmd) <= len cmd.
Proof. intro cmd. induction cmd as [|c r IH]; [reflexivity|]. cbn [skip_spaces]. destruct (c =? 32); [rewrite len_S; lia|lia]. Qed.

Lemma split_loop_size : forall fuel cmd, total (split_loop fuel cmd) <= len cmd.
Proof.
  induction fuel as [|fuel IH]; intro cmd; [cbn; lia|]. cbn [split_loop].
  pose proof (skip_spaces_size cmd) as SK. destruct (skip_spaces cmd) as [|c r] eqn:E; [cbn; lia|].
  pose proof (split_word_size (S (List.length (c :: r))) (c :: r) (Nat.lt_succ_diag_r _)) as W.
  destruct (split_word (c :: r)) as [s rest]. cbn [total fold_right]. specialize (IH rest). fold (total (split_loop fuel rest)). lia.
Qed.

Lemma unescape_size : forall k src quote r, (List.length src < k)%nat -> unescape_loop quote src = Some r -> len r <= len src.
Proof.
  induction k as [|k IH]; intros src quote r K; [lia|]. destruct src as [|ch src].
  { cbn. destruct quote; [discriminate|]. intro H. injection H as <-. reflexivity. }
  cbn [List.length] in K. cbn [unescape_loop]. rewrite len_S. destruct (ch =? 39).
  { intro H. apply IH in H; [lia|lia]. }
  destruct (ch =? 92).
  - destruct src as [|c src]; [discriminate|]. cbn [List.length] in K. destruct (unescape_loop quote src) as [r'|] eqn:E; [|discriminate].
    intro H. injection H as <-. apply IH in E; [|lia]. rewrite !len_S. lia.
  - destruct (unescape_loop quote src) as [r'|] eqn:E; [|discriminate].
    intro H. injection H as <-. apply IH in E; [|lia]. rewrite !len_S. lia.
Qed.

Lemma StringAfterPrefix_app : forall prefix s r, StringAfterPrefix s prefix = Some r <-> s = prefix ++ r.
Proof.
  induction prefix as [|p ps IH]; intros s r.
  - replace (StringAfterPrefix s []) with (Some s) by (now destruct s). cbn [app]. split; congruence.
  - destruct s as [|c cs]; [split; discriminate|]. destruct (N.eqb_spec c p) as [->|E].
    + cbn [StringAfterPrefix]. rewrite N.eqb_refl, IH. cbn [app]. split; intro H; [now rewrite H|now injection H].
    + cbn [StringAfterPrefix app]. destruct (N.eqb_spec c p); [contradiction|]. split; [discriminate|]. intro H. injection H as H _. contradiction.
Qed.

Lemma c_str_size : forall b, len (c_str b) <= len b.
Proof.
  intro b. induction b as [|x b IH]; [reflexivity|]. cbn [c_str]. destruct (x =? 0); rewrite ?len_S, ?len_nil'; lia.
Qed.

Definition task_size (t : task) : N :=
  match t with
  | TExec (Some cmd) => len cmd
  | TRsync cmd _ => len cmd
  | TGit _ _ arg _ => len arg
  | TExec None | TSftp | TSpawned _ => 0
  end.

(** A program which is started has the size of the request. *)
Lemma spawner_bytes : forall cfg a n ans x p, In (SStarted p) (snd (sstep cfg a (OSpawner n ans) x)) ->
  exists t, In (n, t) (se_tasks x) /\ pending t = true /\ client_bytes a p <= task_size t /\ st_env p = se_env x.
Proof.
  intros cfg a n ans x p. cbn [sstep]. destruct (find _ (se_tasks x)) as [[k t]|] eqn:F; [|contradiction].
  apply find_some in F as [I E]. apply N.eqb_eq in E. cbn in E. subst k.
  assert (ERR : forall m y, ~ In (SStarted p) (snd (OnSpawnError cfg m y))).
  { intros m y. unfold OnSpawnError. destruct (cf_verbose_errors cfg); cbn; intuition discriminate. }
  destruct t as [cmd|cmd eo|name path arg eo| |m]; [| | | |contradiction].
  - unfold ExecShell. cbv zeta. destruct (ShellIdentity a); [|cbn; intuition discriminate].
    destruct (negb (sa_ok ans)); [intro H; now apply ERR in H|].
    destruct (ko_command (ac_options a)) as [|c r] eqn:KO; cbn [is_nil negb snd]; intros [H|[]]; injection H as <-;
      exists (TExec cmd); (split; [exact I|]; split; [reflexivity|]; split; [|reflexivity]);
      unfold client_bytes; cbn [Spawn st_program st_original_command]; destruct cmd; rewrite ?KO; cbn [task_size]; lia.
  - unfold ExecRsync. destruct (eo_execute eo); [|intro H; now apply ERR in H]. destruct (negb (sa_ok ans)); [intro H; now apply ERR in H|].
    intros [H|[]]; injection H as <-. exists (TRsync cmd eo). split; [exact I|]. split; [reflexivity|]. split; [|reflexivity].
    unfold client_bytes. cbn [Spawn st_program task_size]. apply split_loop_size.
  - unfold ExecGit. cbv zeta. destruct (negb (sa_ok ans)); [intro H; now apply ERR in H|].
    intros [H|[]]; injection H as <-. exists (TGit name path arg eo). split; [exact I|]. split; [reflexivity|]. split; [|reflexivity].
    unfold client_bytes. cbn [Spawn st_program task_size]. lia.
  - unfold ExecSftp. cbv zeta. destruct (se_tty _); [cbn; intuition discriminate|]. repeat (match goal with
      | |- context [if ?b then _ else _] => destruct b
      | |- context [match ?c with Some _ => _ | None => _ end] => destruct c end);
    solve [intro H; now apply ERR in H|cbn; intuition discriminate|
      intros [H|[]]; injection H as <-; exists TSftp; (split; [exact I|]; split; [reflexivity|]; split; [|reflexivity]);
      unfold client_bytes; cbn [Spawn st_program task_size]; lia].
Qed.

Lemma not_started : forall l p, count is_started l = 0%nat -> ~ In (SStarted p) l.
Proof.
  intros l p H I. unfold count in H. assert (J : In (SStarted p) (filter is_started l)) by (apply filter_In; auto).
  destruct (filter is_started l); [contradiction|discriminate].
Qed.

(** Only the spawner's answer starts programs. *)
Lemma started_by_spawner : forall cfg a o x p, In (SStarted p) (snd (sstep cfg a o x)) -> exists n ans, o = OSpawner n ans.
Proof.
  intros cfg a o x p H. destruct o as [t d ok|n ans|n ok| |]; [| eauto | | |].
  - exfalso. change (sstep cfg a (ORequest t d ok) x) with (OnRequest cfg a t d ok x) in H.
    destruct (OnRequest_shape cfg a t d ok x) as [(_ & _ & S & _)|(_ & _ & t' & _ & E)]; [now apply (not_started _ p) in S|].
    rewrite E in H. contradiction.
  - exfalso. destruct (OSpawned_shape cfg a n ok x) as [E|(_ & _ & _ & _ & _ & (_ & _ & S & _) & _)]; [rewrite E in H; contradiction|].
    now apply (not_started _ p) in S.
  - contradiction.
  - contradiction.
Qed.

(** A request which is suspended is not too long. *)
Lemma git_size : forall name cmd arg r, StringAfterPrefix cmd name = Some arg -> ShellUnescapeOneSingleQuoted arg = Some r -> len r <= len cmd.
Proof.
  intros name cmd arg r P U. apply StringAfterPrefix_app in P. apply (unescape_size (S (List.length arg))) in U; [|lia].
  rewrite P, len_app. lia.
Qed.

Lemma Exec_size : forall cfg a cmd x t, Exec cfg a cmd x = (add_task t x, []) ->
  task_size t <= match cmd with Some c => len c | None => 0 end.
Proof.
  intros cfg a cmd x t.
  assert (INJ : forall t' : task, (add_task t' x, @nil sevent) = (add_task t x, []) -> t' = t).
  { intros t' H. injection H as H. apply app_inj_tail in H as [_ H]. now injection H. }
  unfold Exec. destruct (ac_allow_exec a).
  { intro H. apply INJ in H. subst t. destruct cmd; cbn; lia. }
  assert (ERR : forall m y, OnSpawnError cfg m y <> (add_task t x, [])).
  { intros m y. unfold OnSpawnError. destruct (cf_verbose_errors cfg); discriminate. }
  destruct cmd as [c|]; cbv zeta.
  - destruct (ac_allow_sftp a && _).
    + destruct (GetServiceExecuteOptions RSYNC a) as [eo|].
      * destruct (eo_execute eo); [|intro H; now apply ERR in H]. intro H. apply INJ in H. subst t. cbn. lia.
      * repeat (match goal with
          | |- context [match StringAfterPrefix ?c ?d with Some _ => _ | None => _ end] => destruct (StringAfterPrefix c d) eqn:?
          | |- context [match ShellUnescapeOneSingleQuoted ?c with Some _ => _ | None => _ end] => destruct (ShellUnescapeOneSingleQuoted c) eqn:?
          | |- context [match GetServiceExecuteOptions ?c ?d with Some _ => _ | None => _ end] => destruct (GetServiceExecuteOptions c d)
          | |- context [if ?b then _ else _] => destruct b end); try discriminate;
          intro H; apply INJ in H; subst t; cbn [task_size]; match goal with H1 : StringAfterPrefix _ _ = Some ?b, H2 : ShellUnescapeOneSingleQuoted ?b = Some _ |- _ => exact (git_size _ _ _ _ H1 H2) end.
    + repeat (match goal with
          | |- context [match StringAfterPrefix ?c ?d with Some _ => _ | None => _ end] => destruct (StringAfterPrefix c d) eqn:?
          | |- context [match ShellUnescapeOneSingleQuoted ?c with Some _ => _ | None => _ end] => destruct (ShellUnescapeOneSingleQuoted c) eqn:?
          | |- context [match GetServiceExecuteOptions ?c ?d with Some _ => _ | None => _ end] => destruct (GetServiceExecuteOptions c d)
          | |- context [if ?b then _ else _] => destruct b end); try discriminate;
          intro H; apply INJ in H; subst t; cbn [task_size]; match goal with H1 : StringAfterPrefix _ _ = Some ?b, H2 : ShellUnescapeOneSingleQuoted ?b = Some _ |- _ => exact (git_size _ _ _ _ H1 H2) end.
  - destruct (ac_sftp_only a && _); discriminate.
Qed.

Lemma request_size : forall cfg a t d ok x t', OnRequest cfg a t d ok x = (add_task t' x, []) -> se_env_size x <= MAX_ENV_SIZE ->
  task_size t' + se_env_size x <= MAX_ENV_SIZE.
Proof.
  intros cfg a t d ok x t' H EV. revert H. unfold OnRequest. destruct (WasStarted x).
  { unfold OnLateRequest. repeat (match goal with
      | |- context [if ?b then _ else _] => destruct b
      | |- context [match ?c with Some _ => _ | None => _ end] => destruct c end); discriminate. }
  destruct (bytes_eqb t (bs "exec")).
  { destruct (parse_string d) as [command|]; [|discriminate].
    destruct (MAX_ENV_SIZE <? len command + se_env_size x) eqn:M.
    - destruct (cf_exec_reject_stderr cfg); discriminate.
    - apply N.ltb_ge in M. intro H. apply Exec_size in H. pose proof (c_str_size command). lia. }
  destruct (bytes_eqb t (bs "shell")).
  { intro H. apply Exec_size in H. lia. }
  destruct (bytes_eqb t (bs "subsystem")).
  { destruct (parse_string d); [|discriminate]. destruct (bytes_eqb b SFTP); [|discriminate].
    destruct (negb (ac_allow_sftp a)); [discriminate|]. destruct (se_tty x); [discriminate|].
    intro H. injection H as H. apply app_inj_tail in H as [_ H]. injection H as <-. cbn [task_size]. lia. }
  unfold SetEnv. cbv zeta. repeat (match goal with
      | |- context [if ?b then _ else _] => destruct b
      | |- context [match parse_pty ?c with Some _ => _ | None => _ end] => destruct (parse_pty c)
      | |- context [match parse_env ?c with Some _ => _ | None => _ end] => destruct (parse_env c) as [[? ?]|] end); discriminate.
Qed.

(** ** The environment *)

Lemma env_step : forall cfg a o x,
  let r := sstep cfg a o x in
  se_env (fst r) = rev (accepted_env (snd r)) ++ se_env x /\
  (se_env_size (fst r) = se_env_size x + env_total (accepted_env (snd r))) /\
  (se_env_size x < MAX_ENV_SIZE -> se_env_size (fst r) < MAX_ENV_SIZE).
Proof.
  intros cfg a o x. cbv zeta.
  assert (SAME : forall r : session * list sevent, se_env (fst r) = se_env x -> se_env_size (fst r) = se_env_size x -> accepted_env (snd r) = [] ->
    se_env (fst r) = rev (accepted_env (snd r)) ++ se_env x /\ (se_env_size (fst r) = se_env_size x + env_total (accepted_env (snd r))) /\
    (se_env_size x < MAX_ENV_SIZE -> se_env_size (fst r) < MAX_ENV_SIZE)).
  { intros r A B C. rewrite A, B, C. cbn. split; [reflexivity|]. split; lia. }
  assert (ERR : forall m y, se_env y = se_env x -> se_env_size y = se_env_size x ->
    let r := OnSpawnError cfg m y in
    se_env (fst r) = rev (accepted_env (snd r)) ++ se_env x /\ (se_env_size (fst r) = se_env_size x + env_total (accepted_env (snd r))) /\
    (se_env_size x < MAX_ENV_SIZE -> se_env_size (fst r) < MAX_ENV_SIZE)).
  { intros m y A B. apply SAME; unfold OnSpawnError; destruct (cf_verbose_errors cfg); cbn; auto. }
  destruct o as [t d ok|n ans|n ok| |].
  - cbn [sstep]. unfold OnRequest. destruct (WasStarted x).
    { apply SAME; unfold OnLateRequest; repeat (match goal with
      | |- context [if ?b then _ else _] => destruct b
      | |- context [match ?c with Some _ => _ | None => _ end] => destruct c end); reflexivity. }
    assert (EXEC : forall c, let r := Exec cfg a c x in
      se_env (fst r) = rev (accepted_env (snd r)) ++ se_env x /\ (se_env_size (fst r) = se_env_size x + env_total (accepted_env (snd r))) /\
      (se_env_size x < MAX_ENV_SIZE -> se_env_size (fst r) < MAX_ENV_SIZE)).
    { intro c. cbv zeta. unfold Exec. cbv zeta. repeat (match goal with
      | |- context [if ?b then _ else _] => destruct b
      | |- context [match ?c with Some _ => _ | None => _ end] => destruct c end);
      first [apply ERR; reflexivity|apply SAME; reflexivity]. }
    destruct (bytes_eqb t (bs "exec")).
    { destruct (parse_string d); [|apply SAME; reflexivity]. destruct (MAX_ENV_SIZE <? _); [|apply EXEC].
      destruct (cf_exec_reject_stderr cfg); apply SAME; reflexivity. }
    destruct (bytes_eqb t (bs "shell")); [apply EXEC|].
    destruct (bytes_eqb t (bs "subsystem")).
    { destruct (parse_string d); [|apply SAME; reflexivity]. repeat (match goal with
      | |- context [if ?b then _ else _] => destruct b end); apply SAME; reflexivity. }
    destruct (bytes_eqb t (bs "pty-req")).
    { destruct (negb (ac_allow_exec a) || _); [apply SAME; reflexivity|]. destruct (parse_pty d) as [term|]; [|apply SAME; reflexivity].
      destruct (negb ok); [apply SAME; reflexivity|]. unfold SetEnv. cbv zeta. cbn [with_tty se_env_size se_env].
      destruct (MAX_ENV_SIZE <=? _) eqn:M; [apply SAME; reflexivity|]. apply N.leb_gt in M. cbn. split; [reflexivity|].
      unfold len in *. cbn in *. split; lia. }
    destruct (bytes_eqb t (bs "env")).
    { destruct (negb (ac_allow_exec a)); [apply SAME; reflexivity|]. destruct (parse_env d) as [[name value]|]; [|apply SAME; reflexivity].
      unfold SetEnv. cbv zeta. destruct (MAX_ENV_SIZE <=? _) eqn:M; [apply SAME; reflexivity|]. apply N.leb_gt in M.
      cbn. split; [reflexivity|]. unfold len in *. cbn in *. split; lia. }
    destruct (_ || _); apply SAME; reflexivity.
  - cbn [sstep]. destruct (find _ (se_tasks x)) as [[k t]|]; [|apply SAME; reflexivity].
    destruct t as [cmd|cmd eo|name path arg eo| |m].
    + unfold ExecShell. cbv zeta. destruct (ShellIdentity a); [|apply SAME; reflexivity].
      destruct (negb (sa_ok ans)); [apply ERR; reflexivity|]. destruct (negb (is_nil _)); apply SAME; reflexivity.
    + unfold ExecRsync. destruct (eo_execute eo); [|apply ERR; reflexivity]. destruct (negb (sa_ok ans)); [apply ERR; reflexivity|].
      apply SAME; reflexivity.
    + unfold ExecGit. cbv zeta. destruct (negb (sa_ok ans)); [apply ERR; reflexivity|]. apply SAME; reflexivity.
    + unfold ExecSftp. cbv zeta. repeat (match goal with
      | |- context [if ?b then _ else _] => destruct b
      | |- context [match ?c with Some _ => _ | None => _ end] => destruct c end);
      first [apply ERR; reflexivity|apply SAME; reflexivity].
    + apply SAME; reflexivity.
  - cbn [sstep]. destruct (find _ (se_tasks x)) as [[k t]|]; [|apply SAME; reflexivity].
    destruct t; try (apply SAME; reflexivity). destruct ok; [apply SAME; reflexivity|apply ERR; reflexivity].
  - apply SAME; reflexivity.
  - apply SAME; reflexivity.
Qed.

Lemma env_total_app : forall l l', env_total (l ++ l') = env_total l + env_total l'.
Proof. intros l l'. induction l as [|v l IH]; [reflexivity|]. cbn [app env_total fold_right]. fold (env_total (l ++ l')). fold (env_total l). lia. Qed.
Lemma env_total_rev : forall l, env_total (rev l) = env_total l.
Proof.
  intro l. induction l as [|v l IH]; [reflexivity|]. cbn [rev]. rewrite env_total_app, IH. cbn [env_total fold_right].
  fold (env_total l). lia.
Qed.
Lemma accepted_app : forall l l', accepted_env (l ++ l') = accepted_env l ++ accepted_env l'.
Proof. intros. apply flat_map_app. Qed.

Lemma srun_env : forall cfg l, let r := srun cfg l in
  se_env (fst r) = rev (accepted_env (snd r)) /\ se_env_size (fst r) = env_total (accepted_env (snd r)) /\ se_env_size (fst r) < MAX_ENV_SIZE.
Proof.
  intros cfg l. cbv zeta. induction l as [|[a o] l (A & B & C)] using rev_ind; [cbn; unfold MAX_ENV_SIZE; repeat split; lia|].
  rewrite srun_snoc. cbn [fst snd]. destruct (env_step cfg a o (fst (srun cfg l))) as (A' & B' & C').
  rewrite accepted_app, rev_app_distr, env_total_app. rewrite A', A, B', B. split; [reflexivity|]. split; [reflexivity|].
  rewrite <- B, <- B'. auto.
Qed.

(** ** Tasks *)
Lemma tasks_from : forall cfg a o x t, In t (se_tasks (fst (sstep cfg a o x))) -> pending (snd t) = true ->
  In t (se_tasks x) \/ (exists n, t = (n, snd t)) /\ is_start o = true /\ sstep cfg a o x = (add_task (snd t) x, []).
Proof.
  intros cfg a o x t I P. destruct o as [ty d ok|n ans|n ok| |].
  - change (sstep cfg a (ORequest ty d ok) x) with (OnRequest cfg a ty d ok x) in *.
    destruct (OnRequest_shape cfg a ty d ok x) as [(T & _)|(_ & S & t' & _ & E)]; [left; now rewrite T in I|].
    rewrite E in I. cbn in I. apply in_app_or in I as [I|[<-|[]]]; [now left|]. right. split; [eexists; reflexivity|]. split; [exact S|exact E].
  - left. destruct (OSpawner_shape cfg a n ans x) as [E|(k & t' & _ & _ & _ & [(T & _)|(m & p & E)])].
    + now rewrite E in I.
    + rewrite T in I. cbn in I. apply filter_In in I. apply I.
    + rewrite E in I. cbn in I. apply in_app_or in I as [I|[<-|[]]]; [|discriminate]. apply filter_In in I. apply I.
  - left. destruct (OSpawned_shape cfg a n ok x) as [E|(k & t' & _ & _ & _ & (T & _) & _)]; [now rewrite E in I|].
    rewrite T in I. cbn in I. apply filter_In in I. apply I.
  - now left.
  - now left.
Qed.

Lemma srun_tasks : forall cfg l t, In t (se_tasks (fst (srun cfg l))) -> pending (snd t) = true -> task_size (snd t) <= MAX_ENV_SIZE.
Proof.
  intros cfg l t. induction l as [|[a o] l IH] using rev_ind; [contradiction|]. rewrite srun_snoc. cbn [fst]. intros I P.
  destruct (tasks_from _ _ _ _ _ I P) as [J|(_ & S & E)]; [auto|]. destruct o; try discriminate.
  change (sstep cfg a (ORequest request_type data ok) (fst (srun cfg l))) with (OnRequest cfg a request_type data ok (fst (srun cfg l))) in E.
  apply request_size in E; [lia|]. pose proof (srun_env cfg l) as (_ & _ & X). lia.
Qed.

Lemma waits_prefix : forall cfg l l', waits cfg (l ++ l') -> waits cfg l.
Proof. intros cfg l l' W l1 a o l2 E R. apply (W l1 a o (l2 ++ l')); [|exact R]. now rewrite E, <- app_assoc. Qed.

Lemma waits_idle : forall cfg l a o, waits cfg (l ++ [(a, o)]) -> is_request o = true -> se_tasks (fst (srun cfg l)) = [].
Proof.
  intros cfg l a o W R. pose proof (W l a o [] eq_refl R) as H. pose proof (srun_counts cfg l) as [_ K].
  assert (Z : ntasks (fst (srun cfg l)) = 0%nat) by lia. unfold ntasks in Z. now destruct (se_tasks (fst (srun cfg l))).
Qed.

Lemma env_only_requests : forall cfg a o x, is_request o = false -> accepted_env (snd (sstep cfg a o x)) = [].
Proof.
  intros cfg a o x R.
  assert (ERR : forall m y, accepted_env (snd (OnSpawnError cfg m y)) = []).
  { intros m y. unfold OnSpawnError. now destruct (cf_verbose_errors cfg). }
  destruct o as [t d ok|n ans|n ok| |]; [discriminate| | |reflexivity|reflexivity]; cbn [sstep];
    (destruct (find _ (se_tasks x)) as [[k t]|]; [|reflexivity]); destruct t as [cmd|cmd eo|name path arg eo| |m]; try reflexivity.
  - unfold ExecShell. cbv zeta. destruct (ShellIdentity a); [|reflexivity]. destruct (negb (sa_ok ans)); [apply ERR|].
    now destruct (negb (is_nil _)).
  - unfold ExecRsync. destruct (eo_execute eo); [|apply ERR]. destruct (negb (sa_ok ans)); [apply ERR|reflexivity].
  - unfold ExecGit. cbv zeta. destruct (negb (sa_ok ans)); [apply ERR|reflexivity].
  - unfold ExecSftp. cbv zeta. repeat (match goal with
      | |- context [if ?b then _ else _] => destruct b
      | |- context [match ?c with Some _ => _ | None => _ end] => destruct c end); first [apply ERR|reflexivity].
  - destruct ok; [reflexivity|apply ERR].
Qed.

Lemma waits_tasks : forall cfg l t, waits cfg l -> In t (se_tasks (fst (srun cfg l))) -> pending (snd t) = true ->
  task_size (snd t) + se_env_size (fst (srun cfg l)) <= MAX_ENV_SIZE.
Proof.
  intros cfg l t. induction l as [|[a o] l IH] using rev_ind; [contradiction|]. intros W I P. rewrite srun_snoc in *. cbn [fst] in *.
  set (x := fst (srun cfg l)) in *. specialize (IH (waits_prefix _ _ _ W)).
  destruct (tasks_from _ _ _ _ _ I P) as [J|(_ & S & E)].
  - destruct (env_step cfg a o x) as (_ & B & _). rewrite B.
    destruct (is_request o) eqn:R.
    + exfalso. apply waits_idle in W; [|exact R]. fold x in W. now rewrite W in J.
    + rewrite env_only_requests by exact R. cbn [env_total fold_right]. rewrite N.add_0_r. auto.
  - rewrite E. cbn [fst add_task se_env_size]. destruct o; try discriminate.
    change (sstep cfg a (ORequest request_type data ok) x) with (OnRequest cfg a request_type data ok x) in E.
    apply request_size in E; [exact E|]. pose proof (srun_env cfg l) as (_ & _ & X). fold x in X. lia.
Qed.
