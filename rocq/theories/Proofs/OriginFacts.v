(** Where programs come from (C45, C55). *)

From Coq Require Import NArith PeanoNat List Bool Lia String.
From Verif.Base Require Import Bytes.
From Verif.Spec Require Import WireSpec PacketSpec KeySpec AuthSpec SessionSpec SessionRun QuoteSpec OriginSpec.
From Verif.Model Require Import Wire Frame Packets StringList KeyOptions Auth Session Server.
From Verif.Proofs Require Import WireFacts PacketFacts KeyFacts AuthFacts ServerFacts SessionFacts RestrictFacts StepFacts SessionRunFacts SizeFacts QuoteFacts.
Import ListNotations.
Open Scope N_scope.

Local Arguments bs : simpl never.

Lemma c_str_up_to_nul : forall command, up_to_nul command (c_str command).
Proof.
  intro command. induction command as [|c r [IH1 IH2]]; cbn.
  - split; [auto|now left].
  - destruct (N.eqb_spec c 0) as [->|E].
    + split; [auto|]. right. exists r. reflexivity.
    + split; [intros [H|H]; [congruence|contradiction]|]. destruct IH2 as [H|[rest H]].
      * left. now rewrite <- H.
      * right. exists rest. cbn. now rewrite <- H.
Qed.

Lemma parse_string_exact : forall d x, bytes_ok d -> parse_string d = Some x -> exactly d [FString x].
Proof.
  intros d x OK H. unfold parse_string in H. parse_inv. layout_solve.
Qed.

(** The request a task comes from. *)
Definition task_for (type data : bytes) (t : task) : Prop :=
  match t with
  | TExec None => type = bs "shell"
  | TExec (Some cmd) => type = bs "exec" /\ exec_payload data cmd
  | TRsync cmd _ => type = bs "exec" /\ exec_payload data cmd /\ exists rest, cmd = bs "rsync --server " ++ rest
  | TGit name _ arg _ => type = bs "exec" /\ exists quoted, exec_payload data (name ++ 32 :: quoted) /\
      ShellUnescapeOneSingleQuoted quoted = Some arg
  | TSftp => type = bs "subsystem" /\ exactly data [FString (bs "sftp")]
  | TSpawned _ => True
  end.

Lemma starts_with_app : forall s p, starts_with s p = true -> exists r, s = p ++ r.
Proof.
  intros s p. revert s. induction p as [|c p IH]; intros s H; [exists s; reflexivity|].
  destruct s as [|d s]; [discriminate|]. cbn in H. apply andb_true_iff in H as [E H]. apply N.eqb_eq in E. subst d.
  destruct (IH s H) as [r ->]. exists r. reflexivity.
Qed.

Lemma Exec_for : forall cfg a cmd x t, Exec cfg a cmd x = (add_task t x, []) ->
  match cmd with
  | None => t = TExec None
  | Some c => t = TExec (Some c) \/ (exists eo, t = TRsync c eo /\ exists rest, c = bs "rsync --server " ++ rest) \/
      (exists name path arg eo quoted, t = TGit name path arg eo /\ c = name ++ 32 :: quoted /\ ShellUnescapeOneSingleQuoted quoted = Some arg)
  end.
Proof.
  intros cfg a cmd x t.
  assert (INJ : forall t' : task, (add_task t' x, @nil sevent) = (add_task t x, []) -> t' = t).
  { intros t' H. injection H as H. apply app_inj_tail in H as [_ H]. now injection H. }
  unfold Exec. destruct (ac_allow_exec a).
  { intro H. apply INJ in H. subst t. destruct cmd; auto. }
  assert (ERR : forall m y, OnSpawnError cfg m y <> (add_task t x, [])).
  { intros m y. unfold OnSpawnError. destruct (cf_verbose_errors cfg); discriminate. }
  destruct cmd as [c|]; cbv zeta.
  - assert (G1 : forall name path b arg eo, StringAfterPrefix c (name ++ [32]) = Some b -> ShellUnescapeOneSingleQuoted b = Some arg ->
      t = TGit name path arg eo ->
      exists name path arg eo quoted, t = TGit name path arg eo /\ c = name ++ 32 :: quoted /\ ShellUnescapeOneSingleQuoted quoted = Some arg).
    { intros name path b arg eo S U ->. apply StringAfterPrefix_app in S. rewrite <- app_assoc in S. exists name, path, arg, eo, b. auto. }
    destruct (ac_allow_sftp a && starts_with c (bs "rsync --server ")) eqn:SW.
    + apply andb_true_iff in SW as [_ SW]. apply starts_with_app in SW.
      destruct (GetServiceExecuteOptions RSYNC a) as [eo|].
      * destruct (eo_execute eo); [|intro H; now apply ERR in H]. intro H. apply INJ in H. right. left. exists eo. auto.
      * repeat (match goal with
          | |- context [match StringAfterPrefix ?c ?d with Some _ => _ | None => _ end] => destruct (StringAfterPrefix c d) eqn:?
          | |- context [match ShellUnescapeOneSingleQuoted ?c with Some _ => _ | None => _ end] => destruct (ShellUnescapeOneSingleQuoted c) eqn:?
          | |- context [match GetServiceExecuteOptions ?c ?d with Some _ => _ | None => _ end] => destruct (GetServiceExecuteOptions c d)
          | |- context [if ?b then _ else _] => destruct b end); try discriminate;
          intro H; apply INJ in H; right; right; symmetry in H;
          match goal with H1 : StringAfterPrefix _ _ = Some ?b, H2 : ShellUnescapeOneSingleQuoted ?b = Some _ |- _ => exact (G1 _ _ _ _ _ H1 H2 H) end.
    + repeat (match goal with
          | |- context [match StringAfterPrefix ?c ?d with Some _ => _ | None => _ end] => destruct (StringAfterPrefix c d) eqn:?
          | |- context [match ShellUnescapeOneSingleQuoted ?c with Some _ => _ | None => _ end] => destruct (ShellUnescapeOneSingleQuoted c) eqn:?
          | |- context [match GetServiceExecuteOptions ?c ?d with Some _ => _ | None => _ end] => destruct (GetServiceExecuteOptions c d)
          | |- context [if ?b then _ else _] => destruct b end); try discriminate;
          intro H; apply INJ in H; right; right; symmetry in H;
          match goal with H1 : StringAfterPrefix _ _ = Some ?b, H2 : ShellUnescapeOneSingleQuoted ?b = Some _ |- _ => exact (G1 _ _ _ _ _ H1 H2 H) end.
  - destruct (ac_sftp_only a && _); discriminate.
Qed.

Lemma request_for : forall cfg a t d ok x t', bytes_ok d -> OnRequest cfg a t d ok x = (add_task t' x, []) -> task_for t d t'.
Proof.
  intros cfg a t d ok x t' OK. unfold OnRequest. destruct (WasStarted x).
  { unfold OnLateRequest. repeat (match goal with
      | |- context [if ?b then _ else _] => destruct b
      | |- context [match ?c with Some _ => _ | None => _ end] => destruct c end); discriminate. }
  destruct (bytes_eqb t (bs "exec")) eqn:T1.
  { apply bytes_eqb_eq in T1. destruct (parse_string d) as [command|] eqn:P; [|discriminate].
    apply parse_string_exact in P; [|exact OK].
    destruct (MAX_ENV_SIZE <? len command + se_env_size x).
    - destruct (cf_exec_reject_stderr cfg); discriminate.
    - assert (E : exec_payload d (c_str command)) by (exists command; split; [exact P|apply c_str_up_to_nul]).
      intro H. apply Exec_for in H. destruct H as [->|[(eo & -> & R)|(name & path & arg & eo & quoted & -> & C & U)]]; cbn [task_for].
      + auto.
      + auto.
      + split; [exact T1|]. exists quoted. rewrite <- C. auto. }
  destruct (bytes_eqb t (bs "shell")) eqn:T2.
  { apply bytes_eqb_eq in T2. intro H. apply Exec_for in H. subst t'. exact T2. }
  destruct (bytes_eqb t (bs "subsystem")) eqn:T3.
  { apply bytes_eqb_eq in T3. destruct (parse_string d) as [name|] eqn:P; [|discriminate]. apply parse_string_exact in P; [|exact OK].
    destruct (bytes_eqb name SFTP) eqn:N; [|discriminate]. apply bytes_eqb_eq in N. subst name.
    destruct (negb (ac_allow_sftp a)); [discriminate|]. destruct (se_tty x); [discriminate|].
    intro H. injection H as H. apply app_inj_tail in H as [_ H]. injection H as <-. cbn [task_for]. auto. }
  unfold SetEnv. cbv zeta. repeat (match goal with
      | |- context [if ?b then _ else _] => destruct b
      | |- context [match parse_pty ?c with Some _ => _ | None => _ end] => destruct (parse_pty c)
      | |- context [match parse_env ?c with Some _ => _ | None => _ end] => destruct (parse_env c) as [[? ?]|] end); discriminate.
Qed.

(** What the spawner's answer makes of a task. *)
Lemma spawner_program : forall cfg a n ans x p, In (SStarted p) (snd (sstep cfg a (OSpawner n ans) x)) ->
  exists t, In (n, t) (se_tasks x) /\ pending t = true /\
    (forall type data, task_for type data t -> answers_request a type data p).
Proof.
  intros cfg a n ans x p. cbn [sstep]. destruct (find _ (se_tasks x)) as [[k t]|] eqn:F; [|contradiction].
  apply find_some in F as [I E]. apply N.eqb_eq in E. cbn in E. subst k.
  assert (ERR : forall m y, ~ In (SStarted p) (snd (OnSpawnError cfg m y))).
  { intros m y. unfold OnSpawnError. destruct (cf_verbose_errors cfg); cbn; intuition discriminate. }
  destruct t as [cmd|cmd eo|name path arg eo| |m]; [| | | |contradiction].
  - unfold ExecShell. cbv zeta. destruct (ShellIdentity a); [|cbn; intuition discriminate].
    destruct (negb (sa_ok ans)); [intro H; now apply ERR in H|].
    destruct (ko_command (ac_options a)) as [|c r] eqn:KO; cbn [is_nil negb snd]; intros [H|[]]; injection H as <-;
      exists (TExec cmd); (split; [exact I|]; split; [reflexivity|]); intros type data TF;
      unfold answers_request; cbn [Spawn st_program st_original_command]; destruct cmd as [cmd|]; cbn [task_for] in TF; rewrite ?KO; cbn beta iota zeta.
    + destruct TF as [T EP]. auto.
    + auto.
    + destruct TF as [T EP]. split; [apply c_str_up_to_nul|]. right. split; [exact T|]. exists cmd. auto.
    + split; [apply c_str_up_to_nul|]. left. auto.
  - unfold ExecRsync. destruct (eo_execute eo); [|intro H; now apply ERR in H]. destruct (negb (sa_ok ans)); [intro H; now apply ERR in H|].
    intros [H|[]]; injection H as <-. exists (TRsync cmd eo). split; [exact I|]. split; [reflexivity|].
    intros type data (T & EP & rest & C). unfold answers_request. cbn [Spawn st_program]. split; [exact T|]. exists cmd, rest.
    split; [exact EP|]. split; [exact C|]. apply SplitCmdline_words.
  - unfold ExecGit. cbv zeta. destruct (negb (sa_ok ans)); [intro H; now apply ERR in H|].
    intros [H|[]]; injection H as <-. exists (TGit name path arg eo). split; [exact I|]. split; [reflexivity|].
    intros type data (T & quoted & EP & U). unfold answers_request. cbn [Spawn st_program]. split; [exact T|]. exists quoted.
    split; [exact EP|]. apply unescape_exact. exact U.
  - unfold ExecSftp. cbv zeta. destruct (se_tty _); [cbn; intuition discriminate|]. repeat (match goal with
      | |- context [if ?b then _ else _] => destruct b
      | |- context [match ?c with Some _ => _ | None => _ end] => destruct c end);
    solve [intro H; now apply ERR in H|cbn; intuition discriminate|
      intros [H|[]]; injection H as <-; exists TSftp; (split; [exact I|]; split; [reflexivity|]);
      intros type data TF; exact TF].
Qed.

Definition request_ok (o : sop) : Prop := match o with ORequest _ d _ => bytes_ok d | _ => True end.

Lemma srun_tasks_for : forall cfg l t, Forall (fun y => request_ok (snd y)) l ->
  In t (se_tasks (fst (srun cfg l))) -> pending (snd t) = true ->
  exists type data ok, In (ORequest type data ok) (map snd l) /\ task_for type data (snd t).
Proof.
  intros cfg l t. induction l as [|[a o] l IH] using rev_ind; [contradiction|]. intros F I P. rewrite srun_snoc in I. cbn [fst] in I.
  apply Forall_app in F as [F FO]. rewrite map_app.
  destruct (tasks_from _ _ _ _ _ I P) as [J|(_ & S & E)].
  - destruct (IH F J P) as (type & data & ok & IN & TF). exists type, data, ok. split; [|exact TF]. apply in_or_app. now left.
  - destruct o as [type data ok| | | |]; try discriminate. exists type, data, ok. split; [apply in_or_app; right; now left|].
    inversion FO as [|y ys FO1 _]; subst. cbn in FO1.
    change (sstep cfg a (ORequest type data ok) (fst (srun cfg l))) with (OnRequest cfg a type data ok (fst (srun cfg l))) in E.
    exact (request_for _ _ _ _ _ _ _ FO1 E).
Qed.

(** Every program answers a request. *)
Lemma srun_started : forall cfg l a o p, Forall (fun y => request_ok (snd y)) l ->
  In (SStarted p) (snd (sstep cfg a o (fst (srun cfg l)))) ->
  exists type data ok, In (ORequest type data ok) (map snd l) /\ answers_request a type data p.
Proof.
  intros cfg l a o p F I. destruct (started_by_spawner _ _ _ _ _ I) as (n & ans & ->).
  destruct (spawner_program _ _ _ _ _ _ I) as (t & J & P & H).
  destruct (srun_tasks_for cfg l (n, t) F J P) as (type & data & ok & IN & TF). exists type, data, ok. auto.
Qed.

Lemma happened_ok : forall n ops, Forall op_ok ops -> Forall request_ok (happened n ops).
Proof.
  intros n ops F. unfold happened. induction F as [|op ops OK F IH]; [constructor|]. cbn [flat_map]. apply Forall_app. split; [|exact IH].
  destruct op; cbn [for_session]; try constructor.
  - destruct (msg =? MSG_CHANNEL_REQUEST); [|constructor]. destruct (ParseChannelRequest payload) as [c|] eqn:P; [|constructor].
    destruct (cr_local_channel c =? n); [|constructor]. constructor; [|constructor]. cbn.
    destruct c as [lc ty w d]. apply ParseChannelRequest_exact in P; [|exact OK]. destruct P as (x & _ & FO & E). cbn [cr_data op_ok] in OK |- *.
    unfold enc in E. cbn [map enc_field List.concat] in E. rewrite app_nil_r in E. rewrite E in OK. unfold bytes_ok in *.
    apply Forall_app in OK as [_ OK]. apply Forall_app in OK as [_ OK]. apply Forall_app in OK as [_ OK]. exact OK.
  - destruct (n0 =? n); [|constructor]. destruct op; constructor; try exact Logic.I; constructor.
Qed.

(** In a run of the server. *)
Lemma vrun_started : forall cfg sid peer ops op events n p, Forall op_ok ops ->
  let s := vrun cfg sid peer ops in
  sv_log (vstep cfg sid op s) = sv_log s ++ events -> In (VSess n (SStarted p)) events ->
  exists type data ok, In (ORequest type data ok) (happened n ops) /\ answers_request (sv_account s) type data p.
Proof.
  intros cfg sid peer ops op events n p F s L I.
  pose proof (vrun_good cfg sid peer ops F) as G. fold s in G.
  destruct (session_event cfg sid peer ops op n (SStarted p) events F L I) as (AL & _ & x & FS & _). fold s in AL, FS.
  destruct (vrun_projected cfg sid peer n ops F) as [l [_ PT PF _]]. fold s in PF. specialize (PF x AL FS).
  assert (FL : Forall (fun y : account * sop => request_ok (snd y)) l).
  { apply Forall_forall. intros y Y. pose proof (happened_ok n ops F) as H. rewrite Forall_forall in H. apply H.
    eapply part_In; [exact PT|]. now apply in_map. }
  assert (ST : exists o, In (SStarted p) (snd (sstep cfg (sv_account s) o x))).
  { destruct (step_log cfg sid op s G) as (l' & L' & [N|(w & payload & -> & _ & B)]).
    - assert (l' = events) by (rewrite L in L'; now apply app_inv_head in L'). subst l'.
      rewrite Forall_forall in N. pose proof (N _ I) as (x' & o & x'' & es & FS' & SS & IN). exists o.
      rewrite FS in FS'. injection FS' as <-. rewrite SS. exact IN.
    - exfalso. destruct (oauth_log cfg sid w s G) as (es & L'' & FE). rewrite L in L''. apply app_inv_head in L''. subst es.
      rewrite Forall_forall in FE. exact (FE _ I). }
  destruct ST as (o & ST). rewrite PF in ST.
  destruct (srun_started cfg l _ o p FL ST) as (type & data & ok & IN & A). exists type, data, ok. split; [|exact A].
  eapply part_In; eassumption.
Qed.

(** The executable is the configured one. *)
Definition configured_path (p : started) : Prop :=
  match st_program p with
  | Rsync path _ => exists eo, st_identity p = AsOptions eo /\ eo_execute eo = Some path
  | Git path name _ => exists eo, st_identity p = AsOptions eo /\
      match eo_execute eo with Some x => path = x | None => path = bs "/usr/bin/" ++ name end
  | _ => True
  end.

Lemma sstep_path : forall cfg a o x p, tasks_ok a x -> In (SStarted p) (snd (sstep cfg a o x)) -> configured_path p.
Proof.
  intros cfg a o x p T I. destruct (started_by_spawner _ _ _ _ _ I) as (n & ans & ->). revert I.
  cbn [sstep]. destruct (find _ (se_tasks x)) as [[k t]|] eqn:F; [|contradiction].
  pose proof (find_task a n x k t T F) as TO. clear F.
  assert (ERR : forall m y, ~ In (SStarted p) (snd (OnSpawnError cfg m y))).
  { intros m y. unfold OnSpawnError. destruct (cf_verbose_errors cfg); cbn; intuition discriminate. }
  destruct t as [cmd|cmd eo|name path arg eo| |m]; [| | | |contradiction].
  - unfold ExecShell. cbv zeta. destruct (ShellIdentity a); [|cbn; intuition discriminate].
    destruct (negb (sa_ok ans)); [intro H; now apply ERR in H|].
    destruct (is_nil _); cbn [negb snd]; intros [H|[]]; injection H as <-; unfold configured_path; cbn [Spawn st_program];
      destruct cmd; exact Logic.I.
  - unfold ExecRsync. destruct (eo_execute eo) eqn:EX; [|intro H; now apply ERR in H]. destruct (negb (sa_ok ans)); [intro H; now apply ERR in H|].
    intros [H|[]]; injection H as <-. exists eo. auto.
  - unfold ExecGit. cbv zeta. destruct (negb (sa_ok ans)); [intro H; now apply ERR in H|].
    intros [H|[]]; injection H as <-. exists eo. cbn [Spawn st_identity]. split; [reflexivity|]. destruct (eo_execute eo); [reflexivity|].
    destruct TO as (_ & _ & [[-> ->]|[-> ->]]); reflexivity.
  - unfold ExecSftp. cbv zeta. destruct (se_tty _); [cbn; intuition discriminate|]. repeat (match goal with
      | |- context [if ?b then _ else _] => destruct b
      | |- context [match ?c with Some _ => _ | None => _ end] => destruct c end);
    solve [intro H; now apply ERR in H|cbn; intuition discriminate|
      intros [H|[]]; injection H as <-; exact Logic.I].
Qed.

Lemma vrun_path : forall cfg sid peer ops op events n p, Forall op_ok ops ->
  let s := vrun cfg sid peer ops in
  sv_log (vstep cfg sid op s) = sv_log s ++ events -> In (VSess n (SStarted p)) events -> configured_path p.
Proof.
  intros cfg sid peer ops op events n p F s L I.
  pose proof (vrun_good cfg sid peer ops F) as G. fold s in G.
  destruct (step_log cfg sid op s G) as (l' & L' & [N|(w & payload & -> & _ & B)]).
  - assert (l' = events) by (rewrite L in L'; now apply app_inv_head in L'). subst l'.
    rewrite Forall_forall in N. pose proof (N _ I) as (x' & o & x'' & es & FS' & SS & IN).
    apply (sstep_path cfg (sv_account s) o x').
    + exact (vrun_sessions cfg sid peer ops F n x' (find_session_In _ _ _ FS')).
    + rewrite SS. exact IN.
  - exfalso. destruct (oauth_log cfg sid w s G) as (es & L'' & FE). rewrite L in L''. apply app_inv_head in L''. subst es.
    rewrite Forall_forall in FE. exact (FE _ I).
Qed.
