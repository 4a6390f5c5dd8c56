(** Facts about Model/Session.v. *)

From Coq Require Import NArith List Bool Lia String.
From Verif.Base Require Import Bytes.
From Verif.Spec Require Import WireSpec KeySpec AuthSpec SessionSpec.
From Verif.Model Require Import Wire Frame Packets StringList KeyOptions Auth Session Server.
From Verif.Proofs Require Import WireFacts KeyFacts AuthFacts ServerFacts.
Import ListNotations.
Open Scope N_scope.

Local Arguments bs : simpl never.

(** What was checked when a task was created is still true. *)
Definition task_ok (a : account) (t : task) : Prop :=
  match t with
  | TExec _ => ac_allow_exec a = true
  | TRsync cmd eo => ac_allow_exec a = false /\ ac_allow_sftp a = true /\ GetServiceExecuteOptions RSYNC a = Some eo /\
      starts_with cmd (bs "rsync --server ") = true
  | TGit name path arg eo => ac_allow_exec a = false /\ GetServiceExecuteOptions name a = Some eo /\
      ((name = GIT_RECEIVE_PACK /\ path = bs "/usr/bin/git-receive-pack") \/ (name = GIT_UPLOAD_PACK /\ path = bs "/usr/bin/git-upload-pack"))
  | TSftp => ac_allow_sftp a = true
  | TSpawned _ => True
  end.

Definition tasks_ok (a : account) (s : session) : Prop := Forall (fun t => task_ok a (snd t)) (se_tasks s).

(** What an event of a session shows. *)
Definition sev_ok (a : account) (s : session) (e : sevent) : Prop :=
  match e with
  | SStarted p => may_start a p /\ st_user p = ac_username a /\ st_env p = se_env s /\
      st_home_read_only p = ko_home_read_only (ac_options a) /\
      (is_shell (st_program p) = true -> ko_command (ac_options a) <> [] -> runs_forced_command a (st_program p))
  | SPty => ac_allow_exec a = true /\ ko_no_pty (ac_options a) = false
  | SEnv _ _ => ac_allow_exec a = true
  | SStderr _ | SAnswer _ | SDisconnect | SAssert => True
  end.

Lemma tasks_ok_new : forall a, tasks_ok a new_session.
Proof. intro a. constructor. Qed.

Lemma tasks_ok_add : forall a t s, task_ok a t -> tasks_ok a s -> tasks_ok a (add_task t s).
Proof. intros a t s T F. unfold tasks_ok. cbn. apply Forall_app. split; [exact F|]. constructor; [exact T|constructor]. Qed.

Lemma tasks_ok_remove : forall a n s, tasks_ok a s -> tasks_ok a (remove_task n s).
Proof.
  intros a n s F. unfold tasks_ok. cbn. apply Forall_forall. intros t I. apply filter_In in I as [I _].
  unfold tasks_ok in F. rewrite Forall_forall in F. auto.
Qed.

Lemma tasks_ok_same : forall a s s', se_tasks s' = se_tasks s -> tasks_ok a s -> tasks_ok a s'.
Proof. intros a s s' E F. unfold tasks_ok. now rewrite E. Qed.

Lemma GetServiceExecuteOptions_provided : forall a name eo, GetServiceExecuteOptions name a = Some eo ->
  provided a name (AsOptions eo).
Proof.
  intros a name eo H. unfold GetServiceExecuteOptions, response_of in H. destruct (ac_translation a) as [[u r]|] eqn:T; [|discriminate].
  cbn in H. apply GetService_In in H. exists u, r, eo. auto.
Qed.

Lemma ShellIdentity_general : forall a i, ShellIdentity a = Some i -> general a i.
Proof.
  intros a i H. unfold ShellIdentity, response_of in H. unfold general. destruct (ac_translation a) as [[u r]|]; cbn in H.
  - destruct (tr_execute_options r) as [eo|]; [|discriminate]. exists eo. split; [reflexivity|]. cbn in H. congruence.
  - destruct (ac_passwd a) as [p|]; [|discriminate]. exists p. split; [reflexivity|]. cbn in H. congruence.
Qed.

Definition sfine (a : account) (s : session) (r : session * list sevent) : Prop :=
  tasks_ok a (fst r) /\ Forall (sev_ok a s) (snd r).

Lemma sfine_nil : forall a s s', tasks_ok a s' -> sfine a s (s', []).
Proof. intros. split; [assumption|constructor]. Qed.

Lemma sfine_1 : forall a s s' e, tasks_ok a s' -> sev_ok a s e -> sfine a s (s', [e]).
Proof. intros. split; [assumption|constructor; [assumption|constructor]]. Qed.

Lemma sfine_stderr : forall a s s' text, tasks_ok a s' -> sfine a s (SetStderrString text s').
Proof. intros a s s' text T. split; [exact T|]. repeat constructor. Qed.

Lemma OnSpawnError_fine : forall cfg a s s' text, tasks_ok a s' -> sfine a s (OnSpawnError cfg text s').
Proof.
  intros cfg a s s' text T. unfold OnSpawnError. destruct (cf_verbose_errors cfg); [now apply sfine_stderr|now apply sfine_1].
Qed.

Lemma ExecShell_fine : forall cfg a cmd ans s s', ac_allow_exec a = true -> tasks_ok a s' -> se_env s' = se_env s ->
  sfine a s (ExecShell cfg a cmd ans s').
Proof.
  intros cfg a cmd ans s s' EX T EV. unfold ExecShell.
  destruct (ShellIdentity a) as [i|] eqn:I; [|now apply sfine_1]. apply ShellIdentity_general in I.
  destruct (sa_ok ans); cbn [negb]; [|now apply OnSpawnError_fine].
  destruct (is_nil (ko_command (ac_options a))) eqn:C; cbn [negb];
    (apply sfine_1; [apply tasks_ok_add; [exact Logic.I|exact T]|]).
  - apply is_nil_true in C. cbn.
    split; [unfold may_start; cbn; destruct cmd; auto|]. repeat (split; [assumption || reflexivity|]).
    intros _ X. contradiction.
  - cbn. split; [unfold may_start; cbn; auto|]. repeat (split; [assumption || reflexivity|]). intros _ _. eexists. reflexivity.
Qed.

Lemma ExecRsync_fine : forall cfg a cmd eo ans s s', task_ok a (TRsync cmd eo) -> tasks_ok a s' -> se_env s' = se_env s ->
  sfine a s (ExecRsync cfg a cmd eo ans s').
Proof.
  intros cfg a cmd eo ans s s' (EX & SF & G & _) T EV. apply GetServiceExecuteOptions_provided in G. unfold ExecRsync.
  destruct (eo_execute eo) as [path|]; [|now apply OnSpawnError_fine].
  destruct (sa_ok ans); cbn [negb]; [|now apply OnSpawnError_fine].
  apply sfine_1; [apply tasks_ok_add; [exact Logic.I|exact T]|]. cbn.
  split; [unfold may_start; cbn; auto|]. repeat (split; [assumption || reflexivity|]). discriminate.
Qed.

Lemma ExecGit_fine : forall cfg a name path arg eo ans s s', task_ok a (TGit name path arg eo) -> tasks_ok a s' -> se_env s' = se_env s ->
  sfine a s (ExecGit cfg a name path arg eo ans s').
Proof.
  intros cfg a name path arg eo ans s s' (EX & G & N) T EV. apply GetServiceExecuteOptions_provided in G. unfold ExecGit.
  destruct (sa_ok ans); cbn [negb]; [|now apply OnSpawnError_fine].
  apply sfine_1; [apply tasks_ok_add; [exact Logic.I|exact T]|]. cbn.
  split; [unfold may_start; cbn; split; [exact EX|split; [|exact G]]|].
  - destruct N as [[-> _]|[-> _]]; auto.
  - repeat (split; [assumption || reflexivity|]). discriminate.
Qed.

Lemma ExecSftp_fine : forall cfg a ans s s', ac_allow_sftp a = true -> tasks_ok a s' -> se_env s' = se_env s ->
  sfine a s (ExecSftp cfg a ans s').
Proof.
  intros cfg a ans s s' SF T EV. unfold ExecSftp.
  destruct (se_tty s'); [now apply sfine_1|].
  assert (START : forall path i, provided a (bs "sftp") i \/ general a i ->
    sfine a s (if negb (sa_ok ans) then OnSpawnError cfg FAILED_SFTP s'
      else (add_task (TSpawned FAILED_SFTP) (with_child true s'), [SStarted (Spawn (Sftp path) i None false a s')]))).
  { intros path i P. destruct (sa_ok ans); cbn [negb]; [|now apply OnSpawnError_fine].
    apply sfine_1; [apply tasks_ok_add; [exact Logic.I|exact T]|]. cbn.
    split; [unfold may_start; cbn; auto|]. repeat (split; [assumption || reflexivity|]). discriminate. }
  assert (DEFAULT : sfine a s (match ShellIdentity a with
    | Some i => if negb (sa_ok ans) then OnSpawnError cfg FAILED_SFTP s'
      else (add_task (TSpawned FAILED_SFTP) (with_child true s'), [SStarted (Spawn (Sftp (bs "/usr/lib/openssh/sftp-server")) i None false a s')])
    | None => (s', [SAssert]) end)).
  { destruct (ShellIdentity a) as [i|] eqn:I; [|now apply sfine_1]. apply ShellIdentity_general in I. apply START. now right. }
  destruct (GetServiceExecuteOptions SFTP a) as [eo|] eqn:G; [|exact DEFAULT].
  apply GetServiceExecuteOptions_provided in G.
  destruct (eo_execute eo) as [path|].
  - destruct (sa_open ans); [apply START; now left|now apply sfine_1].
  - destruct (sa_sftp_server ans); [apply START; now left|exact DEFAULT].
Qed.

Lemma Exec_fine : forall cfg a cmd s, tasks_ok a s -> sfine a s (Exec cfg a cmd s).
Proof.
  intros cfg a cmd s T. unfold Exec. destruct (ac_allow_exec a) eqn:EX.
  { apply sfine_nil. now apply tasks_ok_add. }
  assert (DENIED : sfine a s (if ac_sftp_only a && cf_exec_reject_stderr cfg
      then SetStderrString (bs "Shell access denied (SFTP only).") s else (s, [SAnswer false]))).
  { destruct (ac_sftp_only a && _); [now apply sfine_stderr|now apply sfine_1]. }
  destruct cmd as [cmd|]; [|exact DENIED]. cbv zeta.
  assert (GIT : forall name path other, sfine a s other ->
    (name = GIT_RECEIVE_PACK /\ path = bs "/usr/bin/git-receive-pack") \/ (name = GIT_UPLOAD_PACK /\ path = bs "/usr/bin/git-upload-pack") ->
    sfine a s (match StringAfterPrefix cmd (name ++ [32]), GetServiceExecuteOptions name a with
          | Some arg, Some eo =>
              match ShellUnescapeOneSingleQuoted arg with
              | Some arg => (add_task (TGit name path arg eo) s, [])
              | None => (s, [SAnswer false])
              end
          | _, _ => other
          end)).
  { intros name path other O N. destruct (StringAfterPrefix cmd (name ++ [32])) as [arg|]; [|exact O].
    destruct (GetServiceExecuteOptions name a) as [eo|] eqn:G; [|exact O].
    destruct (ShellUnescapeOneSingleQuoted arg); [|now apply sfine_1]. apply sfine_nil, tasks_ok_add; [|exact T]. cbn. auto. }
  assert (GITS := GIT GIT_RECEIVE_PACK (bs "/usr/bin/git-receive-pack") _
    (GIT GIT_UPLOAD_PACK (bs "/usr/bin/git-upload-pack") _ DENIED (or_intror (conj eq_refl eq_refl))) (or_introl (conj eq_refl eq_refl))).
  destruct (ac_allow_sftp a) eqn:SF; cbn [andb]; [|exact GITS].
  destruct (starts_with cmd (bs "rsync --server ")) eqn:SW; [|exact GITS].
  destruct (GetServiceExecuteOptions RSYNC a) as [eo|] eqn:G; [|exact GITS].
  destruct (eo_execute eo); [|now apply OnSpawnError_fine]. apply sfine_nil, tasks_ok_add; [|exact T]. cbn. auto.
Qed.

Lemma SetEnv_tasks : forall n v s s', SetEnv n v s = Some s' -> se_tasks s' = se_tasks s.
Proof. intros n v s s' H. unfold SetEnv in H. destruct (_ <=? _); [discriminate|]. injection H as <-. reflexivity. Qed.

Lemma OnRequest_fine : forall cfg a t d ok s, tasks_ok a s -> sfine a s (OnRequest cfg a t d ok s).
Proof.
  intros cfg a t d ok s T. unfold OnRequest.
  destruct (WasStarted s).
  { unfold OnLateRequest. destruct (bytes_eqb t (bs "window-change")); [|now apply sfine_1].
    destruct (negb (se_tty s)); [now apply sfine_1|]. destruct (obind (ReadWindowSize d) ExpectEnd); [|now apply sfine_1].
    destruct ok; now apply sfine_1. }
  destruct (bytes_eqb t (bs "exec")).
  { destruct (parse_string d) as [c|]; [|now apply sfine_1].
    destruct (_ <? _); [destruct (cf_exec_reject_stderr cfg); [now apply sfine_stderr|now apply sfine_1]|now apply Exec_fine]. }
  destruct (bytes_eqb t (bs "shell")); [now apply Exec_fine|].
  destruct (bytes_eqb t (bs "subsystem")).
  { destruct (parse_string d) as [c|]; [|now apply sfine_1]. destruct (bytes_eqb c SFTP); [|now apply sfine_1].
    destruct (ac_allow_sftp a) eqn:SF; cbn [negb]; [|now apply sfine_1]. destruct (se_tty s); [now apply sfine_1|].
    apply sfine_nil. now apply tasks_ok_add. }
  destruct (bytes_eqb t (bs "pty-req")).
  { destruct (ac_allow_exec a) eqn:EX; cbn [negb orb]; [|now apply sfine_1].
    destruct (ko_no_pty (ac_options a)) eqn:NP; [now apply sfine_1|].
    destruct (parse_pty d) as [term|]; [|now apply sfine_1]. destruct ok; cbn [negb]; [|now apply sfine_1].
    destruct (SetEnv (bs "TERM") term (with_tty true s)) as [s'|] eqn:E.
    - apply SetEnv_tasks in E. split; [now apply (tasks_ok_same a s)|]. repeat (constructor; [cbn; auto|]). constructor.
    - split; [exact T|]. repeat (constructor; [cbn; auto|]). constructor. }
  destruct (bytes_eqb t (bs "env")).
  { destruct (ac_allow_exec a) eqn:EX; cbn [negb]; [|now apply sfine_1].
    destruct (parse_env d) as [[n v]|]; [|now apply sfine_1].
    destruct (SetEnv n v s) as [s'|] eqn:E; [|now apply sfine_1].
    apply SetEnv_tasks in E. split; [now apply (tasks_ok_same a s)|]. repeat (constructor; [cbn; auto|]). constructor. }
  destruct (_ || _); now apply sfine_1.
Qed.

Lemma find_task : forall a n s k t, tasks_ok a s -> find (fun t => fst t =? n) (se_tasks s) = Some (k, t) -> task_ok a t.
Proof.
  intros a n s k t F H. apply find_some in H as [I _]. unfold tasks_ok in F. rewrite Forall_forall in F. exact (F _ I).
Qed.

Lemma sstep_fine : forall cfg a op s, tasks_ok a s -> sfine a s (sstep cfg a op s).
Proof.
  intros cfg a op s T. unfold sstep. destruct op.
  - now apply OnRequest_fine.
  - destruct (find _ (se_tasks s)) as [[k t]|] eqn:F; [|now apply sfine_nil].
    pose proof (find_task _ _ _ _ _ T F) as TK.
    destruct t; [apply ExecShell_fine|apply ExecRsync_fine|apply ExecGit_fine|apply ExecSftp_fine|now apply sfine_nil];
      auto using tasks_ok_remove.
  - destruct (find _ (se_tasks s)) as [[k t]|] eqn:F; [|now apply sfine_nil].
    destruct t; try now apply sfine_nil. destruct ok; [apply sfine_1|apply OnSpawnError_fine]; auto using tasks_ok_remove.
    exact Logic.I.
  - now apply sfine_nil.
  - now apply sfine_nil.
Qed.

(** ** Sessions of a server *)

(** what the checks look at does not change with the options of the key *)
Lemma task_ok_options : forall o a t, task_ok a t -> task_ok (set_options o a) t.
Proof. intros o a t H. destruct t; exact H. Qed.

Definition sessions_ok (s : server) : Prop :=
  forall n x, In (n, x) (sv_sessions s) -> tasks_ok (sv_account s) x.

Lemma find_session_In : forall n l x, find_session n l = Some x -> In (n, x) l.
Proof.
  induction l as [|[k y] r IH]; intros x H; [discriminate|]. cbn [find_session] in H. destruct (k =? n) eqn:E.
  - apply N.eqb_eq in E. left. congruence.
  - right. auto.
Qed.

Lemma sessions_quiet : forall cfg (new : bytes -> Prop) s s', sessions_ok s -> quiet cfg new s s' -> sessions_ok s'.
Proof.
  intros cfg new s s' OK Q n x' I.
  assert (X : tasks_ok (sv_account s) x').
  { destruct (q_session _ _ _ _ Q n x' I) as [J|[->|(x & op & l & F & S)]].
    - exact (OK n x' J).
    - apply tasks_ok_new.
    - apply find_session_In in F. pose proof (sstep_fine cfg (sv_account s) op x (OK _ _ F)) as [T _]. rewrite S in T. exact T. }
  destruct (q_account _ _ _ _ Q) as [->|(_ & _ & _ & o & ->)]; [exact X|].
  eapply Forall_impl; [|exact X]. intros t. apply task_ok_options.
Qed.

Lemma vstep_sessions : forall cfg sid op s, good cfg s -> sessions_ok s -> sessions_ok (vstep cfg sid op s).
Proof.
  intros cfg sid op s G OK. destruct (sv_alive s) eqn:AL.
  2:{ unfold vstep. rewrite AL. exact OK. }
  assert (D : (exists w, op = OAuth w) \/ (forall w, op <> OAuth w)) by (destruct op; eauto; right; discriminate).
  destruct D as [[w ->]|NA]; [|eapply sessions_quiet; [exact OK|now apply vstep_quiet]].
  destruct (sv_busy s) as [|payload|addr] eqn:B; [unfold vstep; rewrite AL, B; exact OK| |unfold vstep; rewrite AL, B; exact OK].
  pose proof (oauth_cases cfg sid w s payload G AL B) as (a & out & E & ACC & H).
  assert (N : sv_sessions (vstep cfg sid (OAuth w) s) = []).
  { destruct out.
    - apply H. - apply H. - unfold vstep. rewrite AL, B, E. reflexivity. - apply H. }
  intros n x I. rewrite N in I. destruct I.
Qed.

Lemma vrun_sessions : forall cfg sid peer ops, Forall op_ok ops -> sessions_ok (vrun cfg sid peer ops).
Proof.
  intros cfg sid peer ops. induction ops as [|op t IH] using rev_ind; intro F; [intros n x []|].
  apply Forall_app in F as [F1 F2]. rewrite vrun_snoc. apply vstep_sessions; [now apply vrun_good|auto].
Qed.

(** ** Events of sessions, in a run *)

Lemma session_event : forall cfg sid peer ops op n e events, Forall op_ok ops ->
  let s := vrun cfg sid peer ops in
  sv_log (vstep cfg sid op s) = sv_log s ++ events -> In (VSess n e) events ->
  sv_alive s = true /\ ac_authenticated (sv_account s) = true /\
  exists x, find_session n (sv_sessions s) = Some x /\ sev_ok (sv_account s) x e.
Proof.
  intros cfg sid peer ops op n e events F s L I. pose proof (vrun_good cfg sid peer ops F) as G. fold s in G.
  destruct (sv_alive s) eqn:AL.
  2:{ rewrite vstep_dead in L by exact AL. rewrite <- (app_nil_r (sv_log s)) in L at 1. apply app_inv_head in L. subst events. destruct I. }
  destruct (step_log cfg sid op s G) as (l & L' & [N|(w & payload & -> & _ & B)]).
  - assert (l = events) by (rewrite L in L'; now apply app_inv_head in L'). subst l.
    rewrite Forall_forall in N. pose proof (N _ I) as (x & o & x' & l & FS & SS & IN).
    split; [reflexivity|]. split.
    { destruct (ac_authenticated (sv_account s)) eqn:A; [reflexivity|]. exfalso.
      destruct (proj2 G AL) as [_ LB _]. destruct (LB A) as (_ & _ & (_ & _ & _ & _ & _ & X) & _). rewrite X in FS. discriminate. }
    exists x. split; [exact FS|]. pose proof (vrun_sessions cfg sid peer ops F n x (find_session_In _ _ _ FS)) as T.
    destruct (sstep_fine cfg (sv_account s) o x T) as [_ Y]. rewrite SS in Y. cbn [snd] in Y. rewrite Forall_forall in Y. exact (Y _ IN).
  - exfalso. pose proof (oauth_cases cfg sid w s payload G AL B) as (a & out & _ & _ & H).
    assert (X : forall e', In e' events -> match e' with VSess _ _ => False | _ => True end).
    { intros e' J. destruct out as [m|alg blob| |p].
      1-2: destruct H as (_ & _ & _ & H). 3: destruct H as (_ & H). 4: destruct H as (_ & H & _).
      all: rewrite L in H; apply app_inv_head in H; subst events.
      4: destruct p. all: repeat destruct J as [<-|J]; try exact Logic.I; destruct J. }
    exact (X _ I).
Qed.

Lemma may_start_identity : forall src user a p, source_of src user a -> may_start a p -> identity_of src (st_identity p).
Proof.
  intros src user a p SO M.
  assert (GE : general a (st_identity p) -> identity_of src (st_identity p)).
  { unfold general. destruct src as [r|q]; destruct SO as [T P]; rewrite T.
    - intros (eo & X & Y). exists eo. auto.
    - rewrite P. intros (q' & X & Y). cbn. congruence. }
  assert (PR : forall n, provided a n (st_identity p) -> identity_of src (st_identity p)).
  { intros n (u & r' & eo & T' & X & Y). destruct src as [r|q]; destruct SO as [T P]; rewrite T in T'; [|discriminate].
    injection T' as <- <-. exists eo. split; [exact Y|]. right. eauto. }
  unfold may_start in M. destruct (st_program p); [apply GE, M|apply GE, M| | |].
  - destruct M as [_ [M|M]]; [exact (PR _ M)|exact (GE M)].
  - destruct M as (_ & _ & M). exact (PR _ M).
  - destruct M as (_ & _ & M). exact (PR _ M).
Qed.
