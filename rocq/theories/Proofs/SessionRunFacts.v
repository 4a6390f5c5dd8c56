(** Facts about the history of session channels (C42, C43, C45, C55). *)

From Coq Require Import NArith PeanoNat List Bool Lia String.
From Verif.Base Require Import Bytes.
From Verif.Spec Require Import WireSpec KeySpec AuthSpec SessionSpec SessionRun.
From Verif.Model Require Import Wire Frame Packets StringList KeyOptions Auth Session Server.
From Verif.Proofs Require Import WireFacts KeyFacts AuthFacts ServerFacts SessionFacts RestrictFacts StepFacts.
Import ListNotations.
Open Scope N_scope.

Local Arguments bs : simpl never.
Local Arguments session_log : simpl never.

Lemma srun_snoc : forall cfg l a o, srun cfg (l ++ [(a, o)]) =
  (fst (sstep cfg a o (fst (srun cfg l))), snd (srun cfg l) ++ snd (sstep cfg a o (fst (srun cfg l)))).
Proof.
  intros cfg l a o. unfold srun. rewrite fold_left_app. cbn [fold_left fst snd].
  set (r := fold_left _ l _). destruct (sstep cfg a o (fst r)). reflexivity.
Qed.

Lemma session_log_app : forall n l l', session_log n (l ++ l') =
  fold_left (fun acc e => match e with VSession k => if k =? n then [] else acc | VSess k e => if k =? n then acc ++ [e] else acc | _ => acc end)
    l' (session_log n l).
Proof. intros. unfold session_log. now rewrite fold_left_app. Qed.

Lemma session_log_passive : forall n l l', Forall passive l' -> session_log n (l ++ l') = session_log n l.
Proof.
  intros n l l' F. rewrite session_log_app. generalize (session_log n l). induction F as [|e l' P F IH]; intro acc; [reflexivity|].
  cbn [fold_left]. destruct e; try contradiction; apply IH.
Qed.

Lemma session_log_other : forall n l l', (forall e, In e l' -> (forall k, e <> VSession k) /\ (forall k x, e <> VSess k x)) ->
  session_log n (l ++ l') = session_log n l.
Proof.
  intros n l l'. rewrite session_log_app. generalize (session_log n l). induction l' as [|e l' IH]; intros acc H; [reflexivity|].
  cbn [fold_left]. destruct (H e (or_introl eq_refl)) as [A B].
  destruct e; try (exfalso; eapply A; reflexivity); try (exfalso; eapply B; reflexivity); apply IH; intros; apply H; now right.
Qed.

Lemma session_log_sess : forall n k l es, session_log n (l ++ map (VSess k) es) = if k =? n then session_log n l ++ es else session_log n l.
Proof.
  intros n k l es. rewrite session_log_app. generalize (session_log n l). induction es as [|e es IH]; intro acc; cbn [map fold_left].
  - destruct (k =? n); [now rewrite app_nil_r|reflexivity].
  - rewrite IH. destruct (k =? n); [now rewrite <- app_assoc|reflexivity].
Qed.

Lemma find_set_session : forall n k x l, find_session n (set_session k x l) =
  if k =? n then option_map (fun _ => x) (find_session n l) else find_session n l.
Proof.
  intros n k x l. induction l as [|[j y] l IH]; cbn [set_session find_session map].
  - now destruct (k =? n).
  - destruct (N.eqb_spec j k) as [->|E]; cbn [find_session].
    + now destruct (N.eqb_spec k n) as [->|E2].
    + destruct (N.eqb_spec j n) as [->|E2].
      * destruct (N.eqb_spec k n) as [->|E3]; [contradiction|reflexivity].
      * exact IH.
Qed.

Lemma part_refl : forall A (l : list A), part l l.
Proof. intros A l. induction l; [constructor|now apply part_take]. Qed.
Lemma part_app : forall A (l1 l2 m1 m2 : list A), part l1 m1 -> part l2 m2 -> part (l1 ++ l2) (m1 ++ m2).
Proof.
  intros A l1 l2 m1 m2 H. revert l2 m2. induction H as [l|x l l' H IH|x l l' H IH]; intros l2 m2 H2; cbn.
  - induction l as [|y l IHl]; [exact H2|]. cbn. now constructor.
  - constructor. now apply IH.
  - apply part_take. now apply IH.
Qed.
Lemma part_count : forall A (f : A -> bool) l l', part l l' -> (count f l <= count f l')%nat.
Proof.
  intros A f l l' H. unfold count. induction H as [l|x l l' H IH|x l l' H IH]; cbn [filter].
  - cbn. lia.
  - destruct (f x); cbn [List.length]; lia.
  - destruct (f x); cbn [List.length]; lia.
Qed.
Lemma part_In : forall A (l l' : list A) x, part l l' -> In x l -> In x l'.
Proof. intros A l l' x H. induction H; cbn; [contradiction|auto|intros [|]; auto]. Qed.

(** The log of the channel is that of a run of the channel alone, on a part of
    what has happened to the channel. *)
Record projected (cfg : config) (n : N) (ops : list vop) (s : server) (l : list (account * sop)) : Prop := {
  pj_log : session_log n (sv_log s) = snd (srun cfg l);
  pj_part : part (map snd l) (happened n ops);
  pj_find : forall x, sv_alive s = true -> find_session n (sv_sessions s) = Some x -> x = fst (srun cfg l);
  pj_auth : Forall (fun y => ac_authenticated (fst y) = true) l
}.

Lemma happened_snoc : forall n ops op, happened n (ops ++ [op]) = happened n ops ++ for_session n op.
Proof. intros. unfold happened. rewrite flat_map_app. cbn. now rewrite app_nil_r. Qed.

(** nothing happens to the channel *)
Lemma projected_idle : forall cfg n ops op s s' l, projected cfg n ops s l ->
  session_log n (sv_log s') = session_log n (sv_log s) ->
  (forall x, sv_alive s' = true -> find_session n (sv_sessions s') = Some x -> sv_alive s = true /\ find_session n (sv_sessions s) = Some x) ->
  projected cfg n (ops ++ [op]) s' l.
Proof.
  intros cfg n ops op s s' l [L P X A] L' F. constructor; [now rewrite L'| | |exact A].
  - rewrite happened_snoc. rewrite <- (app_nil_r (map snd l)). apply part_app; [exact P|constructor].
  - intros x AL Y. destruct (F x AL Y). auto.
Qed.

Lemma session_step_projected : forall cfg n k o ops op s l, sv_alive s = true ->
  ac_authenticated (sv_account s) = true \/ sv_sessions s = [] ->
  projected cfg n ops s l -> for_session n op = (if k =? n then [o] else []) ->
  exists l', projected cfg n (ops ++ [op]) (session_step cfg k o s) l'.
Proof.
  intros cfg n k o ops op s l AL A P FS. unfold session_step. destruct (find_session k (sv_sessions s)) as [x|] eqn:F.
  2:{ exists l. apply projected_idle with (s := s); auto. }
  destruct A as [A|A]; [|rewrite A in F; discriminate].
  destruct (sstep cfg (sv_account s) o x) as [x' es] eqn:S.
  destruct (N.eqb_spec k n) as [->|E].
  - exists (l ++ [(sv_account s, o)]). destruct P as [L H X AA]. pose proof (X x AL F) as EX.
    assert (R : srun cfg (l ++ [(sv_account s, o)]) = (x', snd (srun cfg l) ++ es)).
    { rewrite srun_snoc, <- EX, S. reflexivity. }
    assert (H' : part (map snd (l ++ [(sv_account s, o)])) (happened n (ops ++ [op]))).
    { rewrite happened_snoc, FS, map_app. apply part_app; [exact H|apply part_refl]. }
    assert (AA' : Forall (fun y : account * sop => ac_authenticated (fst y) = true) (l ++ [(sv_account s, o)])).
    { apply Forall_app. split; [exact AA|]. constructor; [exact A|constructor]. }
    assert (L1 : session_log n (sv_log s ++ map (VSess n) es) = snd (srun cfg (l ++ [(sv_account s, o)]))).
    { rewrite session_log_sess, N.eqb_refl, L, R. reflexivity. }
    destruct (existsb _ es).
    + constructor; auto.
      * cbn. rewrite session_log_passive by one_passive. exact L1.
      * cbn. discriminate.
    + constructor; auto. cbn.
      intros y _ Y. rewrite find_set_session, N.eqb_refl, F in Y. cbn in Y. injection Y as <-. rewrite R. auto.
  - exists l. apply projected_idle with (s := s); auto.
    + destruct (existsb _ es).
      * cbn. rewrite session_log_passive by one_passive. rewrite session_log_sess. now destruct (N.eqb_spec k n).
      * cbn. rewrite session_log_sess. now destruct (N.eqb_spec k n).
    + intros y AL' Y. destruct (existsb _ es); [discriminate AL'|]. cbn in Y.
      rewrite find_set_session in Y. now destruct (N.eqb_spec k n).
Qed.

Lemma HandleGlobalRequest_sessions : forall n name data s,
  session_log n (sv_log (HandleGlobalRequest name data s)) = session_log n (sv_log s) /\
  (forall x, find_session n (sv_sessions (HandleGlobalRequest name data s)) = Some x -> find_session n (sv_sessions s) = Some x).
Proof.
  intros n name data s. unfold HandleGlobalRequest. cbv zeta.
  assert (G : forall l, session_log n ((l ++ [VGlobal name data])) = session_log n l).
  { intro l. apply session_log_other. intros e [<-|[]]. split; discriminate. }
  repeat (match goal with |- context [if ?b then _ else _] => destruct b
    | |- context [match parse_bind ?d with _ => _ end] => destruct (parse_bind d) as [[? ?]|]
    | |- context [match DeserializeAuthorizedKeyOptions ?d with _ => _ end] => destruct (DeserializeAuthorizedKeyOptions d)
    | |- context [let '(_, _) := Restrict ?a ?b in _] => destruct (Restrict a b)
    end); (split; [|auto; discriminate]); cbn;
    try (rewrite (session_log_other n (_ ++ [VGlobal name data])); [apply G|intros e [<-|[]]; split; discriminate]); apply G.
Qed.

Lemma find_session_app : forall n l l', find_session n (l ++ l') =
  match find_session n l with Some x => Some x | None => find_session n l' end.
Proof. intros n l l'. induction l as [|[k x] l IH]; [reflexivity|]. cbn. destruct (k =? n); auto. Qed.

Lemma CreateChannel_projected : forall cfg n t d env ops op s l, sv_alive s = true -> projected cfg n ops s l -> for_session n op = [] ->
  exists l', projected cfg n (ops ++ [op]) (CreateChannel t d env s) l'.
Proof.
  intros cfg n t d env ops op s l AL P FS.
  assert (DIE : projected cfg n (ops ++ [op]) (die s) l).
  { apply projected_idle with (s := s); auto; [|discriminate]. cbn. rewrite session_log_passive by one_passive. reflexivity. }
  assert (E1 : forall e, (forall k, e <> VSession k) -> (forall k x, e <> VSess k x) -> projected cfg n (ops ++ [op]) (emit [e] s) l).
  { intros e A B. apply projected_idle with (s := s); auto. cbn. apply session_log_other. intros f [<-|[]]. auto. }
  unfold CreateChannel. cbv zeta. destruct (bytes_eqb t (bs "session")).
  - destruct (sv_no_more_sessions s); [exists l; exact DIE|].
    destruct (find_session (pe_channel env) (sv_sessions s)) as [x|] eqn:F; [exists l; exact DIE|].
    destruct (N.eqb_spec (pe_channel env) n) as [E|E].
    + exists []. constructor.
      * cbn. rewrite session_log_app. cbn. now rewrite E, N.eqb_refl.
      * constructor.
      * cbn. intros x _. rewrite find_session_app. rewrite E in F. rewrite F. cbn. rewrite E, N.eqb_refl. congruence.
      * constructor.
    + exists l. apply projected_idle with (s := s); auto.
      * cbn. rewrite session_log_app. cbn. now destruct (N.eqb_spec (pe_channel env) n).
      * cbn. intros x _. rewrite find_session_app. destruct (find_session n (sv_sessions s)); [auto|]. cbn.
        destruct (N.eqb_spec (pe_channel env) n); [contradiction|discriminate].
  - exists l. repeat (match goal with |- context [if ?b then _ else _] => destruct b
      | |- context [match parse_direct_tcpip ?d with _ => _ end] => destruct (parse_direct_tcpip d) as [[? ?]|]
      | |- context [match ReadString ?d with _ => _ end] => destruct (ReadString d) as [[? ?]|] end);
      solve [exact DIE|apply E1; discriminate].
Qed.

Lemma vstep_projected : forall cfg sid n ops op s l, good cfg s -> projected cfg n ops s l ->
  exists l', projected cfg n (ops ++ [op]) (vstep cfg sid op s) l'.
Proof.
  intros cfg sid n ops op s l G P.
  destruct (sv_alive s) eqn:AL.
  2:{ exists l. rewrite vstep_dead by exact AL. apply projected_idle with (s := s); auto. }
  destruct (is_oauth op) as [[w ->]|NA].
  { destruct (sv_busy s) as [|payload|addr] eqn:B;
      [rewrite oauth_idle by (intros; congruence); exists l; apply projected_idle with (s := s); auto
      | |rewrite oauth_idle by (intros; congruence); exists l; apply projected_idle with (s := s); auto].
    destruct (oauth_log cfg sid w s G) as (es & L & F).
    exists l. apply projected_idle with (s := s); auto.
    - rewrite L. apply session_log_other. intros e J. rewrite Forall_forall in F. specialize (F e J).
      split; intros; intro; subst e; exact F.
    - intros x AL' X. exfalso. pose proof (oauth_cases cfg sid w s payload G AL B) as (a & out & _ & _ & H).
      destruct out as [m|alg blob| |p].
      + destruct H as (_ & _ & (_ & _ & _ & _ & _ & Y) & _). rewrite Y in X. discriminate.
      + destruct H as (_ & _ & (_ & _ & _ & _ & _ & Y) & _). rewrite Y in X. discriminate.
      + destruct H. congruence.
      + destruct H as (_ & _ & _ & _ & _ & _ & _ & Y & _). rewrite Y in X. discriminate. }
  pose proof (vstep_stepped cfg sid op s NA) as ST. remember (vstep cfg sid op s) as s' eqn:E'. clear E' NA.
  destruct ST as [payload env g C A PG|payload env c C A PG|payload env c C A PG|k o NR|op s' ID].
  - exists l. destruct (HandleGlobalRequest_sessions n (gr_request_name g) (gr_data g) s) as [X Y].
    apply projected_idle with (s := s); auto.
  - now apply CreateChannel_projected with (l := l).
  - eapply session_step_projected; eauto. cbn. now rewrite PG.
  - eapply session_step_projected; eauto.
    + destruct (ac_authenticated (sv_account s)) eqn:A; [now left|]. right. destruct (proj2 G AL) as [_ LB _].
      destruct (LB A) as (_ & _ & (_ & _ & _ & _ & _ & Y) & _). exact Y.
    + cbn. destruct o; try reflexivity. exfalso. eapply NR. reflexivity.
  - exists l. destruct ID as [_ _ _ FI _ (es & L & F)]. apply projected_idle with (s := s); auto.
    rewrite L. now apply session_log_passive.
Qed.

Lemma vrun_projected : forall cfg sid peer n ops, Forall op_ok ops ->
  exists l, projected cfg n ops (vrun cfg sid peer ops) l.
Proof.
  intros cfg sid peer n ops. induction ops as [|op ops IH] using rev_ind; intro F.
  - exists []. constructor; [reflexivity|constructor|discriminate|constructor].
  - assert (F1 : Forall op_ok ops) by (apply Forall_app in F; apply F). destruct (IH F1) as [l P].
    rewrite vrun_snoc. exact (vstep_projected cfg sid n ops op _ l (vrun_good cfg sid peer ops F1) P).
Qed.

(** ** Requests, tasks, programs *)

Definition pending (t : task) : bool := match t with TSpawned _ => false | _ => true end.
Definition pend (x : session) : nat := count (fun t => pending (snd t)) (se_tasks x).
Definition ntasks (x : session) : nat := List.length (se_tasks x).

(** the request was answered, or the connection is closed *)
Definition done_at_once (x : session) (r : session * list sevent) : Prop :=
  se_tasks (fst r) = se_tasks x /\ (se_child (fst r) = se_child x \/ se_child (fst r) = false) /\
  count is_started (snd r) = 0%nat /\ (count is_answer (snd r) <= 1)%nat.
Definition suspended (x : session) (r : session * list sevent) : Prop :=
  exists t, pending t = true /\ r = (add_task t x, []).

Lemma done_stderr : forall x text, done_at_once x (SetStderrString text x).
Proof. intros. split; [reflexivity|]. split; [now right|]. split; reflexivity. Qed.
Lemma done_error : forall cfg x text, done_at_once x (OnSpawnError cfg text x).
Proof.
  intros. unfold OnSpawnError. destruct (cf_verbose_errors cfg); [apply done_stderr|].
  split; [reflexivity|]. split; [now left|]. split; reflexivity.
Qed.
Ltac done_now := split; [reflexivity|]; split; [now left|]; split; cbn; lia.

Lemma Exec_shape : forall cfg a cmd x, done_at_once x (Exec cfg a cmd x) \/ suspended x (Exec cfg a cmd x).
Proof.
  intros cfg a cmd x. unfold Exec. cbv zeta.
  repeat (match goal with
    | |- context [if ?b then _ else _] => destruct b
    | |- context [match ?c with Some _ => _ | None => _ end] => destruct c
    end);
  solve [left; apply done_stderr|left; apply done_error|left; done_now|right; eexists; split; [|reflexivity]; reflexivity].
Qed.

Lemma OnRequest_shape : forall cfg a t d ok x,
  done_at_once x (OnRequest cfg a t d ok x) \/
  (se_child x = false /\ is_start (ORequest t d ok) = true /\ suspended x (OnRequest cfg a t d ok x)).
Proof.
  intros cfg a t d ok x. unfold OnRequest, WasStarted. destruct (se_child x) eqn:C.
  { left. unfold OnLateRequest. repeat (match goal with
      | |- context [if ?b then _ else _] => destruct b
      | |- context [match ?c with Some _ => _ | None => _ end] => destruct c end); done_now. }
  cbn [is_start]. destruct (bytes_eqb t (bs "exec")).
  { destruct (parse_string d); [|left; done_now]. destruct (MAX_ENV_SIZE <? _).
    - left. destruct (cf_exec_reject_stderr cfg); [apply done_stderr|done_now].
    - destruct (Exec_shape cfg a (Some (c_str b)) x); [now left|right; auto]. }
  destruct (bytes_eqb t (bs "shell")).
  { destruct (Exec_shape cfg a None x); [now left|right; auto]. }
  destruct (bytes_eqb t (bs "subsystem")).
  { destruct (parse_string d); [|left; done_now]. destruct (bytes_eqb b SFTP); [|left; done_now].
    destruct (negb (ac_allow_sftp a)); [left; done_now|]. destruct (se_tty x); [left; done_now|].
    right. repeat split. eexists. split; [|reflexivity]. reflexivity. }
  left. unfold SetEnv. cbv zeta. repeat (match goal with
      | |- context [if ?b then _ else _] => destruct b
      | |- context [match parse_pty ?c with Some _ => _ | None => _ end] => destruct (parse_pty c)
      | |- context [match parse_env ?c with Some _ => _ | None => _ end] => destruct (parse_env c) as [[? ?]|] end);
    cbn beta iota; first [done_now | split; [reflexivity|]; split; [now left|]; split; reflexivity].
Qed.

Lemma OnRequest_child : forall cfg a t d ok x, se_child x = true -> se_child (fst (OnRequest cfg a t d ok x)) = true.
Proof.
  intros cfg a t d ok x C. unfold OnRequest, WasStarted. rewrite C. unfold OnLateRequest.
  repeat (match goal with
      | |- context [if ?b then _ else _] => destruct b
      | |- context [match ?c with Some _ => _ | None => _ end] => destruct c end); exact C.
Qed.

(** the program was started, or this has failed *)
Definition launched (x : session) (r : session * list sevent) : Prop :=
  exists m p, r = (add_task (TSpawned m) (with_child true x), [SStarted p]).

Lemma OSpawner_shape : forall cfg a n ans x,
  (sstep cfg a (OSpawner n ans) x = (x, [])) \/
  (exists k t, In (k, t) (se_tasks x) /\ k = n /\ pending t = true /\
    let y := remove_task n x in
    (done_at_once y (sstep cfg a (OSpawner n ans) x) \/ launched y (sstep cfg a (OSpawner n ans) x))).
Proof.
  intros cfg a n ans x. unfold sstep. destruct (find _ (se_tasks x)) as [[k t]|] eqn:F; [|now left].
  apply find_some in F as [I E]. apply N.eqb_eq in E. cbn in E.
  destruct t as [cmd|cmd eo|name path arg eo| |m]; [right; exists k, (TExec cmd)|right; exists k, (TRsync cmd eo)
    |right; exists k, (TGit name path arg eo)|right; exists k, TSftp|now left];
    (split; [exact I|]; split; [exact E|]; split; [reflexivity|]).
  - unfold ExecShell. cbv zeta. destruct (ShellIdentity a); [|left; done_now]. destruct (negb (sa_ok ans)); [left; apply done_error|].
    right. destruct (negb (is_nil _)); eexists; eexists; reflexivity.
  - unfold ExecRsync. destruct (eo_execute eo); [|left; apply done_error]. destruct (negb (sa_ok ans)); [left; apply done_error|].
    right. eexists; eexists; reflexivity.
  - unfold ExecGit. cbv zeta. destruct (negb (sa_ok ans)); [left; apply done_error|].
    right. eexists; eexists; reflexivity.
  - unfold ExecSftp. cbv zeta. destruct (se_tty _); [left; done_now|]. repeat (match goal with
      | |- context [if ?b then _ else _] => destruct b
      | |- context [match ?c with Some _ => _ | None => _ end] => destruct c end);
    solve [left; apply done_error|left; done_now|right; eexists; eexists; reflexivity].
Qed.

Lemma OSpawned_shape : forall cfg a n ok x,
  (sstep cfg a (OSpawned n ok) x = (x, [])) \/
  (exists k t, In (k, t) (se_tasks x) /\ k = n /\ pending t = false /\
    done_at_once (remove_task n x) (sstep cfg a (OSpawned n ok) x) /\
    (ok = true -> fst (sstep cfg a (OSpawned n ok) x) = remove_task n x)).
Proof.
  intros cfg a n ok x. unfold sstep. destruct (find _ (se_tasks x)) as [[k t]|] eqn:F; [|now left].
  apply find_some in F as [I E]. apply N.eqb_eq in E. cbn in E. destruct t; try now left. right.
  exists k, (TSpawned failure). split; [exact I|]. split; [exact E|]. split; [reflexivity|].
  destruct ok; [split; [done_now|reflexivity]|]. split; [apply done_error|discriminate].
Qed.

Lemma count_app : forall A (f : A -> bool) l l', count f (l ++ l') = (count f l + count f l')%nat.
Proof. intros. unfold count. now rewrite filter_app, app_length. Qed.
Lemma count_le : forall A (f : A -> bool) l, (count f l <= List.length l)%nat.
Proof. intros. unfold count. induction l as [|x l IH]; cbn; [lia|]. destruct (f x); cbn; lia. Qed.

Lemma filter_drop : forall A (p : A -> bool) l x, In x l -> p x = false -> (List.length (filter p l) < List.length l)%nat.
Proof.
  intros A p l x. induction l as [|y l IH]; [contradiction|]. intros [->|I] P; cbn.
  - rewrite P. pose proof (count_le A p l) as H. unfold count in H. lia.
  - specialize (IH I P). destruct (p y); cbn; lia.
Qed.
Lemma filter_count : forall A (f p : A -> bool) l, (count f (filter p l) <= count f l)%nat.
Proof. intros A f p l. unfold count. induction l as [|y l IH]; cbn; [lia|]. destruct (p y); cbn; destruct (f y); cbn; lia. Qed.
Lemma filter_count_drop : forall A (f p : A -> bool) l x, In x l -> p x = false -> f x = true -> (count f (filter p l) < count f l)%nat.
Proof.
  intros A f p l x. induction l as [|y l IH]; [contradiction|]. intros [->|I] P F; cbn.
  - rewrite P. pose proof (filter_count A f p l) as H. unfold count in *. cbn. rewrite F. cbn. lia.
  - specialize (IH I P F). unfold count in *. cbn. destruct (p y); cbn; destruct (f y); cbn; lia.
Qed.

Lemma pend_add : forall t x, pend (add_task t x) = (pend x + (if pending t then 1 else 0))%nat.
Proof. intros. unfold pend. cbn [add_task se_tasks]. rewrite count_app. f_equal. unfold count. cbn. destruct (pending t); reflexivity. Qed.
Lemma ntasks_add : forall t x, ntasks (add_task t x) = S (ntasks x).
Proof. intros. unfold ntasks. cbn. rewrite app_length. cbn. lia. Qed.
Lemma pend_remove : forall k t x, In (k, t) (se_tasks x) -> pending t = true -> (pend (remove_task k x) < pend x)%nat.
Proof.
  intros. unfold pend, remove_task. cbn [with_tasks se_tasks]. eapply filter_count_drop; eauto. cbn. now rewrite N.eqb_refl.
Qed.
Lemma pend_remove_le : forall k x, (pend (remove_task k x) <= pend x)%nat.
Proof. intros. apply filter_count. Qed.
Lemma ntasks_remove : forall k t x, In (k, t) (se_tasks x) -> (ntasks (remove_task k x) < ntasks x)%nat.
Proof. intros. unfold ntasks, remove_task. cbn [with_tasks se_tasks]. eapply filter_drop; eauto. cbn. now rewrite N.eqb_refl. Qed.

Lemma pend_same : forall x y, se_tasks y = se_tasks x -> pend y = pend x.
Proof. intros x y E. unfold pend. now rewrite E. Qed.
Lemma ntasks_same : forall x y, se_tasks y = se_tasks x -> ntasks y = ntasks x.
Proof. intros x y E. unfold ntasks. now rewrite E. Qed.

(** every program, every answer belongs to a request *)
Lemma sstep_counts : forall cfg a o x, let r := sstep cfg a o x in
  (count is_started (snd r) + pend (fst r) <= pend x + (if is_start o then 1 else 0))%nat /\
  (count is_answer (snd r) + ntasks (fst r) <= ntasks x + (if is_request o then 1 else 0))%nat.
Proof.
  intros cfg a o x. cbv zeta. destruct o as [t d ok|n ans|n ok| |].
  - change (sstep cfg a (ORequest t d ok) x) with (OnRequest cfg a t d ok x).
    destruct (OnRequest_shape cfg a t d ok x) as [(T & _ & S & A)|(_ & S & t' & P & ->)].
    + rewrite (pend_same _ _ T), (ntasks_same _ _ T), S. cbn [is_request]. lia.
    + rewrite S. cbn [fst snd is_request]. rewrite pend_add, ntasks_add, P. cbn. lia.
  - cbn [is_start is_request]. destruct (OSpawner_shape cfg a n ans x) as [->|(k & t & I & -> & P & [(T & _ & S & A)|(m & p & ->)])].
    + cbn. lia.
    + rewrite (pend_same _ _ T), (ntasks_same _ _ T), S.
      pose proof (pend_remove_le n x). pose proof (ntasks_remove _ _ _ I). lia.
    + cbn [fst snd]. rewrite pend_add, ntasks_add. pose proof (pend_remove _ _ _ I P). pose proof (ntasks_remove _ _ _ I).
      change (pend (with_child true (remove_task n x))) with (pend (remove_task n x)).
      change (ntasks (with_child true (remove_task n x))) with (ntasks (remove_task n x)). change (count is_started [SStarted p]) with 1%nat. change (count is_answer [SStarted p]) with 0%nat. cbn [pending]. lia.
  - cbn [is_start is_request]. destruct (OSpawned_shape cfg a n ok x) as [->|(k & t & I & -> & P & (T & _ & S & A) & _)].
    + cbn. lia.
    + rewrite (pend_same _ _ T), (ntasks_same _ _ T), S.
      pose proof (pend_remove_le n x). pose proof (ntasks_remove _ _ _ I). lia.
  - cbn [sstep fst snd is_start is_request]. change (pend (with_child false x)) with (pend x). change (ntasks (with_child false x)) with (ntasks x). cbn [count filter List.length]. unfold count. cbn. lia.
  - cbn [sstep fst snd is_start is_request]. change (pend (with_tty false x)) with (pend x). change (ntasks (with_tty false x)) with (ntasks x). unfold count. cbn. lia.
Qed.

Lemma srun_counts : forall cfg l,
  (count is_started (snd (srun cfg l)) + pend (fst (srun cfg l)) <= count is_start (map snd l))%nat /\
  (count is_answer (snd (srun cfg l)) + ntasks (fst (srun cfg l)) <= count is_request (map snd l))%nat.
Proof.
  intros cfg l. induction l as [|[a o] l [IH1 IH2]] using rev_ind; [cbn; lia|].
  rewrite srun_snoc, map_app, !count_app. cbn [fst snd map].
  destruct (sstep_counts cfg a o (fst (srun cfg l))) as [S1 S2].
  assert (C : forall f : sop -> bool, count f [o] = if f o then 1%nat else 0%nat) by (intro f; unfold count; cbn; now destruct (f o)).
  rewrite !C. rewrite !count_app. lia.
Qed.
