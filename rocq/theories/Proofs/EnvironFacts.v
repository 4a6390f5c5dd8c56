(** Facts about the environment of programs (C84). *)

From Coq Require Import NArith List Bool Lia String.
From Verif.Base Require Import Bytes.
From Verif.Spec Require Import SessionSpec SessionRun EnvironSpec.
From Verif.Model Require Import Wire StringList KeyOptions Auth Session Server Environ.
From Verif.Proofs Require Import KeyFacts.
Import ListNotations.
Open Scope N_scope.

Local Arguments bs : simpl never.

(** ** Names *)

Lemma defines_unique : forall e n v n' v', var_name n -> var_name n' -> defines e n v -> defines e n' v' -> n = n' /\ v = v'.
Proof.
  unfold defines, var_name. intros e n. revert e. induction n as [|b n IH]; intros e v n' v' V V' D D'; subst e.
  - destruct n' as [|b' n']; cbn in D'; [injection D' as D'|injection D' as E D'].
    + split; [reflexivity|exact D'].
    + subst b'. exfalso. apply V'. left. reflexivity.
  - destruct n' as [|b' n']; cbn in D'; injection D' as E D'.
    + subst b. exfalso. apply V. left. reflexivity.
    + subst b'. destruct (IH (n ++ 61 :: v) v n' v') as (-> & ->); auto.
      * intro H. apply V. right. exact H.
      * intro H. apply V'. right. exact H.
Qed.

Definition defb (e n : bytes) : bool := starts_with e (n ++ [61]).

Lemma starts_with_spec : forall s p, starts_with s p = true <-> exists r, s = p ++ r.
Proof.
  intros s p. revert s. induction p as [|b p IH]; intros s; cbn.
  - split; [exists s; reflexivity|]. destruct s; reflexivity.
  - destruct s as [|c s]; cbn.
    + split; [discriminate|]. intros (r & H). discriminate.
    + rewrite andb_true_iff, IH, N.eqb_eq. split.
      * intros (-> & r & ->). exists r. reflexivity.
      * intros (r & H). injection H as -> ->. split; [reflexivity|exists r; reflexivity].
Qed.

Lemma defb_spec : forall e n, defb e n = true <-> exists v, defines e n v.
Proof.
  intros e n. unfold defb, defines. rewrite starts_with_spec. split; intros (r & H); exists r; rewrite H, <- ?app_assoc; reflexivity.
Qed.

Lemma defb_false : forall e n, defb e n = false -> forall v, ~ defines e n v.
Proof. intros e n H v D. assert (defb e n = true) by (apply defb_spec; eauto). congruence. Qed.

(** ** Lookup *)

Lemma first_or_undefined : forall env n, (exists v, first_value env n v) \/ undefined env n.
Proof.
  induction env as [|e env IH]; intros n.
  - right. intros e v [].
  - destruct (defb e n) eqn:E.
    + left. apply defb_spec in E. destruct E as (v & D). exists v, [], e, env. repeat split; auto.
    + pose proof (defb_false _ _ E) as NE. destruct (IH n) as [(v & b & x & a & -> & D & B)|U].
      * left. exists v, (e :: b), x, a. repeat split; auto. intros e' v' [<-|I]; [apply NE|now apply B].
      * right. intros e' v' [<-|I]; [apply NE|now apply U].
Qed.

Lemma first_app : forall a b n v, first_value a n v -> first_value (a ++ b) n v.
Proof.
  intros a b n v (x & e & y & -> & D & B). exists x, e, (y ++ b). rewrite <- app_assoc. auto.
Qed.

Lemma first_skip : forall a b n v, undefined a n -> first_value b n v -> first_value (a ++ b) n v.
Proof.
  intros a b n v U (x & e & y & -> & D & B). exists (a ++ x), e, y. rewrite <- app_assoc. repeat split; auto.
  intros e' v' I. apply in_app_iff in I. destruct I; [now apply U|now apply B].
Qed.

Lemma undefined_app : forall a b n, undefined a n -> undefined b n -> undefined (a ++ b) n.
Proof. intros a b n A B e v I. apply in_app_iff in I. destruct I; [now apply A|now apply B]. Qed.

Lemma undefined_inv : forall a b n, undefined (a ++ b) n -> undefined a n /\ undefined b n.
Proof. intros a b n U. split; intros e v I; apply U; apply in_app_iff; auto. Qed.

Lemma first_functional : forall env n v v', var_name n -> first_value env n v -> first_value env n v' -> v = v'.
Proof.
  intros env n v v' V (x & e & y & E & D & B) (x' & e' & y' & E' & D' & B').
  assert (L : forall (x : list bytes) e y x' e' y', x ++ e :: y = x' ++ e' :: y' -> (x = x' /\ e = e') \/ In e x' \/ In e' x).
  { clear. induction x as [|b x IH]; intros e y x' e' y' H.
    - destruct x' as [|b' x']; cbn in H; injection H as H1 H2; subst; auto. right. left. left. reflexivity.
    - destruct x' as [|b' x']; cbn in H; injection H as H1 H2; subst.
      + right. right. left. reflexivity.
      + destruct (IH _ _ _ _ _ H2) as [(-> & ->)|[I|I]]; auto.
        * right. left. right. exact I.
        * right. right. right. exact I. }
  rewrite E in E'. destruct (L _ _ _ _ _ _ E') as [(_ & ->)|[I|I]].
  - destruct (defines_unique _ _ _ _ _ V V D D') as (_ & ->). reflexivity.
  - exfalso. exact (B' _ _ I D).
  - exfalso. exact (B _ _ I D').
Qed.

Lemma first_app_inv : forall a b n v, first_value (a ++ b) n v -> var_name n -> undefined a n -> first_value b n v.
Proof.
  intros a b n v F V U. destruct (first_or_undefined b n) as [(v' & F')|U'].
  - rewrite (first_functional _ _ _ _ V F (first_skip _ _ _ _ U F')). exact F'.
  - destruct F as (x & e & y & E & D & _). exfalso. apply (undefined_app _ _ _ U U' e v); [|exact D].
    rewrite E. apply in_app_iff. right. left. reflexivity.
Qed.

(** ** C strings *)

Lemma c_str_clean : forall s, ~ In 0 (c_str s).
Proof.
  induction s as [|b s IH]; cbn; [intros []|]. destruct (b =? 0) eqn:E; [intros []|]. apply N.eqb_neq in E.
  intros [H|H]; [congruence|contradiction].
Qed.

Lemma c_str_same : forall s, ~ In 0 s -> c_str s = s.
Proof.
  induction s as [|b s IH]; cbn; intros H; [reflexivity|]. destruct (b =? 0) eqn:E.
  - apply N.eqb_eq in E. subst b. exfalso. apply H. left. reflexivity.
  - rewrite IH; [reflexivity|]. intro X. apply H. right. exact X.
Qed.

Lemma c_str_cut : forall s r, ~ In 0 s -> c_str (s ++ 0 :: r) = s.
Proof.
  induction s as [|b s IH]; cbn; intros r H; [reflexivity|]. destruct (b =? 0) eqn:E.
  - apply N.eqb_eq in E. subst b. exfalso. apply H. left. reflexivity.
  - rewrite IH; [reflexivity|]. intro X. apply H. right. exact X.
Qed.

Lemma c_str_tail : forall s, c_str s = s \/ exists r, s = c_str s ++ 0 :: r.
Proof.
  induction s as [|b s IH]; [left; reflexivity|]. cbn [c_str]. destruct (b =? 0) eqn:E.
  - apply N.eqb_eq in E. subst b. right. exists s. reflexivity.
  - destruct IH as [H|(r & H)]; [left; now rewrite H|]. right. exists r. cbn [app]. now rewrite <- H.
Qed.

Lemma until_c_str : forall s t, until_null s t <-> t = c_str s.
Proof.
  intros s t. split.
  - intros U. destruct U as [s H|s r H]; [now rewrite c_str_same|now rewrite c_str_cut].
  - intros ->. destruct (c_str_tail s) as [H|(r & H)].
    + rewrite H. apply un_none. rewrite <- H. apply c_str_clean.
    + rewrite H at 1. apply un_cut. apply c_str_clean.
Qed.

Lemma requests_entry : forall v n x, requests v n x <-> defines (env_entry (fst v) (snd v)) n x.
Proof.
  intros v n x. unfold requests, env_entry. split.
  - intros (e & U & D). apply until_c_str in U. now subst e.
  - intros D. eexists. split; [now apply until_c_str|exact D].
Qed.

(** A name which is literal in the program. *)
Lemma entry_defines : forall n v, ~ In 0 n -> defines (env_entry n v) n (c_str v).
Proof.
  intros n v H. unfold defines, env_entry. induction n as [|b n IH]; cbn [app c_str].
  - reflexivity.
  - destruct (b =? 0) eqn:E; [apply N.eqb_eq in E; subst b; exfalso; apply H; left; reflexivity|].
    rewrite IH; [reflexivity|]. intro X. apply H. right. exact X.
Qed.

Lemma entry_other : forall n v m, ~ In 0 n -> var_name n -> var_name m -> n <> m -> undefined [env_entry n v] m.
Proof.
  intros n v m Z V W NE e x [<-|[]] D. destruct (defines_unique _ _ _ _ _ V W (entry_defines n v Z) D) as (E & _). contradiction.
Qed.

(** ** The environment *)

Lemma environment_split : forall sy ex p, Environment sy ex p =
  Environment sy ex (without_client p) ++ map (fun v => env_entry (fst v) (snd v)) (st_env p).
Proof. intros sy ex p. unfold Environment. cbn [without_client st_env st_program st_identity st_user st_original_command map]. now rewrite app_nil_r. Qed.

Lemma client_first : forall vars n value, var_name n ->
  (first_value (map (fun v => env_entry (fst v) (snd v)) (rev vars)) n value <->
   exists before v after, vars = before ++ v :: after /\ requests v n value /\ forall w x, In w after -> ~ requests w n x).
Proof.
  intros vars n value V. split.
  - intros (b & e & a & E & D & B). apply map_eq_app in E. destruct E as (l1 & l2 & E & <- & E2).
    apply map_eq_cons in E2. destruct E2 as (v & l3 & -> & <- & <-).
    exists (rev l3), v, (rev l1). split; [|split].
    + rewrite <- (rev_involutive vars), E, rev_app_distr. cbn [rev]. now rewrite <- app_assoc.
    + now apply requests_entry.
    + intros w x I R. apply in_rev in I. apply requests_entry in R. apply (B (env_entry (fst w) (snd w)) x); [|exact R].
      apply in_map_iff. exists w. auto.
  - intros (b & v & a & -> & R & B). rewrite rev_app_distr. cbn [rev]. rewrite <- app_assoc. cbn [app]. rewrite map_app. cbn [map].
    exists (map (fun v => env_entry (fst v) (snd v)) (rev a)), (env_entry (fst v) (snd v)), (map (fun v => env_entry (fst v) (snd v)) (rev b)).
    split; [reflexivity|]. split; [now apply requests_entry|].
    intros e x I D. apply in_map_iff in I. destruct I as (w & <- & I). apply in_rev in I. apply (B w x I). now apply requests_entry.
Qed.

(** Names which are literals. *)
Lemma no_null : forall s, forallb (fun b => negb (b =? 0)) s = true -> ~ In 0 s.
Proof. intros s H J. rewrite forallb_forall in H. specialize (H 0 J). discriminate. Qed.
Lemma no_equals : forall s, forallb (fun b => negb (b =? 61)) s = true -> var_name s.
Proof. intros s H J. rewrite forallb_forall in H. specialize (H 61 J). discriminate. Qed.

(** The entries before those of the options. *)
Definition shell_entries (sy : system) (user path : bytes) : list bytes :=
  [env_entry (bs "USER") user; env_entry (bs "LOGNAME") user; env_entry (bs "SHELL") path] ++ PrepareAddressEnv sy.

Lemma shell_entries_named : forall sy user path,
  exists client connection,
    shell_entries sy user path =
      map (fun v => env_entry (fst v) (snd v))
        [(bs "USER", user); (bs "LOGNAME", user); (bs "SHELL", path); (bs "SSH_CLIENT", client); (bs "SSH_CONNECTION", connection)] /\
    client = ep_host (sy_peer sy) ++ 32 :: decimal (ep_port (sy_peer sy)) ++ 32 :: decimal (ep_port (sy_local sy)) /\
    connection = ep_host (sy_peer sy) ++ 32 :: decimal (ep_port (sy_peer sy)) ++ 32 :: ep_host (sy_local sy) ++
      32 :: decimal (ep_port (sy_local sy)).
Proof. intros. do 2 eexists. split; [reflexivity|]. split; reflexivity. Qed.

Lemma prepare_exec_entries : forall sy ex user path i, exists r,
  PrepareExecEnv sy ex user path i = shell_entries sy user path ++ OptionsEnv sy i ++ r.
Proof.
  intros. change (PrepareExecEnv sy ex user path i) with
    (if ex_agent ex then PrepareHome sy i (shell_entries sy user path ++ OptionsEnv sy i) ++ [env_entry (bs "SSH_AUTH_SOCK") AGENT_PATH]
     else PrepareHome sy i (shell_entries sy user path ++ OptionsEnv sy i)).
  assert (H : exists r, PrepareHome sy i (shell_entries sy user path ++ OptionsEnv sy i) =
    (shell_entries sy user path ++ OptionsEnv sy i) ++ r).
  { unfold PrepareHome. destruct (sy_container_home sy i); [destruct (HasEnv _ _)|].
    - exists []. now rewrite app_nil_r.
    - eexists. reflexivity.
    - exists []. now rewrite app_nil_r. }
  destruct H as (r & ->). destruct (ex_agent ex); rewrite <- !app_assoc; eexists; reflexivity.
Qed.

Lemma shell_environment : forall sy ex p path rest, st_program p = Shell path rest \/ st_program p = ShellCommand path rest ->
  exists r, Environment sy ex p = shell_entries sy (st_user p) path ++ OptionsEnv sy (st_identity p) ++ r.
Proof.
  intros sy ex p path rest P. destruct (prepare_exec_entries sy ex (st_user p) path (st_identity p)) as (r & H).
  unfold Environment. destruct P as [-> | ->]; rewrite H; rewrite <- !app_assoc; eexists; reflexivity.
Qed.

(** Lookup in a list of named entries. *)
Lemma named_first : forall l n v, Forall (fun x => ~ In 0 (fst x) /\ var_name (fst x)) l -> var_name n ->
  (exists before after, l = before ++ (n, v) :: after /\ ~ In n (map fst before)) ->
  first_value (map (fun x => env_entry (fst x) (snd x)) l) n (c_str v).
Proof.
  intros l n v F V (b & a & -> & NI). apply Forall_app in F. destruct F as [FB FA]. rewrite map_app. cbn [map fst snd].
  exists (map (fun x => env_entry (fst x) (snd x)) b), (env_entry n v), (map (fun x => env_entry (fst x) (snd x)) a).
  split; [reflexivity|]. split; [apply entry_defines; inversion FA; subst; cbn in *; tauto|].
  intros e x I. apply in_map_iff in I. destruct I as (w & <- & I). rewrite Forall_forall in FB. destruct (FB w I) as (Z & W).
  apply (entry_other (fst w) (snd w) n Z W V); [|left; reflexivity]. intro E. apply NI. rewrite <- E. now apply in_map.
Qed.

Lemma named_undefined : forall l n, Forall (fun x => ~ In 0 (fst x) /\ var_name (fst x)) l -> var_name n -> ~ In n (map fst l) ->
  undefined (map (fun x => env_entry (fst x) (snd x)) l) n.
Proof.
  intros l n FB V NI e x I. apply in_map_iff in I. destruct I as (w & <- & I). rewrite Forall_forall in FB. destruct (FB w I) as (Z & W).
  apply (entry_other (fst w) (snd w) n Z W V); [|left; reflexivity]. intro E. apply NI. rewrite <- E. now apply in_map.
Qed.

Lemma has_env_spec : forall n env, HasEnv n env = false <-> undefined env n.
Proof.
  intros n env. unfold HasEnv. split.
  - intros H e v I D. assert (X : existsb (fun e => starts_with e (n ++ [61])) env = true).
    { apply existsb_exists. exists e. split; [exact I|]. apply (proj2 (defb_spec e n)). eauto. }
    congruence.
  - intros U. destruct (existsb _ env) eqn:E; [|reflexivity]. apply existsb_exists in E. destruct E as (e & I & D).
    apply defb_spec in D. destruct D as (v & D). exfalso. exact (U e v I D).
Qed.

Lemma home_first : forall sy i env h, sy_container_home sy i = Some h -> undefined env (bs "HOME") ->
  first_value (PrepareHome sy i env) (bs "HOME") (c_str h).
Proof.
  intros sy i env h H U. unfold PrepareHome. rewrite H. rewrite (proj2 (has_env_spec _ _) U).
  apply first_skip; [exact U|]. exists [], (env_entry (bs "HOME") h), []. split; [reflexivity|].
  split; [apply entry_defines; apply no_null; reflexivity|]. intros e v [].
Qed.

(** Which of the server's names are in a list of entries is decided by
    computation. *)
Ltac names := repeat (constructor; [split; [apply no_null; reflexivity|apply no_equals; reflexivity]|]); constructor.
Ltac not_there := let H := fresh in intro H; vm_compute in H; repeat (destruct H as [H|H]; [discriminate H|]); exact H.

Lemma shell_entries_undefined : forall sy user path n, var_name n ->
  ~ In n [bs "USER"; bs "LOGNAME"; bs "SHELL"; bs "SSH_CLIENT"; bs "SSH_CONNECTION"] -> undefined (shell_entries sy user path) n.
Proof.
  intros sy user path n V NI. destruct (shell_entries_named sy user path) as (c & k & -> & _).
  apply named_undefined; [names|exact V|exact NI].
Qed.

Lemma environment_home : forall sy ex p h, sy_container_home sy (st_identity p) = Some h ->
  undefined (OptionsEnv sy (st_identity p)) (bs "HOME") -> first_value (Environment sy ex p) (bs "HOME") (c_str h).
Proof.
  intros sy ex p h H U. unfold Environment. apply first_app.
  assert (V : var_name (bs "HOME")) by (apply no_equals; reflexivity).
  assert (S : forall path, first_value (PrepareExecEnv sy ex (st_user p) path (st_identity p)) (bs "HOME") (c_str h)).
  { intros path. unfold PrepareExecEnv.
    assert (F : first_value (PrepareHome sy (st_identity p)
      ((shell_entries sy (st_user p) path) ++ OptionsEnv sy (st_identity p))) (bs "HOME") (c_str h)).
    { apply home_first; [exact H|]. apply undefined_app; [|exact U]. apply shell_entries_undefined; [exact V|not_there]. }
    unfold shell_entries in F. destruct (ex_agent ex); [apply first_app|]; exact F. }
  destruct (st_program p).
  - apply first_app, S.
  - apply first_app, S.
  - unfold PrepareSftpEnv. apply home_first; [exact H|]. apply undefined_app; [|exact U].
    destruct (ex_system_sftp ex).
    + apply (named_undefined [(bs "USER", st_user p); (bs "LOGNAME", st_user p)]); [names|exact V|not_there].
    + apply (named_undefined [(bs "USER", st_user p)]); [names|exact V|not_there].
  - unfold PrepareServiceEnv. apply home_first; assumption.
  - unfold PrepareServiceEnv. apply home_first; assumption.
Qed.

Lemma environment_original : forall sy ex p cmd, is_shell (st_program p) = true -> st_original_command p = Some cmd ->
  undefined (OptionsEnv sy (st_identity p)) (bs "SSH_ORIGINAL_COMMAND") ->
  first_value (Environment sy ex p) (bs "SSH_ORIGINAL_COMMAND") (c_str cmd).
Proof.
  intros sy ex p cmd S O U. unfold Environment. apply first_app.
  assert (V : var_name (bs "SSH_ORIGINAL_COMMAND")) by (apply no_equals; reflexivity).
  assert (B : forall path, undefined (PrepareExecEnv sy ex (st_user p) path (st_identity p)) (bs "SSH_ORIGINAL_COMMAND")).
  { intros path. unfold PrepareExecEnv, PrepareHome.
    assert (F : undefined (shell_entries sy (st_user p) path ++ OptionsEnv sy (st_identity p)) (bs "SSH_ORIGINAL_COMMAND")).
    { apply undefined_app; [|exact U]. apply shell_entries_undefined; [exact V|not_there]. }
    unfold shell_entries in F.
    assert (A : undefined [env_entry (bs "SSH_AUTH_SOCK") AGENT_PATH] (bs "SSH_ORIGINAL_COMMAND")).
    { apply (named_undefined [(bs "SSH_AUTH_SOCK", AGENT_PATH)]); [names|exact V|not_there]. }
    assert (H : forall h, undefined [env_entry (bs "HOME") h] (bs "SSH_ORIGINAL_COMMAND")).
    { intros h. apply (named_undefined [(bs "HOME", h)]); [names|exact V|not_there]. }
    destruct (sy_container_home sy (st_identity p)); [destruct (HasEnv _ _)|]; destruct (ex_agent ex);
      repeat first [exact F | exact A | apply H | apply undefined_app]. }
  assert (L : first_value [env_entry (bs "SSH_ORIGINAL_COMMAND") cmd] (bs "SSH_ORIGINAL_COMMAND") (c_str cmd)).
  { apply (named_first [(bs "SSH_ORIGINAL_COMMAND", cmd)]); [names|exact V|]. exists [], []. split; [reflexivity|intros []]. }
  destruct (st_program p); try discriminate S; rewrite O; (apply first_skip; [apply B|exact L]).
Qed.

Lemma session_log_in : forall n e log, In e (session_log n log) -> In (VSess n e) log.
Proof.
  intros n e log. unfold session_log. change (In e (fold_left (fun acc e =>
    match e with VSession k => if k =? n then [] else acc | VSess k e => if k =? n then acc ++ [e] else acc | _ => acc end) log []) ->
    In (VSess n e) log).
  induction log as [|x log IH] using rev_ind; [intros []|]. rewrite fold_left_app. cbn [fold_left]. intros J. apply in_app_iff.
  destruct x; try (left; apply IH; exact J).
  - destruct (n0 =? n); [contradiction J|]. left. now apply IH.
  - destruct (n0 =? n) eqn:E; [|left; now apply IH]. apply N.eqb_eq in E. subst n0. apply in_app_iff in J.
    destruct J as [J|[<-|[]]]; [left; now apply IH|right; left; reflexivity].
Qed.

Lemma flat_map_none : forall A B (f : A -> list B) l, (forall x, In x l -> f x = []) -> flat_map f l = [].
Proof.
  intros A B f l. induction l as [|x l IH]; intros H; [reflexivity|]. cbn. rewrite (H x (or_introl eq_refl)).
  apply IH. intros y I. apply H. right. exact I.
Qed.
