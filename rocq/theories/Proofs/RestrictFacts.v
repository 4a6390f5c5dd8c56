(** Facts about restrictions of a connection over its whole life (C34,
    C37, C39 to C41). *)

From Coq Require Import NArith List Bool Lia String.
From Verif.Base Require Import Bytes.
From Verif.Spec Require Import WireSpec KeySpec AuthSpec SessionSpec.
From Verif.Model Require Import Wire Frame Packets StringList KeyOptions Auth Session Server.
From Verif.Proofs Require Import WireFacts KeyFacts AuthFacts ServerFacts SessionFacts.
Import ListNotations.
Open Scope N_scope.

Local Arguments bs : simpl never.

(** ** Answers of the translation server *)

Lemma AuthMethod_exec : forall cfg w sid payload user method d methods pa arch sticky a b out,
  AuthMethod cfg w sid payload user method d methods pa arch sticky a = (b, out) ->
  ac_allow_exec b = ac_allow_exec a.
Proof.
  intros cfg w sid payload user method d methods pa arch sticky a b out H.
  destruct out as [m|alg blob| |p].
  1-3: apply AuthMethod_failed in H; [apply H|auto].
  unfold AuthMethod in H. destruct (bytes_eqb method (bs "publickey")).
  - unfold AuthPublicKey in H.
    destruct (ReadBool d) as [[ws d1]|]; [|discriminate].
    destruct (ReadString d1) as [[alg d2]|]; [|discriminate].
    destruct (ReadLengthEncoded d2) as [[blob d3]|]; [|discriminate].
    pose proof (IsAcceptedPublicKey_sbo cfg w blob a) as SB.
    destruct (IsAcceptedPublicKey cfg w blob a) as [c [|]]; cbn [fst] in SB; [|discriminate].
    destruct (negb (cf_parse_key cfg blob)); [discriminate|].
    destruct (negb ws); [destruct (ExpectEnd d3); discriminate|].
    destruct (ReadLengthEncoded d3) as [[sig d4]|]; [|discriminate].
    destruct (ExpectEnd d4); [|discriminate].
    destruct (VerifyRequest _ _ _ _ _); [|discriminate].
    unfold Login in H. injection H as <- _. cbn. apply SB.
  - destruct (bytes_eqb method (bs "hostbased")).
    + unfold AuthHostbased in H.
      destruct (ReadString d) as [[x1 d1]|]; [|congruence].
      destruct (ReadLengthEncoded d1) as [[blob d2]|]; [|congruence].
      destruct (ReadString d2) as [[x3 d3]|]; [|congruence].
      destruct (ReadString d3) as [[x4 d4]|]; [|congruence].
      destruct (ReadLengthEncoded d4) as [[sig d5]|]; [|congruence].
      destruct (ExpectEnd d5); [|congruence].
      unfold IsAcceptedHostPublicKey in H.
      destruct (Find (cf_authorized_host_keys cfg) blob) as [o|]; [|congruence].
      destruct (negb (cf_parse_key cfg blob)); [discriminate|].
      destruct (VerifyRequest _ _ _ _ _); [|discriminate].
      unfold Login in H. destruct (cf_accept_client_address cfg).
      * destruct (Split x4 64) as [un ad]. destruct (negb (is_nil un) && negb (is_nil ad)).
        -- destruct (cf_parse_address cfg (c_str ad)); injection H as <-; reflexivity.
        -- injection H as <-. reflexivity.
      * injection H as <-. reflexivity.
    + destruct pa; [|discriminate]. unfold Login in H. injection H as <- _. reflexivity.
Qed.

Lemma ApplyResponse_forbids : forall r password a b ok, ApplyResponse r password a = (b, ok) ->
  (ac_allow_exec a = false -> ac_allow_exec b = false) /\
  (forbids_exec password r -> ac_allow_exec b = false) /\
  ac_log b = ac_log a /\ ac_translation b = ac_translation a /\ ac_passwd b = ac_passwd a.
Proof.
  intros r password a b ok H. unfold ApplyResponse in H. unfold forbids_exec.
  destruct (tr_token r) as [token|] eqn:T; [destruct (bytes_eqb token (bs "sftp-only")) eqn:TE|];
    destruct (tr_execute_options r) as [eo|] eqn:EO;
    (destruct password as [|c password]; cbn [is_nil negb] in H;
      [destruct (tr_no_password r) as [np|] eqn:NP; [destruct (bytes_eqb np SFTP) eqn:NE|]|]);
    injection H as <- _; cbn; (split; [auto|split; [|auto]]);
    intros [X|[X|(X & Y)]]; try reflexivity; try congruence;
    try (injection X as X; subst token; rewrite bytes_eqb_refl in TE; discriminate);
    try (injection Y as Y; subst np; change (bytes_eqb SFTP SFTP) with true in NE; discriminate).
Qed.

(** A response which forbids exec has that effect. *)
Lemma request_forbids : forall cfg w sid payload a b out,
  before_login cfg a -> OnUserAuthRequest cfg w sid payload a = (b, out) ->
  forall user password r, In (ATranslate user password (Some r)) (ac_log b) ->
  In (ATranslate user password (Some r)) (ac_log a) \/
  (tr_status_ok r = true -> forbids_exec password r -> ac_allow_exec b = false).
Proof.
  intros cfg w sid payload a b out (BP & BT & _) H. unfold OnUserAuthRequest in H.
  destruct (ReadString payload) as [[user d1]|]; [|injection H as <- _; auto].
  destruct (ReadString d1) as [[service d2]|]; [|injection H as <- _; auto].
  destruct (ReadString d2) as [[method d3]|]; [|injection H as <- _; auto].
  destruct (negb (bytes_eqb service _)); [injection H as <- _; auto|].
  destruct (negb (IsValidUsername user)); [injection H as <- _; auto|].
  destruct (cf_translation_server cfg) eqn:TS.
  - specialize (BP eq_refl). unfold AuthTranslation in H. cbv zeta in H.
    assert (TR : forall methods password d,
      match LazyTranslate w user password a with
      | (a, None) => (a, Die)
      | (a, Some r) =>
          if negb (tr_status_ok r) then (a, Failure [])
          else
            let '(a, password_accepted) := ApplyResponse r password a in
            if negb (CheckTranslateResponse r) then (a, Die)
            else
              AuthMethod cfg w sid payload user method d methods password_accepted (tr_arch r)
                (match tr_site r with Some site => site | None => user end) a
      end = (b, out) ->
      forall u pw r, In (ATranslate u pw (Some r)) (ac_log b) ->
      In (ATranslate u pw (Some r)) (ac_log a) \/ (tr_status_ok r = true -> forbids_exec pw r -> ac_allow_exec b = false)).
    { intros methods password d E u pw r I.
      assert (REST : forall a1 r1, ac_translation a1 = Some (user, r1) -> ac_passwd a1 = None ->
        (ac_log a1 = ac_log a \/ ac_log a1 = ac_log a ++ [ATranslate user password (Some r1)]) ->
        (if negb (tr_status_ok r1) then (a1, Failure [])
          else
            let '(a, password_accepted) := ApplyResponse r1 password a1 in
            if negb (CheckTranslateResponse r1) then (a, Die)
            else
              AuthMethod cfg w sid payload user method d methods password_accepted (tr_arch r1)
                (match tr_site r1 with Some site => site | None => user end) a) = (b, out) ->
        In (ATranslate u pw (Some r)) (ac_log a) \/ (tr_status_ok r = true -> forbids_exec pw r -> ac_allow_exec b = false)).
      { intros a1 r1 T1 P1 L1 E1. destruct (tr_status_ok r1) eqn:OK; cbn [negb] in E1.
        - destruct (ApplyResponse r1 password a1) as [a2 pa] eqn:AR. apply ApplyResponse_forbids in AR as (_ & F2 & L2 & T2 & P2).
          assert (X : (exists l, ac_log b = ac_log a2 ++ l /\ Forall (key_lookup (FromTranslation r1)) l) /\ ac_allow_exec b = ac_allow_exec a2).
          { destruct (negb (CheckTranslateResponse r1)).
            - injection E1 as <- _. split; [exists []; rewrite app_nil_r; auto|reflexivity].
            - split; [|eapply AuthMethod_exec; eauto]. eapply AuthMethod_adds with (s := FromTranslation r1) in E1; [exact (proj1 E1)|].
              split; congruence. }
          destruct X as ((l & L & F) & X). rewrite L, L2 in I. apply in_app_or in I as [I|I].
          2:{ rewrite Forall_forall in F. destruct (F _ I). }
          destruct L1 as [L1|L1]; rewrite L1 in I; [auto|]. apply in_app_or in I as [I|[I|[]]]; [auto|].
          injection I as <- <- <-. right. intros _ FB. rewrite X. auto.
        - injection E1 as <- _. destruct L1 as [L1|L1]; rewrite L1 in I; [auto|]. apply in_app_or in I as [I|[I|[]]]; [auto|].
          injection I as <- <- <-. right. congruence. }
      unfold LazyTranslate in E.
      assert (ASK : forall a1, (match w_translate w user password with
        | Some r => (set_translation (user, r) (log_event (ATranslate user password (Some r)) a), Some r)
        | None => (log_event (ATranslate user password None) a, None) end) = a1 ->
        match a1 with
        | (a, None) => (a, Die)
        | (a, Some r) =>
          if negb (tr_status_ok r) then (a, Failure [])
          else
            let '(a, password_accepted) := ApplyResponse r password a in
            if negb (CheckTranslateResponse r) then (a, Die)
            else
              AuthMethod cfg w sid payload user method d methods password_accepted (tr_arch r)
                (match tr_site r with Some site => site | None => user end) a
        end = (b, out) ->
        In (ATranslate u pw (Some r)) (ac_log a) \/ (tr_status_ok r = true -> forbids_exec pw r -> ac_allow_exec b = false)).
      { intros a1 <- E1. destruct (w_translate w user password) as [r1|].
        - refine (REST _ r1 _ _ _ E1); [reflexivity|exact BP|right; reflexivity].
        - injection E1 as <- _. cbn in I. apply in_app_or in I as [I|[I|[]]]; [auto|discriminate]. }
      destruct (ac_translation a) as [[u0 r0]|] eqn:T0.
      - destruct (is_nil password && bytes_eqb user u0) eqn:C.
        + apply andb_true_iff in C as [_ C]. apply bytes_eqb_eq in C. subst u0. eapply REST; eauto.
        + destruct (w_translate w user password) as [r1|]; eapply ASK; try reflexivity; exact E.
      - destruct (w_translate w user password) as [r1|]; eapply ASK; try reflexivity; exact E. }
    destruct (bytes_eqb method (bs "password")); [|eapply TR; exact H].
    destruct (ReadBool d3) as [[ch d4]|]; [|injection H as <- _; auto].
    destruct (ReadString d4) as [[pw d5]|]; [|injection H as <- _; auto].
    destruct (ExpectEnd d5); [|injection H as <- _; auto].
    destruct ch; [injection H as <- _; auto|].
    destruct (is_nil pw); [injection H as <- _; auto|]. eapply TR; exact H.
  - specialize (BT eq_refl). cbv zeta in H. intros u pw r I. left.
    destruct (w_getpwnam w user) as [p|].
    + eapply AuthMethod_adds with (s := FromPasswd p) in H; [|split; [exact BT|reflexivity]].
      destruct H as [(l & L & F) _]. rewrite L in I. apply in_app_or in I as [I|I].
      * cbn in I. apply in_app_or in I as [I|[I|[]]]; [exact I|discriminate].
      * rewrite Forall_forall in F. destruct (F _ I).
    + injection H as <- _. cbn in I. apply in_app_or in I as [I|[I|[]]]; [exact I|discriminate].
Qed.

(** ** Events of a run *)

(** Everything but plain messages needs an authenticated client, and has its
    reason in the state in which it happens. *)
Lemma privileged_step : forall cfg sid peer ops op e events, Forall op_ok ops ->
  let s := vrun cfg sid peer ops in
  sv_log (vstep cfg sid op s) = sv_log s ++ events -> In e events ->
  privileged e -> (forall x, e <> VConnectProxy x) ->
  sv_alive s = true /\ ac_authenticated (sv_account s) = true /\ needs cfg s e.
Proof.
  intros cfg sid peer ops op e events F s L I P NP. pose proof (vrun_good cfg sid peer ops F) as G. fold s in G.
  destruct (sv_alive s) eqn:AL.
  2:{ rewrite vstep_dead in L by exact AL. rewrite <- (app_nil_r (sv_log s)) in L at 1. apply app_inv_head in L. subst events. destruct I. }
  split; [reflexivity|].
  destruct (step_log cfg sid op s G) as (l & L' & [N|(w & payload & -> & _ & B)]).
  - assert (l = events) by (rewrite L in L'; now apply app_inv_head in L'). subst l.
    split; [|rewrite Forall_forall in N; exact (N _ I)].
    destruct (ac_authenticated (sv_account s)) eqn:A; [reflexivity|]. exfalso.
    destruct (proj2 G AL) as [_ LB _]. destruct (LB A) as (_ & _ & NO & _).
    pose proof (needs_plain _ _ _ NO N) as PL. rewrite Forall_forall in PL. specialize (PL _ I). destruct e; cbn in *; contradiction.
  - exfalso. pose proof (oauth_cases cfg sid w s payload G AL B) as (a & out & _ & _ & H).
    destruct out as [m|alg blob| |p].
    1-2: destruct H as (_ & _ & _ & H). 3: destruct H as (_ & H). 4: destruct H as (_ & H & _).
    all: rewrite L in H; apply app_inv_head in H; subst events.
    4: destruct p. all: repeat destruct I as [<-|I]; try exact P; try (now apply (NP address)); try (exact I).
    all: try (eapply NP; reflexivity).
Qed.

(** What is fixed after the login: everything but the options. *)
Lemma fixed_later : forall cfg sid peer ops more, Forall op_ok (ops ++ more) ->
  ac_authenticated (sv_account (vrun cfg sid peer ops)) = true ->
  exists o, sv_account (vrun cfg sid peer (ops ++ more)) = set_options o (sv_account (vrun cfg sid peer ops)).
Proof.
  intros cfg sid peer ops more. induction more as [|op t IH] using rev_ind; intros F A.
  - rewrite app_nil_r. exists (ac_options (sv_account (vrun cfg sid peer ops))). now rewrite set_options_id.
  - rewrite app_assoc in *. apply Forall_app in F as [F _]. destruct (IH F A) as (o & X). rewrite vrun_snoc.
    destruct (after_login cfg sid op (vrun cfg sid peer (ops ++ t)) (vrun_good cfg sid peer _ F)) as (o' & Y); [rewrite X; exact A|].
    rewrite Y, X. exists o'. reflexivity.
Qed.

(** The account after one step. *)
Lemma account_step : forall cfg sid op s, good cfg s ->
  sv_account (vstep cfg sid op s) = sv_account s \/
  (ac_authenticated (sv_account s) = true /\ ac_hostbased (sv_account s) = true /\
   exists o, sv_account (vstep cfg sid op s) = set_options (fst (Restrict (ac_options (sv_account s)) o)) (sv_account s)) \/
  (exists w payload out, op = OAuth w /\ sv_alive s = true /\ sv_busy s = Checking payload /\ ac_authenticated (sv_account s) = false /\
   bytes_ok payload /\ before_login cfg (sv_account s) /\
   OnUserAuthRequest cfg w sid payload (sv_account s) = (sv_account (vstep cfg sid op s), out)).
Proof.
  intros cfg sid op s G. destruct (is_oauth op) as [[w ->]|NA].
  - destruct (sv_alive s) eqn:AL; [|rewrite vstep_dead by exact AL; auto].
    destruct (sv_busy s) as [|payload|addr] eqn:B;
      [rewrite oauth_idle by (intros; congruence); auto| |rewrite oauth_idle by (intros; congruence); auto].
    right. right. pose proof (oauth_cases cfg sid w s payload G AL B) as (a & out & E & ACC & _).
    destruct (proj2 G AL) as [LB LBE _]. rewrite B in LB. destruct LB as [OK A0]. destruct (LBE A0) as (BL & _).
    exists w, payload, out. rewrite ACC. auto 10.
  - destruct (q_account _ _ _ _ (vstep_quiet cfg sid op s NA)) as [X|(_ & A & H & o & X)]; [auto|]. right. left. eauto.
Qed.

(** exec is never allowed again *)
Lemma forbidden_stays : forall cfg sid peer ops more, Forall op_ok (ops ++ more) ->
  ac_allow_exec (sv_account (vrun cfg sid peer ops)) = false ->
  ac_allow_exec (sv_account (vrun cfg sid peer (ops ++ more))) = false.
Proof.
  intros cfg sid peer ops more. induction more as [|op t IH] using rev_ind; intros F A; [now rewrite app_nil_r|].
  rewrite app_assoc in *. apply Forall_app in F as [F _]. rewrite vrun_snoc. pose proof (vrun_good cfg sid peer _ F) as G.
  destruct (account_step cfg sid op _ G) as [X|[(_ & _ & o & X)|(w & payload & out & _ & _ & _ & _ & OK & BL & X)]].
  - rewrite X. auto.
  - rewrite X. cbn. auto.
  - eapply request_exec; [exact BL|exact OK|exact X|auto].
Qed.

Lemma forbidding_answer : forall cfg sid peer ops user password r, Forall op_ok ops ->
  In (ATranslate user password (Some r)) (ac_log (sv_account (vrun cfg sid peer ops))) ->
  tr_status_ok r = true -> forbids_exec password r ->
  ac_allow_exec (sv_account (vrun cfg sid peer ops)) = false.
Proof.
  intros cfg sid peer ops user password r F I OK FB. induction ops as [|op t IH] using rev_ind; [destruct I|].
  pose proof F as F0. apply Forall_app in F as [F _]. specialize (IH F).
  pose proof (vrun_good cfg sid peer t F) as G. rewrite vrun_snoc in *.
  destruct (account_step cfg sid op _ G) as [X|[(_ & _ & o & X)|(w & payload & out & _ & _ & _ & _ & OK' & BL & X)]].
  - rewrite X in *. auto.
  - rewrite X in *. cbn in *. auto.
  - destruct (request_forbids _ _ _ _ _ _ _ BL X _ _ _ I) as [J|J]; [|auto].
    eapply request_exec; [exact BL|exact OK'|exact X|auto].
Qed.
