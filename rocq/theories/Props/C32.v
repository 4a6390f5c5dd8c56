(** * C32: the account used is the account that was authenticated *)

From Coq Require Import NArith List Bool Lia String.
From Verif.Base Require Import Bytes.
From Verif.Spec Require Import WireSpec KeySpec AuthSpec SessionSpec AuthDemo.
From Verif.Model Require Import Wire Packets StringList KeyOptions Auth Session Server.
From Verif.Proofs Require Import WireFacts KeyFacts AuthFacts ServerFacts SessionFacts.
Import ListNotations.
Open Scope N_scope.

(** The name and the account data of an authenticated connection are those of
    the request which succeeded, whatever was requested before, and they
    never change. *)
Theorem C32_account :
  forall cfg session_id peer_address ops, Forall op_ok ops ->
  let a := sv_account (vrun cfg session_id peer_address ops) in
  ac_authenticated a = true ->
  exists before w payload user c src,
    login_request cfg session_id peer_address ops before w payload user c src /\
    ac_username a = user /\ source_of src user a.
Proof.
  intros cfg sid peer ops F a A. destruct (login_origin cfg sid peer ops F A) as (before & w & payload & user & c & src & after & LO).
  exists before, w, payload, user, c, src. split; [eapply login_request_of; eauto|].
  pose proof (lo_login _ _ _ _ _ _ _ _ _ _ _ LO) as LG. destruct (lo_fixed _ _ _ _ _ _ _ _ _ _ _ LO) as (o & X). subst a. rewrite X.
  split; [exact (lg_name _ _ _ _ _ _ _ _ LG)|]. pose proof (lg_source _ _ _ _ _ _ _ _ LG) as SO. destruct src; exact SO.
Qed.
Print Assumptions C32_account.

(** Every program of a session runs for the user, and with the identity, of
    that request. *)
Theorem C32_program :
  forall cfg session_id peer_address ops n p, Forall op_ok ops ->
  In (VSess n (SStarted p)) (sv_log (vrun cfg session_id peer_address ops)) ->
  exists before w payload user c src,
    login_request cfg session_id peer_address ops before w payload user c src /\
    st_user p = user /\ identity_of src (st_identity p).
Proof.
  intros cfg sid peer ops n p F I. destruct (event_origin _ _ _ _ _ F I) as (t & op & rest & events & O & L & I').
  assert (FT : Forall op_ok t) by (rewrite O in F; apply Forall_app in F; apply F).
  destruct (session_event cfg sid peer t op n _ events FT L I') as (_ & A & x & _ & M & U & _).
  destruct (login_origin cfg sid peer t FT A) as (before & w & payload & user & c & src & after & LO).
  destruct (login_request_of _ _ _ _ _ _ _ _ _ _ _ FT LO) as ((aft & OT) & R).
  exists before, w, payload, user, c, src.
  pose proof (lo_login _ _ _ _ _ _ _ _ _ _ _ LO) as LG. destruct (lo_fixed _ _ _ _ _ _ _ _ _ _ _ LO) as (o & X). rewrite X in M, U.
  split; [|split].
  - split; [|exact R]. exists (aft ++ op :: rest). rewrite O, OT, <- app_assoc. reflexivity.
  - rewrite U. exact (lg_name _ _ _ _ _ _ _ _ LG).
  - eapply may_start_identity; [|exact M]. pose proof (lg_source _ _ _ _ _ _ _ _ LG) as SO. destruct src; exact SO.
Qed.
Print Assumptions C32_program.

(** So does the login at the target of a proxy. *)
Theorem C32_proxy :
  forall cfg session_id peer_address ops name, Forall op_ok ops ->
  In (VHostbased name) (sv_log (vrun cfg session_id peer_address ops)) ->
  exists before w payload user c src,
    login_request cfg session_id peer_address ops before w payload user c src /\ name = user.
Proof.
  intros cfg sid peer ops name F I. destruct (event_origin _ _ _ _ _ F I) as (t & op & rest & events & O & L & I').
  assert (FT : Forall op_ok t) by (rewrite O in F; apply Forall_app in F; apply F).
  pose proof (vrun_good cfg sid peer t FT) as G.
  destruct (sv_alive (vrun cfg sid peer t)) eqn:AL.
  2:{ rewrite vstep_dead in L by exact AL. rewrite <- (app_nil_r (sv_log (vrun cfg sid peer t))) in L at 1. apply app_inv_head in L. subst events. destruct I'. }
  assert (N : ac_authenticated (sv_account (vrun cfg sid peer t)) = true /\ name = ac_username (sv_account (vrun cfg sid peer t))).
  { destruct (step_log cfg sid op _ G) as (l & L' & [N|(w & payload & -> & _ & B)]).
    - assert (l = events) by (rewrite L in L'; now apply app_inv_head in L'). subst l.
      rewrite Forall_forall in N. destruct (N _ I') as (X & _ & Y). split; [|exact Y].
      destruct (ac_authenticated (sv_account (vrun cfg sid peer t))) eqn:A; [reflexivity|]. exfalso.
      destruct (proj2 G AL) as [_ LB _]. destruct (LB A) as (_ & _ & (_ & Z & _) & _). congruence.
    - exfalso. pose proof (oauth_cases cfg sid w _ payload G AL B) as (a & out & _ & _ & H).
      destruct out as [m|alg blob| |p].
      1-2: destruct H as (_ & _ & _ & H). 3: destruct H as (_ & H). 4: destruct H as (_ & H & _).
      all: rewrite L in H; apply app_inv_head in H; subst events.
      4: destruct p. all: repeat destruct I' as [E|I']; try discriminate; destruct I'. }
  destruct N as [A N].
  destruct (login_origin cfg sid peer t FT A) as (before & w & payload & user & c & src & after & LO).
  destruct (login_request_of _ _ _ _ _ _ _ _ _ _ _ FT LO) as ((aft & OT) & R).
  exists before, w, payload, user, c, src. split.
  - split; [|exact R]. exists (aft ++ op :: rest). rewrite O, OT, <- app_assoc. reflexivity.
  - pose proof (lo_login _ _ _ _ _ _ _ _ _ _ _ LO) as LG. destruct (lo_fixed _ _ _ _ _ _ _ _ _ _ _ LO) as (o & X).
    rewrite N, X. exact (lg_name _ _ _ _ _ _ _ _ LG).
Qed.
Print Assumptions C32_proxy.

(** A failed attempt for another user first (carol, whose account is
    restricted), then a login; the program runs as alice. *)
Definition demo_two_users : list vop :=
  demo_attempt (demo_bad_signature (bs "far") (bs "PLAIN")) ++
  demo_attempt (demo_key_request (bs "alice") (bs "PLAIN")) ++
  [demo_open (bs "session") [] 0; demo_request 0 (bs "exec") (enc [FString (bs "id")]); OSession 0 (OSpawner 0 demo_spawn)].

Example C32_demo :
  Forall op_ok (demo_start ++ demo_two_users) /\
  map (fun p => (st_user p, st_identity p, st_program p)) (demo_started (demo_run true demo_two_users)) =
    [(bs "alice", AsOptions demo_eo, ShellCommand (bs "/bin/bash") (bs "id"))].
Proof. split; [apply ok_ops; vm_compute; reflexivity|vm_compute; reflexivity]. Qed.

Example C32_demo_proxy :
  flat_map (fun e => match e with VHostbased u => [u] | _ => [] end) (sv_log (demo_run true
    (demo_attempt (demo_bad_signature (bs "alice") (bs "KEY")) ++ demo_attempt (demo_key_request (bs "far") (bs "KEY")) ++
     [OConnected true; OOutgoingService]))) = [bs "far"].
Proof. vm_compute. reflexivity. Qed.
