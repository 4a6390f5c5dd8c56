(** * C30: authentication requires a proof

    Spec/AuthSpec.v: [proves] says what a request must show. *)

From Coq Require Import NArith List Bool Lia String.
From Verif.Base Require Import Bytes.
From Verif.Spec Require Import WireSpec KeySpec AuthSpec SessionSpec AuthDemo.
From Verif.Model Require Import Wire Packets StringList KeyOptions Auth Session Server.
From Verif.Proofs Require Import WireFacts KeyFacts AuthFacts ServerFacts SessionFacts.
Import ListNotations.
Open Scope N_scope.

(** A connection becomes authenticated only while a request which the client
    has sent is checked, and this very request proves that the client is
    that user. *)
Theorem C30_proof :
  forall cfg session_id peer_address ops op user, Forall op_ok ops ->
  let s := vrun cfg session_id peer_address ops in
  let s' := vstep cfg session_id op s in
  forall events, sv_log s' = sv_log s ++ events -> In (VAuthenticated user) events ->
  exists w payload credential,
    op = OAuth w /\ sv_busy s = Checking payload /\ received ops payload /\ valid_name user /\
    proves cfg session_id w (ac_log (sv_account s')) payload user credential.
Proof.
  intros cfg sid peer ops op user F s s' events L I. pose proof (vrun_good cfg sid peer ops F) as G. fold s in G.
  destruct (step_log cfg sid op s G) as (l & L' & [N|(w & payload & -> & AL & B)]).
  - assert (l = events) by (fold s' in L'; rewrite L in L'; now apply app_inv_head in L'). subst l.
    apply needs_not_auth in N. rewrite Forall_forall in N. destruct (N _ I).
  - exists w, payload. pose proof (oauth_cases cfg sid w s payload G AL B) as (a & out & E & ACC & H). fold s' in ACC, H.
    destruct G as [_ LV]. specialize (LV AL). destruct LV as [LB LBE _]. rewrite B in LB. destruct LB as [OK A].
    destruct (LBE A) as (BL & _).
    destruct out as [m|alg blob| |p].
    1-3: exfalso; assert (X : exists e, events = [e] /\ plain e) by
      (destruct H as (? & ? & ? & H) || destruct H as (_ & H); rewrite L in H; apply app_inv_head in H; eexists; split; [exact H|exact Logic.I]);
      destruct X as (e & -> & P); destruct I as [->|[]]; exact P.
    destruct H as (_ & H & _). rewrite L in H. apply app_inv_head in H.
    destruct (accepted_proves _ _ _ _ _ _ _ BL OK E) as (u & c & src & V & PR & LG).
    assert (U : user = u).
    { rewrite <- (lg_name _ _ _ _ _ _ _ _ LG). rewrite H in I. destruct I as [I|I]; [congruence|].
      destruct p; destruct I as [I|[]]; discriminate. }
    subst u. exists c. rewrite ACC. repeat (split; [assumption || reflexivity || (eapply checking_received; eauto)|]). exact PR.
Qed.
Print Assumptions C30_proof.

(** There is no other way to become authenticated. *)
Theorem C30_only_way :
  forall cfg session_id peer_address ops op, Forall op_ok ops ->
  let s := vrun cfg session_id peer_address ops in
  let s' := vstep cfg session_id op s in
  ac_authenticated (sv_account s) = false -> ac_authenticated (sv_account s') = true ->
  exists user events, sv_log s' = sv_log s ++ VAuthenticated user :: events.
Proof.
  intros cfg sid peer ops op F s s' A A'. pose proof (vrun_good cfg sid peer ops F) as G. fold s in G.
  destruct (is_oauth op) as [[w ->]|NA].
  - destruct (sv_alive s) eqn:AL; [|subst s'; rewrite vstep_dead in A' by exact AL; congruence].
    destruct (sv_busy s) as [|payload|addr] eqn:B;
      [subst s'; rewrite oauth_idle in A' by (intros; congruence); congruence| |subst s'; rewrite oauth_idle in A' by (intros; congruence); congruence].
    pose proof (oauth_cases cfg sid w s payload G AL B) as (a & out & E & ACC & H). fold s' in ACC, H.
    destruct G as [_ LV]. specialize (LV AL). destruct LV as [LB LBE _]. rewrite B in LB. destruct LB as [OK _].
    destruct (LBE A) as (BL & _).
    destruct out as [m|alg blob| |p].
    + destruct (failed_request _ _ _ _ _ _ _ BL OK E) as (_ & X & _); [auto|discriminate|]. congruence.
    + destruct (failed_request _ _ _ _ _ _ _ BL OK E) as (_ & X & _); [auto|discriminate|]. congruence.
    + exfalso. rewrite ACC in A'.
      destruct (OnUserAuthRequest_cases _ _ _ _ _ _ _ BL OK E) as [(-> & _)|(user & method & d & _ & _ & _ & [N|MS])]; [congruence| |].
      * destruct N as (X & _). congruence.
      * destruct MS as (src & pa & methods & arch & sticky & a1 & d' & MS & _ & _ & AM).
        apply AuthMethod_failed in AM as (X & _); [|auto]. rewrite X, (ms_auth _ _ _ _ _ _ _ _ MS) in A'. congruence.
    + destruct H as (_ & L & _). eauto.
  - exfalso. destruct (q_account _ _ _ _ (vstep_quiet cfg sid op s NA)) as [X|(_ & X & _)]; [subst s'; rewrite X in A'; congruence|congruence].
Qed.
Print Assumptions C30_only_way.

(** In all other cases the client gets a failure reply, or the connection is
    closed, or it is told that a key it has asked about (without signature) is
    listed for the account. *)
Theorem C30_otherwise :
  forall cfg session_id peer_address ops w payload, Forall op_ok ops ->
  let s := vrun cfg session_id peer_address ops in
  let s' := vstep cfg session_id (OAuth w) s in
  sv_alive s = true -> sv_busy s = Checking payload -> ac_authenticated (sv_account s') = false ->
  (exists methods, sv_log s' = sv_log s ++ [VSend (enc [FByte 51; FString methods; FBool false])] /\
     sv_busy s' = Idle) \/
  (sv_log s' = sv_log s ++ [VDead] /\ sv_alive s' = false) \/
  (exists user src algorithm blob o,
     sv_log s' = sv_log s ++ [VSend (enc [FByte 60; FString algorithm; FString blob])] /\ sv_busy s' = Idle /\
     payload = enc (key_request user 0 algorithm blob) /\ valid_name user /\
     said cfg (ac_log (sv_account s')) user src /\ listed cfg w src blob o).
Proof.
  intros cfg sid peer ops w payload F s s' AL B A'. pose proof (vrun_good cfg sid peer ops F) as G. fold s in G.
  pose proof (oauth_cases cfg sid w s payload G AL B) as (a & out & E & ACC & H). fold s' in ACC, H.
  destruct G as [_ LV]. specialize (LV AL). destruct LV as [LB LBE _]. rewrite B in LB. destruct LB as [OK A].
  destruct (LBE A) as (BL & _).
  destruct out as [m|alg blob| |p].
  - left. exists m. destruct H as (_ & X & _ & L). split; [|exact X]. rewrite L. unfold userauth_failure, send_string, enc.
    cbn [map List.concat enc_field]. unfold string_enc. rewrite <- put_u32_be32. rewrite app_nil_r. reflexivity.
  - right. right. destruct H as (_ & X & _ & L). destruct (pk_ok_listed _ _ _ _ _ _ _ _ BL OK E) as (user & src & P & V & SD & LI).
    exists user, src, alg, blob, (ac_options a). split.
    { rewrite L. unfold userauth_pk_ok, send_string, enc. cbn [map List.concat enc_field]. unfold string_enc. rewrite <- !put_u32_be32, app_nil_r. reflexivity. }
    rewrite ACC. auto.
  - right. left. destruct H as (X & L). auto.
  - exfalso. destruct (accepted_proves _ _ _ _ _ _ _ BL OK E) as (u & c & src & V & PR & LG).
    pose proof (lg_auth _ _ _ _ _ _ _ _ LG). congruence.
Qed.
Print Assumptions C30_otherwise.

(** One example for each kind of proof. *)
Definition demo_authenticated (translation : bool) (payload : bytes) : bool :=
  ac_authenticated (sv_account (demo_run translation (demo_attempt payload))).

Example C30_demo :
  map (demo_authenticated true)
    [demo_key_request (bs "alice") (bs "KEY"); demo_host_request (bs "alice");
     demo_password_request (bs "alice") (bs "secret"); demo_none_request (bs "carol");
     demo_bad_signature (bs "alice") (bs "KEY"); demo_key_request (bs "alice") (bs "OTHER");
     demo_password_request (bs "alice") (bs "wrong"); demo_none_request (bs "alice"); demo_query (bs "alice") (bs "KEY")] =
  [true; true; true; true; false; false; false; false; false] /\
  map (demo_authenticated false)
    [demo_key_request (bs "dave") (bs "KEY"); demo_password_request (bs "dave") (bs "secret"); demo_key_request (bs "alice") (bs "KEY")] =
  [true; false; false].
Proof. split; vm_compute; reflexivity. Qed.

Example C30_demo_hypotheses :
  let ops := demo_start ++ [OPacket MSG_USERAUTH_REQUEST (demo_key_request (bs "alice") (bs "KEY")) demo_env] in
  let s := vrun (demo_config true) demo_session_id (bs "192.0.2.1") ops in
  Forall op_ok ops /\ sv_alive s = true /\ sv_busy s = Checking (demo_key_request (bs "alice") (bs "KEY")).
Proof. cbv zeta. split; [apply ok_ops; vm_compute; reflexivity|]. split; vm_compute; reflexivity. Qed.
