(** * C52: one authentication attempt at a time *)

From Coq Require Import NArith List Bool Lia String.
From Verif.Base Require Import Bytes.
From Verif.Spec Require Import WireSpec PacketSpec KeySpec AuthSpec SessionSpec AuthDemo.
From Verif.Model Require Import Wire Packets StringList KeyOptions Auth Session Server.
From Verif.Proofs Require Import WireFacts PacketFacts KeyFacts AuthFacts ServerFacts SessionFacts RestrictFacts StepFacts AuthClientFacts.
Import ListNotations.
Open Scope N_scope.

Local Arguments bs : simpl never.

(** The server is busy with an attempt: it waits for the translation server,
    for a helper process, or for the connection to the target. *)
Definition attempt_pending (s : server) : Prop := sv_alive s = true /\ sv_busy s <> Idle.

(** DISCONNECT, IGNORE, NEWCOMPRESS, KEXINIT, NEWKEYS and the key exchange
    itself *)
Definition tolerated (msg : N) : Prop := In msg [1; 2; 8; 20; 21; 30; 31].

Lemma IsAllowedWhileOccupied_iff : forall msg, IsAllowedWhileOccupied msg = true <-> tolerated msg.
Proof.
  intro msg. unfold IsAllowedWhileOccupied, tolerated.
  change [MSG_DISCONNECT; MSG_IGNORE; 8; MSG_KEXINIT; MSG_NEWKEYS; MSG_ECDH_KEX_INIT; MSG_ECDH_KEX_INIT_REPLY] with [1; 2; 8; 20; 21; 30; 31].
  rewrite existsb_exists. split.
  - intros (x & I & E). apply N.eqb_eq in E. now subst.
  - intro I. exists msg. split; [exact I|apply N.eqb_refl].
Qed.

Lemma pending_user_auth : forall cfg sid peer ops, Forall op_ok ops ->
  let s := vrun cfg sid peer ops in attempt_pending s -> sv_user_auth s = true.
Proof.
  intros cfg sid peer ops F. induction ops as [|op t IH] using rev_ind; cbv zeta; [intros [_ H]; now destruct H|].
  apply Forall_app in F as [F _]. specialize (IH F). cbv zeta in IH. rewrite vrun_snoc.
  set (s := vrun cfg sid peer t) in *. pose proof (vrun_good cfg sid peer t F) as G. fold s in G. intros [AL B].
  destruct (sv_alive s) eqn:AL0; [|rewrite vstep_dead in AL, B |- * by exact AL0; congruence].
  assert (IH' : sv_busy s <> Idle -> sv_user_auth s = true) by (intro X; apply IH; split; [exact AL0|exact X]). clear IH.
  unfold vstep in AL, B |- *. rewrite AL0 in *. cbn [negb] in *.
  destruct op as [|msg payload env|w|ok| | |msg payload| | | |x ok|x|n op|n].
  - destruct (sv_user_auth s || ac_authenticated (sv_account s)); [auto|reflexivity].
  - unfold Packet in *. cbv zeta in *. destruct (sv_user_auth s) eqn:U.
    + unfold UserAuthPacket in *. destruct (busy_now s && negb (IsAllowedWhileOccupied msg)); [cbn in AL; discriminate|].
      destruct (msg =? MSG_SERVICE_REQUEST).
      * destruct (ParseServiceRequest payload) as [name|]; [|cbn in AL; discriminate].
        destruct (bytes_eqb name (bs "ssh-userauth")); [cbn; exact U|cbn in AL; discriminate].
      * destruct (msg =? MSG_USERAUTH_REQUEST).
        -- destruct (ac_authenticated (sv_account s)); [exact U|]. destruct (negb (sv_service s)); [cbn in AL; discriminate|exact U].
        -- match goal with |- sv_user_auth ?t = true => assert (X : sv_alive t = true -> sv_user_auth t = sv_user_auth s) end; [|rewrite <- U; now apply X].
           clear. destruct (sv_channels s && ac_authenticated (sv_account s)).
           { destruct (msg =? MSG_GLOBAL_REQUEST).
             { destruct (ParseGlobalRequest payload) as [g|]; [|discriminate]. unfold HandleGlobalRequest. cbv zeta.
               repeat (match goal with |- context [if ?b then _ else _] => destruct b
                 | |- context [match parse_bind ?d with _ => _ end] => destruct (parse_bind d) as [[? ?]|]
                 | |- context [match DeserializeAuthorizedKeyOptions ?d with _ => _ end] => destruct (DeserializeAuthorizedKeyOptions d)
                 | |- context [let '(_, _) := Restrict ?a ?b in _] => destruct (Restrict a b)
                 end); auto; discriminate. }
             destruct (msg =? MSG_CHANNEL_OPEN).
             { destruct (ParseChannelOpen payload) as [g|]; [|discriminate]. unfold CreateChannel. cbv zeta.
               repeat (match goal with |- context [if ?b then _ else _] => destruct b
                 | |- context [match find_session ?a ?b with _ => _ end] => destruct (find_session a b)
                 | |- context [match parse_direct_tcpip ?d with _ => _ end] => destruct (parse_direct_tcpip d) as [[? ?]|]
                 | |- context [match ReadString ?d with _ => _ end] => destruct (ReadString d) as [[? ?]|]
                 end); auto; discriminate. }
             destruct (msg =? MSG_CHANNEL_REQUEST).
             { destruct (ParseChannelRequest payload) as [g|]; [|discriminate]. unfold session_step.
               destruct (find_session _ _); [|auto]. destruct (sstep _ _ _ _). destruct (existsb _ _); [discriminate|auto]. }
             destruct (ShouldProxy msg); [auto|]. destruct (sv_proxy s && false); [auto|].
             destruct (msg =? MSG_DISCONNECT); [discriminate|]. destruct (existsb _ _); auto. }
           destruct (sv_proxy s && ShouldProxy msg); [auto|].
           destruct (msg =? MSG_DISCONNECT); [discriminate|]. destruct (existsb _ _); auto.
    + exfalso. assert (BI : sv_busy s = Idle) by (destruct (sv_busy s); auto; specialize (IH' ltac:(discriminate)); discriminate).
      assert (Q := Packet_quiet cfg msg payload env s). unfold Packet in Q. cbv zeta in Q. rewrite U in Q.
      destruct (q_busy _ _ _ _ Q) as [X|[X|(_ & _ & _ & X & _)]]; [rewrite X in B; contradiction|rewrite X in B; contradiction|congruence].
  - destruct (sv_busy s) as [|payload|addr] eqn:BS; [contradiction| |apply IH'; discriminate].
    destruct (OnUserAuthRequest cfg w sid payload (sv_account s)) as [a out]. destruct out as [m|al bl| |[ad|]]; cbn in *; try contradiction; try discriminate.
    apply IH'. discriminate.
  - destruct (sv_busy s) as [|payload|addr] eqn:BS; [contradiction|apply IH'; discriminate|].
    destruct ok; cbn in *; [contradiction|discriminate].
  - destruct (sv_outgoing s && _); exact (IH' B).
  - destruct (sv_outgoing s && _); exact (IH' B).
  - destruct (sv_proxy s && _); exact (IH' B).
  - destruct (sv_outgoing s); [cbn in AL; discriminate|exact (IH' B)].
  - destruct (sv_timeout s); [cbn in AL; discriminate|exact (IH' B)].
  - cbn in AL; discriminate.
  - destruct (existsb _ _); [|exact (IH' B)]. destruct ok; exact (IH' B).
  - destruct (existsb _ _); exact (IH' B).
  - destruct op as [ty d p|k an| |code|]; [exact (IH' B)|..]; unfold session_step in *;
      (destruct (find_session _ _); [|exact (IH' B)]); destruct (sstep _ _ _ _); (destruct (existsb _ _); [cbn in AL; discriminate|exact (IH' B)]).
  - exact (IH' B).
Qed.

(** ** The full claim *)

Definition C52_full_statement : Prop :=
  (* a message which is not tolerated terminates the connection *)
  (forall cfg session_id peer_address ops msg payload env, Forall op_ok ops ->
   let s := vrun cfg session_id peer_address ops in
   attempt_pending s -> ~ tolerated msg ->
   let s' := vstep cfg session_id (OPacket msg payload env) s in
   sv_alive s' = false /\ sv_log s' = sv_log s ++ [VDead]) /\
  (* after USERAUTH_SUCCESS was sent, further requests are silently ignored *)
  (forall cfg session_id peer_address ops payload env, Forall op_ok ops ->
   let s := vrun cfg session_id peer_address ops in
   sv_alive s = true -> In (VSend userauth_success) (sv_log s) ->
   vstep cfg session_id (OPacket MSG_USERAUTH_REQUEST payload env) s = s).

(** The second part is false: the handler which would ignore the request is
    gone by then, and the server answers UNIMPLEMENTED. *)
Theorem C52_refuted : ~ C52_full_statement.
Proof.
  intros [_ H].
  specialize (H (demo_config true) demo_session_id (bs "192.0.2.1")
    (demo_start ++ demo_attempt (demo_password_request (bs "alice") (bs "secret"))) (demo_password_request (bs "alice") (bs "secret")) demo_env).
  assert (X : forall P : Prop, P -> (P -> False) -> False) by auto.
  apply (f_equal (fun s => List.length (sv_log s))) in H.
  - revert H. vm_compute. discriminate.
  - apply ok_ops; vm_compute; reflexivity.
  - vm_compute; reflexivity.
  - vm_compute. auto.
Qed.
Print Assumptions C52_refuted.

(** ** What holds *)

(** While an attempt is pending, a message which is not tolerated terminates
    the connection at once. *)
Theorem C52_occupied_partial :
  forall cfg session_id peer_address ops msg payload env, Forall op_ok ops ->
  let s := vrun cfg session_id peer_address ops in
  attempt_pending s -> ~ tolerated msg ->
  let s' := vstep cfg session_id (OPacket msg payload env) s in
  sv_alive s' = false /\ sv_log s' = sv_log s ++ [VDead].
Proof.
  intros cfg sid peer ops msg payload env F s P T. pose proof (pending_user_auth cfg sid peer ops F P) as U. fold s in U.
  destruct P as [AL B]. cbv zeta. unfold vstep. rewrite AL. cbn [negb]. unfold Packet. cbv zeta. rewrite U.
  unfold UserAuthPacket. assert (BN : busy_now s = true) by (unfold busy_now; destruct (sv_busy s); congruence).
  assert (NA : IsAllowedWhileOccupied msg = false).
  { destruct (IsAllowedWhileOccupied msg) eqn:E; [|reflexivity]. apply IsAllowedWhileOccupied_iff in E. contradiction. }
  rewrite BN, NA. cbn. auto.
Qed.
Print Assumptions C52_occupied_partial.

(** So attempts never overlap: until the pending attempt is finished by its
    own answer, it stays the only one or the connection ends, and the
    account is not touched. *)
Theorem C52_no_overlap_partial :
  forall cfg session_id peer_address ops op payload, Forall op_ok ops ->
  let s := vrun cfg session_id peer_address ops in
  sv_alive s = true -> sv_busy s = Checking payload -> (forall w, op <> OAuth w) ->
  let s' := vstep cfg session_id op s in
  sv_account s' = sv_account s /\ (sv_alive s' = false \/ sv_busy s' = Checking payload).
Proof.
  intros cfg sid peer ops op payload F s AL B NA s'. pose proof (vrun_good cfg sid peer ops F) as G. fold s in G.
  destruct (proj2 G AL) as [LB LBE _]. rewrite B in LB. destruct LB as [_ A]. destruct (LBE A) as (_ & _ & NO & _).
  pose proof (vstep_quiet cfg sid op s NA) as Q. fold s' in Q.
  destruct (q_account _ _ _ _ Q) as [X|(_ & X & _)]; [|congruence]. split; [exact X|].
  pose proof (pending_user_auth cfg sid peer ops F) as U. fold s in U. cbv zeta in U.
  specialize (U ltac:(split; [exact AL|congruence])). unfold s', vstep. rewrite AL. cbn [negb].
  destruct NO as (NC & NP & NOG & NB & NL & NS).
  destruct op as [|msg pl env|w|ok| | |msg pl| | | |x ok|x|n op|n]; try (exfalso; eapply NA; reflexivity).
  - rewrite U. auto.
  - unfold Packet. cbv zeta. rewrite U. unfold UserAuthPacket. assert (BN : busy_now s = true) by (unfold busy_now; now rewrite B). rewrite BN.
    destruct (IsAllowedWhileOccupied msg) eqn:AW; [|left; reflexivity].
    apply IsAllowedWhileOccupied_iff in AW. unfold tolerated in AW. rewrite ?A.
    repeat (destruct AW as [<-|AW]); [..|destruct AW]; cbn -[bs andb]; rewrite ?andb_false_r; destruct (sv_channels s && _); cbn -[bs]; auto.
  - rewrite B. auto.
  - destruct (sv_outgoing s); cbn; [|auto]. destruct (negb _); cbn; auto.
  - destruct (sv_outgoing s); cbn; [|auto]. destruct (negb _); cbn; auto.
  - destruct (sv_proxy s && _); cbn; auto.
  - destruct (sv_outgoing s); cbn; auto.
  - destruct (sv_timeout s); cbn; auto.
  - left. reflexivity.
  - destruct (existsb _ _); [|auto]. destruct ok; cbn; auto.
  - destruct (existsb _ _); cbn; auto.
  - destruct op as [ty d p|k an| |code|]; [auto|..]; unfold session_step; (destruct (find_session _ _); [|auto]);
      destruct (sstep _ _ _ _); (destruct (existsb _ _); cbn; auto).
  - cbn. auto.
Qed.
Print Assumptions C52_no_overlap_partial.

(** A new attempt starts only if no other is pending. *)
Theorem C52_start_partial :
  forall cfg session_id peer_address ops op payload, Forall op_ok ops ->
  let s := vrun cfg session_id peer_address ops in
  let s' := vstep cfg session_id op s in
  sv_busy s <> Checking payload -> sv_busy s' = Checking payload ->
  sv_busy s = Idle /\ ac_authenticated (sv_account s) = false /\ exists env, op = OPacket MSG_USERAUTH_REQUEST payload env.
Proof.
  intros cfg sid peer ops op payload F s s' NB B. pose proof (vrun_good cfg sid peer ops F) as G. fold s in G.
  destruct (is_oauth op) as [[w ->]|NA].
  - exfalso. destruct (sv_alive s) eqn:AL; [|unfold s' in B; rewrite vstep_dead in B by exact AL; contradiction].
    destruct (sv_busy s) as [|p|addr] eqn:BS; [unfold s' in B; rewrite oauth_idle in B by (intros; congruence); congruence| |
      unfold s' in B; rewrite oauth_idle in B by (intros; congruence); congruence].
    unfold s', vstep in B. rewrite AL, BS in B. cbn [negb] in B.
    destruct (OnUserAuthRequest cfg w sid p (sv_account s)) as [a out]. destruct out as [m|al bl| |[ad|]]; cbn in B; discriminate.
  - pose proof (vstep_quiet cfg sid op s NA) as Q. fold s' in Q.
    destruct (q_busy _ _ _ _ Q) as [X|[X|(X & A & _ & _ & p & Y & Z)]]; [congruence|congruence|].
    split; [exact X|]. split; [exact A|]. destruct Z as (env & ->). assert (p = payload) by congruence. subst p. eauto.
Qed.
Print Assumptions C52_start_partial.

(** After the login an authentication request changes nothing: there is no
    new attempt, the account stays; the only effect is the reply UNIMPLEMENTED,
    or the end of a connection which still waits for its target. *)
Theorem C52_afterwards_partial :
  forall cfg session_id peer_address ops payload env, Forall op_ok ops ->
  let s := vrun cfg session_id peer_address ops in
  sv_alive s = true -> ac_authenticated (sv_account s) = true ->
  let s' := vstep cfg session_id (OPacket MSG_USERAUTH_REQUEST payload env) s in
  (sv_busy s = Idle /\ (s' = s \/ s' = emit [VSend [3]] s)) \/ (exists target, sv_busy s = Connecting target /\ s' = die s).
Proof.
  intros cfg sid peer ops payload env F s AL A s'. pose proof (vrun_good cfg sid peer ops F) as G. fold s in G.
  unfold s', vstep. rewrite AL. cbn [negb]. unfold Packet. cbv zeta.
  assert (CH : (if sv_channels s && ac_authenticated (sv_account s) then
      if ShouldProxy MSG_USERAUTH_REQUEST then s else
        (if sv_proxy s && ShouldProxy MSG_USERAUTH_REQUEST then emit [VForward (MSG_USERAUTH_REQUEST :: payload)] s else emit [VSend [3]] s)
      else (if sv_proxy s && ShouldProxy MSG_USERAUTH_REQUEST then emit [VForward (MSG_USERAUTH_REQUEST :: payload)] s else emit [VSend [3]] s)) = emit [VSend [3]] s).
  { change (ShouldProxy MSG_USERAUTH_REQUEST) with false. rewrite andb_false_r. now destruct (sv_channels s && _). }
  destruct (sv_user_auth s) eqn:U.
  - unfold UserAuthPacket. rewrite A. unfold busy_now. destruct (sv_busy s) as [|p|target] eqn:B.
    + left. split; [reflexivity|]. left. reflexivity.
    + exfalso. destruct (proj2 G AL) as [LB _ _]. rewrite B in LB. destruct LB. congruence.
    + right. exists target. split; reflexivity.
  - left. split.
    + destruct (sv_busy s) eqn:B; [reflexivity|..]; exfalso;
        pose proof (pending_user_auth cfg sid peer ops F) as X; fold s in X; cbv zeta in X; specialize (X ltac:(split; [exact AL|congruence])); congruence.
    + right. exact CH.
Qed.
Print Assumptions C52_afterwards_partial.

(** A second request while the first is being checked; after the login. *)
Example C52_demo :
  let pending := demo_start ++ [OPacket MSG_USERAUTH_REQUEST (demo_password_request (bs "alice") (bs "wrong")) demo_env] in
  let run l := vrun (demo_config true) demo_session_id (bs "192.0.2.1") (pending ++ l) in
  attempt_pending (run []) /\
  sv_alive (run [OPacket MSG_USERAUTH_REQUEST (demo_password_request (bs "alice") (bs "secret")) demo_env]) = false /\
  sv_alive (run [OPacket 2 [] demo_env; OPacket 20 [] demo_env]) = true /\
  let after := run (OAuth demo_world :: demo_attempt (demo_password_request (bs "alice") (bs "secret"))) in
  ac_authenticated (sv_account after) = true /\ sv_busy after = Idle.
Proof. vm_compute. repeat split; auto; discriminate. Qed.
