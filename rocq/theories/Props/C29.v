(** * C29: nothing happens before authentication

    Spec/AuthSpec.v says which events are [privileged]: every effect of
    channels, global requests, sessions, programs, forwarding and proxying. *)

From Coq Require Import NArith List Bool Lia String.
From Verif.Base Require Import Bytes.
From Verif.Spec Require Import WireSpec KeySpec AuthSpec SessionSpec AuthDemo.
From Verif.Model Require Channels Globals.
From Verif.Model Require Import Wire Packets StringList KeyOptions Auth Session Server.
From Verif.Proofs Require Import WireFacts KeyFacts AuthFacts ServerFacts SessionFacts.
Import ListNotations.
Open Scope N_scope.

(** Every privileged effect of a connection comes after authentication,
    whatever packets arrive and whatever else happens. *)
Theorem C29_nothing_before :
  forall cfg session_id peer_address ops, Forall op_ok ops ->
  forall before e after, sv_log (vrun cfg session_id peer_address ops) = before ++ e :: after -> privileged e ->
  exists user, In (VAuthenticated user) before.
Proof.
  intros cfg sid peer ops F before e after E P.
  destruct (vrun_good cfg sid peer ops F) as [[PL|(l1 & u & l2 & L & P1 & P2)] _].
  - rewrite E in PL. apply Forall_app in PL as [_ PL]. inversion PL as [|? ? PE _]. destruct e; contradiction.
  - exists u. rewrite L in E. clear L.
    assert (X : exists m, before = l1 ++ VAuthenticated u :: m).
    { revert before E. induction l1 as [|x l1 IH]; intros before E.
      - destruct before as [|y before]; [injection E as <- _; contradiction|]. injection E as <- _. now exists before.
      - inversion P1 as [|? ? PX P1']. destruct before as [|y before]; [injection E as <- _; destruct x; contradiction|].
        injection E as <- E. destruct (IH P1' before E) as [m ->]. now exists m. }
    destruct X as [m ->]. apply in_or_app. right. now left.
Qed.
Print Assumptions C29_nothing_before.

(** Questions to the outside world: the only process which can run before
    authentication is the helper which reads authorized_keys, with the
    identity of the account named by the request being checked; nothing is
    asked at other times. *)
Theorem C29_questions :
  forall cfg session_id peer_address ops op, Forall op_ok ops ->
  let s := vrun cfg session_id peer_address ops in
  let s' := vstep cfg session_id op s in
  exists questions, ac_log (sv_account s') = ac_log (sv_account s) ++ questions /\
  (questions = [] \/
   exists w payload, op = OAuth w /\ sv_busy s = Checking payload /\ received ops payload /\
     Forall (asked_for cfg payload (ac_log (sv_account s'))) questions).
Proof.
  intros cfg sid peer ops op F s s'. pose proof (vrun_good cfg sid peer ops F) as G. fold s in G.
  destruct (is_oauth op) as [[w ->]|NA].
  - destruct (sv_alive s) eqn:AL.
    2:{ subst s'. rewrite vstep_dead by exact AL. exists []. rewrite app_nil_r. auto. }
    destruct (sv_busy s) as [|payload|addr] eqn:B;
      [subst s'; rewrite oauth_idle by (intros; congruence); exists []; rewrite app_nil_r; auto| |subst s'; rewrite oauth_idle by (intros; congruence); exists []; rewrite app_nil_r; auto].
    pose proof (oauth_cases cfg sid w s payload G AL B) as (a & out & E & ACC & _).
    destruct G as [_ LV]. specialize (LV AL). destruct LV as [LB LBE _]. rewrite B in LB. destruct LB as [OK A].
    destruct (LBE A) as (BL & _). destruct (request_log _ _ _ _ _ _ _ BL OK E) as (l & L & FA).
    subst s'. rewrite ACC. exists l. split; [exact L|]. right. exists w, payload. repeat (split; [reflexivity || auto|]).
    + eapply checking_received; eauto.
    + exact FA.
  - exists []. rewrite app_nil_r. split; [|now left].
    destruct (q_account _ _ _ _ (vstep_quiet cfg sid op s NA)) as [X|(_ & _ & _ & o & X)]; subst s'; rewrite X; reflexivity.
Qed.
Print Assumptions C29_questions.

(** The layers below test it as well: neither the channels nor the global
    requests of a connection look at a packet (and keep it from being
    answered with UNIMPLEMENTED) unless the connection is encrypted and
    authenticated; then they look at their own messages only. *)
Theorem C29_layers :
  forall E encrypted authenticated msg payload,
  (forall r s s', Channels.HandlePacketIf E encrypted authenticated msg payload r s = Some s' ->
     encrypted = true /\ authenticated = true /\ 90 <= msg <= 100) /\
  (forall o g g', Globals.gHandlePacketIf E encrypted authenticated msg payload o g = Some g' ->
     encrypted = true /\ authenticated = true /\ msg = 80).
Proof.
  intros E e a msg payload. split.
  - intros r s s' H. unfold Channels.HandlePacketIf in H. destruct e, a; try discriminate. cbn [negb orb] in H.
    split; [reflexivity|]. split; [reflexivity|]. unfold Channels.HandlePacket in H. cbv zeta in H.
    destruct (N.ltb_spec msg 90) as [L|L]; [|destruct (N.ltb_spec 100 msg) as [G|G]; [|lia]]; exfalso.
    + destruct msg as [|q]; [discriminate|]. do 7 (destruct q as [q|q|]; try discriminate); lia.
    + destruct msg as [|q]; [lia|]. do 7 (destruct q as [q|q|]; try discriminate); lia.
  - intros o g g' H. unfold Globals.gHandlePacketIf in H. destruct e, a; try discriminate. cbn [negb orb] in H.
    destruct (N.eqb_spec msg 80) as [M|M]; [auto|discriminate].
Qed.
Print Assumptions C29_layers.
Example C29_layers_demo : forall E s p r,
  Channels.HandlePacketIf E true true 96 p r s <> None /\ Channels.HandlePacketIf E true false 96 p r s = None.
Proof. intros. split; [discriminate|reflexivity]. Qed.

(** A client which does not log in gets answers to its packets only; one
    which does can open a session. *)
Example C29_demo :
  let shell := [demo_open (bs "session") [] 0; demo_request 0 (bs "shell") []; OSession 0 (OSpawner 0 demo_spawn)] in
  let bad := demo_attempt (demo_bad_signature (bs "alice") (bs "KEY")) ++ shell in
  let right_ := demo_attempt (demo_key_request (bs "alice") (bs "KEY")) ++ shell in
  Forall op_ok (demo_start ++ bad) /\ Forall op_ok (demo_start ++ right_) /\
  existsb (fun e => match e with VSend _ => false | _ => true end) (sv_log (demo_run true bad)) = false /\
  existsb (fun e => match e with VSess 0 (SStarted _) => true | _ => false end) (sv_log (demo_run true right_)) = true.
Proof.
  cbv zeta. split; [apply ok_ops; vm_compute; reflexivity|]. split; [apply ok_ops; vm_compute; reflexivity|].
  split; vm_compute; reflexivity.
Qed.
