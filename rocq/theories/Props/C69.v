(** * C69: a client which does not log in is disconnected in time *)

From Coq Require Import NArith List Bool Lia String.
From Verif.Base Require Import Bytes.
From Verif.Spec Require Import WireSpec KeySpec AuthSpec SessionSpec AuthDemo.
From Verif.Model Require Import Wire Packets StringList KeyOptions Auth Session Server Timed.
From Verif.Proofs Require Import WireFacts KeyFacts AuthFacts ServerFacts SessionFacts TimedFacts.
Import ListNotations.
Open Scope N_scope.

(** Whatever the client does and however slowly: 130 seconds after it has
    connected (plus twice the delay with which the event loop runs a timer)
    the connection is over, or the client has proved who it is.  The times are
    milliseconds. *)
Theorem C69_disconnected :
  forall cfg session_id peer_address slack t0 ops t op, Forall (fun x => op_ok (snd x)) (ops ++ [(t, op)]) ->
  t0 + 130000 + 2 * slack <= t ->
  let s := tm_server (trun cfg session_id peer_address slack t0 (ops ++ [(t, op)])) in
  sv_alive s = true -> ac_authenticated (sv_account s) = true.
Proof.
  intros cfg sid peer slack t0 ops t op F L s A. apply (trun_late cfg sid peer slack t0 ops t op F); [|exact A].
  unfold AUTH_TIMEOUT_CONNECT, AUTH_TIMEOUT_REQUEST. lia.
Qed.
Print Assumptions C69_disconnected.

(** The timeout never strikes early: a client has 10 seconds for its first
    authentication request, and two minutes from then on. *)
Theorem C69_not_early :
  forall cfg session_id peer_address slack t0 ops t, Forall (fun x => op_ok (snd x)) ops ->
  let s := trun cfg session_id peer_address slack t0 ops in
  In t (tm_fired s) ->
  if sv_got_request (tm_server s)
  then exists t1 payload env, In (t1, OPacket 50 payload env) ops /\ t1 + 120000 <= t
  else t0 + 10000 <= t.
Proof.
  intros cfg sid peer slack t0 ops t F s I. destruct (it_fired _ _ _ _ _ (trun_in_time cfg sid peer slack t0 ops F) t I) as [_ X]. exact X.
Qed.
Print Assumptions C69_not_early.

(** It never strikes a client which has logged in. *)
Theorem C69_not_after_login :
  forall cfg session_id peer_address slack t0 ops t op, Forall (fun x => op_ok (snd x)) (ops ++ [(t, op)]) ->
  let s := trun cfg session_id peer_address slack t0 ops in
  sv_alive (tm_server s) = true -> ac_authenticated (sv_account (tm_server s)) = true ->
  tm_fired (trun cfg session_id peer_address slack t0 (ops ++ [(t, op)])) = [].
Proof.
  intros cfg sid peer slack t0 ops t op F s A U. apply Forall_app in F as [F _].
  pose proof (trun_in_time cfg sid peer slack t0 ops F) as I. fold s in I.
  assert (NF : tm_fired s = []).
  { destruct (tm_fired s) as [|x l] eqn:E; [reflexivity|]. destruct (it_fired _ _ _ _ _ I x) as [X _]; [rewrite E; now left|congruence]. }
  assert (T : sv_timeout (tm_server s) = false) by (exact (trun_auth_timer cfg sid peer slack t0 ops F A U)).
  rewrite trun_snoc. fold s. unfold tstep, fire. rewrite T, andb_false_r. cbn [andb].
  assert (E : (if tm_due s + slack <=? t then s else s) = s) by (destruct (_ <=? t); reflexivity). rewrite E, T, andb_false_r. cbn [andb].
  destruct op; exact NF.
Qed.
Print Assumptions C69_not_after_login.

Definition slow_login : list (N * vop) :=
  combine [100; 200; 9000; 9500] (demo_start ++ demo_attempt (demo_key_request (bs "alice") (bs "KEY"))).
Definition only_service : list (N * vop) := combine [100; 200] demo_start.
Definition timed_demo (ops : list (N * vop)) : bool * bool * list N :=
  let s := trun (demo_config true) demo_session_id (bs "192.0.2.1") 1000 0 ops in
  (sv_alive (tm_server s), ac_authenticated (sv_account (tm_server s)), tm_fired s).
Example C69_demo :
  timed_demo slow_login = (true, true, []) /\
  timed_demo (slow_login ++ [(5000000, OTimeout)]) = (true, true, []) /\
  timed_demo (only_service ++ [(10500, OEncrypted)]) = (true, false, []) /\
  timed_demo (only_service ++ [(10500, OTimeout)]) = (false, false, [10500]) /\
  timed_demo (only_service ++ [(11000, OEncrypted)]) = (false, false, [11000]) /\
  timed_demo (only_service ++ [(9000, OPacket MSG_USERAUTH_REQUEST (demo_bad_signature (bs "alice") (bs "KEY")) demo_env);
    (11000, OAuth demo_world); (129500, OEncrypted)]) = (true, false, []) /\
  timed_demo (only_service ++ [(9000, OPacket MSG_USERAUTH_REQUEST (demo_bad_signature (bs "alice") (bs "KEY")) demo_env);
    (11000, OAuth demo_world); (132000, OEncrypted)]) = (false, false, [132000]).
Proof. vm_compute. repeat split. Qed.
