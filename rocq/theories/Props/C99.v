(** * C99: the answer to a refused login does not tell which accounts exist *)

From Coq Require Import NArith List Bool Lia String.
From Verif.Base Require Import Bytes.
From Verif.Spec Require Import WireSpec KeySpec AuthSpec DelaySpec AuthDemo.
From Verif.Model Require Import Wire Packets StringList KeyOptions Auth Delay.
From Verif.Proofs Require Import WireFacts KeyFacts AuthFacts ServerFacts SessionFacts AttemptFacts AuthClientFacts CredentialFacts DelayFacts.
Import ListNotations.
Open Scope N_scope.

Local Arguments bs : simpl never.

(** The full statement: as long as everything which is consulted is quick, a
    client which gets neither the account nor an invitation to sign sees the
    same answer at the same time, whatever the accounts, their files and the
    answers of the translation server are ([w1] and [w2]). *)
Definition C99_full_statement : Prop :=
  forall cfg l w1 w2 sid payload t0 peer,
  quick l -> (forall user password, lt_translate l user password = 0) ->
  let r1 := TOnUserAuthRequest cfg l w1 sid payload t0 (new_account peer) in
  let r2 := TOnUserAuthRequest cfg l w2 sid payload t0 (new_account peer) in
  denied (r_outcome r1) -> denied (r_outcome r2) -> seen r1 = seen r2.

(** The model with times gives the answers of the model of authentication
    (C29 to C35). *)
Theorem C99_same : forall cfg l w sid payload t0 a,
  let r := TOnUserAuthRequest cfg l w sid payload t0 a in
  (r_account r, r_outcome r) = OnUserAuthRequest cfg w sid payload a.
Proof. intros. apply erase_request. Qed.
Print Assumptions C99_same.

(** No request is refused within 100 ms, whatever the latencies, the tarpit
    and the account, except for those listed in [hasty]. *)
Theorem C99_floor_partial : forall cfg l w sid payload t0 a methods,
  bytes_ok payload -> len sid <= 64 -> len payload <= 35000 -> ~ hasty cfg sid payload ->
  let r := TOnUserAuthRequest cfg l w sid payload t0 a in
  r_outcome r = Failure methods -> t0 + 100 <= r_time r.
Proof.
  intros cfg l w sid payload t0 a methods B LS LP NH r H.
  destruct (floor_request cfg l w sid payload t0 a methods B LS LP H) as [X|X]; [exact X|now destruct (NH X)].
Qed.
Print Assumptions C99_floor_partial.

(** Without a translation server: a complete request (which is not in
    [hasty]) that is refused is always refused with the same list of methods,
    and exactly 100 ms (and the latency of the event loop) after it was
    received. *)
Theorem C99_time_partial : forall cfg l w sid payload t0 a,
  cf_translation_server cfg = false -> len sid <= 64 -> len payload <= 35000 -> quick l ->
  full_request payload -> ~ hasty cfg sid payload ->
  let r := TOnUserAuthRequest cfg l w sid payload t0 a in
  denied (r_outcome r) ->
  r_outcome r = Failure (if match cf_authorized_host_keys cfg with [] => true | _ => false end
                         then bs "publickey" else bs "publickey,hostbased") /\
  r_time r = t0 + 100 + lt_late l.
Proof.
  intros cfg l w sid payload t0 a TS LS LP Q F NH r D.
  destruct (exact_request cfg l w sid payload t0 a TS LS LP Q F NH D) as [X Y]. split; [|exact Y].
  fold r in X. rewrite X. unfold methods_of, AuthMethods. destruct (cf_authorized_host_keys cfg); reflexivity.
Qed.
Print Assumptions C99_time_partial.

(** Therefore nothing is learned about the accounts. *)
Theorem C99_hidden_partial : forall cfg l1 l2 w1 w2 sid payload t0 a,
  cf_translation_server cfg = false -> len sid <= 64 -> len payload <= 35000 ->
  quick l1 -> quick l2 -> lt_late l1 = lt_late l2 ->
  full_request payload -> ~ hasty cfg sid payload ->
  let r1 := TOnUserAuthRequest cfg l1 w1 sid payload t0 a in
  let r2 := TOnUserAuthRequest cfg l2 w2 sid payload t0 a in
  denied (r_outcome r1) -> denied (r_outcome r2) -> seen r1 = seen r2.
Proof.
  intros cfg l1 l2 w1 w2 sid payload t0 a TS LS LP Q1 Q2 LL F NH r1 r2 D1 D2.
  destruct (exact_request cfg l1 w1 sid payload t0 a TS LS LP Q1 F NH D1) as [X1 Y1].
  destruct (exact_request cfg l2 w2 sid payload t0 a TS LS LP Q2 F NH D2) as [X2 Y2].
  unfold seen. fold r1 in X1, Y1. fold r2 in X2, Y2. rewrite X1, X2, Y1, Y2, LL. reflexivity.
Qed.
Print Assumptions C99_hidden_partial.

(** With a translation server: a password which it refuses is answered in the
    same way and at the same time for each user, known or not. *)
Theorem C99_password : forall cfg l w sid user password r0 t0 peer,
  cf_translation_server cfg = true -> valid_name user -> password <> [] -> len password < pow32 ->
  w_translate w user password = Some r0 -> tr_status_ok r0 = false ->
  lt_tarpit l + lt_translate l user password < 100 ->
  seen (TOnUserAuthRequest cfg l w sid (enc (password_request user password)) t0 (new_account peer)) =
  (Failure [], t0 + 100 + lt_late l).
Proof.
  intros cfg l w sid user password r0 t0 peer TS V NE LP W NO Q. unfold TOnUserAuthRequest, password_request.
  rewrite ReadString_enc_cons by (destruct V as (_ & L & _); unfold pow32; lia). rewrite ReadString_enc_cons by (vm_compute; reflexivity).
  rewrite ReadString_enc_cons by (vm_compute; reflexivity). change (bytes_eqb CONNECTION (bs "ssh-connection")) with true. cbn [negb].
  rewrite valid_name_IsValidUsername by exact V. cbn [negb]. cbv zeta. rewrite TS. unfold TAuthTranslation.
  change (bytes_eqb PASSWORD (bs "password")) with true. cbv iota zeta.
  change (ReadBool (enc [FByte 0; FString password])) with (Some (false, enc [FString password])). cbv iota beta.
  rewrite ReadString_enc_cons by exact LP. change (ExpectEnd (enc [])) with (Some tt). cbv iota.
  destruct password as [|b p]; [now destruct NE|]. cbn [is_nil].
  unfold LazyTranslate, translate_time. change (ac_translation (new_account peer)) with (@None (bytes * response)). cbv iota zeta.
  rewrite W. cbv iota. rewrite NO. cbn [negb]. unfold seen. cbn [mk_reply r_outcome r_time].
  rewrite fail_sleep_quick by lia. reflexivity.
Qed.
Print Assumptions C99_password.

(** ** Where it is not true *)

Definition demo_latency (tarpit : N) : latency := {|
  lt_tarpit := tarpit; lt_translate := fun _ _ => 0; lt_getpwnam := fun _ => 5; lt_open := fun _ => 20;
  lt_delegate := fun _ => 40; lt_verify := fun _ => 3; lt_late := 1 |}.
Definition empty_world : world := {|
  w_translate := fun _ _ => Some demo_refused; w_getpwnam := fun _ => None;
  w_open := fun _ => NotOpened; w_delegate := fun _ => None |}.

Lemma demo_quick : quick (demo_latency 0).
Proof. intros user home i blob. cbn. lia. Qed.

(** A request which ends after the name of the method "publickey": for an
    account which does not exist, the answer is USERAUTH_FAILURE; for one
    which exists, the connection is closed. *)
Theorem C99_refuted : ~ C99_full_statement.
Proof.
  intro H.
  specialize (H (demo_config false) (demo_latency 0) demo_world empty_world demo_session_id
    (enc [FString (bs "dave"); FString CONNECTION; FString PUBLICKEY]) 0 [] demo_quick (fun _ _ => eq_refl) Logic.I Logic.I).
  vm_compute in H. discriminate H.
Qed.
Print Assumptions C99_refuted.

(** The time of the answer to a request with a wrong signature tells whether
    a host key is authorized. *)
Theorem C99_floor_refuted :
  exists cfg l w sid payload t0 a methods, quick l /\ full_request payload /\
  let r := TOnUserAuthRequest cfg l w sid payload t0 a in
  r_outcome r = Failure methods /\ r_time r < t0 + 100.
Proof.
  exists (demo_config false), (demo_latency 0), demo_world, demo_session_id,
    (enc (host_request (bs "dave") (bs "ssh-ed25519") (bs "HOST") (bs "h") (bs "u") ++ [FString (bs "forged")])),
    0, (new_account []), (bs "publickey,hostbased").
  split; [exact demo_quick|]. split; [constructor; apply IsValidUsername_spec; vm_compute; reflexivity|].
  split; vm_compute; reflexivity.
Qed.
Print Assumptions C99_floor_refuted.

(** Once the tarpit delays the requests of a client, the time tells how long
    the request has really taken: the two delays overlap. *)
Theorem C99_tarpit_refuted :
  exists cfg l w1 w2 sid payload t0 a,
  cf_translation_server cfg = false /\ quick (demo_latency 0) /\ l = demo_latency 100 /\
  full_request payload /\ ~ hasty cfg sid payload /\
  let r1 := TOnUserAuthRequest cfg l w1 sid payload t0 a in
  let r2 := TOnUserAuthRequest cfg l w2 sid payload t0 a in
  denied (r_outcome r1) /\ denied (r_outcome r2) /\ r_outcome r1 = r_outcome r2 /\ r_time r2 < r_time r1.
Proof.
  exists (demo_config false), (demo_latency 100), demo_world, empty_world, demo_session_id, (demo_query (bs "dave") (bs "OTHER")),
    0, (new_account []).
  split; [reflexivity|]. split; [exact demo_quick|]. split; [reflexivity|].
  split; [constructor; apply IsValidUsername_spec; vm_compute; reflexivity|].
  split; [|vm_compute; auto].
  unfold demo_query. apply query_not_hasty; vm_compute; reflexivity.
Qed.
Print Assumptions C99_tarpit_refuted.

(** A helper process which takes longer than 100 ms to look into the home
    directory makes the existence of the account visible: the answer comes
    once the helper has finished ([w_open] says that lukko itself may not
    enter the directory). *)
Theorem C99_slow_refuted :
  exists cfg l w1 w2 sid payload t0 a,
  cf_translation_server cfg = false /\ full_request payload /\ ~ hasty cfg sid payload /\
  lt_getpwnam l (bs "dave") = 5 /\ lt_open l (bs "/home/dave") = 20 /\ (forall i, lt_delegate l i = 140) /\
  w_open w1 (bs "/home/dave") = Denied /\
  let r1 := TOnUserAuthRequest cfg l w1 sid payload t0 a in
  let r2 := TOnUserAuthRequest cfg l w2 sid payload t0 a in
  denied (r_outcome r1) /\ denied (r_outcome r2) /\ r_outcome r1 = r_outcome r2 /\
  r_time r1 = t0 + 5 + 20 + 140 /\ r_time r2 = t0 + 100 + lt_late l.
Proof.
  exists (demo_config false), {| lt_tarpit := 0; lt_translate := fun _ _ => 0; lt_getpwnam := fun _ => 5; lt_open := fun _ => 20;
    lt_delegate := fun _ => 140; lt_verify := fun _ => 3; lt_late := 1 |},
    {| w_translate := w_translate demo_world; w_getpwnam := w_getpwnam demo_world; w_open := fun _ => Denied; w_delegate := fun _ => None |},
    empty_world, demo_session_id, (demo_query (bs "dave") (bs "OTHER")), 7, (new_account []).
  split; [reflexivity|]. split; [constructor; apply IsValidUsername_spec; vm_compute; reflexivity|].
  split; [unfold demo_query; apply query_not_hasty; vm_compute; reflexivity|].
  split; [reflexivity|]. split; [reflexivity|]. split; [reflexivity|]. split; [reflexivity|]. vm_compute. auto.
Qed.
Print Assumptions C99_slow_refuted.

(** With a translation server, the list of methods in the answer tells
    whether the account exists. *)
Theorem C99_methods_refuted :
  exists cfg l w1 w2 sid payload t0 a,
  cf_translation_server cfg = true /\ quick l /\ full_request payload /\ ~ hasty cfg sid payload /\
  let r1 := TOnUserAuthRequest cfg l w1 sid payload t0 a in
  let r2 := TOnUserAuthRequest cfg l w2 sid payload t0 a in
  r_outcome r1 = Failure (bs "publickey,hostbased,password") /\ r_outcome r2 = Failure [] /\ r_time r1 = r_time r2.
Proof.
  exists (demo_config true), (demo_latency 0), demo_world, empty_world, demo_session_id, (demo_query (bs "alice") (bs "OTHER")),
    0, (new_account []).
  split; [reflexivity|]. split; [exact demo_quick|].
  split; [constructor; apply IsValidUsername_spec; vm_compute; reflexivity|].
  split; [unfold demo_query; apply query_not_hasty; vm_compute; reflexivity|]. vm_compute. auto.
Qed.
Print Assumptions C99_methods_refuted.

(** A refused request costs the client tokens only if the account exists, so
    that the tarpit begins to delay only those who try existing accounts. *)
Theorem C99_cost_refuted :
  exists cfg l w1 w2 sid payload t0 a,
  cf_translation_server cfg = false /\ quick l /\ full_request payload /\
  let r1 := TOnUserAuthRequest cfg l w1 sid payload t0 a in
  let r2 := TOnUserAuthRequest cfg l w2 sid payload t0 a in
  seen r1 = seen r2 /\ r_cost r1 = 5000 /\ r_cost r2 = 0.
Proof.
  exists (demo_config false), (demo_latency 0), demo_world, empty_world, demo_session_id,
    (enc [FString (bs "dave"); FString CONNECTION; FString PASSWORD] ++ enc [FByte 0; FString (bs "guess")]), 0, (new_account []).
  split; [reflexivity|]. split; [exact demo_quick|].
  split; [constructor; [apply IsValidUsername_spec; vm_compute; reflexivity|discriminate|discriminate]|].
  vm_compute. auto.
Qed.
Print Assumptions C99_cost_refuted.

(** The hypotheses can be met: a key which is not authorized, for an account
    which exists and for one which does not. *)
Example C99_demo :
  let payload := demo_query (bs "dave") (bs "OTHER") in
  full_request payload /\ ~ hasty (demo_config false) demo_session_id payload /\ len payload <= 35000 /\ bytes_ok payload /\
  denied (r_outcome (TOnUserAuthRequest (demo_config false) (demo_latency 0) demo_world demo_session_id payload 7 (new_account []))) /\
  denied (r_outcome (TOnUserAuthRequest (demo_config false) (demo_latency 0) empty_world demo_session_id payload 7 (new_account []))) /\
  r_time (TOnUserAuthRequest (demo_config false) (demo_latency 0) demo_world demo_session_id payload 7 (new_account [])) = 108.
Proof.
  cbv zeta. split; [constructor; apply IsValidUsername_spec; vm_compute; reflexivity|].
  split; [unfold demo_query; apply query_not_hasty; vm_compute; reflexivity|].
  split; [vm_compute; discriminate|]. split; [vm_compute; repeat constructor|]. vm_compute. auto.
Qed.

Example C99_demo_password :
  tr_status_ok demo_refused = false /\
  w_translate demo_world (bs "alice") (bs "wrong") = Some demo_refused /\
  w_translate demo_world (bs "nobody") (bs "wrong") = Some demo_refused.
Proof. vm_compute. auto. Qed.
