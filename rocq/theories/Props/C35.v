(** * C35: a wrong attempt does not change the outcome of later ones *)

From Coq Require Import NArith List Bool Lia String.
From Verif.Base Require Import Bytes.
From Verif.Spec Require Import WireSpec KeySpec AuthSpec SessionSpec AuthDemo.
From Verif.Model Require Import Wire Packets StringList KeyOptions Auth Session Server.
From Verif.Proofs Require Import WireFacts KeyFacts AuthFacts ServerFacts SessionFacts AttemptFacts AuthClientFacts.
Import ListNotations.
Open Scope N_scope.

(** The last attempt, after these. *)
Definition succeeds_after (cfg : config) (session_id peer_address : bytes) (attempts : list (bytes * world))
  (payload : bytes) (w : world) : Prop :=
  ac_authenticated (sv_account (vrun cfg session_id peer_address (opening ++ flat_map attempt attempts ++ attempt (payload, w)))) = true.

(** All these attempts have failed, and the connection is still open. *)
Definition all_failed (cfg : config) (session_id peer_address : bytes) (attempts : list (bytes * world)) : Prop :=
  let s := vrun cfg session_id peer_address (opening ++ flat_map attempt attempts) in
  sv_alive s = true /\ ac_authenticated (sv_account s) = false.

(** This request names the user. *)
Definition names (user payload : bytes) : Prop :=
  len user < pow32 /\ bytes_ok payload /\ exists rest, payload = string_enc user ++ rest.

(** This request uses the method "password". *)
Definition with_password (payload : bytes) : Prop :=
  exists user service rest, payload = string_enc user ++ string_enc service ++ string_enc PASSWORD ++ rest.

(** The full claim: what succeeds on a fresh connection also succeeds after
    failed attempts for the same user.  (The world is the same for all.) *)
Definition C35_full_statement : Prop :=
  forall cfg session_id peer_address user attempts payload w,
  Forall (fun x => names user (fst x) /\ snd x = w) attempts -> names user payload ->
  all_failed cfg session_id peer_address attempts ->
  succeeds_after cfg session_id peer_address [] payload w ->
  succeeds_after cfg session_id peer_address attempts payload w.

(** It is false: after a wrong password the refusing answer is kept, and a
    valid signature is rejected. *)
Definition demo_wrong_password : list (bytes * world) := [(demo_password_request (bs "alice") (bs "wrong"), demo_world)].

Lemma demo_names : forall payload rest, payload = string_enc (bs "alice") ++ rest -> forallb (fun b => b <? 256) payload = true ->
  names (bs "alice") payload.
Proof.
  intros payload rest E B. split; [vm_compute; reflexivity|]. split; [|eauto].
  apply Forall_forall. intros b I. rewrite forallb_forall in B. apply N.ltb_lt. auto.
Qed.

Theorem C35_refuted : ~ C35_full_statement.
Proof.
  intro H. specialize (H (demo_config true) demo_session_id (bs "192.0.2.1") (bs "alice") demo_wrong_password
    (demo_key_request (bs "alice") (bs "PLAIN")) demo_world).
  assert (X : succeeds_after (demo_config true) demo_session_id (bs "192.0.2.1") demo_wrong_password (demo_key_request (bs "alice") (bs "PLAIN")) demo_world).
  { apply H.
    - constructor; [|constructor]. split; [|reflexivity]. eapply demo_names; [reflexivity|vm_compute; reflexivity].
    - eapply demo_names; [reflexivity|vm_compute; reflexivity].
    - split; vm_compute; reflexivity.
    - vm_compute. reflexivity. }
  revert X. unfold succeeds_after. vm_compute. discriminate.
Qed.
Print Assumptions C35_refuted.

Definition trivial : account -> Prop := fun _ => True.

(** What holds.  Passwords: any failed attempts, for any users, with any
    answers of the world, do not change whether a password is accepted. *)
Theorem C35_password_partial :
  forall cfg session_id peer_address attempts user password w,
  Forall (fun x => bytes_ok (fst x)) attempts ->
  bytes_ok user -> bytes_ok password -> len user < pow32 -> len password < pow32 ->
  all_failed cfg session_id peer_address attempts ->
  (succeeds_after cfg session_id peer_address attempts (enc (password_request user password)) w <->
   succeeds_after cfg session_id peer_address [] (enc (password_request user password)) w).
Proof.
  intros cfg sid peer attempts user password w F U P LU LP (AL & A).
  assert (OK : bytes_ok (enc (password_request user password))).
  { assert (SE : forall x, bytes_ok x -> bytes_ok (string_enc x)) by (intros x X; apply bytes_ok_app; split; [apply be32_ok|exact X]).
    unfold enc, password_request. cbn [map List.concat enc_field].
    apply bytes_ok_app; split; [auto|]. apply bytes_ok_app; split; [apply SE, bs_ok|]. apply bytes_ok_app; split; [apply SE, bs_ok|].
    apply bytes_ok_app; split; [constructor; [reflexivity|constructor]|]. apply bytes_ok_app; split; [auto|constructor]. }
  destruct (attempts_ready cfg sid peer trivial attempts Logic.I (fun _ _ _ _ _ _ _ _ _ _ _ => Logic.I) F AL A) as [R _].
  pose proof (last_attempt cfg sid peer attempts _ w OK R) as X.
  destruct (opening_ready cfg sid peer) as [R0 _].
  pose proof (last_attempt cfg sid peer [] (enc (password_request user password)) w OK) as Y. cbn [flat_map] in Y. rewrite app_nil_r in Y. specialize (Y R0).
  unfold succeeds_after. cbn [flat_map]. rewrite X, Y.
  rewrite (password_outcome cfg w sid user password _ (sv_account (vrun cfg sid peer opening)) LU LP). tauto.
Qed.
Print Assumptions C35_password_partial.

(** Without a translation server, any attempts and all methods. *)
Theorem C35_passwd_partial :
  forall cfg session_id peer_address attempts payload w, cf_translation_server cfg = false ->
  Forall (fun x => bytes_ok (fst x)) attempts -> bytes_ok payload ->
  all_failed cfg session_id peer_address attempts ->
  (succeeds_after cfg session_id peer_address attempts payload w <->
   succeeds_after cfg session_id peer_address [] payload w).
Proof.
  intros cfg sid peer attempts payload w TS F OK (AL & A).
  destruct (attempts_ready cfg sid peer (fun a => ac_translation a = None /\ ac_allow_sftp a = true) attempts) as [R (T & S)];
    [split; reflexivity| |exact F|exact AL|exact A|].
  { intros p w' a b out _ _ (T & S) E NA _. destruct (passwd_keeps _ _ _ _ _ _ _ TS E NA). split; congruence. }
  pose proof (last_attempt cfg sid peer attempts payload w OK R) as X.
  destruct (opening_ready cfg sid peer) as [R0 E0].
  pose proof (last_attempt cfg sid peer [] payload w OK) as Y. cbn [flat_map] in Y. rewrite app_nil_r in Y. specialize (Y R0).
  unfold succeeds_after. cbn [flat_map]. rewrite X, Y.
  rewrite (passwd_outcome cfg w sid payload _ (sv_account (vrun cfg sid peer opening)) TS); [tauto| |]; rewrite E0; assumption.
Qed.
Print Assumptions C35_passwd_partial.

(** With a translation server, attempts for the same user without passwords,
    with keys for example. *)
Theorem C35_keys_partial :
  forall cfg session_id peer_address user attempts payload w, cf_translation_server cfg = true ->
  Forall (fun x => names user (fst x) /\ ~ with_password (fst x) /\ snd x = w) attempts ->
  names user payload -> ~ with_password payload ->
  all_failed cfg session_id peer_address attempts ->
  (succeeds_after cfg session_id peer_address attempts payload w <->
   succeeds_after cfg session_id peer_address [] payload w).
Proof.
  intros cfg sid peer user attempts payload w TS F (L & OK & rest & E) NP (AL & A).
  assert (NR : forall user payload rest, payload = string_enc user ++ rest -> ~ with_password payload ->
    forall service rest', rest <> string_enc service ++ string_enc PASSWORD ++ rest').
  { intros u p r X Y sv r' Z. apply Y. exists u, sv, r'. congruence. }
  destruct (attempts_ready cfg sid peer (tried w user) attempts) as [R TR]; [| | |exact AL|exact A|].
  { split; [reflexivity|]. left. split; reflexivity. }
  { intros p w' a b out I _ V E' NA _. rewrite Forall_forall in F. destruct (F _ I) as ((_ & OK' & rest' & P) & NP' & W).
    cbn [fst snd] in *. subst w'. eapply (tried_step cfg w sid user p a rest'); eauto. }
  { eapply Forall_impl; [|exact F]. intros x ((_ & X & _) & _). exact X. }
  pose proof (last_attempt cfg sid peer attempts payload w OK R) as X.
  destruct (opening_ready cfg sid peer) as [R0 E0].
  pose proof (last_attempt cfg sid peer [] payload w OK) as Y. cbn [flat_map] in Y. rewrite app_nil_r in Y. specialize (Y R0).
  unfold succeeds_after. cbn [flat_map]. rewrite X, Y.
  destruct (tried_step cfg w sid user payload _ rest TS E L (NR _ _ _ E NP) OK TR) as [-> _].
  rewrite E0. destruct (tried_step cfg w sid user payload (new_account peer) rest TS E L (NR _ _ _ E NP) OK) as [-> _]; [|tauto].
  split; [reflexivity|]. left. split; reflexivity.
Qed.
Print Assumptions C35_keys_partial.

(** Two forged signatures, and then a valid one: accepted; a wrong password
    first, then the right one. *)
Definition demo_forged : list (bytes * world) :=
  [(demo_bad_signature (bs "alice") (bs "KEY"), demo_world); (demo_bad_signature (bs "alice") (bs "PLAIN"), demo_world)].

Example C35_demo_keys :
  Forall (fun x => names (bs "alice") (fst x) /\ ~ with_password (fst x) /\ snd x = demo_world) demo_forged /\
  all_failed (demo_config true) demo_session_id (bs "192.0.2.1") demo_forged /\
  succeeds_after (demo_config true) demo_session_id (bs "192.0.2.1") demo_forged (demo_key_request (bs "alice") (bs "KEY")) demo_world.
Proof.
  assert (NP : forall k sg, len (enc (key_request (bs "alice") 1 (bs "ssh-ed25519") k ++ [FString sg])) < 4000 ->
    ~ with_password (enc (key_request (bs "alice") 1 (bs "ssh-ed25519") k ++ [FString sg]))).
  { intros k sg LN (u & sv & r & E). rewrite E in LN.
    rewrite !len_app, !len_string_enc in LN.
    unfold key_request in E. cbn [app] in E. rewrite !enc_cons in E. cbn [enc_field] in E.
    apply string_enc_inj in E as [_ E]; [|vm_compute; reflexivity|unfold pow32; lia].
    apply string_enc_inj in E as [_ E]; [|vm_compute; reflexivity|unfold pow32; lia].
    apply string_enc_inj in E as [E _]; [discriminate|vm_compute; reflexivity|vm_compute; reflexivity]. }
  split; [|split; [split; vm_compute; reflexivity|vm_compute; reflexivity]].
  constructor; [|constructor; [|constructor]]; (split; [eapply demo_names; [reflexivity|vm_compute; reflexivity]|split; [|reflexivity]]).
  - apply NP; vm_compute; reflexivity.
  - apply NP; vm_compute; reflexivity.
Qed.

Example C35_demo_password :
  all_failed (demo_config true) demo_session_id (bs "192.0.2.1") demo_wrong_password /\
  succeeds_after (demo_config true) demo_session_id (bs "192.0.2.1") demo_wrong_password (enc (password_request (bs "alice") (bs "secret"))) demo_world.
Proof. split; [split; vm_compute; reflexivity|vm_compute; reflexivity]. Qed.
