(** * C64: a valid credential is accepted *)

From Coq Require Import NArith List Bool Lia String.
From Verif.Base Require Import Bytes.
From Verif.Spec Require Import WireSpec KeySpec AuthSpec SessionSpec CredentialSpec AuthDemo.
From Verif.Model Require Import Wire Packets StringList KeyOptions Auth Session Server.
From Verif.Proofs Require Import WireFacts KeyFacts AuthFacts ServerFacts SessionFacts AttemptFacts AuthClientFacts CredentialFacts.
Import ListNotations.
Open Scope N_scope.

Local Arguments bs : simpl never.

(** On a new connection, a request of a user with a valid credential (see
    Spec/CredentialSpec.v) logs this user in, whatever the credential and the
    account; 35000 is the maximum size of a packet, 64 that of a session
    identifier (SHA-512). *)
Theorem C64_accepted :
  forall cfg session_id peer_address w user payload,
  valid_name user -> bytes_ok payload -> len session_id <= 64 -> len payload <= 35000 ->
  valid_request cfg session_id w user payload ->
  let s := vrun cfg session_id peer_address (opening ++ attempt (payload, w)) in
  ac_authenticated (sv_account s) = true /\ ac_username (sv_account s) = user /\ sv_alive s = true /\
  (In (VSend [52]) (sv_log s) \/ exists address, In (VConnectProxy address) (sv_log s)).
Proof.
  intros cfg sid peer w user payload V B LS LP VR s.
  destruct (valid_accepted cfg w sid user peer payload V B LS LP VR) as (b & proxy & E).
  destruct (opening_ready cfg sid peer) as [R0 E0].
  destruct (attempt_step cfg sid payload {| pe_channel := 0; pe_pty := true |} w _ R0 B) as (out & X & G' & H).
  rewrite E0, E in X. assert (S : s = vstep cfg sid (OAuth w) (vstep cfg sid (OPacket MSG_USERAUTH_REQUEST payload {| pe_channel := 0; pe_pty := true |}) (vrun cfg sid peer opening))).
  { subst s. rewrite vrun_attempt. reflexivity. }
  rewrite <- S in *. assert (OUT : out = Accepted proxy) by congruence. subst out. destruct H as [H1 H2].
  assert (ACC : sv_account s = set_login user b) by congruence.
  split; [exact H1|]. split; [rewrite ACC; reflexivity|]. split; [exact H2|].
  set (t := vstep cfg sid (OPacket MSG_USERAUTH_REQUEST payload {| pe_channel := 0; pe_pty := true |}) (vrun cfg sid peer opening)) in *.
  assert (TB : sv_busy t = Checking payload) by reflexivity.
  assert (TA : sv_alive t = true) by reflexivity.
  assert (TC : sv_account t = new_account peer) by reflexivity.
  assert (GT : good cfg t) by (apply good_step; [exact B|apply R0]).
  pose proof (oauth_cases cfg sid w t payload GT TA TB) as (a & out & E1 & _ & HO). rewrite TC, E in E1.
  assert (OUT : out = Accepted proxy) by congruence. subst out. destruct HO as (_ & L & _). rewrite S, L.
  destruct proxy as [address|]; [right; exists address|left]; apply in_or_app; right; right; now left.
Qed.
Print Assumptions C64_accepted.

(** The hypotheses can be met, for each kind of credential. *)
Example C64_demo_key :
  valid_request (demo_config true) demo_session_id demo_world (bs "alice") (demo_key_request (bs "alice") (bs "KEY")).
Proof.
  apply V_key with (s := FromTranslation demo_response).
  - split; [reflexivity|]. split; [vm_compute; reflexivity|]. split; [reflexivity|]. intros eo E. injection E as <-. repeat split; discriminate.
  - right. left. exists demo_options. now left.
  - reflexivity.
  - reflexivity.
  - vm_compute. reflexivity.
Qed.
Example C64_demo_host :
  valid_request (demo_config false) demo_session_id demo_world (bs "dave") (demo_host_request (bs "dave")).
Proof.
  apply V_host with (o := ko_default) (s := FromPasswd demo_passwd).
  - split; [reflexivity|vm_compute; reflexivity].
  - now left.
  - reflexivity.
  - vm_compute. reflexivity.
Qed.
Example C64_demo_password :
  valid_request (demo_config true) demo_session_id demo_world (bs "alice") (demo_password_request (bs "alice") (bs "secret")).
Proof.
  apply V_password with (r := demo_response); try reflexivity.
  - vm_compute. discriminate.
  - split; [reflexivity|]. intros eo E. injection E as <-. repeat split; discriminate.
Qed.
Example C64_demo_waived :
  valid_request (demo_config true) demo_session_id demo_world (bs "carol") (enc [FString (bs "carol"); FString CONNECTION; FString (bs "none")]).
Proof.
  apply V_waived with (r := demo_restricted).
  - split; [reflexivity|]. split; [vm_compute; reflexivity|]. split; [reflexivity|]. intros eo E. discriminate.
  - left. reflexivity.
Qed.
(** The key in the file of the home directory: a line of the file names it. *)
Definition keys_file : bytes := bs "# my keys" ++ [10] ++ bs "no-pty ssh-ed25519 HOMEKEY dave@desk" ++ [10].
Definition home_world : world := {|
  w_translate := fun _ _ => None; w_getpwnam := w_getpwnam demo_world;
  w_open := fun home => if bytes_eqb home (bs "/home/dave") then Opened {| f_regular := true; f_contents := keys_file |} else NotOpened;
  w_delegate := fun _ => None |}.
Example C64_demo_home :
  valid_request (demo_config false) demo_session_id home_world (bs "dave") (demo_key_request (bs "dave") (bs "HOMEKEY")).
Proof.
  apply V_key with (s := FromPasswd demo_passwd).
  - split; [reflexivity|vm_compute; reflexivity].
  - right. right. exists (bs "/home/dave"), {| f_regular := true; f_contents := keys_file |},
      {| ko_command := []; ko_no_port_forwarding := false; ko_no_pty := true; ko_home_read_only := false |}.
    split; [split; [reflexivity|discriminate]|]. split; [vm_compute; reflexivity|]. split; [reflexivity|].
    split; [vm_compute; reflexivity|]. split; [exact Logic.I|]. apply lines_contain_iff. vm_compute. reflexivity.
  - reflexivity.
  - reflexivity.
  - vm_compute. reflexivity.
Qed.
