(** * C62: a failure reply lists exactly the methods which can succeed *)

From Coq Require Import NArith List Bool Lia String.
From Verif.Base Require Import Bytes.
From Verif.Spec Require Import WireSpec KeySpec AuthSpec SessionSpec CredentialSpec AuthDemo.
From Verif.Model Require Import Wire Packets StringList KeyOptions Auth Session Server.
From Verif.Proofs Require Import WireFacts KeyFacts AuthFacts ServerFacts SessionFacts AuthClientFacts CredentialFacts.
Import ListNotations.
Open Scope N_scope.

Local Arguments bs : simpl never.

(** RFC 4252 section 5.1: the reply; the names are separated by commas, there
    is no partial success *)
Definition failure_reply (methods : bytes) : bytes := enc [FByte 51; FString methods; FBool false].

(** [names] is the list with commas between its elements. *)
Fixpoint comma_list (names : list bytes) : bytes :=
  match names with
  | [] => []
  | [n] => n
  | n :: r => n ++ [44] ++ comma_list r
  end.

(** The methods which are configured. *)
Definition configured (cfg : config) (m : bytes) : Prop :=
  m = bs "publickey" \/
  (m = bs "hostbased" /\ cf_authorized_host_keys cfg <> []) \/
  (m = bs "password" /\ cf_translation_server cfg = true).

Lemma method_list_spec : forall cfg, exists names,
  method_list cfg = comma_list names /\ NoDup names /\ (forall m, In m names <-> configured cfg m).
Proof.
  intros cfg. unfold method_list, configured.
  assert (D1 : bs "publickey" <> bs "hostbased") by (vm_compute; discriminate).
  assert (D2 : bs "publickey" <> bs "password") by (vm_compute; discriminate).
  assert (D3 : bs "hostbased" <> bs "password") by (vm_compute; discriminate).
  destruct (cf_authorized_host_keys cfg) as [|k r]; destruct (cf_translation_server cfg).
  - exists [bs "publickey"; bs "password"]. split; [reflexivity|]. split.
    + repeat constructor; cbn [In]; intuition congruence.
    + intro m. cbn [In]. intuition congruence.
  - exists [bs "publickey"]. split; [reflexivity|]. split.
    + repeat constructor; cbn [In]; intuition congruence.
    + intro m. cbn [In]. intuition congruence.
  - exists [bs "publickey"; bs "hostbased"; bs "password"]. split; [reflexivity|]. split.
    + repeat constructor; cbn [In]; intuition congruence.
    + intro m. cbn [In]. intuition congruence.
  - exists [bs "publickey"; bs "hostbased"]. split; [reflexivity|]. split.
    + repeat constructor; cbn [In]; intuition congruence.
    + intro m. cbn [In]. intuition congruence.
Qed.

Lemma failure_reply_inj : forall l m, len l < pow32 -> len m < pow32 -> failure_reply l = userauth_failure m -> l = m.
Proof.
  intros l m L M H. unfold failure_reply, userauth_failure, send_string, enc in H. cbn [map List.concat enc_field] in H.
  rewrite put_u32_be32, <- app_assoc in H.
  assert (X := f_equal (@tl N) H). cbn [tl List.app] in X.
  change (string_enc l ++ [0] = string_enc m ++ [0]) in X. apply app_inv_tail in X.
  rewrite <- (app_nil_r (string_enc l)), <- (app_nil_r (string_enc m)) in X. apply string_enc_inj in X; tauto.
Qed.

Lemma method_list_len : forall cfg, len (method_list cfg) < pow32.
Proof. intro cfg. unfold method_list. destruct (cf_authorized_host_keys cfg), (cf_translation_server cfg); vm_compute; reflexivity. Qed.

(** Each failure reply lists either nothing (this user or service can not be
    used at all) or exactly the methods which are configured. *)
Theorem C62_listed :
  forall cfg session_id peer_address ops w l, Forall op_ok ops -> len l < pow32 ->
  let s := vrun cfg session_id peer_address ops in
  sv_log (vstep cfg session_id (OAuth w) s) = sv_log s ++ [VSend (failure_reply l)] ->
  l = [] \/
  exists names, l = comma_list names /\ NoDup names /\ (forall m, In m names <-> configured cfg m).
Proof.
  intros cfg sid peer ops w l F LL s L. pose proof (vrun_good cfg sid peer ops F) as G. fold s in G.
  assert (NO : sv_log s <> sv_log s ++ [VSend (failure_reply l)]).
  { intro X. apply (f_equal (@List.length vevent)) in X. rewrite app_length in X. cbn in X. lia. }
  destruct (sv_alive s) eqn:AL; [|rewrite vstep_dead in L by exact AL; contradiction].
  destruct (sv_busy s) as [|payload|addr] eqn:B; [rewrite oauth_idle in L by (intros; congruence); contradiction| |
    rewrite oauth_idle in L by (intros; congruence); contradiction].
  pose proof (oauth_cases cfg sid w s payload G AL B) as (a & out & E & _ & H).
  destruct out as [m|alg blob| |p].
  - destruct H as (_ & _ & _ & H). rewrite L in H. apply app_inv_head in H. apply (f_equal (fun x => match x with VSend y :: _ => y | _ => [] end)) in H.
    cbv beta iota in H. destruct (failure_methods _ _ _ _ _ _ _ E) as [->| ->].
    + left. eapply failure_reply_inj; [exact LL| |exact H]. vm_compute. reflexivity.
    + right. assert (l = method_list cfg) as -> by (eapply failure_reply_inj; [exact LL|apply method_list_len|exact H]).
      apply method_list_spec.
  - destruct H as (_ & _ & _ & H). rewrite L in H. apply app_inv_head in H.
    apply (f_equal (fun x => match x with VSend (y :: _) :: _ => y | _ => 0 end)) in H. discriminate.
  - destruct H as (_ & H). rewrite L in H. apply app_inv_head in H. discriminate.
  - destruct H as (_ & H & _). rewrite L in H. apply app_inv_head in H. discriminate.
Qed.
Print Assumptions C62_listed.

(** The method of a credential. *)
Definition method_of (c : credential) : option bytes :=
  match c with
  | CKey _ _ => Some (bs "publickey")
  | CHost _ _ => Some (bs "hostbased")
  | CPassword => Some (bs "password")
  | CWaived => None
  end.

(** Whoever logs in has used a configured method (or none at all, where the
    translation server has waived the password): the client may rely on the
    list to choose. *)
Theorem C62_only_listed_succeed :
  forall cfg session_id peer_address ops, Forall op_ok ops ->
  ac_authenticated (sv_account (vrun cfg session_id peer_address ops)) = true ->
  exists before w payload user c src,
    login_request cfg session_id peer_address ops before w payload user c src /\
    forall m, method_of c = Some m -> configured cfg m.
Proof.
  intros cfg sid peer ops F A. destruct (login_origin cfg sid peer ops F A) as (before & w & payload & user & c & src & after & LO).
  exists before, w, payload, user, c, src. split; [eapply login_request_of; eauto|].
  intros m M. unfold configured. destruct (lo_proves _ _ _ _ _ _ _ _ _ _ _ LO); cbn [method_of] in M; try discriminate; injection M as <-.
  - now left.
  - right. left. split; [reflexivity|]. intro X. rewrite X in *. contradiction.
  - right. right. auto.
Qed.
Print Assumptions C62_only_listed_succeed.

(** And each of them can succeed: a request with a valid credential for it is
    accepted (C64).  Here: a forged signature is answered by the complete list,
    the two configurations differ. *)
Example C62_demo :
  sv_log (demo_run true (demo_attempt (demo_bad_signature (bs "alice") (bs "KEY")))) =
    sv_log (demo_run true [OPacket MSG_USERAUTH_REQUEST (demo_bad_signature (bs "alice") (bs "KEY")) demo_env]) ++
    [VSend (failure_reply (comma_list [bs "publickey"; bs "hostbased"; bs "password"]))] /\
  sv_log (demo_run false (demo_attempt (demo_bad_signature (bs "dave") (bs "KEY")))) =
    sv_log (demo_run false [OPacket MSG_USERAUTH_REQUEST (demo_bad_signature (bs "dave") (bs "KEY")) demo_env]) ++
    [VSend (failure_reply (comma_list [bs "publickey"; bs "hostbased"]))].
Proof. split; vm_compute; reflexivity. Qed.

Example C62_demo_password :
  ac_authenticated (sv_account (demo_run true (demo_attempt (demo_password_request (bs "alice") (bs "secret"))))) = true.
Proof. vm_compute. reflexivity. Qed.
