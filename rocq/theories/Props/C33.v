(** * C33: restrictions of a login follow from the credential used *)

From Coq Require Import NArith List Bool Lia String.
From Verif.Base Require Import Bytes.
From Verif.Spec Require Import WireSpec KeySpec AuthSpec SessionSpec AuthDemo.
From Verif.Model Require Import Wire Packets StringList KeyOptions Auth Session Server.
From Verif.Proofs Require Import WireFacts KeyFacts AuthFacts ServerFacts SessionFacts AuthClientFacts.
Import ListNotations.
Open Scope N_scope.

(** The restrictions which belong to a credential. *)
Definition options_of (c : credential) : key_options :=
  match c with CKey _ o | CHost _ o => o | CPassword | CWaived => ko_default end.

(** The full claim, at the moment of the login. *)
Definition C33_full_statement : Prop :=
  forall cfg session_id peer_address before w, Forall op_ok before ->
  ac_authenticated (sv_account (vrun cfg session_id peer_address before)) = false ->
  let a := sv_account (vrun cfg session_id peer_address (before ++ [OAuth w])) in
  ac_authenticated a = true ->
  exists payload user c src,
    login_request cfg session_id peer_address (before ++ [OAuth w]) before w payload user c src /\
    ac_options a = options_of c.

Lemma proves_password : forall cfg sid w log payload user c u rest, len payload < pow32 ->
  proves cfg sid w log payload user c -> payload = enc [FString u; FString CONNECTION; FString PASSWORD; FRaw rest] ->
  c = CPassword.
Proof.
  intros cfg sid w log payload user c u rest L P E.
  assert (KEY : forall u' m fs, payload = enc (FString u' :: FString CONNECTION :: FString m :: fs) -> m = PASSWORD).
  { intros u' m fs E'. assert (E2 := E'). rewrite E in E2.
    apply enc_string_inj in E2 as [_ E2].
    - apply enc_string_inj in E2 as [_ E2]; [|vm_compute; reflexivity..].
      apply enc_string_inj in E2 as [E2 _]; [congruence|vm_compute; reflexivity|].
      rewrite E', !enc_cons in L. cbn [enc_field] in L. rewrite !len_app, !len_string_enc in L. lia.
    - rewrite E, !enc_cons in L. cbn [enc_field] in L. rewrite !len_app, !len_string_enc in L. lia.
    - rewrite E', !enc_cons in L. cbn [enc_field] in L. rewrite !len_app, !len_string_enc in L. lia. }
  destruct P as [us flag alg blob sg s o|us alg blob h cu sg s o|us pw r|us m d r NI].
  - specialize (KEY _ _ _ eq_refl). discriminate.
  - specialize (KEY _ _ _ eq_refl). discriminate.
  - reflexivity.
  - specialize (KEY _ _ _ eq_refl). subst m. exfalso. apply NI. cbn. auto.
Qed.

(** It is false: a client asks whether a key would be accepted (without a
    signature) and then logs in with a password: the options of that key
    are in force. *)
Definition demo_stale : list vop :=
  demo_start ++ demo_attempt (demo_query (bs "alice") (bs "KEY")) ++
  [OPacket MSG_USERAUTH_REQUEST (demo_password_request (bs "alice") (bs "secret")) demo_env].

Theorem C33_refuted : ~ C33_full_statement.
Proof.
  intro H.
  destruct (H (demo_config true) demo_session_id (bs "192.0.2.1") demo_stale demo_world)
    as (payload & user & c & src & (_ & B & _ & P & _) & E).
  - apply ok_ops; vm_compute; reflexivity.
  - vm_compute; reflexivity.
  - vm_compute; reflexivity.
  - assert (B' : sv_busy (vrun (demo_config true) demo_session_id (bs "192.0.2.1") demo_stale) =
      Checking (demo_password_request (bs "alice") (bs "secret"))) by (vm_compute; reflexivity).
    rewrite B' in B. injection B as B. rewrite <- B in P.
    apply (proves_password _ _ _ _ _ _ _ (bs "alice") (enc [FByte 0; FString (bs "secret")])) in P;
      [|vm_compute; reflexivity|vm_compute; reflexivity].
    subst c. revert E. vm_compute. discriminate.
Qed.
Print Assumptions C33_refuted.

(** What holds always.  A login with a key: its options are in force from then
    on, and stay.  A login with a host key: its options are in force, and what
    the host adds makes them stricter.  A login without a key: what
    earlier requests have left behind is in force, and stays. *)
Theorem C33_options_partial :
  forall cfg session_id peer_address ops, Forall op_ok ops ->
  let a := sv_account (vrun cfg session_id peer_address ops) in
  ac_authenticated a = true ->
  exists before w payload user c src,
    login_request cfg session_id peer_address ops before w payload user c src /\
    match c with
    | CKey _ o => ac_options a = o
    | CHost _ o => at_least (ac_options a) o
    | CPassword | CWaived => ac_options a = ac_options (sv_account (vrun cfg session_id peer_address before))
    end.
Proof.
  intros cfg sid peer ops F a A. destruct (login_origin cfg sid peer ops F A) as (before & w & payload & user & c & src & after & LO).
  exists before, w, payload, user, c, src. split; [eapply login_request_of; eauto|].
  pose proof (lo_login _ _ _ _ _ _ _ _ _ _ _ LO) as LG. pose proof (lo_ops _ _ _ _ _ _ _ _ _ _ _ LO) as O.
  assert (F' := F). rewrite O in F'. destruct (options_later _ _ _ _ _ _ F' (lg_auth _ _ _ _ _ _ _ _ LG)) as (X1 & X2 & _).
  rewrite <- O in X1, X2. fold a in X1, X2.
  pose proof (lg_options _ _ _ _ _ _ _ _ LG) as LO'. pose proof (logged_hostbased _ _ _ _ _ _ _ _ _ _ _ F LO) as LH.
  destruct c; rewrite ?X2 by exact LH; try exact LO'. rewrite <- LO'. exact X1.
Qed.
Print Assumptions C33_options_partial.

(** A connection on which no key was ever presented has no restrictions after
    a login without a key. *)
Theorem C33_without_key_partial :
  forall cfg session_id peer_address ops, Forall op_ok ops ->
  (forall payload, received ops payload -> ~ key_method payload) ->
  let a := sv_account (vrun cfg session_id peer_address ops) in
  ac_authenticated a = true ->
  exists before w payload user c src,
    login_request cfg session_id peer_address ops before w payload user c src /\
    (c = CPassword \/ c = CWaived) /\ ac_options a = ko_default.
Proof.
  intros cfg sid peer ops F NK a A. destruct (login_origin cfg sid peer ops F A) as (before & w & payload & user & c & src & after & LO).
  exists before, w, payload, user, c, src. pose proof (login_request_of _ _ _ _ _ _ _ _ _ _ _ F LO) as LR.
  pose proof (lo_login _ _ _ _ _ _ _ _ _ _ _ LO) as LG. pose proof (lo_ops _ _ _ _ _ _ _ _ _ _ _ LO) as O.
  assert (C : c = CPassword \/ c = CWaived).
  { destruct LR as (_ & _ & (env & R) & P & _). assert (RO : received ops payload) by (exists env; rewrite O; apply in_or_app; auto).
    destruct P as [us flag alg blob sg s o|us alg blob h cu sg s o|us pw r|us m d r NI]; auto; exfalso; apply (NK _ RO).
    - exists us, CONNECTION, PUBLICKEY, (enc [FByte flag; FString alg; FString blob; FString sg]). split; [cbn; auto|].
      unfold enc, key_request. cbn [map List.concat enc_field app]. now rewrite !app_nil_r.
    - exists us, CONNECTION, HOSTBASED, (enc [FString alg; FString blob; FString h; FString cu; FString sg]). split; [cbn; auto|].
      unfold enc, host_request. cbn [map List.concat enc_field app]. now rewrite !app_nil_r. }
  split; [exact LR|]. split; [exact C|].
  assert (FB : Forall op_ok before) by (rewrite O in F; apply Forall_app in F; apply F).
  pose proof (lo_before _ _ _ _ _ _ _ _ _ _ _ LO) as A0.
  assert (OB : ac_options (sv_account (vrun cfg sid peer before)) = ko_default).
  { apply options_before; [exact FB| |exact (lo_alive _ _ _ _ _ _ _ _ _ _ _ LO)|exact A0].
    intros p (env & I). apply NK. exists env. rewrite O. apply in_or_app; auto. }
  assert (F' := F). rewrite O in F'. destruct (options_later _ _ _ _ _ _ F' (lg_auth _ _ _ _ _ _ _ _ LG)) as (_ & X2 & _).
  rewrite <- O in X2. fold a in X2.
  pose proof (lg_options _ _ _ _ _ _ _ _ LG) as LO'. pose proof (logged_hostbased _ _ _ _ _ _ _ _ _ _ _ F LO) as LH.
  destruct C as [-> | ->]; rewrite X2 by exact LH; congruence.
Qed.
Print Assumptions C33_without_key_partial.

(** The demo key, with restrictions; a password login without any key. *)
Example C33_demo_key :
  let s := demo_run true (demo_attempt (demo_key_request (bs "alice") (bs "PLAIN") ) ) in
  let t := demo_run true (demo_attempt (demo_query (bs "alice") (bs "PLAIN")) ++ demo_attempt (demo_key_request (bs "alice") (bs "KEY"))) in
  ac_authenticated (sv_account s) = true /\ ac_options (sv_account s) = ko_default /\
  ac_authenticated (sv_account t) = true /\ ac_options (sv_account t) = demo_options.
Proof. vm_compute. repeat split; reflexivity. Qed.

Example C33_demo_password :
  let ops := demo_start ++ demo_attempt (demo_password_request (bs "alice") (bs "wrong")) ++
    demo_attempt (demo_password_request (bs "alice") (bs "secret")) in
  (forall payload, received ops payload -> ~ key_method payload) /\
  ac_authenticated (sv_account (vrun (demo_config true) demo_session_id (bs "192.0.2.1") ops)) = true.
Proof.
  cbv zeta. split; [|vm_compute; reflexivity].
  intros payload (env & I) (u & sv & m & r & M & E).
  assert (P : exists pw, payload = enc [FString (bs "alice"); FString CONNECTION; FString PASSWORD; FRaw (enc [FByte 0; FString pw])] /\ len payload < 100).
  { cbn [In app demo_start demo_attempt] in I. repeat destruct I as [I|I]; try discriminate; [| |destruct I]; injection I as I _; subst payload.
    - exists (bs "wrong"). split; vm_compute; reflexivity.
    - exists (bs "secret"). split; vm_compute; reflexivity. }
  destruct P as (pw & P & L). assert (E2 := E). rewrite P in E2.
  rewrite E, !enc_cons in L. cbn [enc_field] in L. rewrite !len_app, !len_string_enc in L.
  apply enc_string_inj in E2 as [_ E2]; [|vm_compute; reflexivity|unfold pow32; lia].
  apply enc_string_inj in E2 as [_ E2]; [|vm_compute; reflexivity|unfold pow32; lia].
  apply enc_string_inj in E2 as [E2 _]; [|vm_compute; reflexivity|unfold pow32; lia].
  subst m. cbn [In] in M. destruct M as [M|[M|[]]]; discriminate.
Qed.
