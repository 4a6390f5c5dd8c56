(** Facts about the time of answers to login requests (C99). *)

From Coq Require Import NArith List Bool Lia String.
From Verif.Base Require Import Bytes.
From Verif.Spec Require Import WireSpec AuthSpec DelaySpec.
From Verif.Model Require Import Wire Packets StringList KeyOptions Auth Delay.
From Verif.Proofs Require Import WireFacts KeyFacts AuthFacts ServerFacts SessionFacts AttemptFacts AuthClientFacts CredentialFacts.
Import ListNotations.
Open Scope N_scope.

Local Arguments bs : simpl never.

(** ** The answer is the one of Model/Auth.v *)

Definition erase (r : reply) : account * outcome := (r_account r, r_outcome r).

Lemma VerifyAnswer_request : forall cfg sid blob tbs sig,
  VerifyRequest cfg sid blob tbs sig = match VerifyAnswer cfg sid blob tbs sig with Some b => b | None => false end.
Proof. intros. unfold VerifyRequest, VerifyAnswer. destruct (ToBeVerified sid tbs); reflexivity. Qed.

Lemma erase_publickey : forall cfg l w sid payload user d methods arch sticky t0 t c a,
  erase (TAuthPublicKey cfg l w sid payload user d methods arch sticky t0 t c a) =
  AuthPublicKey cfg w sid payload user d methods arch sticky a.
Proof.
  intros. unfold TAuthPublicKey, AuthPublicKey.
  destruct (ReadBool d) as [[ws d1]|]; [|reflexivity].
  destruct (ReadString d1) as [[alg d2]|]; [|reflexivity].
  destruct (ReadLengthEncoded d2) as [[blob d3]|]; [|reflexivity]. cbv zeta.
  destruct (IsAcceptedPublicKey cfg w blob a) as [a1 []]; [|reflexivity].
  destruct (negb (cf_parse_key cfg blob)); [reflexivity|].
  destruct (negb ws); [destruct (ExpectEnd d3); reflexivity|].
  destruct (ReadLengthEncoded d3) as [[sig d4]|]; [|reflexivity]. destruct (ExpectEnd d4); [|reflexivity].
  rewrite VerifyAnswer_request. destruct (VerifyAnswer cfg sid blob (DSince payload d3) sig) as [[]|]; reflexivity.
Qed.

Lemma erase_hostbased : forall cfg l sid payload user d methods arch sticky t0 t c a,
  erase (TAuthHostbased cfg l sid payload user d methods arch sticky t0 t c a) =
  AuthHostbased cfg sid payload user d methods arch sticky a.
Proof.
  intros. unfold TAuthHostbased, AuthHostbased.
  destruct (ReadString d) as [[alg d1]|]; [|reflexivity].
  destruct (ReadLengthEncoded d1) as [[blob d2]|]; [|reflexivity].
  destruct (ReadString d2) as [[h d3]|]; [|reflexivity].
  destruct (ReadString d3) as [[u d4]|]; [|reflexivity]. cbv zeta.
  destruct (ReadLengthEncoded d4) as [[sig d5]|]; [|reflexivity]. destruct (ExpectEnd d5); [|reflexivity].
  destruct (IsAcceptedHostPublicKey cfg blob a) as [a1 []]; [|reflexivity].
  destruct (negb (cf_parse_key cfg blob)); [reflexivity|].
  rewrite VerifyAnswer_request. destruct (VerifyAnswer cfg sid blob (DSince payload d4) sig) as [[]|]; reflexivity.
Qed.

Lemma erase_method : forall cfg l w sid payload user method d methods pa arch sticky t0 t c a,
  erase (TAuthMethod cfg l w sid payload user method d methods pa arch sticky t0 t c a) =
  AuthMethod cfg w sid payload user method d methods pa arch sticky a.
Proof.
  intros. unfold TAuthMethod, AuthMethod.
  destruct (bytes_eqb method (bs "publickey")); [apply erase_publickey|].
  destruct (bytes_eqb method (bs "hostbased")); [apply erase_hostbased|].
  destruct pa; reflexivity.
Qed.

Lemma erase_translation : forall cfg l w sid payload user method d t0 t c a,
  erase (TAuthTranslation cfg l w sid payload user method d t0 t c a) =
  AuthTranslation cfg w sid payload user method d a.
Proof.
  intros. unfold TAuthTranslation, AuthTranslation. cbv zeta.
  assert (T : forall password d c,
    erase (let t := t + translate_time l user password a in
      match LazyTranslate w user password a with
      | (a, None) => mk_reply a Die t c
      | (a, Some r) =>
        if negb (tr_status_ok r) then mk_reply a (Failure []) (fail_sleep l t0 t) (c + 8000)
        else
          let '(a, password_accepted) := ApplyResponse r password a in
          if negb (CheckTranslateResponse r) then mk_reply a Die t (c + 2000)
          else
            TAuthMethod cfg l w sid payload user method d
              (AuthMethods (match cf_authorized_host_keys cfg with [] => false | _ => true end) true) password_accepted (tr_arch r)
              (match tr_site r with Some site => site | None => user end) t0 t c a
      end) =
    match LazyTranslate w user password a with
    | (a, None) => (a, Die)
    | (a, Some r) =>
        if negb (tr_status_ok r) then (a, Failure [])
        else
          let '(a, password_accepted) := ApplyResponse r password a in
          if negb (CheckTranslateResponse r) then (a, Die)
          else
            AuthMethod cfg w sid payload user method d
              (AuthMethods (match cf_authorized_host_keys cfg with [] => false | _ => true end) true) password_accepted (tr_arch r)
              (match tr_site r with Some site => site | None => user end) a
    end).
  { intros password d' c'. cbv zeta. destruct (LazyTranslate w user password a) as [a1 [r|]]; [|reflexivity].
    destruct (negb (tr_status_ok r)); [reflexivity|]. destruct (ApplyResponse r password a1) as [a2 pa].
    destruct (negb (CheckTranslateResponse r)); [reflexivity|]. apply erase_method. }
  cbv zeta in T. destruct (bytes_eqb method (bs "password")); [|apply T].
  destruct (ReadBool d) as [[ch d1]|]; [|reflexivity]. destruct (ReadString d1) as [[p d2]|]; [|reflexivity].
  destruct (ExpectEnd d2); [|reflexivity]. destruct ch; [reflexivity|]. destruct (is_nil p); [reflexivity|]. apply T.
Qed.

Lemma erase_request : forall cfg l w sid payload t0 a,
  erase (TOnUserAuthRequest cfg l w sid payload t0 a) = OnUserAuthRequest cfg w sid payload a.
Proof.
  intros. unfold TOnUserAuthRequest, OnUserAuthRequest.
  destruct (ReadString payload) as [[user d1]|]; [|reflexivity].
  destruct (ReadString d1) as [[service d2]|]; [|reflexivity].
  destruct (ReadString d2) as [[method d3]|]; [|reflexivity]. cbv zeta.
  destruct (negb (bytes_eqb service (bs "ssh-connection"))); [reflexivity|].
  destruct (negb (IsValidUsername user)); [reflexivity|].
  destruct (cf_translation_server cfg); [apply erase_translation|].
  destruct (w_getpwnam w user); [apply erase_method|reflexivity].
Qed.

(** ** Times *)

Lemma fail_sleep_ge : forall l t0 t, t0 + 100 <= fail_sleep l t0 t.
Proof. intros. unfold fail_sleep, FAIL_DELAY. destruct (t0 + 100 <=? t) eqn:E; [apply N.leb_le in E|]; lia. Qed.

Lemma fail_sleep_quick : forall l t0 t, t < t0 + 100 -> fail_sleep l t0 t = t0 + 100 + lt_late l.
Proof. intros. unfold fail_sleep, FAIL_DELAY. destruct (t0 + 100 <=? t) eqn:E; [apply N.leb_le in E; lia|reflexivity]. Qed.

Lemma VerifyAnswer_some : forall cfg sid blob tbs sig, len sid + len tbs + 5 <= 65536 ->
  VerifyAnswer cfg sid blob tbs sig = cf_verify cfg blob (string_enc sid ++ [50] ++ tbs) sig.
Proof. intros. unfold VerifyAnswer. rewrite ToBeVerified_some by assumption. reflexivity. Qed.

Definition some_identity : identity := AsPasswd {| pw_uid := 0; pw_gid := 0; pw_dir := []; pw_shell := [] |}.

Lemma keys_time_le : forall cfg l w blob a M, (forall home i, lt_open l home + lt_delegate l i <= M) ->
  keys_time cfg l w blob a <= M.
Proof.
  intros cfg l w blob a M H. unfold keys_time. cbv zeta.
  match goal with |- (if ?b then _ else _) <= _ => destruct b end; [lia|].
  destruct (Find (cf_global_keys cfg) blob); [lia|]. destruct (ShouldLoadHomeAuthorizedKeys a); [|lia].
  unfold open_time. cbv zeta.
  assert (D : (if ac_allow_sftp a then match HelperIdentity a with Some i => lt_delegate l i | None => 0 end else 0) <= M
    /\ forall home, lt_open l home + (if ac_allow_sftp a then match HelperIdentity a with Some i => lt_delegate l i | None => 0 end else 0) <= M).
  { split; [|intro home]; destruct (ac_allow_sftp a); destruct (HelperIdentity a) as [i|];
      [pose proof (H [] i)|pose proof (H [] some_identity)|pose proof (H [] some_identity)|pose proof (H [] some_identity)
      |pose proof (H home i)|pose proof (H home some_identity)|pose proof (H home some_identity)|pose proof (H home some_identity)]; lia. }
  destruct D as [D1 D2].
  destruct (GetHome a) as [home|]; [|exact D1]. pose proof (D2 home) as D3. pose proof (H home some_identity).
  destruct (w_open w home); lia.
Qed.

(** ** Refusals which take no time *)

(** What can be left of a request after the name of the method. *)
Lemma enc_app : forall a b, enc (a ++ b) = enc a ++ enc b.
Proof. intros. unfold enc. now rewrite map_app, List.concat_app. Qed.

Lemma enc_head3 : forall a b c rest,
  string_enc a ++ string_enc b ++ string_enc c ++ rest = enc [FString a; FString b; FString c] ++ rest.
Proof. intros. unfold enc. cbn [map List.concat enc_field]. now rewrite app_nil_r, <- !app_assoc. Qed.

Lemma floor_publickey : forall cfg l w sid user d methods arch sticky t0 t c a m pre,
  bytes_ok d -> len sid <= 64 -> len (pre ++ d) <= 35000 ->
  pre = enc [FString user; FString CONNECTION; FString PUBLICKEY] ->
  let r := TAuthPublicKey cfg l w sid (pre ++ d) user d methods arch sticky t0 t c a in
  r_outcome r = Failure m -> t0 + 100 <= r_time r \/ hasty cfg sid (pre ++ d).
Proof.
  intros cfg l w sid user d methods arch sticky t0 t c a m pre B LS LP PRE r. unfold r, TAuthPublicKey.
  destruct (ReadBool d) as [[ws d1]|] eqn:E1; [|discriminate].
  destruct (ReadString d1) as [[alg d2]|] eqn:E2; [|discriminate].
  destruct (ReadLengthEncoded d2) as [[blob d3]|] eqn:E3; [|discriminate]. cbv zeta.
  apply ReadBool_inv in E1 as (flag & -> & WS & FB & B1); [|exact B].
  apply ReadString_inv in E2 as (-> & _ & B2 & _); [|exact B1].
  apply (ReadString_inv d2 blob d3) in E3 as (-> & _ & B3 & _); [|exact B2].
  assert (SH : pre ++ flag :: string_enc alg ++ string_enc blob ++ d3 = enc (key_request user flag alg blob) ++ d3).
  { subst pre. unfold key_request, enc. cbn [map List.concat enc_field]. rewrite !app_nil_r, <- !app_assoc. reflexivity. }
  destruct (IsAcceptedPublicKey cfg w blob a) as [a1 []]; [|intros _; left; apply fail_sleep_ge].
  destruct (cf_parse_key cfg blob) eqn:PK; cbn [negb]; [|intros _; right; rewrite SH; now apply H_no_key].
  destruct ws; cbn [negb]; [|destruct (ExpectEnd d3); discriminate].
  destruct (ReadLengthEncoded d3) as [[sig d4]|] eqn:E4; [|discriminate].
  destruct (ExpectEnd d4) eqn:EE; [|discriminate].
  apply (ReadString_inv d3 sig d4) in E4 as (-> & _ & B4 & _); [|exact B3].
  assert (d4 = []) as -> by (destruct d4; [reflexivity|discriminate]). rewrite app_nil_r in *.
  rewrite SH in LP |- *. rewrite DSince_app.
  rewrite VerifyAnswer_some by (rewrite len_app in LP; lia).
  destruct (cf_verify cfg blob _ sig) as [[]|] eqn:V; [discriminate|intros _; left; apply fail_sleep_ge|intros _; right].
  replace (enc (key_request user flag alg blob) ++ string_enc sig)
    with (enc (key_request user flag alg blob ++ [FString sig]))
    by (rewrite enc_app; f_equal; unfold enc; cbn [map List.concat enc_field]; apply app_nil_r).
  apply H_key.
  - intros ->. discriminate WS.
  - rewrite <- V. unfold signed_data. f_equal.
Qed.

Lemma floor_hostbased : forall cfg l sid user d methods arch sticky t0 t c a m pre,
  bytes_ok d ->
  pre = enc [FString user; FString CONNECTION; FString HOSTBASED] ->
  let r := TAuthHostbased cfg l sid (pre ++ d) user d methods arch sticky t0 t c a in
  r_outcome r = Failure m -> t0 + 100 <= r_time r \/ hasty cfg sid (pre ++ d).
Proof.
  intros cfg l sid user d methods arch sticky t0 t c a m pre B PRE r. unfold r, TAuthHostbased.
  destruct (ReadString d) as [[alg d1]|] eqn:E1; [|discriminate].
  destruct (ReadLengthEncoded d1) as [[blob d2]|] eqn:E2; [|discriminate].
  destruct (ReadString d2) as [[h d3]|] eqn:E3; [|discriminate].
  destruct (ReadString d3) as [[u d4]|] eqn:E4; [|discriminate]. cbv zeta.
  destruct (ReadLengthEncoded d4) as [[sig d5]|] eqn:E5; [|discriminate].
  destruct (ExpectEnd d5) eqn:EE; [|discriminate].
  apply ReadString_inv in E1 as (-> & _ & B1 & _); [|exact B].
  apply (ReadString_inv d1 blob d2) in E2 as (-> & _ & B2 & _); [|exact B1].
  apply ReadString_inv in E3 as (-> & _ & B3 & _); [|exact B2].
  apply ReadString_inv in E4 as (-> & _ & B4 & _); [|exact B3].
  apply (ReadString_inv d4 sig d5) in E5 as (-> & _ & B5 & _); [|exact B4].
  assert (d5 = []) as -> by (destruct d5; [reflexivity|discriminate]). rewrite app_nil_r in *.
  unfold IsAcceptedHostPublicKey. destruct (Find (cf_authorized_host_keys cfg) blob) as [o|] eqn:F;
    [|intros _; left; apply fail_sleep_ge].
  intros _. right. apply Find_In in F.
  replace (pre ++ string_enc alg ++ string_enc blob ++ string_enc h ++ string_enc u ++ string_enc sig)
    with (enc (host_request user alg blob h u ++ [FString sig])); [eapply H_host; exact F|].
  subst pre. unfold host_request, enc. cbn [map List.concat enc_field app]. rewrite !app_nil_r, <- !app_assoc. reflexivity.
Qed.

Lemma floor_method : forall cfg l w sid user method d methods pa arch sticky t0 t c a m pre,
  bytes_ok d -> len sid <= 64 -> len (pre ++ d) <= 35000 ->
  pre = enc [FString user; FString CONNECTION; FString method] ->
  let r := TAuthMethod cfg l w sid (pre ++ d) user method d methods pa arch sticky t0 t c a in
  r_outcome r = Failure m -> t0 + 100 <= r_time r \/ hasty cfg sid (pre ++ d).
Proof.
  intros cfg l w sid user method d methods pa arch sticky t0 t c a m pre B LS LP PRE r. unfold r, TAuthMethod.
  destruct (bytes_eqb method (bs "publickey")) eqn:M1.
  { apply bytes_eqb_eq in M1 as ->. now apply floor_publickey. }
  destruct (bytes_eqb method (bs "hostbased")) eqn:M2.
  { apply bytes_eqb_eq in M2 as ->. now apply floor_hostbased. }
  destruct pa; [discriminate|]. intros _. left. apply fail_sleep_ge.
Qed.

Lemma floor_request : forall cfg l w sid payload t0 a m,
  bytes_ok payload -> len sid <= 64 -> len payload <= 35000 ->
  let r := TOnUserAuthRequest cfg l w sid payload t0 a in
  r_outcome r = Failure m -> t0 + 100 <= r_time r \/ hasty cfg sid payload.
Proof.
  intros cfg l w sid payload t0 a m B LS LP r. unfold r, TOnUserAuthRequest.
  destruct (ReadString payload) as [[user d1]|] eqn:E1; [|discriminate].
  destruct (ReadString d1) as [[service d2]|] eqn:E2; [|discriminate].
  destruct (ReadString d2) as [[method d3]|] eqn:E3; [|discriminate]. cbv zeta.
  apply ReadString_inv in E1 as (-> & _ & B1 & _); [|exact B].
  apply ReadString_inv in E2 as (-> & _ & B2 & _); [|exact B1].
  apply ReadString_inv in E3 as (-> & _ & B3 & _); [|exact B2].
  destruct (bytes_eqb service (bs "ssh-connection")) eqn:S; cbn [negb].
  2: { intros _. right. apply bytes_eqb_neq in S.
       replace (string_enc user ++ string_enc service ++ string_enc method ++ d3)
         with (enc [FString user; FString service] ++ string_enc method ++ d3)
         by (unfold enc; cbn [map List.concat enc_field]; rewrite app_nil_r, <- !app_assoc; reflexivity).
       now apply H_service. }
  apply bytes_eqb_eq in S as ->. destruct (negb (IsValidUsername user)); [discriminate|].
  change (bs "ssh-connection") with CONNECTION in *.
  rewrite (enc_head3 user CONNECTION method d3) in LP |- *.
  destruct (cf_translation_server cfg) eqn:TS.
  - unfold TAuthTranslation. cbv zeta.
    assert (T : forall password c m,
      let r := match LazyTranslate w user password a with
      | (a', None) => mk_reply a' Die (t0 + lt_tarpit l + translate_time l user password a) c
      | (a', Some r) =>
        if negb (tr_status_ok r) then mk_reply a' (Failure []) (fail_sleep l t0 (t0 + lt_tarpit l + translate_time l user password a)) (c + 8000)
        else
          let '(a', password_accepted) := ApplyResponse r password a' in
          if negb (CheckTranslateResponse r) then mk_reply a' Die (t0 + lt_tarpit l + translate_time l user password a) (c + 2000)
          else
            TAuthMethod cfg l w sid (enc [FString user; FString CONNECTION; FString method] ++ d3) user method d3
              (AuthMethods (match cf_authorized_host_keys cfg with [] => false | _ => true end) true) password_accepted (tr_arch r)
              (match tr_site r with Some site => site | None => user end) t0 (t0 + lt_tarpit l + translate_time l user password a) c a'
      end in
      r_outcome r = Failure m -> t0 + 100 <= r_time r \/
        hasty cfg sid (enc [FString user; FString CONNECTION; FString method] ++ d3)).
    { intros password c' m'. cbv zeta. destruct (LazyTranslate w user password a) as [a1 [r'|]]; [|discriminate].
      destruct (negb (tr_status_ok r')); [intros _; left; apply fail_sleep_ge|].
      destruct (ApplyResponse r' password a1) as [a2 pa]. destruct (negb (CheckTranslateResponse r')); [discriminate|].
      intro H. revert H. now apply floor_method. }
    cbv zeta in T. destruct (bytes_eqb method (bs "password")) eqn:MP; [|apply T].
    clear T. apply bytes_eqb_eq in MP as ->. change (bs "password") with PASSWORD in *.
    destruct (ReadBool d3) as [[ch d4]|] eqn:E4; [|discriminate].
    destruct (ReadString d4) as [[pw d5]|] eqn:E5; [|discriminate]. destruct (ExpectEnd d5) eqn:EE; [|discriminate].
    apply ReadBool_inv in E4 as (flag & -> & CH & FB & B4); [|exact B3].
    apply ReadString_inv in E5 as (-> & _ & B5 & _); [|exact B4].
    assert (d5 = []) as -> by (destruct d5; [reflexivity|discriminate]). rewrite app_nil_r in *.
    assert (HP : flag <> 0 \/ pw = [] ->
      hasty cfg sid (enc [FString user; FString CONNECTION; FString PASSWORD] ++ flag :: string_enc pw)).
    { intro X. replace (enc [FString user; FString CONNECTION; FString PASSWORD] ++ flag :: string_enc pw)
        with (enc [FString user; FString CONNECTION; FString PASSWORD; FByte flag; FString pw]).
      - now apply H_password.
      - unfold enc. cbn [map List.concat enc_field]. rewrite !app_nil_r, <- !app_assoc. reflexivity. }
    destruct ch. { intros _. right. apply HP. left. intros ->. discriminate CH. }
    destruct (is_nil pw) eqn:NP. { intros _. right. apply HP. right. destruct pw; [reflexivity|discriminate]. }
    intro H.
    destruct (LazyTranslate w user pw a) as [a1 [r'|]]; [|discriminate].
    destruct (negb (tr_status_ok r')); [left; apply fail_sleep_ge|].
    destruct (ApplyResponse r' pw a1) as [a2 pa]. destruct (negb (CheckTranslateResponse r')); [discriminate|].
    revert H. unfold TAuthMethod. change (bytes_eqb PASSWORD (bs "publickey")) with false.
    change (bytes_eqb PASSWORD (bs "hostbased")) with false. cbv iota.
    destruct pa; [discriminate|]. intros _. left. apply fail_sleep_ge.
  - destruct (w_getpwnam w user) as [pw|]; [|intros _; left; apply fail_sleep_ge]. now apply floor_method.
Qed.

(** ** The exact time, without a translation server *)

Definition methods_of (cfg : config) : bytes :=
  AuthMethods (match cf_authorized_host_keys cfg with [] => false | _ => true end) false.

Lemma quick_keys : forall cfg l w blob a user key, quick l ->
  lt_tarpit l + lt_getpwnam l user + keys_time cfg l w blob a + lt_verify l key < 100.
Proof.
  intros cfg l w blob a user key Q.
  pose proof (keys_time_le cfg l w blob a (99 - (lt_tarpit l + lt_getpwnam l user + lt_verify l key))) as K.
  pose proof (Q user [] some_identity key).
  assert (forall home i, lt_open l home + lt_delegate l i <= 99 - (lt_tarpit l + lt_getpwnam l user + lt_verify l key)) as H1
    by (intros home i; pose proof (Q user home i key); lia).
  specialize (K H1). lia.
Qed.

Lemma reaches : forall cfg l w sid user method d t0 a, cf_translation_server cfg = false ->
  valid_name user -> len method < pow32 ->
  TOnUserAuthRequest cfg l w sid (enc [FString user; FString CONNECTION; FString method] ++ d) t0 a =
  match w_getpwnam w user with
  | None => mk_reply (log_event (AGetpwnam user None) a) (Failure (methods_of cfg))
              (fail_sleep l t0 (t0 + lt_tarpit l + lt_getpwnam l user)) 0
  | Some pw =>
      TAuthMethod cfg l w sid (enc [FString user; FString CONNECTION; FString method] ++ d) user method d (methods_of cfg)
        false ARCH_NONE user t0 (t0 + lt_tarpit l + lt_getpwnam l user) 0 (set_passwd pw (log_event (AGetpwnam user (Some pw)) a))
  end.
Proof.
  intros cfg l w sid user method d t0 a TS V LM. rewrite <- enc_head3. unfold TOnUserAuthRequest.
  rewrite ReadString_enc by (destruct V as (_ & L & _); unfold pow32; lia). cbv iota beta.
  rewrite ReadString_enc by (vm_compute; reflexivity). cbv iota beta. rewrite ReadString_enc by exact LM. cbv iota beta.
  change (bytes_eqb CONNECTION (bs "ssh-connection")) with true. cbn [negb]. rewrite valid_name_IsValidUsername by exact V. cbn [negb].
  rewrite TS. destruct (w_getpwnam w user); reflexivity.
Qed.

Lemma len_enc_string : forall x fs, len (enc (FString x :: fs)) = 4 + len x + len (enc fs).
Proof. intros. rewrite enc_cons. cbn [enc_field]. rewrite len_app, len_se. reflexivity. Qed.

Lemma exact_request : forall cfg l w sid payload t0 a,
  cf_translation_server cfg = false -> len sid <= 64 -> len payload <= 35000 -> quick l ->
  full_request payload -> ~ hasty cfg sid payload ->
  let r := TOnUserAuthRequest cfg l w sid payload t0 a in
  denied (r_outcome r) -> r_outcome r = Failure (methods_of cfg) /\ r_time r = t0 + 100 + lt_late l.
Proof.
  intros cfg l w sid payload t0 a TS LS LP Q C NH.
  assert (G : forall user, valid_name user -> fail_sleep l t0 (t0 + lt_tarpit l + lt_getpwnam l user) = t0 + 100 + lt_late l).
  { intros user V. apply fail_sleep_quick. pose proof (quick_keys cfg l w [] a user [] Q). lia. }
  destruct C as [user alg blob V|user flag alg blob sig V FL|user alg blob h u sig V|user method rest V N1 N2]; cbv zeta.
  - set (d := [0] ++ string_enc alg ++ string_enc blob) in *.
    assert (SH : enc (key_request user 0 alg blob) = enc [FString user; FString CONNECTION; FString PUBLICKEY] ++ d).
    { unfold key_request, d, enc. cbn [map List.concat enc_field]. rewrite !app_nil_r, <- !app_assoc. reflexivity. }
    rewrite SH in *. rewrite reaches by (assumption || (vm_compute; reflexivity)).
    destruct (w_getpwnam w user) as [pw|]; [|intros _; cbn [mk_reply r_outcome r_time]; auto].
    unfold TAuthMethod. change (bytes_eqb PUBLICKEY (bs "publickey")) with true. cbv iota. unfold TAuthPublicKey.
    assert (LD : len alg + len blob <= 35000) by (unfold d in LP; rewrite !len_app, !len_se in LP; lia).
    change (ReadBool d) with (Some (false, string_enc alg ++ string_enc blob)). cbv iota beta.
    rewrite ReadString_enc by (unfold pow32; lia). cbv iota beta. change ReadLengthEncoded with ReadString.
    rewrite ReadString_all by (unfold pow32; lia). cbv iota beta zeta.
    match goal with |- context [IsAcceptedPublicKey cfg w blob ?b] => set (a1 := b) end.
    destruct (IsAcceptedPublicKey cfg w blob a1) as [a2 []].
    + destruct (cf_parse_key cfg blob) eqn:PK; cbn [negb ExpectEnd].
      * intros [].
      * exfalso. apply NH. rewrite <- SH. rewrite <- (app_nil_r (enc _)). now apply H_no_key.
    + intros _. cbn [mk_reply r_outcome r_time]. split; [reflexivity|]. apply fail_sleep_quick.
      pose proof (quick_keys cfg l w blob a1 user [] Q). lia.
  - set (d := [flag] ++ string_enc alg ++ string_enc blob ++ string_enc sig) in *.
    assert (SH : enc (key_request user flag alg blob ++ [FString sig]) = enc [FString user; FString CONNECTION; FString PUBLICKEY] ++ d).
    { unfold key_request, d, enc. cbn [map List.concat enc_field app]. rewrite !app_nil_r, <- !app_assoc. reflexivity. }
    assert (SH2 : enc (key_request user flag alg blob ++ [FString sig]) = enc (key_request user flag alg blob) ++ string_enc sig).
    { rewrite enc_app. f_equal. unfold enc. cbn [map List.concat enc_field]. apply app_nil_r. }
    rewrite SH in LP. rewrite SH at 1 2 3. rewrite reaches by (assumption || (vm_compute; reflexivity)).
    destruct (w_getpwnam w user) as [pw|]; [|intros _; cbn [mk_reply r_outcome r_time]; auto].
    unfold TAuthMethod. change (bytes_eqb PUBLICKEY (bs "publickey")) with true. cbv iota.
    rewrite <- SH, SH2. unfold TAuthPublicKey.
    assert (LD : len alg + len blob + len sig <= 35000) by (unfold d in LP; rewrite !len_app, !len_se in LP; lia).
    assert (LE : len (enc (key_request user flag alg blob)) <= 35000).
    { pose proof (f_equal len SH2) as X. rewrite SH in X. rewrite X in LP. rewrite len_app in LP. lia. }
    replace (ReadBool d) with (Some (true, string_enc alg ++ string_enc blob ++ string_enc sig))
      by (unfold d, ReadBool; cbn [ReadU8 app]; destruct (flag =? 0) eqn:Z; [apply N.eqb_eq in Z; lia|reflexivity]).
    cbv iota beta.
    rewrite ReadString_enc by (unfold pow32; lia). cbv iota beta. change ReadLengthEncoded with ReadString.
    rewrite ReadString_enc by (unfold pow32; lia). cbv iota beta zeta.
    match goal with |- context [IsAcceptedPublicKey cfg w blob ?b] => set (a1 := b) end.
    destruct (IsAcceptedPublicKey cfg w blob a1) as [a2 []].
    + destruct (cf_parse_key cfg blob) eqn:PK; cbn [negb].
      2: { exfalso. apply NH. rewrite SH2. now apply H_no_key. }
      rewrite ReadString_all by (unfold pow32; lia). cbv iota beta zeta. cbn [ExpectEnd].
      rewrite DSince_app. rewrite VerifyAnswer_some by lia.
      destruct (cf_verify cfg blob _ sig) as [[]|] eqn:VF.
      * intros [].
      * intros _. cbn [mk_reply r_outcome r_time]. split; [reflexivity|]. apply fail_sleep_quick.
        pose proof (quick_keys cfg l w blob a1 user blob Q). lia.
      * exfalso. apply NH. apply H_key; [lia|]. exact VF.
    + intros _. cbn [mk_reply r_outcome r_time]. split; [reflexivity|]. apply fail_sleep_quick.
      pose proof (quick_keys cfg l w blob a1 user [] Q). lia.
  - set (d := string_enc alg ++ string_enc blob ++ string_enc h ++ string_enc u ++ string_enc sig) in *.
    assert (SH : enc (host_request user alg blob h u ++ [FString sig]) = enc [FString user; FString CONNECTION; FString HOSTBASED] ++ d).
    { unfold host_request, d, enc. cbn [map List.concat enc_field app]. rewrite !app_nil_r, <- !app_assoc. reflexivity. }
    rewrite SH in LP. rewrite SH at 1 2 3. rewrite reaches by (assumption || (vm_compute; reflexivity)).
    destruct (w_getpwnam w user) as [pw|]; [|intros _; cbn [mk_reply r_outcome r_time]; auto].
    unfold TAuthMethod. change (bytes_eqb HOSTBASED (bs "publickey")) with false. change (bytes_eqb HOSTBASED (bs "hostbased")) with true.
    cbv iota. unfold TAuthHostbased.
    assert (LD : len alg + len blob + len h + len u + len sig <= 35000) by (unfold d in LP; rewrite !len_app, !len_se in LP; lia).
    change (ReadString d) with (ReadString (string_enc alg ++ string_enc blob ++ string_enc h ++ string_enc u ++ string_enc sig)).
    change ReadLengthEncoded with ReadString.
    rewrite ReadString_enc by (unfold pow32; lia). cbv iota beta. rewrite ReadString_enc by (unfold pow32; lia). cbv iota beta.
    rewrite ReadString_enc by (unfold pow32; lia). cbv iota beta. rewrite ReadString_enc by (unfold pow32; lia). cbv iota beta zeta.
    rewrite ReadString_all by (unfold pow32; lia). cbv iota beta. cbn [ExpectEnd].
    unfold IsAcceptedHostPublicKey. destruct (Find (cf_authorized_host_keys cfg) blob) as [o|] eqn:F.
    + exfalso. apply NH. apply Find_In in F. eapply H_host. exact F.
    + intros _. cbn [mk_reply r_outcome r_time]. split; [reflexivity|]. now apply G.
  - assert (LM : len method < pow32).
    { rewrite len_app, !len_enc_string in LP. unfold pow32. lia. }
    rewrite reaches by assumption.
    destruct (w_getpwnam w user) as [pw|]; [|intros _; cbn [mk_reply r_outcome r_time]; auto].
    unfold TAuthMethod.
    destruct (bytes_eqb method (bs "publickey")) eqn:M1; [apply bytes_eqb_eq in M1; now destruct (N1 M1)|].
    destruct (bytes_eqb method (bs "hostbased")) eqn:M2; [apply bytes_eqb_eq in M2; now destruct (N2 M2)|].
    cbv iota. intros _. cbn [mk_reply r_outcome r_time]. split; [reflexivity|]. now apply G.
Qed.

(** ** A query for a proper key is never refused at once *)

Lemma string_head : forall a b x y, len a < pow32 -> len x < pow32 ->
  string_enc b ++ y = string_enc a ++ x -> len (string_enc a ++ x) < pow32 -> b = a /\ y = x.
Proof.
  intros a b x y La Lx E L.
  assert (Lb : len b < pow32).
  { pose proof (f_equal len E) as X. rewrite len_app, len_se in X. lia. }
  pose proof (ReadString_enc b y Lb) as P. rewrite E, (ReadString_enc a x La) in P. injection P as -> ->. auto.
Qed.

Lemma query_not_hasty : forall cfg sid user algorithm blob,
  cf_parse_key cfg blob = true -> len (enc (key_request user 0 algorithm blob)) < pow32 ->
  ~ hasty cfg sid (enc (key_request user 0 algorithm blob)).
Proof.
  intros cfg sid user algorithm blob PK L H. revert L.
  remember (enc (key_request user 0 algorithm blob)) as p eqn:E. intro L.
  assert (F : p = string_enc user ++ string_enc CONNECTION ++ string_enc PUBLICKEY ++ 0 :: string_enc algorithm ++ string_enc blob).
  { subst p. unfold key_request, enc. cbn [map List.concat enc_field]. rewrite !app_nil_r. reflexivity. }
  clear E. rewrite F in L. pose proof L as L'. repeat rewrite len_app in L'. rewrite !len_se in L'.
  cbn [len List.length] in L'.
  assert (LT : forall x y : bytes, len (x ++ y) < pow32 -> len y < pow32) by (intros x y Hx; rewrite len_app in Hx; lia).
  pose proof (LT _ _ L) as L2. pose proof (LT _ _ L2) as L3. pose proof (LT _ _ L3) as L4.
  assert (L5 : len (string_enc algorithm ++ string_enc blob) < pow32) by (apply (LT [0]); exact L4).
  assert (L6 : len (string_enc blob) < pow32) by (apply (LT _ _ L5)).
  assert (LU : len user < pow32) by (rewrite len_app, len_se in L; lia).
  assert (LA : len algorithm < pow32) by (rewrite len_app, len_se in L5; lia).
  assert (LB : len blob < pow32) by (rewrite len_se in L6; lia).
  inversion H as [u s rest NS E|u f q TS OR E|u f al bl rest PK' E|u f al bl sig NF VF E|u al bl h cu sig o I E]; subst p; clear H.
  - unfold enc in E. cbn [map List.concat enc_field] in E. rewrite app_nil_r, <- !app_assoc in E.
    apply string_head in E as [_ E]; [|assumption..].
    apply string_head in E as [-> _]; [now apply NS|vm_compute; reflexivity|assumption|assumption].
  - unfold enc in E. cbn [map List.concat enc_field] in E. rewrite app_nil_r in E.
    apply string_head in E as [_ E]; [|assumption..].
    apply string_head in E as [_ E]; [|vm_compute; reflexivity|assumption|assumption].
    apply string_head in E as [E _]; [discriminate E|vm_compute; reflexivity|assumption|assumption].
  - unfold key_request, enc in E. cbn [map List.concat enc_field] in E. rewrite app_nil_r, <- !app_assoc in E.
    apply string_head in E as [_ E]; [|assumption..].
    apply string_head in E as [_ E]; [|vm_compute; reflexivity|assumption|assumption].
    apply string_head in E as [_ E]; [|vm_compute; reflexivity|assumption|assumption].
    apply (f_equal (@tl N)) in E. cbn [tl app] in E.
    apply string_head in E as [_ E]; [|assumption..].
    rewrite <- (app_nil_r (string_enc blob)) in E. apply string_head in E as [-> _]; [congruence|assumption|reflexivity|].
    rewrite app_nil_r. assumption.
  - unfold key_request, enc in E. cbn [map List.concat enc_field app] in E. rewrite app_nil_r in E.
    apply string_head in E as [_ E]; [|assumption..].
    apply string_head in E as [_ E]; [|vm_compute; reflexivity|assumption|assumption].
    apply string_head in E as [_ E]; [|vm_compute; reflexivity|assumption|assumption].
    apply (f_equal (hd 0)) in E. cbn [hd app] in E. now apply NF.
  - unfold host_request, enc in E. cbn [map List.concat enc_field app] in E. rewrite app_nil_r in E.
    apply string_head in E as [_ E]; [|assumption..].
    apply string_head in E as [_ E]; [|vm_compute; reflexivity|assumption|assumption].
    apply string_head in E as [E _]; [discriminate E|vm_compute; reflexivity|assumption|assumption].
Qed.
