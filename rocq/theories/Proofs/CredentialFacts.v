(** Proofs about valid credentials (C64) and the list of methods (C62). *)

From Coq Require Import NArith List Bool Lia String.
From Verif.Base Require Import Bytes.
From Verif.Spec Require Import WireSpec KeySpec AuthSpec SessionSpec CredentialSpec.
From Verif.Model Require Import Wire Packets StringList KeyOptions Auth Session Server.
From Verif.Proofs Require Import WireFacts KeyFacts AuthFacts AuthClientFacts AttemptFacts.
Import ListNotations.
Open Scope N_scope.

Local Arguments bs : simpl never.
Local Arguments string_enc : simpl never.

Lemma valid_name_IsValidUsername : forall u, valid_name u -> IsValidUsername u = true.
Proof.
  intros u (NE & L & F). unfold IsValidUsername. rewrite !andb_true_iff. repeat split.
  - now apply N.leb_le.
  - destruct u; [congruence|reflexivity].
  - apply forallb_forall. intros c I. rewrite Forall_forall in F. specialize (F c I). unfold name_char in F.
    unfold alnum. repeat rewrite orb_true_iff. repeat rewrite andb_true_iff. repeat rewrite N.leb_le. repeat rewrite N.eqb_eq. cbn [In] in F. lia.
Qed.

Lemma ToBeVerified_some : forall sid tbs, len sid + len tbs + 5 <= 65536 ->
  ToBeVerified sid tbs = Some (string_enc sid ++ [50] ++ tbs).
Proof.
  intros sid tbs L. unfold ToBeVerified. change WriteLengthEncoded with WriteString.
  assert (LS : len (string_enc sid) = 4 + len sid) by (unfold string_enc; rewrite len_app; reflexivity).
  assert (Z : len new_serializer = 0) by reflexivity.
  rewrite WriteString_spec by (rewrite Z; unfold BUFFER_SIZE; lia). rewrite Z, LS.
  replace (0 + (4 + len sid) <=? BUFFER_SIZE) with true by (symmetry; apply N.leb_le; unfold BUFFER_SIZE; lia).
  cbn [obind]. change (new_serializer ++ string_enc sid) with (string_enc sid).
  unfold WriteU8. rewrite WriteN_Some by (rewrite LS; unfold BUFFER_SIZE; change (len [_]) with 1; lia). cbn [obind].
  rewrite WriteN_Some; [now rewrite <- app_assoc|]. rewrite len_app, LS. unfold BUFFER_SIZE. change (len [_]) with 1. lia.
Qed.

Lemma VerifyRequest_true : forall cfg sid blob tbs sig, len sid + len tbs + 5 <= 65536 ->
  cf_verify cfg blob (string_enc sid ++ [50] ++ tbs) sig = Some true -> VerifyRequest cfg sid blob tbs sig = true.
Proof. intros cfg sid blob tbs sig L V. unfold VerifyRequest. rewrite ToBeVerified_some by exact L. now rewrite V. Qed.

Lemma Find_some : forall set blob o, In (blob, o) set -> exists o', Find set blob = Some o'.
Proof.
  induction set as [|[b o'] r IH]; intros blob o I; [destruct I|]. cbn [Find].
  destruct (bytes_eqb b blob) eqn:E; [eauto|]. destruct I as [X|I]; [|eauto]. exfalso.
  apply bytes_eqb_neq in E. congruence.
Qed.

(** the parts of IsAcceptedPublicKey() *)
Definition from_home (cfg : config) (w : world) (blob : bytes) (a : account) : account * bool :=
  if ShouldLoadHomeAuthorizedKeys a then
    match OpenInHome w a with
    | (a, Some f) =>
        if f_regular f && (len (f_contents f) <? MAX_KEYS_FILE) then
          match PublicKeysTextFileContains (cf_base64 cfg) (cf_openssl cfg) (f_contents f) blob with
          | Some o => (set_options o a, true)
          | None => (a, false)
          end
        else (a, false)
    | (a, None) => (a, false)
    end
  else (a, false).
Definition from_global (cfg : config) (w : world) (blob : bytes) (a : account) : account * bool :=
  match Find (cf_global_keys cfg) blob with
  | Some o => (set_options o a, true)
  | None => from_home cfg w blob a
  end.
Definition from_text (cfg : config) (w : world) (blob : bytes) (a : account) : account * bool :=
  match response_of a with
  | Some r =>
      match tr_authorized_keys r with
      | Some text =>
          match PublicKeysTextContains (cf_base64 cfg) (cf_openssl cfg) text blob with
          | Some o => (set_options o a, true)
          | None => from_global cfg w blob a
          end
      | None => from_global cfg w blob a
      end
  | None => from_global cfg w blob a
  end.

(** A key which is found is accepted. *)
Lemma found_accepted : forall cfg w s user blob a, source_of s user a -> found cfg w s blob ->
  exists b, IsAcceptedPublicKey cfg w blob a = (b, true).
Proof.
  intros cfg w s user blob a SO FO. change (IsAcceptedPublicKey cfg w blob a) with (from_text cfg w blob a).
  assert (G : (exists o, In (blob, o) (cf_global_keys cfg)) -> exists b, from_global cfg w blob a = (b, true)).
  { intros (o & I). destruct (Find_some _ _ _ I) as (o' & F). unfold from_global. rewrite F. eauto. }
  assert (GH : (exists b, from_home cfg w blob a = (b, true)) -> exists b, from_global cfg w blob a = (b, true)).
  { intros H. unfold from_global. destruct (Find (cf_global_keys cfg) blob); [eauto|exact H]. }
  assert (T : (exists b, from_global cfg w blob a = (b, true)) -> exists b, from_text cfg w blob a = (b, true)).
  { intro H. unfold from_text. destruct (response_of a) as [r|]; [|exact H]. destruct (tr_authorized_keys r) as [t|]; [|exact H].
    destruct (PublicKeysTextContains _ _ _ _); [eauto|exact H]. }
  destruct FO as [(r & text & lines & o & -> & AK & TL & FA)|[GK|(home & f & o & HO & OP & RE & LE & NH & FA)]].
  - destruct SO as [TR _]. unfold from_text, response_of. rewrite TR. cbn [option_map snd]. rewrite AK.
    unfold PublicKeysTextContains. rewrite (text_lines_unique _ _ TL). apply lines_contain_iff in FA. rewrite FA. eauto.
  - auto.
  - apply T, GH. unfold from_home.
    assert (SL : ShouldLoadHomeAuthorizedKeys a = true).
    { unfold ShouldLoadHomeAuthorizedKeys, response_of. destruct s as [r|p]; destruct SO as [TR _]; rewrite TR; cbn; [|reflexivity].
      now rewrite NH. }
    rewrite SL. unfold OpenInHome.
    assert (GHO : GetHome a = Some home).
    { unfold GetHome, response_of. destruct s as [r|p]; destruct SO as [TR PW]; rewrite TR; cbn [option_map snd].
      - destruct HO as (eo & -> & ->). reflexivity.
      - rewrite PW. destruct HO as (<- & NE). destruct (pw_dir p); [congruence|reflexivity]. }
    rewrite GHO, OP. cbv iota beta. rewrite RE. replace (len (f_contents f) <? MAX_KEYS_FILE) with true by (symmetry; now apply N.ltb_lt).
    cbn [andb]. unfold PublicKeysTextFileContains. apply lines_contain_iff in FA. rewrite FA. eauto.
Qed.

(** ** The methods *)

Lemma len_se : forall x, len (string_enc x) = 4 + len x.
Proof. intro x. unfold string_enc. rewrite len_app. reflexivity. Qed.

Lemma ReadString_all : forall x, len x < pow32 -> ReadString (string_enc x) = Some (x, []).
Proof. intros x L. rewrite <- (app_nil_r (string_enc x)). now apply ReadString_enc. Qed.

Lemma key_accepted : forall cfg w sid s user pre flag algorithm blob signature methods pa arch sticky a,
  source_of s user a -> found cfg w s blob -> cf_parse_key cfg blob = true -> 0 < flag -> flag < 256 ->
  let body := [flag] ++ string_enc algorithm ++ string_enc blob in
  cf_verify cfg blob (string_enc sid ++ [50] ++ pre ++ body) signature = Some true ->
  len sid <= 64 -> len (pre ++ body ++ string_enc signature) <= 35000 ->
  exists b, AuthMethod cfg w sid (pre ++ body ++ string_enc signature) user PUBLICKEY (body ++ string_enc signature)
    methods pa arch sticky a = (set_login user b, Accepted (cf_proxy_to cfg arch sticky)).
Proof.
  intros cfg w sid s user pre flag algorithm blob signature methods pa arch sticky a SO FO PK FL FB body VF LS LP.
  unfold AuthMethod. change (bytes_eqb PUBLICKEY (bs "publickey")) with true. cbv iota. unfold AuthPublicKey, body in *.
  rewrite !len_app, !len_se in LP. change (len [flag]) with 1 in LP.
  assert (RB : ReadBool (([flag] ++ string_enc algorithm ++ string_enc blob) ++ string_enc signature) =
    Some (true, string_enc algorithm ++ string_enc blob ++ string_enc signature)).
  { rewrite <- !app_assoc. unfold ReadBool. cbn [ReadU8 app]. destruct (flag =? 0) eqn:Z; [apply N.eqb_eq in Z; lia|reflexivity]. }
  rewrite RB. cbv iota beta. rewrite ReadString_enc by (unfold pow32; lia). cbv iota beta.
  change ReadLengthEncoded with ReadString. rewrite ReadString_enc by (unfold pow32; lia). cbv iota beta.
  destruct (found_accepted cfg w s user blob a SO FO) as (b & ->). rewrite PK. cbn [negb]. cbv zeta.
  rewrite ReadString_all by (unfold pow32; lia). cbv iota beta. cbn [ExpectEnd].
  rewrite app_assoc. rewrite DSince_app.
  rewrite VerifyRequest_true; [|rewrite !len_app, !len_se; change (len [flag]) with 1; lia|exact VF]. unfold Login. eauto.
Qed.

Lemma host_accepted : forall cfg w sid user pre algorithm blob host cuser signature methods pa arch sticky a o,
  In (blob, o) (cf_authorized_host_keys cfg) -> cf_parse_key cfg blob = true ->
  let body := string_enc algorithm ++ string_enc blob ++ string_enc host ++ string_enc cuser in
  cf_verify cfg blob (string_enc sid ++ [50] ++ pre ++ body) signature = Some true ->
  len sid <= 64 -> len (pre ++ body ++ string_enc signature) <= 35000 ->
  exists b, AuthMethod cfg w sid (pre ++ body ++ string_enc signature) user HOSTBASED (body ++ string_enc signature)
    methods pa arch sticky a = (set_login user b, Accepted (cf_proxy_to cfg arch sticky)).
Proof.
  intros cfg w sid user pre algorithm blob host cuser signature methods pa arch sticky a o I PK body VF LS LP.
  unfold AuthMethod. change (bytes_eqb HOSTBASED (bs "publickey")) with false. change (bytes_eqb HOSTBASED (bs "hostbased")) with true.
  cbv iota. unfold AuthHostbased, body in *. rewrite !len_app, !len_se in LP.
  replace ((string_enc algorithm ++ string_enc blob ++ string_enc host ++ string_enc cuser) ++ string_enc signature)
    with (string_enc algorithm ++ string_enc blob ++ string_enc host ++ string_enc cuser ++ string_enc signature)
    by (rewrite <- !app_assoc; reflexivity).
  change ReadLengthEncoded with ReadString.
  rewrite ReadString_enc by (unfold pow32; lia). cbv iota beta. rewrite ReadString_enc by (unfold pow32; lia). cbv iota beta.
  rewrite ReadString_enc by (unfold pow32; lia). cbv iota beta. rewrite ReadString_enc by (unfold pow32; lia). cbv iota beta zeta.
  rewrite ReadString_all by (unfold pow32; lia). cbv iota beta. cbn [ExpectEnd].
  unfold IsAcceptedHostPublicKey. destruct (Find_some _ _ _ I) as (o' & ->). rewrite PK. cbn [negb].
  replace (pre ++ string_enc algorithm ++ string_enc blob ++ string_enc host ++ string_enc cuser ++ string_enc signature)
    with ((pre ++ string_enc algorithm ++ string_enc blob ++ string_enc host ++ string_enc cuser) ++ string_enc signature)
    by (rewrite <- !app_assoc; reflexivity).
  rewrite DSince_app. rewrite VerifyRequest_true; [unfold Login; eauto|rewrite !len_app, !len_se; lia|exact VF].
Qed.

(** ** The whole request, on a new connection *)

Lemma usable_check : forall r, usable r -> CheckTranslateResponse r = true.
Proof.
  intros r (_ & C). unfold CheckTranslateResponse. destruct (tr_execute_options r) as [eo|]; [|reflexivity].
  destruct (C eo eq_refl) as (A & B & D). destruct (eo_uid eo), (eo_gid eo), (eo_home eo); congruence.
Qed.

Lemma ApplyResponse_source : forall r password a b pa user, ApplyResponse r password a = (b, pa) ->
  source_of (FromTranslation r) user a -> source_of (FromTranslation r) user b.
Proof.
  intros r password a b pa user H S. apply ApplyResponse_spec in H as (R1 & R2 & _). destruct S as [T P].
  split; congruence.
Qed.

(** Before the method is looked at. *)
Lemma reaches_method : forall cfg w sid user method d peer s,
  valid_name user -> len method < pow32 -> method <> PASSWORD -> exists_account cfg w user s ->
  exists a1 pa methods arch sticky, source_of s user a1 /\
    (forall r, s = FromTranslation r -> tr_no_password r = Some [] \/ tr_no_password r = Some (bs "sftp") -> pa = true) /\
    OnUserAuthRequest cfg w sid (string_enc user ++ string_enc CONNECTION ++ string_enc method ++ d) (new_account peer) =
    AuthMethod cfg w sid (string_enc user ++ string_enc CONNECTION ++ string_enc method ++ d) user method d methods pa arch sticky a1.
Proof.
  intros cfg w sid user method d peer s V LM MP EA. unfold OnUserAuthRequest.
  rewrite ReadString_enc by (destruct V as (_ & L & _); unfold pow32; lia). cbv iota beta.
  rewrite ReadString_enc by (vm_compute; reflexivity). cbv iota beta. rewrite ReadString_enc by exact LM. cbv iota beta.
  change (bytes_eqb CONNECTION (bs "ssh-connection")) with true. cbn [negb]. rewrite valid_name_IsValidUsername by exact V. cbn [negb].
  destruct s as [r|p]; cbn [exists_account] in EA.
  - destruct EA as (-> & W & U). unfold AuthTranslation. destruct (bytes_eqb method (bs "password")) eqn:M; [apply bytes_eqb_eq in M; now destruct (MP M)|].
    unfold LazyTranslate. change (ac_translation (new_account peer)) with (@None (bytes * response)). cbv iota zeta. rewrite W. cbv iota.
    rewrite (proj1 U). cbn [negb].
    destruct (ApplyResponse r [] (set_translation (user, r) (log_event (ATranslate user [] (Some r)) (new_account peer)))) as [a1 pa] eqn:AR.
    rewrite usable_check by exact U. cbn [negb]. exists a1, pa. do 3 eexists. split; [|split; [|reflexivity]].
    + eapply ApplyResponse_source; [exact AR|]. split; reflexivity.
    + intros r' E NP. injection E as <-. unfold ApplyResponse in AR. cbn [is_nil negb] in AR.
      destruct NP as [NP|NP]; rewrite NP in AR.
      * change (bytes_eqb [] SFTP) with false in AR. exact (eq_sym (f_equal snd AR)).
      * change (bytes_eqb (bs "sftp") SFTP) with true in AR. exact (eq_sym (f_equal snd AR)).
  - destruct EA as (-> & W). rewrite W. do 5 eexists. split; [|split; [|reflexivity]].
    + split; reflexivity.
    + discriminate.
Qed.

Lemma valid_accepted : forall cfg w sid user peer payload,
  valid_name user -> bytes_ok payload -> len sid <= 64 -> len payload <= 35000 ->
  valid_request cfg sid w user payload ->
  exists b proxy, OnUserAuthRequest cfg w sid payload (new_account peer) = (set_login user b, Accepted proxy).
Proof.
  intros cfg w sid user peer payload V B LS LP VR. destruct VR as [flag alg blob sig s EA FO PK FL VF|alg blob host cuser sig o s EA I PK VF|pw r TS NE W U|r EA NP].
  - set (pre := string_enc user ++ string_enc CONNECTION ++ string_enc PUBLICKEY).
    set (body := [flag] ++ string_enc alg ++ string_enc blob).
    assert (E : enc (key_request user flag alg blob ++ [FString sig]) = string_enc user ++ string_enc CONNECTION ++ string_enc PUBLICKEY ++ (body ++ string_enc sig)).
    { unfold enc, key_request, body. cbn [map List.concat enc_field List.app]. rewrite app_nil_r, <- !app_assoc. reflexivity. }
    rewrite E in *.
    destruct (reaches_method cfg w sid user PUBLICKEY (body ++ string_enc sig) peer s V) as (a1 & pa & methods & arch & sticky & SO & _ & ->);
      [vm_compute; reflexivity|discriminate|exact EA|].
    assert (E2 : string_enc user ++ string_enc CONNECTION ++ string_enc PUBLICKEY ++ body ++ string_enc sig = pre ++ body ++ string_enc sig)
      by (unfold pre; rewrite <- !app_assoc; reflexivity).
    rewrite E2 in *.
    destruct (key_accepted cfg w sid s user pre flag alg blob sig methods pa arch sticky a1) as (b & X); try assumption.
    + apply bytes_ok_app in B as [_ B]. inversion B as [|? ? X _]; subst. exact X.
    + rewrite <- VF. f_equal. unfold signed_data, key_request, enc, pre. cbn [map List.concat enc_field].
      rewrite app_nil_r, <- !app_assoc. reflexivity.
    + eauto.
  - set (pre := string_enc user ++ string_enc CONNECTION ++ string_enc HOSTBASED).
    set (body := string_enc alg ++ string_enc blob ++ string_enc host ++ string_enc cuser).
    assert (E : enc (host_request user alg blob host cuser ++ [FString sig]) = string_enc user ++ string_enc CONNECTION ++ string_enc HOSTBASED ++ (body ++ string_enc sig)).
    { unfold enc, host_request, body. cbn [map List.concat enc_field List.app]. rewrite app_nil_r, <- !app_assoc. reflexivity. }
    rewrite E in *.
    destruct (reaches_method cfg w sid user HOSTBASED (body ++ string_enc sig) peer s V) as (a1 & pa & methods & arch & sticky & SO & _ & ->);
      [vm_compute; reflexivity|discriminate|exact EA|].
    assert (E2 : string_enc user ++ string_enc CONNECTION ++ string_enc HOSTBASED ++ body ++ string_enc sig = pre ++ body ++ string_enc sig)
      by (unfold pre; rewrite <- !app_assoc; reflexivity).
    rewrite E2 in *.
    destruct (host_accepted cfg w sid user pre alg blob host cuser sig methods pa arch sticky a1 o) as (b & X); try assumption.
    + rewrite <- VF. f_equal. unfold signed_data, host_request, enc, pre. cbn [map List.concat enc_field].
      rewrite app_nil_r, <- !app_assoc. reflexivity.
    + eauto.
  - assert (LPW : len pw < pow32).
    { unfold password_request, enc in LP. cbn [map List.concat enc_field] in LP. rewrite !len_app, !len_se in LP. unfold pow32. lia. }
    unfold OnUserAuthRequest, password_request.
    rewrite ReadString_enc_cons by (destruct V as (_ & L & _); unfold pow32; lia). rewrite ReadString_enc_cons by (vm_compute; reflexivity).
    rewrite ReadString_enc_cons by (vm_compute; reflexivity). change (bytes_eqb CONNECTION (bs "ssh-connection")) with true. cbn [negb].
    rewrite valid_name_IsValidUsername by exact V. cbn [negb]. rewrite TS.
    unfold AuthTranslation. change (bytes_eqb PASSWORD (bs "password")) with true. cbv iota zeta.
    rewrite enc_cons. cbn [enc_field]. change (ReadBool ([0] ++ enc [FString pw])) with (Some (false, enc [FString pw])).
    cbv iota beta. rewrite ReadString_enc_cons by exact LPW. change (ExpectEnd (enc [])) with (Some tt). cbv iota.
    destruct pw as [|c pw]; [congruence|]. cbn [is_nil]. unfold LazyTranslate.
    change (ac_translation (new_account peer)) with (@None (bytes * response)). cbv iota zeta. rewrite W. cbv iota.
    rewrite (proj1 U). cbn [negb]. unfold ApplyResponse. cbn [is_nil negb]. rewrite usable_check by exact U. cbn [negb].
    unfold AuthMethod. change (bytes_eqb PASSWORD (bs "publickey")) with false. change (bytes_eqb PASSWORD (bs "hostbased")) with false.
    cbv iota. unfold Login. eauto.
  - assert (E : enc [FString user; FString CONNECTION; FString (bs "none")] = string_enc user ++ string_enc CONNECTION ++ string_enc (bs "none") ++ []).
    { unfold enc. cbn [map List.concat enc_field]. reflexivity. }
    rewrite E.
    destruct (reaches_method cfg w sid user (bs "none") [] peer (FromTranslation r) V) as (a1 & pa & methods & arch & sticky & SO & P & ->);
      [vm_compute; reflexivity|discriminate|exact EA|]. rewrite (P r eq_refl NP).
    unfold AuthMethod. change (bytes_eqb (bs "none") (bs "publickey")) with false. change (bytes_eqb (bs "none") (bs "hostbased")) with false.
    cbv iota. unfold Login. eauto.
Qed.

(** ** The list of methods *)

Definition method_list (cfg : config) : bytes :=
  AuthMethods (match cf_authorized_host_keys cfg with [] => false | _ => true end) (cf_translation_server cfg).

Lemma AuthMethod_methods : forall cfg w sid payload user method d methods pa arch sticky a b m,
  AuthMethod cfg w sid payload user method d methods pa arch sticky a = (b, Failure m) -> m = methods.
Proof.
  intros cfg w sid payload user method d methods pa arch sticky a b m H. unfold AuthMethod, AuthPublicKey, AuthHostbased, Login in H.
  repeat match goal with
  | H : context [match ?x with _ => _ end] |- _ =>
      lazymatch x with context [match _ with _ => _ end] => fail | _ => destruct x end; try discriminate; try congruence
  end.
Qed.

Lemma failure_methods : forall cfg w sid payload a b m,
  OnUserAuthRequest cfg w sid payload a = (b, Failure m) -> m = [] \/ m = method_list cfg.
Proof.
  intros cfg w sid payload a b m H. unfold OnUserAuthRequest in H.
  destruct (ReadString payload) as [[user d1]|]; [|discriminate].
  destruct (ReadString d1) as [[service d2]|]; [|discriminate].
  destruct (ReadString d2) as [[method d]|]; [|discriminate].
  destruct (negb (bytes_eqb service _)); [left; congruence|]. destruct (negb (IsValidUsername user)); [discriminate|].
  unfold method_list. destruct (cf_translation_server cfg).
  - unfold AuthTranslation in H.
    assert (T : forall password d, (match LazyTranslate w user password a with
      | (a, None) => (a, Die)
      | (a, Some r) => if negb (tr_status_ok r) then (a, Failure [])
          else let '(a, pa) := ApplyResponse r password a in
          if negb (CheckTranslateResponse r) then (a, Die)
          else AuthMethod cfg w sid payload user method d (AuthMethods (match cf_authorized_host_keys cfg with [] => false | _ => true end) true)
            pa (tr_arch r) (match tr_site r with Some site => site | None => user end) a
      end) = (b, Failure m) -> m = [] \/ m = AuthMethods (match cf_authorized_host_keys cfg with [] => false | _ => true end) true).
    { intros password d0 E. destruct (LazyTranslate w user password a) as [a0 [r|]]; [|discriminate].
      destruct (negb (tr_status_ok r)); [left; congruence|]. destruct (ApplyResponse r password a0) as [a1 pa].
      destruct (negb (CheckTranslateResponse r)); [discriminate|]. right. eapply AuthMethod_methods; eauto. }
    destruct (bytes_eqb method (bs "password")); [|eauto].
    destruct (ReadBool d) as [[f d3]|]; [|discriminate]. destruct (ReadString d3) as [[pw d4]|]; [|discriminate].
    destruct (ExpectEnd d4); [|discriminate]. destruct f; [right; congruence|]. destruct (is_nil pw); [right; congruence|]. eauto.
  - cbv zeta in H. destruct (w_getpwnam w user); [|right; congruence]. right. eapply AuthMethod_methods; eauto.
Qed.
