(** Facts about Model/Auth.v: the outcome of one authentication request. *)

From Coq Require Import NArith List Bool Lia String.
From Verif.Base Require Import Bytes.
From Verif.Spec Require Import WireSpec KeySpec AuthSpec.
From Verif.Model Require Import Wire Packets StringList KeyOptions Auth Session Server.
From Verif.Proofs Require Import WireFacts KeyFacts.
Import ListNotations.
Open Scope N_scope.

Local Arguments bs : simpl never.
Local Arguments take : simpl never.
Local Arguments drop : simpl never.

(** ** Small things *)

Lemma is_nil_true : forall s, is_nil s = true <-> s = [].
Proof. intros [|x s]; split; intro H; try reflexivity; discriminate. Qed.

Lemma IsValidUsername_spec : forall u, IsValidUsername u = true -> valid_name u.
Proof.
  intros u H. unfold IsValidUsername in H. apply andb_true_iff in H as [H F]. apply andb_true_iff in H as [L N].
  apply N.leb_le in L. split; [intros ->; discriminate|]. split; [exact L|].
  apply Forall_forall. intros c I. rewrite forallb_forall in F. specialize (F c I).
  unfold alnum in F. unfold name_char.
  repeat (rewrite ?orb_true_iff, ?andb_true_iff, ?N.leb_le, ?N.eqb_eq in F).
  cbn [In]. destruct F as [[[[[[F|F]|F]|F]|F]|F]|F]; auto 10.
Qed.

Lemma Find_In : forall set blob o, Find set blob = Some o -> In (blob, o) set.
Proof.
  induction set as [|[b o'] r IH]; intros blob o H; [discriminate|]. cbn [Find] in H.
  destruct (bytes_eqb b blob) eqn:E; [apply bytes_eqb_eq in E; left; congruence|right; auto].
Qed.

Lemma ToBeVerified_spec : forall sid tbs m, ToBeVerified sid tbs = Some m ->
  m = string_enc sid ++ [50] ++ tbs.
Proof.
  intros sid tbs m H. unfold ToBeVerified in H. change WriteLengthEncoded with WriteString in H.
  assert (Z : len new_serializer = 0) by reflexivity.
  assert (Z' : len new_serializer <= BUFFER_SIZE) by (rewrite Z; unfold BUFFER_SIZE; lia).
  rewrite WriteString_spec in H by exact Z'.
  destruct (_ <=? BUFFER_SIZE) eqn:L in H; [|discriminate]. cbn [obind] in H. apply N.leb_le in L.
  rewrite Z in L. change (new_serializer ++ string_enc sid) with (string_enc sid) in H.
  unfold WriteU8 in H. destruct (WriteN (string_enc sid) _) as [s1|] eqn:W1; [|discriminate]. cbn [obind] in H.
  apply WriteN_inv in W1 as [-> L1]; [|lia]. apply WriteN_inv in H as [-> _]; [|exact L1].
  rewrite <- app_assoc. reflexivity.
Qed.

Lemma DSince_app : forall p d, DSince (p ++ d) d = p.
Proof.
  intros p d. unfold DSince. rewrite len_app. replace (len p + len d - len d) with (len p) by lia. apply take_len.
Qed.

Lemma VerifyRequest_spec : forall cfg sid blob tbs sig, VerifyRequest cfg sid blob tbs sig = true ->
  cf_verify cfg blob (string_enc sid ++ [50] ++ tbs) sig = Some true.
Proof.
  intros cfg sid blob tbs sig H. unfold VerifyRequest in H. destruct (ToBeVerified sid tbs) as [m|] eqn:E; [|discriminate].
  apply ToBeVerified_spec in E as ->. destruct (cf_verify cfg blob _ sig) as [[]|]; try discriminate. reflexivity.
Qed.

(** ** What stays the same *)

(** [b] is [a] with other options and a longer log. *)
Definition same_but_options (a b : account) : Prop :=
  ac_authenticated b = ac_authenticated a /\ ac_username b = ac_username a /\
  ac_translation b = ac_translation a /\ ac_passwd b = ac_passwd a /\
  ac_allow_exec b = ac_allow_exec a /\ ac_allow_sftp b = ac_allow_sftp a /\ ac_sftp_only b = ac_sftp_only a /\
  ac_hostbased b = ac_hostbased a /\ ac_peer_address b = ac_peer_address a /\
  exists l, ac_log b = ac_log a ++ l.

Lemma sbo_refl : forall a, same_but_options a a.
Proof. intro a. unfold same_but_options. repeat (split; [reflexivity|]). exists []. now rewrite app_nil_r. Qed.

Lemma sbo_trans : forall a b c, same_but_options a b -> same_but_options b c -> same_but_options a c.
Proof.
  intros a b c (A1 & A2 & A3 & A4 & A5 & A6 & A7 & A8 & A9 & l & A10) (B1 & B2 & B3 & B4 & B5 & B6 & B7 & B8 & B9 & l' & B10).
  unfold same_but_options. repeat (split; [congruence|]). exists (l ++ l'). now rewrite B10, A10, app_assoc.
Qed.

Lemma sbo_log : forall e a, same_but_options a (log_event e a).
Proof. intros e a. unfold same_but_options. cbn. repeat (split; [reflexivity|]). now exists [e]. Qed.

Lemma sbo_options : forall o a, same_but_options a (set_options o a).
Proof. intros o a. unfold same_but_options. cbn. repeat (split; [reflexivity|]). exists []. now rewrite app_nil_r. Qed.

Lemma OpenInHome_sbo : forall w a, same_but_options a (fst (OpenInHome w a)) /\
  ac_options (fst (OpenInHome w a)) = ac_options a.
Proof.
  intros w a. unfold OpenInHome.
  assert (D : forall b, let r := if ac_allow_sftp b then
      match HelperIdentity b with Some i => (log_event (AHelper i) b, w_delegate w i) | None => (b, None) end else (b, None) in
    same_but_options b (fst r) /\ ac_options (fst r) = ac_options b).
  { intro b. cbn zeta. destruct (ac_allow_sftp b); [destruct (HelperIdentity b)|]; cbn [fst];
    (split; [first [apply sbo_log|apply sbo_refl]|reflexivity]). }
  destruct (GetHome a) as [home|]; [|apply D].
  destruct (w_open w home).
  - destruct (D (log_event (AOpenKeys home) a)) as [X Y]. split; [|exact Y]. eapply sbo_trans; [apply sbo_log|exact X].
  - cbn [fst]. split; [apply sbo_log|reflexivity].
  - cbn [fst]. split; [apply sbo_log|reflexivity].
  - destruct (D (log_event (AOpenKeys home) a)) as [X Y]. split; [|exact Y]. eapply sbo_trans; [apply sbo_log|exact X].
Qed.

Lemma IsAcceptedPublicKey_sbo : forall cfg w blob a, same_but_options a (fst (IsAcceptedPublicKey cfg w blob a)).
Proof.
  intros cfg w blob a. unfold IsAcceptedPublicKey.
  assert (H : forall b, same_but_options b (fst (if ShouldLoadHomeAuthorizedKeys b then
      match OpenInHome w b with
      | (a, Some f) =>
          if f_regular f && (len (f_contents f) <? MAX_KEYS_FILE) then
            match PublicKeysTextFileContains (cf_base64 cfg) (cf_openssl cfg) (f_contents f) blob with
            | Some o => (set_options o a, true)
            | None => (a, false)
            end
          else (a, false)
      | (a, None) => (a, false)
      end
    else (b, false)))).
  { intro b. destruct (ShouldLoadHomeAuthorizedKeys b); [|apply sbo_refl].
    pose proof (proj1 (OpenInHome_sbo w b)) as S. destruct (OpenInHome w b) as [c [f|]]; cbn [fst] in S; [|exact S].
    destruct (f_regular f && _); [|exact S]. destruct (PublicKeysTextFileContains _ _ _ _); [|exact S].
    eapply sbo_trans; [exact S|apply sbo_options]. }
  assert (G : forall b, same_but_options b (fst (match Find (cf_global_keys cfg) blob with
    | Some o => (set_options o b, true)
    | None => if ShouldLoadHomeAuthorizedKeys b then
      match OpenInHome w b with
      | (a, Some f) =>
          if f_regular f && (len (f_contents f) <? MAX_KEYS_FILE) then
            match PublicKeysTextFileContains (cf_base64 cfg) (cf_openssl cfg) (f_contents f) blob with
            | Some o => (set_options o a, true)
            | None => (a, false)
            end
          else (a, false)
      | (a, None) => (a, false)
      end
    else (b, false) end))).
  { intro b. destruct (Find _ _); [apply sbo_options|apply H]. }
  destruct (response_of a) as [r|]; [|apply G]. destruct (tr_authorized_keys r); [|apply G].
  destruct (PublicKeysTextContains _ _ _ _); [apply sbo_options|apply G].
Qed.

(** ** A key which is accepted is listed *)

Lemma source_of_sbo : forall s user a b, same_but_options a b -> source_of s user a -> source_of s user b.
Proof.
  intros s user a b (_ & _ & T & P & _) H. destruct s; cbn [source_of] in *; rewrite T, P; exact H.
Qed.

Lemma GetHome_spec : forall s user a home, source_of s user a -> GetHome a = Some home -> home_of s home.
Proof.
  intros s user a home S H. unfold GetHome, response_of in H. destruct s as [r|p]; destruct S as [T P];
    rewrite T, ?P in H; cbn [option_map snd] in H; cbn [home_of].
  - destruct (tr_execute_options r) as [eo|]; [eauto|discriminate].
  - destruct (is_nil (pw_dir p)) eqn:E; [discriminate|]. injection H as <-. split; [reflexivity|].
    intro Z. rewrite Z in E. discriminate.
Qed.

Lemma GetService_In : forall r name eo, GetService r name = Some eo -> In (name, eo) (tr_service_execute_options r).
Proof.
  intros r name eo H. unfold GetService in H. destruct (find _ _) as [[n e]|] eqn:F; [|discriminate].
  apply find_some in F as [I E]. cbn in H, E. apply bytes_eqb_eq in E. congruence.
Qed.

Lemma HelperIdentity_spec : forall s user a i, source_of s user a -> HelperIdentity a = Some i -> identity_of s i.
Proof.
  intros s user a i S H. unfold HelperIdentity, response_of in H. destruct s as [r|p]; destruct S as [T P];
    rewrite T, ?P in H; cbn [option_map snd] in H; cbn [identity_of].
  - destruct (GetService r SFTP) as [eo|] eqn:G.
    + injection H as <-. exists eo. split; [reflexivity|]. right. exists SFTP. now apply GetService_In.
    + destruct (tr_execute_options r) as [eo|]; [|discriminate]. injection H as <-. exists eo. auto.
  - congruence.
Qed.

Lemma OpenInHome_spec : forall s user w a b f, source_of s user a -> OpenInHome w a = (b, Some f) ->
  (exists home, home_of s home /\ w_open w home = Opened f) \/
  (exists i, identity_of s i /\ w_delegate w i = Some f).
Proof.
  intros s user w a b f S H. unfold OpenInHome in H.
  assert (D : forall c, source_of s user c -> (if ac_allow_sftp c then
      match HelperIdentity c with Some i => (log_event (AHelper i) c, w_delegate w i) | None => (c, None) end else (c, None)) = (b, Some f) ->
    exists i, identity_of s i /\ w_delegate w i = Some f).
  { intros c Sc X. destruct (ac_allow_sftp c); [|discriminate]. destruct (HelperIdentity c) as [i|] eqn:I; [|discriminate].
    exists i. split; [eapply HelperIdentity_spec; eauto|congruence]. }
  destruct (GetHome a) as [home|] eqn:G; [|right; eauto].
  assert (SL : source_of s user (log_event (AOpenKeys home) a)) by (eapply source_of_sbo; [apply sbo_log|exact S]).
  destruct (w_open w home) eqn:O; try discriminate; [right; eauto| |right; eauto].
  left. exists home. split; [eapply GetHome_spec; eauto|congruence].
Qed.

Lemma IsAcceptedPublicKey_spec : forall s user cfg w blob a b, source_of s user a ->
  IsAcceptedPublicKey cfg w blob a = (b, true) -> listed cfg w s blob (ac_options b).
Proof.
  intros s user cfg w blob a b S H. unfold IsAcceptedPublicKey in H.
  assert (HOME : (if ShouldLoadHomeAuthorizedKeys a then
      match OpenInHome w a with
      | (a, Some f) =>
          if f_regular f && (len (f_contents f) <? MAX_KEYS_FILE) then
            match PublicKeysTextFileContains (cf_base64 cfg) (cf_openssl cfg) (f_contents f) blob with
            | Some o => (set_options o a, true)
            | None => (a, false)
            end
          else (a, false)
      | (a, None) => (a, false)
      end
    else (a, false)) = (b, true) -> listed cfg w s blob (ac_options b)).
  { clear H. intro H. destruct (ShouldLoadHomeAuthorizedKeys a) eqn:SL; [|discriminate].
    destruct (OpenInHome w a) as [c [f|]] eqn:O; [|discriminate].
    destruct (f_regular f && _) eqn:R; [|discriminate]. apply andb_true_iff in R as [R L]. apply N.ltb_lt in L.
    destruct (PublicKeysTextFileContains _ _ _ _) as [o|] eqn:C; [|discriminate]. injection H as <-. cbn [set_options mk_account ac_options].
    right. right. exists (f_contents f). split.
    - exists f. repeat (split; [assumption || reflexivity|]). split; [|eapply OpenInHome_spec; eauto].
      destruct s as [r|p]; [|exact I]. destruct S as [T _]. unfold ShouldLoadHomeAuthorizedKeys, response_of in SL.
      rewrite T in SL. cbn in SL. now apply negb_true_iff in SL.
    - unfold PublicKeysTextFileContains in C. now apply lines_contain_iff in C. }
  assert (GLOBAL : match Find (cf_global_keys cfg) blob with
    | Some o => (set_options o a, true)
    | None => if ShouldLoadHomeAuthorizedKeys a then
      match OpenInHome w a with
      | (a, Some f) =>
          if f_regular f && (len (f_contents f) <? MAX_KEYS_FILE) then
            match PublicKeysTextFileContains (cf_base64 cfg) (cf_openssl cfg) (f_contents f) blob with
            | Some o => (set_options o a, true)
            | None => (a, false)
            end
          else (a, false)
      | (a, None) => (a, false)
      end
    else (a, false) end = (b, true) -> listed cfg w s blob (ac_options b)).
  { intro G. destruct (Find (cf_global_keys cfg) blob) as [o|] eqn:F; [|auto].
    injection G as <-. right. left. now apply Find_In. }
  destruct (response_of a) as [r|] eqn:RO; [|auto]. destruct (tr_authorized_keys r) as [text|] eqn:AK; [|auto].
  destruct (PublicKeysTextContains _ _ text blob) as [o|] eqn:C; [|auto].
  injection H as <-. left. unfold PublicKeysTextContains in C. apply lines_contain_iff in C.
  exists r, text, (split 10 text). split.
  { destruct s as [r'|p]; destruct S as [T _]; unfold response_of in RO; rewrite T in RO; cbn in RO; [|discriminate].
    f_equal. congruence. }
  split; [exact AK|]. split; [apply text_lines_split|exact C].
Qed.

(** ** One request *)

(** What is true of an account before and between requests. *)
Definition before_login (cfg : config) (a : account) : Prop :=
  (cf_translation_server cfg = true -> ac_passwd a = None) /\
  (cf_translation_server cfg = false -> ac_translation a = None) /\
  (forall u r, ac_translation a = Some (u, r) -> tr_status_ok r = true -> In (ATranslate u [] (Some r)) (ac_log a)).

(** After login: the account data are those of the user. *)
Definition logged_in (cfg : config) (user : bytes) (s : source) (a : account) : Prop :=
  ac_authenticated a = true /\ ac_username a = user /\ source_of s user a.

(** The rest of the request is read (one lemma for each method). *)

Lemma AuthPublicKey_accepted : forall s cfg w sid pre user d methods arch sticky a b proxy,
  source_of s user a -> bytes_ok d ->
  AuthPublicKey cfg w sid (pre ++ d) user d methods arch sticky a = (b, Accepted proxy) ->
  exists flag algorithm blob signature,
    flag <> 0 /\ d = [flag] ++ string_enc algorithm ++ string_enc blob ++ string_enc signature /\
    listed cfg w s blob (ac_options b) /\ cf_parse_key cfg blob = true /\
    cf_verify cfg blob (string_enc sid ++ [50] ++ pre ++ [flag] ++ string_enc algorithm ++ string_enc blob) signature = Some true /\
    proxy = cf_proxy_to cfg arch sticky /\
    exists c, same_but_options a c /\ b = set_login user c.
Proof.
  intros s cfg w sid pre user d methods arch sticky a b proxy S B H. unfold AuthPublicKey in H.
  destruct (ReadBool d) as [[ws d1]|] eqn:E1; [|discriminate].
  apply ReadBool_inv in E1 as (flag & -> & Ef & _ & B1); [|exact B].
  change (ReadString d1) with (ReadLengthEncoded d1) in H.
  destruct (ReadLengthEncoded d1) as [[alg d2]|] eqn:E2; [|discriminate].
  apply ReadString_inv in E2 as (-> & _ & B2 & _); [|exact B1].
  destruct (ReadLengthEncoded d2) as [[blob d3]|] eqn:E3; [|discriminate].
  apply ReadString_inv in E3 as (-> & _ & B3 & _); [|exact B2].
  pose proof (IsAcceptedPublicKey_sbo cfg w blob a) as SB.
  destruct (IsAcceptedPublicKey cfg w blob a) as [c [|]] eqn:A; [|discriminate]. cbn [fst] in SB.
  pose proof (IsAcceptedPublicKey_spec _ _ _ _ _ _ _ S A) as L.
  destruct (cf_parse_key cfg blob) eqn:K; [|discriminate]. cbn [negb] in H.
  destruct ws; cbn [negb] in H; [|destruct (ExpectEnd d3); discriminate].
  destruct (ReadLengthEncoded d3) as [[sig d4]|] eqn:E4; [|discriminate].
  apply ReadString_inv in E4 as (-> & _ & _ & _); [|exact B3].
  destruct d4 as [|x d4]; [|discriminate]. cbn [ExpectEnd] in H.
  destruct (VerifyRequest _ _ _ _ _) eqn:V in H; [|discriminate]. apply VerifyRequest_spec in V.
  unfold Login in H. injection H as <- <-.
  exists flag, alg, blob, sig. split.
  { intros ->. discriminate. }
  rewrite app_nil_r in *. split; [reflexivity|]. split; [exact L|]. split; [exact K|]. split.
  { rewrite <- V.
    replace (pre ++ flag :: string_enc alg ++ string_enc blob ++ string_enc sig)
      with ((pre ++ [flag] ++ string_enc alg ++ string_enc blob) ++ string_enc sig)
      by (rewrite <- !app_assoc; reflexivity).
    rewrite DSince_app. reflexivity. }
  split; [reflexivity|]. exists c. auto.
Qed.

Lemma AuthHostbased_accepted : forall cfg sid pre user d methods arch sticky a b proxy,
  bytes_ok d ->
  AuthHostbased cfg sid (pre ++ d) user d methods arch sticky a = (b, Accepted proxy) ->
  exists algorithm blob host cuser signature,
    d = string_enc algorithm ++ string_enc blob ++ string_enc host ++ string_enc cuser ++ string_enc signature /\
    In (blob, ac_options b) (cf_authorized_host_keys cfg) /\ cf_parse_key cfg blob = true /\
    cf_verify cfg blob (string_enc sid ++ [50] ++ pre ++ string_enc algorithm ++ string_enc blob ++ string_enc host ++ string_enc cuser)
      signature = Some true /\
    proxy = cf_proxy_to cfg arch sticky /\ ac_hostbased b = true /\
    ac_authenticated b = true /\ ac_username b = user /\ ac_translation b = ac_translation a /\
    ac_passwd b = ac_passwd a /\ ac_allow_exec b = ac_allow_exec a /\ ac_allow_sftp b = ac_allow_sftp a /\
    ac_sftp_only b = ac_sftp_only a /\ ac_log b = ac_log a.
Proof.
  intros cfg sid pre user d methods arch sticky a b proxy B H. unfold AuthHostbased in H.
  change (ReadString d) with (ReadLengthEncoded d) in H.
  destruct (ReadLengthEncoded d) as [[alg d1]|] eqn:E1; [|discriminate].
  apply ReadString_inv in E1 as (-> & _ & B1 & _); [|exact B].
  destruct (ReadLengthEncoded d1) as [[blob d2]|] eqn:E2; [|discriminate].
  apply ReadString_inv in E2 as (-> & _ & B2 & _); [|exact B1].
  change (ReadString d2) with (ReadLengthEncoded d2) in H.
  destruct (ReadLengthEncoded d2) as [[host d3]|] eqn:E3; [|discriminate].
  apply ReadString_inv in E3 as (-> & _ & B3 & _); [|exact B2].
  change (ReadString d3) with (ReadLengthEncoded d3) in H.
  destruct (ReadLengthEncoded d3) as [[cuser d4]|] eqn:E4; [|discriminate].
  apply ReadString_inv in E4 as (-> & _ & B4 & _); [|exact B3].
  destruct (ReadLengthEncoded d4) as [[sig d5]|] eqn:E5; [|discriminate].
  apply ReadString_inv in E5 as (-> & _ & _ & _); [|exact B4].
  destruct d5 as [|x d5]; [|discriminate]. cbn [ExpectEnd] in H.
  unfold IsAcceptedHostPublicKey in H.
  destruct (Find (cf_authorized_host_keys cfg) blob) as [o|] eqn:F; [|discriminate]. apply Find_In in F.
  destruct (cf_parse_key cfg blob) eqn:K; [|discriminate]. cbn [negb] in H.
  destruct (VerifyRequest _ _ _ _ _) eqn:V in H; [|discriminate]. apply VerifyRequest_spec in V.
  exists alg, blob, host, cuser, sig. rewrite app_nil_r in *. split; [reflexivity|].
  assert (V' : cf_verify cfg blob (string_enc sid ++ [50] ++ pre ++ string_enc alg ++ string_enc blob ++ string_enc host ++ string_enc cuser) sig = Some true).
  { rewrite <- V.
    replace (pre ++ string_enc alg ++ string_enc blob ++ string_enc host ++ string_enc cuser ++ string_enc sig)
      with ((pre ++ string_enc alg ++ string_enc blob ++ string_enc host ++ string_enc cuser) ++ string_enc sig)
      by (rewrite <- !app_assoc; reflexivity).
    rewrite DSince_app. reflexivity. }
  unfold Login in H.
  assert (C : exists p, b = set_login user (set_hostbased (set_peer_address p (set_options o a))) /\ proxy = cf_proxy_to cfg arch sticky).
  { destruct (cf_accept_client_address cfg).
    - destruct (Split cuser 64) as [un ad]. destruct (negb (is_nil un) && negb (is_nil ad)).
      + destruct (cf_parse_address cfg (c_str ad)) as [p|]; injection H as <- <-; [exists p|exists (ac_peer_address a)]; split; reflexivity.
      + injection H as <- <-. exists (ac_peer_address a). split; reflexivity.
    - injection H as <- <-. exists (ac_peer_address a). split; reflexivity. }
  destruct C as (p & -> & ->). cbn. auto 15.
Qed.

(** The translation server's part. *)

Lemma LazyTranslate_spec : forall w user password a b r, LazyTranslate w user password a = (b, Some r) ->
  ac_translation b = Some (user, r) /\ ac_passwd b = ac_passwd a /\ ac_options b = ac_options a /\
  ac_authenticated b = ac_authenticated a /\ ac_username b = ac_username a /\
  ac_allow_exec b = ac_allow_exec a /\ ac_allow_sftp b = ac_allow_sftp a /\ ac_sftp_only b = ac_sftp_only a /\
  ac_hostbased b = ac_hostbased a /\ ac_peer_address b = ac_peer_address a /\
  ((b = a /\ password = []) \/
   (ac_log b = ac_log a ++ [ATranslate user password (Some r)] /\ w_translate w user password = Some r)).
Proof.
  intros w user password a b r H. unfold LazyTranslate in H.
  assert (ASK : (match w_translate w user password with
    | Some r0 => (set_translation (user, r0) (log_event (ATranslate user password (w_translate w user password)) a), Some r0)
    | None => (log_event (ATranslate user password (w_translate w user password)) a, None)
    end) = (b, Some r) ->
    ac_translation b = Some (user, r) /\ ac_passwd b = ac_passwd a /\ ac_options b = ac_options a /\
    ac_authenticated b = ac_authenticated a /\ ac_username b = ac_username a /\
    ac_allow_exec b = ac_allow_exec a /\ ac_allow_sftp b = ac_allow_sftp a /\ ac_sftp_only b = ac_sftp_only a /\
    ac_hostbased b = ac_hostbased a /\ ac_peer_address b = ac_peer_address a /\
    ac_log b = ac_log a ++ [ATranslate user password (Some r)] /\ w_translate w user password = Some r).
  { intro X. destruct (w_translate w user password) as [r0|] eqn:W; [|discriminate]. injection X as <- <-. cbn. auto 15. }
  destruct (ac_translation a) as [[u0 r0]|] eqn:T.
  - destruct (is_nil password && bytes_eqb user u0) eqn:C.
    + apply andb_true_iff in C as [C1 C2]. apply is_nil_true in C1. apply bytes_eqb_eq in C2.
      injection H as <- <-. subst u0. auto 15.
    + apply ASK in H. decompose [and] H. auto 15.
  - apply ASK in H. decompose [and] H. auto 15.
Qed.

Lemma ApplyResponse_spec : forall r password a b ok, ApplyResponse r password a = (b, ok) ->
  ac_translation b = ac_translation a /\ ac_passwd b = ac_passwd a /\ ac_options b = ac_options a /\
  ac_authenticated b = ac_authenticated a /\ ac_username b = ac_username a /\
  ac_hostbased b = ac_hostbased a /\ ac_peer_address b = ac_peer_address a /\ ac_log b = ac_log a /\
  (ac_allow_exec a = false -> ac_allow_exec b = false) /\
  (tr_execute_options r = None -> ac_allow_exec b = false) /\
  (tr_token r = Some (bs "sftp-only") -> ac_allow_exec b = false) /\
  (password = [] -> tr_no_password r = Some SFTP -> ac_allow_exec b = false) /\
  (ac_allow_exec b = true -> ac_allow_exec a = true) /\
  (ok = true -> password <> [] \/ tr_no_password r = Some [] \/ tr_no_password r = Some SFTP) /\
  (password <> [] -> ok = true) /\
  (tr_execute_options r = None -> ac_allow_sftp b = true -> GetService r SFTP <> None).
Proof.
  intros r password a b ok H. unfold ApplyResponse in H.
  destruct (tr_token r) as [tok|] eqn:T; [destruct (bytes_eqb tok (bs "sftp-only")) eqn:TE|];
  destruct (tr_execute_options r) as [eo|] eqn:E;
  (destruct (is_nil password) eqn:P; cbn [negb] in H;
   [apply is_nil_true in P; subst; destruct (tr_no_password r) as [np|] eqn:NP; [destruct (bytes_eqb np SFTP) eqn:NE|]|]);
  injection H as <- <-; cbn;
  try apply bytes_eqb_eq in TE; try apply bytes_eqb_eq in NE; subst;
  repeat split; intros; try reflexivity; try assumption; try discriminate; try congruence; auto;
  try (exfalso; match goal with X : ?a <> ?a |- _ => now apply X end);
  try (match goal with X : Some ?x = Some ?y, Y : bytes_eqb ?x ?y = false |- _ =>
         exfalso; injection X as ->; rewrite bytes_eqb_refl in Y; discriminate end);
  try (right; left; f_equal; now apply is_nil_true);
  try (left; intros ->; discriminate);
  try (subst; discriminate);
  try (intro Z; match goal with Y : match GetService _ _ with _ => _ end = true |- _ => rewrite Z in Y; discriminate end).
Qed.

Lemma AuthMethod_accepted : forall s cfg w sid pre user method d methods pa arch sticky a b proxy,
  source_of s user a -> bytes_ok d ->
  AuthMethod cfg w sid (pre ++ d) user method d methods pa arch sticky a = (b, Accepted proxy) ->
  ac_authenticated b = true /\ ac_username b = user /\ source_of s user b /\
  ac_allow_exec b = ac_allow_exec a /\ ac_allow_sftp b = ac_allow_sftp a /\ ac_sftp_only b = ac_sftp_only a /\
  (exists l, ac_log b = ac_log a ++ l) /\ proxy = cf_proxy_to cfg arch sticky /\
  ((method = PUBLICKEY /\ exists flag algorithm blob signature,
      flag <> 0 /\ d = [flag] ++ string_enc algorithm ++ string_enc blob ++ string_enc signature /\
      listed cfg w s blob (ac_options b) /\ cf_parse_key cfg blob = true /\ ac_hostbased b = ac_hostbased a /\
      cf_verify cfg blob (string_enc sid ++ [50] ++ pre ++ [flag] ++ string_enc algorithm ++ string_enc blob) signature = Some true) \/
   (method = HOSTBASED /\ exists algorithm blob host cuser signature,
      d = string_enc algorithm ++ string_enc blob ++ string_enc host ++ string_enc cuser ++ string_enc signature /\
      In (blob, ac_options b) (cf_authorized_host_keys cfg) /\ cf_parse_key cfg blob = true /\ ac_hostbased b = true /\
      cf_verify cfg blob (string_enc sid ++ [50] ++ pre ++ string_enc algorithm ++ string_enc blob ++ string_enc host ++ string_enc cuser)
        signature = Some true) \/
   (method <> PUBLICKEY /\ method <> HOSTBASED /\ pa = true /\ ac_options b = ac_options a /\ ac_hostbased b = ac_hostbased a)).
Proof.
  intros s cfg w sid pre user method d methods pa arch sticky a b proxy S B H. unfold AuthMethod in H.
  destruct (bytes_eqb method (bs "publickey")) eqn:M1; [|destruct (bytes_eqb method (bs "hostbased")) eqn:M2].
  - apply bytes_eqb_eq in M1. eapply AuthPublicKey_accepted in H; eauto.
    destruct H as (flag & alg & blob & sig & F & D & L & K & V & P & c & SB & ->).
    assert (S' : source_of s user c) by (eapply source_of_sbo; eauto).
    destruct SB as (A1 & A2 & A3 & A4 & A5 & A6 & A7 & A8 & A9 & l & A10).
    split; [reflexivity|]. split; [reflexivity|]. split; [exact S'|].
    split; [exact A5|]. split; [exact A6|]. split; [exact A7|]. split; [exists l; exact A10|]. split; [exact P|].
    left. split; [exact M1|]. exists flag, alg, blob, sig. auto 10.
  - apply bytes_eqb_eq in M2. eapply AuthHostbased_accepted in H; eauto.
    destruct H as (alg & blob & host & cuser & sig & D & L & K & V & P & A1 & A2 & A3 & A4 & A5 & A6 & A7 & A8 & A9).
    split; [exact A2|]. split; [exact A3|]. split; [destruct s; cbn [source_of] in *; rewrite A4, A5; exact S|].
    split; [exact A6|]. split; [exact A7|]. split; [exact A8|]. split; [exists []; rewrite app_nil_r; exact A9|]. split; [exact P|].
    right. left. split; [exact M2|]. exists alg, blob, host, cuser, sig. auto 10.
  - destruct pa; [|discriminate]. unfold Login in H. injection H as <- <-.
    split; [reflexivity|]. split; [reflexivity|]. split; [exact S|]. repeat (split; [reflexivity|]).
    split; [exists []; now rewrite app_nil_r|]. split; [reflexivity|].
    right. right. apply bytes_eqb_neq in M1, M2. auto.
Qed.

(** ** The parts of a request *)

(** What is asked before the method is looked at. *)
Definition lookup (cfg : config) (w : world) (user method : bytes) (e : aevent) : Prop :=
  (cf_translation_server cfg = false /\ e = AGetpwnam user (w_getpwnam w user)) \/
  (cf_translation_server cfg = true /\ exists pw, e = ATranslate user pw (w_translate w user pw) /\ (method <> PASSWORD -> pw = [])).

(** The execute options of a translation response are complete. *)
Definition complete (r : response) : Prop :=
  forall eo, tr_execute_options r = Some eo -> eo_uid eo <> None /\ eo_gid eo <> None /\ eo_home eo <> None.

Lemma CheckTranslateResponse_complete : forall r, CheckTranslateResponse r = true -> complete r.
Proof.
  intros r H eo E. unfold CheckTranslateResponse in H. rewrite E in H.
  destruct (eo_uid eo), (eo_gid eo), (eo_home eo); try discriminate. repeat split; discriminate.
Qed.

(** The state in which the method of a request is looked at. *)
Record method_state (cfg : config) (w : world) (a : account) (user method : bytes) (s : source) (pa : bool)
  (a1 : account) : Prop := {
  ms_source : source_of s user a1;
  ms_auth : ac_authenticated a1 = ac_authenticated a;
  ms_name : ac_username a1 = ac_username a;
  ms_options : ac_options a1 = ac_options a;
  ms_hostbased : ac_hostbased a1 = ac_hostbased a;
  ms_peer : ac_peer_address a1 = ac_peer_address a;
  ms_exec : ac_allow_exec a = false -> ac_allow_exec a1 = false;
  ms_log : exists l, ac_log a1 = ac_log a ++ l /\ Forall (lookup cfg w user method) l;
  ms_said : method <> PASSWORD -> said cfg (ac_log a1) user s;
  ms_translation : forall r, s = FromTranslation r ->
    cf_translation_server cfg = true /\ tr_status_ok r = true /\
    (tr_execute_options r = None -> ac_allow_exec a1 = false) /\
    (tr_token r = Some (bs "sftp-only") -> ac_allow_exec a1 = false) /\
    (method <> PASSWORD -> tr_no_password r = Some SFTP -> ac_allow_exec a1 = false) /\
    (pa = true -> method <> PASSWORD -> tr_no_password r = Some [] \/ tr_no_password r = Some SFTP) /\
    (tr_execute_options r = None -> ac_allow_sftp a1 = true -> GetService r SFTP <> None);
  ms_passwd : forall p, s = FromPasswd p -> cf_translation_server cfg = false /\ pa = false;
  ms_complete : forall r, s = FromTranslation r -> complete r }.

(** A request which is answered before its method is looked at. *)
Definition no_account (cfg : config) (w : world) (a : account) (user method : bytes) (b : account) (out : outcome) : Prop :=
  ac_authenticated b = ac_authenticated a /\
  (exists l, ac_log b = ac_log a ++ l /\ Forall (lookup cfg w user method) l) /\
  (ac_allow_exec a = false -> ac_allow_exec b = false) /\
  (out = Die \/
   ((exists m, out = Failure m) /\
    ac_username b = ac_username a /\ ac_passwd b = ac_passwd a /\ ac_options b = ac_options a /\
    ac_allow_exec b = ac_allow_exec a /\ ac_allow_sftp b = ac_allow_sftp a /\ ac_sftp_only b = ac_sftp_only a /\
    ac_hostbased b = ac_hostbased a /\ ac_peer_address b = ac_peer_address a /\
    (ac_translation b = ac_translation a \/
     (cf_translation_server cfg = true /\ exists r, ac_translation b = Some (user, r) /\ tr_status_ok r = false)))).

(** A password request reaches the second phase. *)
Definition password_given (w : world) (user d : bytes) (s : source) (log : list aevent) : Prop :=
  exists password r, d = [0] ++ string_enc password /\ password <> [] /\ s = FromTranslation r /\
    w_translate w user password = Some r /\ In (ATranslate user password (Some r)) log.

Lemma LazyTranslate_none : forall w user password a b, LazyTranslate w user password a = (b, None) ->
  b = log_event (ATranslate user password (w_translate w user password)) a.
Proof.
  intros w user password a b H. unfold LazyTranslate in H.
  destruct (ac_translation a) as [[u0 r0]|].
  - destruct (is_nil password && bytes_eqb user u0); [discriminate|].
    destruct (w_translate w user password) as [r|]; [discriminate|]. congruence.
  - destruct (w_translate w user password) as [r|]; [discriminate|]. congruence.
Qed.

Lemma translate_cases : forall cfg w sid payload user method methods password d a b out,
  before_login cfg a -> cf_translation_server cfg = true ->
  (method <> PASSWORD -> password = []) -> (method = PASSWORD -> password <> []) ->
  (match LazyTranslate w user password a with
    | (a, None) => (a, Die)
    | (a, Some r) =>
        if negb (tr_status_ok r) then (a, Failure [])
        else
          let '(a, password_accepted) := ApplyResponse r password a in
          if negb (CheckTranslateResponse r) then (a, Die)
          else
            AuthMethod cfg w sid payload user method d methods password_accepted (tr_arch r)
              (match tr_site r with Some site => site | None => user end) a
    end) = (b, out) ->
  no_account cfg w a user method b out \/
  exists r pa arch sticky a1, method_state cfg w a user method (FromTranslation r) pa a1 /\
    (method = PASSWORD -> w_translate w user password = Some r /\ In (ATranslate user password (Some r)) (ac_log a1) /\ pa = true) /\
    AuthMethod cfg w sid payload user method d methods pa arch sticky a1 = (b, out).
Proof.
  intros cfg w sid payload user method methods password d a b out BL TS NP PW H.
  destruct (LazyTranslate w user password a) as [a0 [r|]] eqn:LT.
  2:{ apply LazyTranslate_none in LT. injection H as <- <-. left. subst a0. split; [reflexivity|]. split; [|split; [auto|left; reflexivity]].
      eexists. split; [reflexivity|]. constructor; [|constructor]. right. eauto. }
  apply LazyTranslate_spec in LT as (T & P & O & AU & U & EX & SF & SO & HB & PE & LG).
  assert (LG' : exists l, ac_log a0 = ac_log a ++ l /\ Forall (lookup cfg w user method) l).
  { destruct LG as [[-> _]|[L W]]; [exists []; rewrite app_nil_r; auto|].
    exists [ATranslate user password (Some r)]. split; [exact L|]. constructor; [|constructor].
    right. split; [exact TS|]. exists password. rewrite W. auto. }
  destruct (tr_status_ok r) eqn:ST; cbn [negb] in H.
  2:{ injection H as <- <-. left. split; [exact AU|]. split; [exact LG'|]. split; [congruence|]. right.
      split; [eauto|]. repeat (split; [assumption|]). right. eauto. }
  destruct (ApplyResponse r password a0) as [a1 pa] eqn:AR.
  apply ApplyResponse_spec in AR as (R1 & R2 & R3 & R4 & R5 & R6 & R7 & R8 & R9 & R10 & R11 & R12 & R13 & R14 & R15 & R16).
  destruct (CheckTranslateResponse r) eqn:CTR; cbn [negb] in H.
  2:{ injection H as <- <-. left. split; [congruence|]. split; [rewrite R8; exact LG'|]. split; [|left; reflexivity].
      intro X. apply R9. congruence. }
  right. exists r, pa. eexists. eexists. exists a1. split; [|split; [|exact H]].
  - destruct BL as (BL1 & BL2 & BL3). constructor.
    + cbn. split; [congruence|]. rewrite R2, P. apply BL1, TS.
    + congruence.
    + congruence.
    + congruence.
    + congruence.
    + congruence.
    + intro X. apply R9. congruence.
    + rewrite R8. exact LG'.
    + intro M. specialize (NP M). cbn. split; [exact TS|]. split; [|exact ST]. rewrite R8.
      destruct LG as [[-> _]|[L W]]; [apply BL3; assumption|]. rewrite L, NP. apply in_or_app. right. left. reflexivity.
    + intros r' E. injection E as <-. split; [exact TS|]. split; [exact ST|]. split; [exact R10|]. split; [exact R11|].
      split; [intro M; apply R12; auto|]. split; [|exact R16].
      intros PA M. specialize (NP M). destruct (R14 PA) as [X|X]; [now rewrite NP in X|exact X].
    + intros p E. discriminate.
    + intros r' E. injection E as <-. now apply CheckTranslateResponse_complete.
  - intro M. specialize (PW M). rewrite R8. destruct LG as [[-> X]|[L W]]; [contradiction|].
    split; [exact W|]. split; [|apply R15, PW]. rewrite L. apply in_or_app. right. left. reflexivity.
Qed.

Lemma OnUserAuthRequest_cases : forall cfg w sid payload a b out,
  before_login cfg a -> bytes_ok payload -> OnUserAuthRequest cfg w sid payload a = (b, out) ->
  (b = a /\ (out = Die \/ exists m, out = Failure m)) \/
  exists user method d, payload = string_enc user ++ string_enc CONNECTION ++ string_enc method ++ d /\
    valid_name user /\ bytes_ok d /\
    (no_account cfg w a user method b out \/
     exists s pa methods arch sticky a1 d', method_state cfg w a user method s pa a1 /\
       (method = PASSWORD -> cf_translation_server cfg = true -> password_given w user d s (ac_log a1) /\ pa = true) /\
       (method <> PASSWORD -> d' = d) /\
       AuthMethod cfg w sid payload user method d' methods pa arch sticky a1 = (b, out)).
Proof.
  intros cfg w sid payload a b out BL B H. unfold OnUserAuthRequest in H.
  assert (EARLY : forall x, (a, x) = (b, out) -> (x = Die \/ exists m, x = Failure m) ->
    (b = a /\ (out = Die \/ exists m, out = Failure m)) \/
  exists user method d, payload = string_enc user ++ string_enc CONNECTION ++ string_enc method ++ d /\
    valid_name user /\ bytes_ok d /\
    (no_account cfg w a user method b out \/
     exists s pa methods arch sticky a1 d', method_state cfg w a user method s pa a1 /\
       (method = PASSWORD -> cf_translation_server cfg = true -> password_given w user d s (ac_log a1) /\ pa = true) /\
       (method <> PASSWORD -> d' = d) /\
       AuthMethod cfg w sid payload user method d' methods pa arch sticky a1 = (b, out))).
  { intros x E X. left. injection E as <- <-. auto. }
  change (ReadString payload) with (ReadLengthEncoded payload) in H.
  destruct (ReadLengthEncoded payload) as [[user d1]|] eqn:E1; [|eauto].
  apply ReadString_inv in E1 as (-> & _ & B1 & _); [|exact B].
  change (ReadString d1) with (ReadLengthEncoded d1) in H.
  destruct (ReadLengthEncoded d1) as [[service d2]|] eqn:E2; [|eauto].
  apply ReadString_inv in E2 as (-> & _ & B2 & _); [|exact B1].
  change (ReadString d2) with (ReadLengthEncoded d2) in H.
  destruct (ReadLengthEncoded d2) as [[method d]|] eqn:E3; [|eauto].
  apply ReadString_inv in E3 as (-> & _ & B3 & _); [|exact B2].
  destruct (bytes_eqb service (bs "ssh-connection")) eqn:S; cbn [negb] in H; [|eauto].
  apply bytes_eqb_eq in S. subst service.
  destruct (IsValidUsername user) eqn:V; cbn [negb] in H; [|eauto]. apply IsValidUsername_spec in V.
  destruct (cf_translation_server cfg) eqn:TS.
  - unfold AuthTranslation in H. destruct (bytes_eqb method (bs "password")) eqn:M.
    + apply bytes_eqb_eq in M. subst method.
      destruct (ReadBool d) as [[flag d3]|] eqn:E4; [|eauto].
      apply ReadBool_inv in E4 as (f & -> & Ef & _ & B4); [|exact B3].
      change (ReadString d3) with (ReadLengthEncoded d3) in H.
      destruct (ReadLengthEncoded d3) as [[pw d4]|] eqn:E5; [|eauto].
      apply ReadString_inv in E5 as (-> & _ & B5 & _); [|exact B4].
      destruct d4; [|cbn [ExpectEnd] in H; eauto]. cbn [ExpectEnd] in H.
      destruct flag; [eauto|]. destruct (is_nil pw) eqn:PN; [eauto|].
      assert (PN' : pw <> []) by (intros ->; discriminate).
      assert (F0 : f = 0) by (destruct (f =? 0) eqn:F; [now apply N.eqb_eq in F|discriminate]). subst f.
      right. exists user, PASSWORD, ([0] ++ string_enc pw ++ []). split; [reflexivity|]. split; [exact V|]. split; [exact B3|].
      change (bs "password") with PASSWORD in H.
      apply translate_cases in H; [|exact BL|exact TS|intro X; now destruct X|auto].
      destruct H as [H|(r & pa & arch & sticky & a1 & MS & PW & AM)]; [left; exact H|]. right.
      exists (FromTranslation r), pa. eexists. exists arch, sticky, a1, []. split; [exact MS|]. split; [|split; [|exact AM]].
      * intros _ _. destruct (PW eq_refl) as (W & LW & P). split; [|exact P]. exists pw, r. rewrite app_nil_r. auto.
      * intro X. now destruct X.
    + right. apply bytes_eqb_neq in M. exists user, method, d. split; [reflexivity|]. split; [exact V|]. split; [exact B3|].
      apply translate_cases in H; [|exact BL|exact TS|auto|intro X; now apply M in X].
      destruct H as [H|(r & pa & arch & sticky & a1 & MS & PW & AM)]; [left; exact H|]. right.
      exists (FromTranslation r), pa. eexists. exists arch, sticky, a1, d. split; [exact MS|]. split; [|split; [auto|exact AM]].
      intro X. now apply M in X.
  - right. exists user, method, d. split; [reflexivity|]. split; [exact V|]. split; [exact B3|].
    cbv zeta in H.
    assert (LK : Forall (lookup cfg w user method) [AGetpwnam user (w_getpwnam w user)]).
    { constructor; [|constructor]. left. auto. }
    destruct (w_getpwnam w user) as [pw|] eqn:G.
    2:{ left. injection H as <- <-. split; [reflexivity|]. split; [eexists; split; [reflexivity|exact LK]|].
        split; [auto|]. right. split; [eauto|]. repeat (split; [reflexivity|]). left. reflexivity. }
    right. exists (FromPasswd pw), false. eexists. exists ARCH_NONE, user, (set_passwd pw (log_event (AGetpwnam user (Some pw)) a)), d.
    split; [|split; [|split; [auto|exact H]]]; [|intros; congruence].
    destruct BL as (BL1 & BL2 & BL3). constructor; try reflexivity.
    + split; [apply BL2, TS|reflexivity].
    + auto.
    + eexists. split; [reflexivity|exact LK].
    + intros _. split; [exact TS|]. cbn. apply in_or_app. right. left. reflexivity.
    + intros r E. discriminate.
    + intros p _. auto.
    + intros r E. discriminate.
Qed.

(** ** A request which is accepted *)

Lemma said_app : forall cfg log l user s, said cfg log user s -> said cfg (log ++ l) user s.
Proof.
  intros cfg log l user [r|p] H; cbn in *.
  - destruct H as (A & B & C). split; [exact A|]. split; [apply in_or_app; now left|exact C].
  - destruct H as (A & B). split; [exact A|]. apply in_or_app. now left.
Qed.

(** After login. *)
Record login (cfg : config) (w : world) (payload : bytes) (a : account) (user : bytes) (c : credential) (s : source) (b : account) : Prop := {
  lg_auth : ac_authenticated b = true;
  lg_name : ac_username b = user;
  lg_source : source_of s user b;
  lg_status : forall r, s = FromTranslation r -> cf_translation_server cfg = true /\ tr_status_ok r = true;
  lg_passwd : forall p, s = FromPasswd p -> cf_translation_server cfg = false;
  lg_asked : match s with
    | FromTranslation r => exists password, In (ATranslate user password (Some r)) (ac_log b) /\
        (password = [] <-> c <> CPassword)
    | FromPasswd p => In (AGetpwnam user (Some p)) (ac_log b)
    end;
  lg_options : match c with
    | CKey _ o | CHost _ o => ac_options b = o
    | CPassword | CWaived => ac_options b = ac_options a
    end;
  lg_hostbased : ac_hostbased b = match c with CHost _ _ => true | _ => ac_hostbased a end;
  lg_exec : ac_allow_exec a = false -> ac_allow_exec b = false;
  lg_exec_translation : forall r, s = FromTranslation r ->
    (tr_execute_options r = None -> ac_allow_exec b = false) /\
    (tr_token r = Some (bs "sftp-only") -> ac_allow_exec b = false) /\
    (c <> CPassword -> tr_no_password r = Some SFTP -> ac_allow_exec b = false) /\
    (tr_execute_options r = None -> ac_allow_sftp b = true -> GetService r SFTP <> None);
  lg_log : exists l, ac_log b = ac_log a ++ l;
  lg_answer : answered cfg w (ac_log b) payload user c s;
  lg_complete : forall r, s = FromTranslation r -> complete r }.

Lemma enc_app2 : forall l m, enc (l ++ m) = enc l ++ enc m.
Proof. intros l m. unfold enc. rewrite map_app. apply concat_app. Qed.

Lemma accepted_proves : forall cfg w sid payload a b proxy,
  before_login cfg a -> bytes_ok payload -> OnUserAuthRequest cfg w sid payload a = (b, Accepted proxy) ->
  exists user c s, valid_name user /\ proves cfg sid w (ac_log b) payload user c /\ login cfg w payload a user c s b.
Proof.
  intros cfg w sid payload a b proxy BL B H.
  apply OnUserAuthRequest_cases in H as [(_ & [H|[m H]])|(user & method & d & PL & V & BD & [NA|MS])]; try assumption; try discriminate.
  { destruct NA as (_ & _ & _ & [X|[[m X] _]]); discriminate. }
  destruct MS as (s & pa & methods & arch & sticky & a1 & d' & MS & PG & DD & AM).
  destruct (list_eq_dec N.eq_dec method PASSWORD) as [MP|MP].
  - (* password *)
    subst method.
    assert (TS : cf_translation_server cfg = true).
    { destruct s as [r|p]; [apply (ms_translation _ _ _ _ _ _ _ _ MS r eq_refl)|].
      destruct (ms_passwd _ _ _ _ _ _ _ _ MS p eq_refl) as [_ PF]. subst pa. unfold AuthMethod in AM. discriminate. }
    destruct (PG eq_refl TS) as [(pw & r & -> & PN & -> & W & LW) ->].
    assert (AM' : b = set_login user a1 /\ proxy = cf_proxy_to cfg arch sticky).
    { unfold AuthMethod in AM. change (bytes_eqb PASSWORD (bs "publickey")) with false in AM.
      change (bytes_eqb PASSWORD (bs "hostbased")) with false in AM. unfold Login in AM. cbv iota in AM. split; congruence. }
    destruct AM' as [-> ->].
    destruct (ms_translation _ _ _ _ _ _ _ _ MS r eq_refl) as (_ & ST & X1 & X2 & X3 & X4 & X5).
    exists user, CPassword, (FromTranslation r). split; [exact V|]. split.
    + rewrite PL. replace (string_enc user ++ string_enc CONNECTION ++ string_enc PASSWORD ++ [0] ++ string_enc pw)
        with (enc (password_request user pw)).
      * eapply P_password; eauto.
      * unfold password_request, enc. cbn [map List.concat enc_field]. now rewrite app_nil_r.
    + constructor; try reflexivity.
      * exact (ms_source _ _ _ _ _ _ _ _ MS).
      * intros r' E. injection E as <-. auto.
      * intros p E. discriminate.
      * cbn [set_login mk_account ac_log].
        exists pw. split; [exact LW|split; intro X; [contradiction|now destruct X]].
      * exact (ms_options _ _ _ _ _ _ _ _ MS).
      * exact (ms_hostbased _ _ _ _ _ _ _ _ MS).
      * exact (ms_exec _ _ _ _ _ _ _ _ MS).
      * intros r' E. injection E as <-. cbn. split; [exact X1|]. split; [exact X2|]. split; [|exact X5]. intro X. now destruct X.
      * destruct (ms_log _ _ _ _ _ _ _ _ MS) as (l & L & _). exists l. exact L.
      * exists pw, r. split; [|auto]. rewrite PL. unfold password_request, enc. cbn [map List.concat enc_field]. now rewrite app_nil_r.
      * exact (ms_complete _ _ _ _ _ _ _ _ MS).
  - specialize (DD MP). subst d'. pose proof (ms_said _ _ _ _ _ _ _ _ MS MP) as SD.
    assert (PL' : payload = (string_enc user ++ string_enc CONNECTION ++ string_enc method) ++ d)
      by (rewrite PL, <- !app_assoc; reflexivity).
    rewrite PL' in AM. eapply AuthMethod_accepted in AM; [|exact (ms_source _ _ _ _ _ _ _ _ MS)|exact BD].
    destruct AM as (A1 & A2 & A3 & A4 & A5 & A6 & (l & A7) & A8 & A9).
    assert (SD' : said cfg (ac_log b) user s) by (rewrite A7; now apply said_app).
    assert (COMMON : forall c, c <> CPassword ->
      match c with CKey _ o | CHost _ o => ac_options b = o | CPassword | CWaived => ac_options b = ac_options a end ->
      ac_hostbased b = match c with CHost _ _ => true | _ => ac_hostbased a end ->
      login cfg w payload a user c s b).
    { intros c CP CO CH. constructor; try assumption.
      - intros r ->. destruct (ms_translation _ _ _ _ _ _ _ _ MS r eq_refl) as (X & Y & _). auto.
      - intros p ->. apply (ms_passwd _ _ _ _ _ _ _ _ MS p eq_refl).
      - destruct s as [r|p]; [|apply SD']. exists []. split; [apply SD'|split; auto].
      - intro X. rewrite A4. exact (ms_exec _ _ _ _ _ _ _ _ MS X).
      - intros r ->. destruct (ms_translation _ _ _ _ _ _ _ _ MS r eq_refl) as (_ & _ & X1 & X2 & X3 & _ & X5).
        rewrite A4, A5. split; [exact X1|]. split; [exact X2|]. split; [|exact X5]. intros _. apply X3, MP.
      - destruct (ms_log _ _ _ _ _ _ _ _ MS) as (l' & L & _). exists (l' ++ l). rewrite A7, L, app_assoc. reflexivity.
      - destruct c; try exact SD'. now destruct CP.
      - exact (ms_complete _ _ _ _ _ _ _ _ MS). }
    destruct A9 as [(-> & flag & alg & blob & sig & F & -> & LI & K & HB & VF)|[(-> & alg & blob & host & cuser & sig & -> & LI & K & HB & VF)|(M1 & M2 & -> & OP & HB)]].
    + exists user, (CKey blob (ac_options b)), s. split; [exact V|]. split.
      * rewrite PL. replace (string_enc user ++ string_enc CONNECTION ++ string_enc PUBLICKEY ++ [flag] ++ string_enc alg ++ string_enc blob ++ string_enc sig)
          with (enc (key_request user flag alg blob ++ [FString sig])).
        -- eapply P_key; eauto. rewrite <- VF. unfold signed_data, key_request, enc. cbn [map List.concat enc_field].
           rewrite app_nil_r, <- !app_assoc. reflexivity.
        -- unfold key_request, enc. cbn [map List.concat enc_field List.app]. now rewrite app_nil_r.
      * apply COMMON; [discriminate|reflexivity|]. rewrite HB. exact (ms_hostbased _ _ _ _ _ _ _ _ MS).
    + exists user, (CHost blob (ac_options b)), s. split; [exact V|]. split.
      * rewrite PL. replace (string_enc user ++ string_enc CONNECTION ++ string_enc HOSTBASED ++ string_enc alg ++ string_enc blob ++ string_enc host ++ string_enc cuser ++ string_enc sig)
          with (enc (host_request user alg blob host cuser ++ [FString sig])).
        -- eapply P_host; eauto. rewrite <- VF. unfold signed_data, host_request, enc. cbn [map List.concat enc_field].
           rewrite app_nil_r, <- !app_assoc. reflexivity.
        -- unfold host_request, enc. cbn [map List.concat enc_field List.app]. now rewrite app_nil_r.
      * apply COMMON; [discriminate|reflexivity|exact HB].
    + destruct s as [r|p]; [|destruct (ms_passwd _ _ _ _ _ _ _ _ MS p eq_refl) as [_ X]; discriminate].
      exists user, CWaived, (FromTranslation r). split; [exact V|]. split.
      * rewrite PL. replace (string_enc user ++ string_enc CONNECTION ++ string_enc method ++ d)
          with (enc [FString user; FString CONNECTION; FString method; FRaw d]).
        -- eapply P_waived; [|exact SD'|].
           ++ intros [X|[X|[X|[]]]]; auto.
           ++ destruct (ms_translation _ _ _ _ _ _ _ _ MS r eq_refl) as (_ & _ & _ & _ & _ & X & _). auto.
        -- unfold enc. cbn [map List.concat enc_field]. now rewrite app_nil_r.
      * apply COMMON; [discriminate| |].
        -- rewrite OP. exact (ms_options _ _ _ _ _ _ _ _ MS).
        -- rewrite HB. exact (ms_hostbased _ _ _ _ _ _ _ _ MS).
Qed.

(** ** A request which is not accepted *)

Definition accepted (out : outcome) : Prop := match out with Accepted _ => True | _ => False end.

Lemma AuthPublicKey_failed : forall cfg w sid payload user d methods arch sticky a b out,
  AuthPublicKey cfg w sid payload user d methods arch sticky a = (b, out) -> ~ accepted out -> same_but_options a b.
Proof.
  intros cfg w sid payload user d methods arch sticky a b out H NA. unfold AuthPublicKey in H.
  destruct (ReadBool d) as [[ws d1]|]; [|injection H as <- <-; apply sbo_refl].
  destruct (ReadString d1) as [[alg d2]|]; [|injection H as <- <-; apply sbo_refl].
  destruct (ReadLengthEncoded d2) as [[blob d3]|]; [|injection H as <- <-; apply sbo_refl].
  pose proof (IsAcceptedPublicKey_sbo cfg w blob a) as SB.
  destruct (IsAcceptedPublicKey cfg w blob a) as [c [|]]; cbn [fst] in SB; [|injection H as <- <-; exact SB].
  destruct (negb (cf_parse_key cfg blob)); [injection H as <- <-; exact SB|].
  destruct (negb ws); [destruct (ExpectEnd d3); injection H as <- <-; exact SB|].
  destruct (ReadLengthEncoded d3) as [[sig d4]|]; [|injection H as <- <-; exact SB].
  destruct (ExpectEnd d4); [|injection H as <- <-; exact SB].
  destruct (VerifyRequest _ _ _ _ _); [|injection H as <- <-; exact SB].
  unfold Login in H. injection H as <- <-. exfalso. apply NA. exact I.
Qed.

Lemma AuthHostbased_failed : forall cfg sid payload user d methods arch sticky a b out,
  AuthHostbased cfg sid payload user d methods arch sticky a = (b, out) -> ~ accepted out -> same_but_options a b.
Proof.
  intros cfg sid payload user d methods arch sticky a b out H NA. unfold AuthHostbased in H.
  destruct (ReadString d) as [[x1 d1]|]; [|injection H as <- <-; apply sbo_refl].
  destruct (ReadLengthEncoded d1) as [[blob d2]|]; [|injection H as <- <-; apply sbo_refl].
  destruct (ReadString d2) as [[x3 d3]|]; [|injection H as <- <-; apply sbo_refl].
  destruct (ReadString d3) as [[x4 d4]|]; [|injection H as <- <-; apply sbo_refl].
  destruct (ReadLengthEncoded d4) as [[sig d5]|]; [|injection H as <- <-; apply sbo_refl].
  destruct (ExpectEnd d5); [|injection H as <- <-; apply sbo_refl].
  unfold IsAcceptedHostPublicKey in H.
  destruct (Find (cf_authorized_host_keys cfg) blob) as [o|]; [|injection H as <- <-; apply sbo_refl].
  destruct (negb (cf_parse_key cfg blob)); [injection H as <- <-; apply sbo_options|].
  destruct (VerifyRequest _ _ _ _ _); [|injection H as <- <-; apply sbo_options].
  exfalso. apply NA. unfold Login in H. destruct (cf_accept_client_address cfg).
  - destruct (Split x4 64) as [un ad]. destruct (negb (is_nil un) && negb (is_nil ad)).
    + destruct (cf_parse_address cfg (c_str ad)); injection H as <- <-; exact I.
    + injection H as <- <-. exact I.
  - injection H as <- <-. exact I.
Qed.

Lemma AuthMethod_failed : forall cfg w sid payload user method d methods pa arch sticky a b out,
  AuthMethod cfg w sid payload user method d methods pa arch sticky a = (b, out) -> ~ accepted out -> same_but_options a b.
Proof.
  intros cfg w sid payload user method d methods pa arch sticky a b out H NA. unfold AuthMethod in H.
  destruct (bytes_eqb method (bs "publickey")); [eapply AuthPublicKey_failed; eauto|].
  destruct (bytes_eqb method (bs "hostbased")); [eapply AuthHostbased_failed; eauto|].
  destruct pa; [unfold Login in H; injection H as <- <-; exfalso; now apply NA|injection H as <- <-; apply sbo_refl].
Qed.

(** What the check of a key asks the outside world. *)
Definition key_lookup (s : source) (e : aevent) : Prop :=
  match e with
  | AOpenKeys home => home_of s home
  | AHelper i => identity_of s i
  | ATranslate _ _ _ | AGetpwnam _ _ => False
  end.

Definition adds (s : source) (a b : account) : Prop :=
  exists l, ac_log b = ac_log a ++ l /\ Forall (key_lookup s) l.

Lemma adds_refl : forall s a b, ac_log b = ac_log a -> adds s a b.
Proof. intros s a b E. exists []. rewrite app_nil_r. auto. Qed.

Lemma adds_log : forall s a b c, adds s a b -> ac_log c = ac_log b -> adds s a c.
Proof. intros s a b c (l & E & F) X. exists l. rewrite X. auto. Qed.

Lemma OpenInHome_adds : forall s user w a, source_of s user a -> adds s a (fst (OpenInHome w a)).
Proof.
  intros s user w a S. unfold OpenInHome.
  assert (D : forall pre c, source_of s user c -> ac_log c = ac_log a ++ pre -> Forall (key_lookup s) pre ->
    adds s a (fst (if ac_allow_sftp c then
      match HelperIdentity c with Some i => (log_event (AHelper i) c, w_delegate w i) | None => (c, None) end else (c, None)))).
  { intros pre c Sc E F. destruct (ac_allow_sftp c); [|exists pre; auto].
    destruct (HelperIdentity c) as [i|] eqn:I; [|exists pre; auto]. exists (pre ++ [AHelper i]). cbn.
    split; [now rewrite E, app_assoc|]. apply Forall_app. split; [exact F|]. constructor; [|constructor].
    eapply HelperIdentity_spec; eauto. }
  destruct (GetHome a) as [home|] eqn:G.
  2:{ apply (D []); auto. now rewrite app_nil_r. }
  assert (SL : source_of s user (log_event (AOpenKeys home) a)) by (eapply source_of_sbo; [apply sbo_log|exact S]).
  assert (F : Forall (key_lookup s) [AOpenKeys home]).
  { constructor; [|constructor]. eapply GetHome_spec; eauto. }
  destruct (w_open w home).
  - apply (D [AOpenKeys home]); auto.
  - exists [AOpenKeys home]. auto.
  - exists [AOpenKeys home]. auto.
  - apply (D [AOpenKeys home]); auto.
Qed.

Lemma IsAcceptedPublicKey_adds : forall s user cfg w blob a, source_of s user a ->
  adds s a (fst (IsAcceptedPublicKey cfg w blob a)).
Proof.
  intros s user cfg w blob a S. unfold IsAcceptedPublicKey.
  pose proof (OpenInHome_adds s user w a S) as O.
  assert (G : adds s a (fst (match Find (cf_global_keys cfg) blob with
    | Some o => (set_options o a, true)
    | None => if ShouldLoadHomeAuthorizedKeys a then
      match OpenInHome w a with
      | (a, Some f) =>
          if f_regular f && (len (f_contents f) <? MAX_KEYS_FILE) then
            match PublicKeysTextFileContains (cf_base64 cfg) (cf_openssl cfg) (f_contents f) blob with
            | Some o => (set_options o a, true)
            | None => (a, false)
            end
          else (a, false)
      | (a, None) => (a, false)
      end
    else (a, false) end))).
  { destruct (Find _ _); [now apply adds_refl|]. destruct (ShouldLoadHomeAuthorizedKeys a); [|now apply adds_refl].
    destruct (OpenInHome w a) as [c [f|]]; cbn [fst] in O; [|exact O].
    destruct (f_regular f && _); [|exact O]. destruct (PublicKeysTextFileContains _ _ _ _); [|exact O].
    eapply adds_log; [exact O|reflexivity]. }
  destruct (response_of a) as [r|]; [|exact G]. destruct (tr_authorized_keys r); [|exact G].
  destruct (PublicKeysTextContains _ _ _ _); [now apply adds_refl|exact G].
Qed.

Lemma AuthMethod_adds : forall s cfg w sid payload user method d methods pa arch sticky a b out,
  source_of s user a ->
  AuthMethod cfg w sid payload user method d methods pa arch sticky a = (b, out) ->
  adds s a b /\ (method <> PUBLICKEY -> ac_log b = ac_log a).
Proof.
  intros s cfg w sid payload user method d methods pa arch sticky a b out S H. unfold AuthMethod in H.
  destruct (bytes_eqb method (bs "publickey")) eqn:M.
  - apply bytes_eqb_eq in M. split; [|intro X; now apply X in M]. unfold AuthPublicKey in H.
    assert (REFL : forall x, (a, x) = (b, out) -> adds s a b) by (intros x E; injection E as <- <-; now apply adds_refl).
    destruct (ReadBool d) as [[ws d1]|]; [|eauto].
    destruct (ReadString d1) as [[alg d2]|]; [|eauto].
    destruct (ReadLengthEncoded d2) as [[blob d3]|]; [|eauto].
    pose proof (IsAcceptedPublicKey_adds s user cfg w blob a S) as SB.
    destruct (IsAcceptedPublicKey cfg w blob a) as [c [|]]; cbn [fst] in SB; [|injection H as <- <-; exact SB].
    destruct (negb (cf_parse_key cfg blob)); [injection H as <- <-; exact SB|].
    destruct (negb ws); [destruct (ExpectEnd d3); injection H as <- <-; exact SB|].
    destruct (ReadLengthEncoded d3) as [[sig d4]|]; [|injection H as <- <-; exact SB].
    destruct (ExpectEnd d4); [|injection H as <- <-; exact SB].
    destruct (VerifyRequest _ _ _ _ _); [|injection H as <- <-; exact SB].
    unfold Login in H. injection H as <- <-. eapply adds_log; [exact SB|reflexivity].
  - assert (L : ac_log b = ac_log a).
    { destruct (bytes_eqb method (bs "hostbased")).
      - unfold AuthHostbased in H.
        destruct (ReadString d) as [[x1 d1]|]; [|congruence].
        destruct (ReadLengthEncoded d1) as [[blob d2]|]; [|congruence].
        destruct (ReadString d2) as [[x3 d3]|]; [|congruence].
        destruct (ReadString d3) as [[x4 d4]|]; [|congruence].
        destruct (ReadLengthEncoded d4) as [[sig d5]|]; [|congruence].
        destruct (ExpectEnd d5); [|congruence].
        unfold IsAcceptedHostPublicKey in H.
        destruct (Find (cf_authorized_host_keys cfg) blob) as [o|]; [|congruence].
        destruct (negb (cf_parse_key cfg blob)); [injection H as <- <-; reflexivity|].
        destruct (VerifyRequest _ _ _ _ _); [|injection H as <- <-; reflexivity].
        unfold Login in H. destruct (cf_accept_client_address cfg).
        + destruct (Split x4 64) as [un ad]. destruct (negb (is_nil un) && negb (is_nil ad)).
          * destruct (cf_parse_address cfg (c_str ad)); injection H as <- <-; reflexivity.
          * injection H as <- <-. reflexivity.
        + injection H as <- <-. reflexivity.
      - destruct pa; [unfold Login in H|]; injection H as <- <-; reflexivity. }
    split; [now apply adds_refl|auto].
Qed.

(** The questions asked because of a request are about the user it names. *)
Lemma request_log : forall cfg w sid payload a b out,
  before_login cfg a -> bytes_ok payload -> OnUserAuthRequest cfg w sid payload a = (b, out) ->
  exists l, ac_log b = ac_log a ++ l /\ Forall (asked_for cfg payload (ac_log b)) l.
Proof.
  intros cfg w sid payload a b out BL B H.
  apply OnUserAuthRequest_cases in H as [(-> & _)|(user & method & d & PL & V & BD & H)]; try assumption.
  { exists []. rewrite app_nil_r. auto. }
  assert (LK : forall log e, lookup cfg w user method e -> asked_for cfg payload log e).
  { intros log e L. exists user, (string_enc CONNECTION ++ string_enc method ++ d). split; [exact PL|]. split; [exact V|].
    destruct L as [[TS ->]|[TS (pw & -> & _)]]; auto. }
  destruct H as [NA|MS].
  - destruct NA as (_ & (l & L & F) & _). exists l. split; [exact L|]. eapply Forall_impl; [|exact F]. intros; now apply LK.
  - destruct MS as (s & pa & methods & arch & sticky & a1 & d' & MS & PG & DD & AM).
    destruct (ms_log _ _ _ _ _ _ _ _ MS) as (l1 & L1 & F1).
    apply AuthMethod_adds with (s := s) in AM as [(l2 & L2 & F2) NP]; [|exact (ms_source _ _ _ _ _ _ _ _ MS)].
    exists (l1 ++ l2). split; [now rewrite L2, L1, app_assoc|]. apply Forall_app. split.
    { eapply Forall_impl; [|exact F1]. intros; now apply LK. }
    destruct (list_eq_dec N.eq_dec method PASSWORD) as [MP|MP].
    { assert (X : method <> PUBLICKEY) by (rewrite MP; discriminate). specialize (NP X).
      rewrite L2 in NP. assert (l2 = []) by (eapply app_inv_head; rewrite app_nil_r; exact NP). subst l2. constructor. }
    pose proof (ms_said _ _ _ _ _ _ _ _ MS MP) as SD.
    assert (SD' : said cfg (ac_log b) user s) by (rewrite L2; now apply said_app).
    eapply Forall_impl; [|exact F2]. intros e KE.
    exists user, (string_enc CONNECTION ++ string_enc method ++ d). split; [exact PL|]. split; [exact V|].
    destruct e; cbn in KE; try contradiction; exists s; auto.
Qed.

Lemma failed_request : forall cfg w sid payload a b out,
  before_login cfg a -> bytes_ok payload -> OnUserAuthRequest cfg w sid payload a = (b, out) ->
  ~ accepted out -> out <> Die ->
  before_login cfg b /\ ac_authenticated b = ac_authenticated a /\ ac_username b = ac_username a /\
  ac_hostbased b = ac_hostbased a /\ ac_peer_address b = ac_peer_address a.
Proof.
  intros cfg w sid payload a b out BL B H NA ND.
  pose proof BL as (BL1 & BL2 & BL3).
  apply OnUserAuthRequest_cases in H as [(-> & _)|(user & method & d & PL & V & BD & H)]; try assumption.
  { auto 10. }
  destruct H as [N|MS].
  - destruct N as (A1 & (l & L & _) & AE & [X|(_ & A2 & A3 & A4 & A5 & A6 & A7 & A8 & A9 & A10)]); [contradiction|].
    split; [|repeat (split; [assumption|]); assumption].
    split; [rewrite A3; exact BL1|]. destruct A10 as [T|[TS (r & T & ST)]].
    + rewrite T. split; [exact BL2|]. intros u r E S. rewrite L. apply in_or_app. left. eauto.
    + split; [congruence|]. intros u r' E S. congruence.
  - destruct MS as (s & pa & methods & arch & sticky & a1 & d' & MS & PG & DD & AM).
    pose proof AM as AM'. apply AuthMethod_failed in AM as (A1 & A2 & A3 & A4 & A5 & A6 & A7 & A8 & A9 & l & A10); [|exact NA].
    pose proof (ms_source _ _ _ _ _ _ _ _ MS) as SO.
    rewrite A1, A2, A8, A9.
    split; [|split; [apply MS|split; [apply MS|split; apply MS]]].
    assert (MP : method = PASSWORD -> forall r, s <> FromTranslation r).
    { intros MP r ->. destruct (ms_translation _ _ _ _ _ _ _ _ MS r eq_refl) as (TS & _). destruct (PG MP TS) as [_ ->].
      apply NA. rewrite MP in AM'. unfold AuthMethod in AM'. change (bytes_eqb PASSWORD (bs "publickey")) with false in AM'.
      change (bytes_eqb PASSWORD (bs "hostbased")) with false in AM'. unfold Login in AM'. cbv iota in AM'. injection AM' as _ <-. exact I. }
    unfold before_login. rewrite A3, A4.
    destruct s as [r|p]; destruct SO as [T P]; rewrite T, P.
    + destruct (ms_translation _ _ _ _ _ _ _ _ MS r eq_refl) as (TS & ST & _).
      split; [auto|]. split; [congruence|]. intros u r' E S. injection E as <- <-. rewrite A10. apply in_or_app. left.
      assert (MP' : method <> PASSWORD) by (intro X; now apply (MP X r)).
      apply (ms_said _ _ _ _ _ _ _ _ MS MP').
    + destruct (ms_passwd _ _ _ _ _ _ _ _ MS p eq_refl) as [TS _]. split; [congruence|]. split; [auto|]. intros u r' E. discriminate.
Qed.

(** A request never allows exec again. *)
Lemma request_exec : forall cfg w sid payload a b out,
  before_login cfg a -> bytes_ok payload -> OnUserAuthRequest cfg w sid payload a = (b, out) ->
  ac_allow_exec a = false -> ac_allow_exec b = false.
Proof.
  intros cfg w sid payload a b out BL B H EX. pose proof H as H0.
  apply OnUserAuthRequest_cases in H as [(-> & _)|(user & method & d & PL & V & BD & H)]; try assumption.
  destruct H as [NA|MS]; [apply NA, EX|].
  destruct out as [m|alg blob| |p].
  1-3: destruct MS as (s & pa & methods & arch & sticky & a1 & d' & MS & PG & DD & AM);
    apply AuthMethod_failed in AM as (_ & _ & _ & _ & A5 & _); [|auto]; rewrite A5; exact (ms_exec _ _ _ _ _ _ _ _ MS EX).
  destruct (accepted_proves _ _ _ _ _ _ _ BL B H0) as (u & c & src & _ & _ & LG). exact (lg_exec _ _ _ _ _ _ _ _ LG EX).
Qed.

(** PK_OK is the answer for a listed key only. *)
Lemma pk_ok_listed : forall cfg w sid payload a b alg blob,
  before_login cfg a -> bytes_ok payload -> OnUserAuthRequest cfg w sid payload a = (b, PkOk alg blob) ->
  exists user s, payload = enc (key_request user 0 alg blob) /\ valid_name user /\
    said cfg (ac_log b) user s /\ listed cfg w s blob (ac_options b).
Proof.
  intros cfg w sid payload a b alg blob BL B H.
  apply OnUserAuthRequest_cases in H as [(_ & [H|[m H]])|(user & method & d & PL & V & BD & [NA|MS])]; try assumption; try discriminate.
  { destruct NA as (_ & _ & _ & [X|[[m X] _]]); discriminate. }
  destruct MS as (s & pa & methods & arch & sticky & a1 & d' & MS & PG & DD & AM).
  pose proof AM as AM'. apply AuthMethod_adds with (s := s) in AM' as [(l2 & L2 & F2) NP]; [|exact (ms_source _ _ _ _ _ _ _ _ MS)].
  unfold AuthMethod in AM. destruct (bytes_eqb method (bs "publickey")) eqn:M.
  - apply bytes_eqb_eq in M. assert (MP : method <> PASSWORD) by (subst method; discriminate).
    specialize (DD MP). subst d'. pose proof (ms_said _ _ _ _ _ _ _ _ MS MP) as SD.
    unfold AuthPublicKey in AM.
    destruct (ReadBool d) as [[ws d1]|] eqn:E1; [|discriminate].
    apply ReadBool_inv in E1 as (flag & -> & Ef & _ & B1); [|exact BD].
    change (ReadString d1) with (ReadLengthEncoded d1) in AM.
    destruct (ReadLengthEncoded d1) as [[alg' d2]|] eqn:E2; [|discriminate].
    apply ReadString_inv in E2 as (-> & _ & B2 & _); [|exact B1].
    destruct (ReadLengthEncoded d2) as [[blob' d3]|] eqn:E3; [|discriminate].
    apply ReadString_inv in E3 as (-> & _ & B3 & _); [|exact B2].
    destruct (IsAcceptedPublicKey cfg w blob' a1) as [c [|]] eqn:A; [|discriminate].
    pose proof (IsAcceptedPublicKey_spec _ _ _ _ _ _ _ (ms_source _ _ _ _ _ _ _ _ MS) A) as L.
    destruct (negb (cf_parse_key cfg blob')); [discriminate|].
    destruct ws; cbn [negb] in AM.
    + destruct (ReadLengthEncoded d3) as [[sig d4]|]; [|discriminate]. destruct (ExpectEnd d4); [|discriminate].
      destruct (VerifyRequest _ _ _ _ _); discriminate.
    + destruct d3 as [|x d3]; cbn [ExpectEnd] in AM; [|discriminate]. injection AM as <- <- <-.
      assert (F0 : flag = 0) by (destruct (flag =? 0) eqn:F; [now apply N.eqb_eq in F|discriminate]). subst flag.
      exists user, s. split.
      { rewrite PL, M. unfold key_request, enc. cbn [map List.concat enc_field List.app]. reflexivity. }
      split; [exact V|]. split; [|exact L]. rewrite L2. now apply said_app.
  - destruct (bytes_eqb method (bs "hostbased")).
    + unfold AuthHostbased in AM.
      destruct (ReadString d') as [[x1 d1]|]; [|discriminate].
      destruct (ReadLengthEncoded d1) as [[bl d2]|]; [|discriminate].
      destruct (ReadString d2) as [[x3 d3]|]; [|discriminate].
      destruct (ReadString d3) as [[x4 d4]|]; [|discriminate].
      destruct (ReadLengthEncoded d4) as [[sig d5]|]; [|discriminate].
      destruct (ExpectEnd d5); [|discriminate].
      destruct (IsAcceptedHostPublicKey cfg bl a1) as [c [|]]; [|discriminate].
      destruct (negb (cf_parse_key cfg bl)); [discriminate|].
      destruct (VerifyRequest _ _ _ _ _); [|discriminate]. unfold Login in AM.
      destruct (cf_accept_client_address cfg).
      * destruct (Split x4 64) as [un ad]. destruct (negb (is_nil un) && negb (is_nil ad)); [|discriminate].
        destruct (cf_parse_address cfg (c_str ad)); discriminate.
      * discriminate.
    + destruct pa; discriminate.
Qed.
