(** Facts about repeated authentication attempts (C35, C52). *)

From Coq Require Import NArith List Bool Lia String.
From Verif.Base Require Import Bytes.
From Verif.Spec Require Import WireSpec KeySpec AuthSpec SessionSpec AuthDemo.
From Verif.Model Require Import Wire Frame Packets StringList KeyOptions Auth Session Server.
From Verif.Proofs Require Import WireFacts KeyFacts AuthFacts ServerFacts SessionFacts AuthClientFacts.
Import ListNotations.
Open Scope N_scope.

Local Arguments bs : simpl never.

(** Two accounts whose differences the methods do not look at. *)
Definition alike (a b : account) : Prop :=
  ac_translation a = ac_translation b /\ ac_passwd a = ac_passwd b /\ ac_allow_sftp a = ac_allow_sftp b.

Lemma alike_refl : forall a, alike a a.
Proof. repeat split. Qed.
Lemma alike_sym : forall a b, alike a b -> alike b a.
Proof. intros a b (A & B & C). repeat split; congruence. Qed.

Definition related {X} (x y : account * X) : Prop := alike (fst x) (fst y) /\ snd x = snd y.

Lemma alike_log : forall a b e f, alike a b -> alike (log_event e a) (log_event f b).
Proof. intros a b e f H. exact H. Qed.

Lemma OpenInHome_alike : forall w a b, alike a b -> related (OpenInHome w a) (OpenInHome w b).
Proof.
  intros w a b (T & P & S). unfold OpenInHome, GetHome, HelperIdentity, response_of. cbn [log_event mk_account ac_translation ac_passwd ac_allow_sftp].
  rewrite T, P, S.
  destruct (option_map snd (ac_translation b)) as [r|].
  - destruct (match tr_execute_options r with Some eo => eo_home eo | None => _ end) as [home|].
    + destruct (w_open w home); try (solve [split; [repeat split; assumption|reflexivity]]).
      all: destruct (ac_allow_sftp b) eqn:E; [|split; [repeat split; cbn; congruence|reflexivity]];
        destruct (match GetService r SFTP with Some eo => Some (AsOptions eo) | None => _ end); (split; [repeat split; cbn; congruence|reflexivity]).
    + destruct (ac_allow_sftp b) eqn:E; [|split; [repeat split; cbn; congruence|reflexivity]];
        destruct (match GetService r SFTP with Some eo => Some (AsOptions eo) | None => _ end); (split; [repeat split; cbn; congruence|reflexivity]).
  - destruct (match ac_passwd b with Some p => if is_nil (pw_dir p) then None else Some (pw_dir p) | None => None end) as [home|].
    + destruct (w_open w home); try (solve [split; [repeat split; assumption|reflexivity]]).
      all: destruct (ac_allow_sftp b) eqn:E; [|split; [repeat split; cbn; congruence|reflexivity]];
        destruct (option_map AsPasswd (ac_passwd b)); (split; [repeat split; cbn; congruence|reflexivity]).
    + destruct (ac_allow_sftp b) eqn:E; [|split; [repeat split; cbn; congruence|reflexivity]];
        destruct (option_map AsPasswd (ac_passwd b)); (split; [repeat split; cbn; congruence|reflexivity]).
Qed.

Lemma IsAcceptedPublicKey_alike : forall cfg w blob a b, alike a b ->
  related (IsAcceptedPublicKey cfg w blob a) (IsAcceptedPublicKey cfg w blob b).
Proof.
  intros cfg w blob a b H. pose proof (OpenInHome_alike w a b H) as O. pose proof H as (T & P & S).
  unfold IsAcceptedPublicKey, ShouldLoadHomeAuthorizedKeys, response_of. rewrite T.
  assert (G : forall load : bool, related
    (match Find (cf_global_keys cfg) blob with
     | Some o => (set_options o a, true)
     | None => if load then
         match OpenInHome w a with
         | (a, Some f) => if f_regular f && (len (f_contents f) <? MAX_KEYS_FILE)
             then match PublicKeysTextFileContains (cf_base64 cfg) (cf_openssl cfg) (f_contents f) blob with
                  | Some o => (set_options o a, true) | None => (a, false) end else (a, false)
         | (a, None) => (a, false) end else (a, false) end)
    (match Find (cf_global_keys cfg) blob with
     | Some o => (set_options o b, true)
     | None => if load then
         match OpenInHome w b with
         | (a, Some f) => if f_regular f && (len (f_contents f) <? MAX_KEYS_FILE)
             then match PublicKeysTextFileContains (cf_base64 cfg) (cf_openssl cfg) (f_contents f) blob with
                  | Some o => (set_options o a, true) | None => (a, false) end else (a, false)
         | (a, None) => (a, false) end else (b, false) end)).
  { intro load. destruct (Find _ _); [split; [exact H|reflexivity]|]. destruct load; [|split; [exact H|reflexivity]].
    destruct (OpenInHome w a) as [a' f], (OpenInHome w b) as [b' f']. destruct O as [O1 O2]. cbn [fst snd] in O1, O2. subst f'.
    destruct f as [f|]; [|split; [exact O1|reflexivity]]. destruct (f_regular f && _); [|split; [exact O1|reflexivity]].
    destruct (PublicKeysTextFileContains _ _ _ _); split; try exact O1; reflexivity. }
  destruct (option_map snd (ac_translation b)) as [r|]; [|apply (G true)].
  destruct (tr_authorized_keys r); [|apply (G (negb (tr_no_home_authorized_keys r)))].
  destruct (PublicKeysTextContains _ _ _ _); [split; [exact H|reflexivity]|apply (G (negb (tr_no_home_authorized_keys r)))].
Qed.

Lemma AuthMethod_alike : forall cfg w sid payload user method d methods pa arch sticky a b, alike a b ->
  related (AuthMethod cfg w sid payload user method d methods pa arch sticky a)
    (AuthMethod cfg w sid payload user method d methods pa arch sticky b).
Proof.
  intros cfg w sid payload user method d methods pa arch sticky a b H. unfold AuthMethod.
  assert (ALIKE : forall (x : outcome), related (a, x) (b, x)) by (intro x; split; [exact H|reflexivity]).
  destruct (bytes_eqb method (bs "publickey")).
  - unfold AuthPublicKey.
    destruct (ReadBool d) as [[ws d1]|]; [|apply ALIKE].
    destruct (ReadString d1) as [[alg d2]|]; [|apply ALIKE].
    destruct (ReadLengthEncoded d2) as [[blob d3]|]; [|apply ALIKE].
    pose proof (IsAcceptedPublicKey_alike cfg w blob a b H) as R.
    destruct (IsAcceptedPublicKey cfg w blob a) as [a' x], (IsAcceptedPublicKey cfg w blob b) as [b' x'].
    destruct R as [R X]. cbn [fst snd] in R, X. subst x'. destruct x; [|split; [exact R|reflexivity]].
    destruct (negb (cf_parse_key cfg blob)); [split; [exact R|reflexivity]|].
    destruct (negb ws); [destruct (ExpectEnd d3); split; try exact R; reflexivity|].
    destruct (ReadLengthEncoded d3) as [[sig d4]|]; [|split; [exact R|reflexivity]].
    destruct (ExpectEnd d4); [|split; [exact R|reflexivity]].
    destruct (VerifyRequest _ _ _ _ _); split; try exact R; reflexivity.
  - destruct (bytes_eqb method (bs "hostbased")).
    + unfold AuthHostbased.
      destruct (ReadString d) as [[x1 d1]|]; [|apply ALIKE].
      destruct (ReadLengthEncoded d1) as [[blob d2]|]; [|apply ALIKE].
      destruct (ReadString d2) as [[x3 d3]|]; [|apply ALIKE].
      destruct (ReadString d3) as [[x4 d4]|]; [|apply ALIKE].
      destruct (ReadLengthEncoded d4) as [[sig d5]|]; [|apply ALIKE].
      destruct (ExpectEnd d5); [|apply ALIKE].
      unfold IsAcceptedHostPublicKey. destruct (Find (cf_authorized_host_keys cfg) blob) as [o|]; [|apply ALIKE].
      destruct (negb (cf_parse_key cfg blob)); [split; [exact H|reflexivity]|].
      destruct (VerifyRequest _ _ _ _ _); [|split; [exact H|reflexivity]].
      destruct (cf_accept_client_address cfg).
      * destruct (Split x4 64) as [un ad]. destruct (negb (is_nil un) && negb (is_nil ad)).
        -- destruct (cf_parse_address cfg (c_str ad)); split; try exact H; reflexivity.
        -- split; [exact H|reflexivity].
      * split; [exact H|reflexivity].
    + destruct pa; [split; [exact H|reflexivity]|apply ALIKE].
Qed.

(** What stays in the account after a request which was not accepted. *)
Lemma AuthMethod_keeps : forall cfg w sid payload user method d methods pa arch sticky a b out,
  AuthMethod cfg w sid payload user method d methods pa arch sticky a = (b, out) -> ~ accepted out -> alike b a.
Proof.
  intros until out. intros H NA. apply AuthMethod_failed in H; [|exact NA].
  destruct H as (_ & _ & T & P & _ & S & _). repeat split; assumption.
Qed.

(** ** Running an attempt *)

(** A connection which waits for an attempt. *)
Definition ready (cfg : config) (s : server) : Prop :=
  good cfg s /\ sv_alive s = true /\ sv_user_auth s = true /\ sv_service s = true /\ sv_busy s = Idle /\
  ac_authenticated (sv_account s) = false.

Lemma attempt_step : forall cfg sid payload env w s, ready cfg s -> bytes_ok payload ->
  let s' := vstep cfg sid (OAuth w) (vstep cfg sid (OPacket MSG_USERAUTH_REQUEST payload env) s) in
  exists out, OnUserAuthRequest cfg w sid payload (sv_account s) = (sv_account s', out) /\ good cfg s' /\
  match out with
  | Accepted _ => ac_authenticated (sv_account s') = true /\ sv_alive s' = true
  | Die => sv_alive s' = false
  | _ => ready cfg s'
  end.
Proof.
  intros cfg sid payload env w s (G & AL & UA & SV & B & A) OK. cbv zeta.
  set (t := vstep cfg sid (OPacket MSG_USERAUTH_REQUEST payload env) s).
  assert (ET : t = with_auth (sv_user_auth s) (sv_service s) (Checking payload) true (sv_timeout s) s).
  { subst t. unfold vstep. rewrite AL. cbn [negb]. unfold Packet. rewrite UA. unfold UserAuthPacket, busy_now. rewrite B. cbn [andb].
    change (MSG_USERAUTH_REQUEST =? MSG_SERVICE_REQUEST) with false. change (MSG_USERAUTH_REQUEST =? MSG_USERAUTH_REQUEST) with true.
    rewrite A, SV. cbn [negb]. rewrite UA. reflexivity. }
  assert (GT : good cfg t) by (apply good_step; [exact OK|exact G]).
  assert (TB : sv_busy t = Checking payload) by (rewrite ET; reflexivity).
  assert (TA : sv_alive t = true) by (rewrite ET; exact AL).
  assert (TC : sv_account t = sv_account s) by (rewrite ET; reflexivity).
  assert (TU : sv_user_auth t = true) by (rewrite ET; exact UA).
  assert (TS : sv_service t = true) by (rewrite ET; exact SV).
  pose proof (oauth_cases cfg sid w t payload GT TA TB) as (a & out & E & ACC & H).
  assert (G' : good cfg (vstep cfg sid (OAuth w) t)) by (apply good_step; [exact Logic.I|exact GT]).
  exists out. rewrite ACC. rewrite TC in E. split; [exact E|]. split; [exact G'|].
  destruct (proj2 G AL) as [_ LBE _]. destruct (LBE A) as (BL & _).
  assert (READY : (exists m, out = Failure m) \/ (exists x y, out = PkOk x y) -> ready cfg (vstep cfg sid (OAuth w) t)).
  { intro O. assert (N : ~ accepted out /\ out <> Die) by (destruct O as [(m & ->)|(x & y & ->)]; split; try discriminate; auto).
    destruct N as [N1 N2].
    pose proof (failed_request _ _ _ _ _ _ _ BL OK E N1 N2) as (_ & A' & _).
    assert (K : sv_alive (vstep cfg sid (OAuth w) t) = true /\ sv_busy (vstep cfg sid (OAuth w) t) = Idle).
    { destruct O as [(m & ->)|(x & y & ->)]; destruct H as (X & Y & _); auto. }
    destruct K as [K1 K2]. split; [exact G'|]. split; [exact K1|]. split; [|split; [|split; [exact K2|rewrite ACC; congruence]]].
    - unfold vstep. rewrite TA, TB. cbn [negb]. rewrite TC, E. destruct O as [(m & ->)|(x & y & ->)]; exact TU.
    - unfold vstep. rewrite TA, TB. cbn [negb]. rewrite TC, E. destruct O as [(m & ->)|(x & y & ->)]; exact TS. }
  destruct out as [m|x y| |p].
  - apply READY. eauto.
  - apply READY. eauto.
  - destruct H as (X & _). exact X.
  - destruct (accepted_proves _ _ _ _ _ _ _ BL OK E) as (u & c & src & _ & _ & LG). split; [exact (lg_auth _ _ _ _ _ _ _ _ LG)|apply H].
Qed.

(** ** Sequences of attempts *)

Lemma opening_ready : forall cfg sid peer,
  ready cfg (vrun cfg sid peer opening) /\ sv_account (vrun cfg sid peer opening) = new_account peer.
Proof.
  intros cfg sid peer. split; [|reflexivity]. split.
  - apply vrun_good. apply ok_ops. vm_compute. reflexivity.
  - repeat split.
Qed.

Lemma ops_ok : forall attempts, Forall (fun x : bytes * world => bytes_ok (fst x)) attempts ->
  Forall op_ok (opening ++ flat_map attempt attempts).
Proof.
  intros attempts F. apply Forall_app. split.
  - apply ok_ops. vm_compute. reflexivity.
  - induction F as [|x l X F IH]; [constructor|]. cbn [flat_map attempt app]. constructor; [exact X|]. constructor; [exact Logic.I|exact IH].
Qed.

Lemma vrun_attempt : forall cfg sid peer ops x,
  vrun cfg sid peer (ops ++ attempt x) =
  vstep cfg sid (OAuth (snd x)) (vstep cfg sid (OPacket MSG_USERAUTH_REQUEST (fst x) {| pe_channel := 0; pe_pty := true |}) (vrun cfg sid peer ops)).
Proof.
  intros. unfold attempt. change [?a; ?b] with ([a] ++ [b]). rewrite app_assoc, !vrun_snoc. reflexivity.
Qed.

Lemma attempts_ready : forall cfg sid peer (Inv : account -> Prop) attempts,
  Inv (new_account peer) ->
  (forall p w a b out, In (p, w) attempts -> before_login cfg a -> Inv a ->
     OnUserAuthRequest cfg w sid p a = (b, out) -> ~ accepted out -> out <> Die -> Inv b) ->
  Forall (fun x => bytes_ok (fst x)) attempts ->
  let s := vrun cfg sid peer (opening ++ flat_map attempt attempts) in
  sv_alive s = true -> ac_authenticated (sv_account s) = false ->
  ready cfg s /\ Inv (sv_account s).
Proof.
  intros cfg sid peer Inv attempts I0 STEP F. cbv zeta. induction attempts as [|[p w] l IH] using rev_ind; intros AL A.
  { cbn [flat_map]. rewrite app_nil_r. destruct (opening_ready cfg sid peer) as [R E]. rewrite E. auto. }
  apply Forall_app in F as [F F2]. apply Forall_inv in F2. cbn [fst] in F2.
  rewrite flat_map_app, app_assoc in *. cbn [flat_map] in *. rewrite app_nil_r, vrun_attempt in *. cbn [fst snd] in *.
  set (s := vrun cfg sid peer (opening ++ flat_map attempt l)) in *.
  assert (G : good cfg s) by (apply vrun_good, ops_ok, F).
  assert (AL0 : sv_alive s = true).
  { destruct (sv_alive s) eqn:E; [reflexivity|].
    assert (X : vstep cfg sid (OPacket MSG_USERAUTH_REQUEST p {| pe_channel := 0; pe_pty := true |}) s = s) by (apply vstep_dead; exact E).
    rewrite X, vstep_dead in AL by exact E. congruence. }
  assert (A0 : ac_authenticated (sv_account s) = false).
  { destruct (ac_authenticated (sv_account s)) eqn:E; [|reflexivity]. exfalso.
    destruct (after_login cfg sid (OPacket MSG_USERAUTH_REQUEST p {| pe_channel := 0; pe_pty := true |}) s G E) as (o & X).
    destruct (after_login cfg sid (OAuth w) _ (good_step _ sid (OPacket MSG_USERAUTH_REQUEST p {| pe_channel := 0; pe_pty := true |}) _ F2 G)) as (o' & Y).
    - rewrite X. exact E.
    - rewrite Y, X in A. change (ac_authenticated (sv_account s) = false) in A. congruence. }
  destruct (IH (fun p w a b out I => STEP p w a b out (in_or_app _ _ _ (or_introl I))) F AL0 A0) as [R V].
  destruct (attempt_step cfg sid p {| pe_channel := 0; pe_pty := true |} w s R F2) as (out & E & G' & H).
  assert (BL : before_login cfg (sv_account s)) by (destruct (proj2 G AL0) as [_ LB _]; apply LB, A0).
  destruct out as [m|x y| |q].
  - split; [exact H|]. eapply STEP; [apply in_or_app; right; left; reflexivity|exact BL|exact V|exact E|auto|discriminate].
  - split; [exact H|]. eapply STEP; [apply in_or_app; right; left; reflexivity|exact BL|exact V|exact E|auto|discriminate].
  - congruence.
  - destruct H as [H _]. congruence.
Qed.

(** Whether the last attempt succeeds depends on the account it meets. *)
Lemma last_attempt : forall cfg sid peer attempts payload w, bytes_ok payload ->
  ready cfg (vrun cfg sid peer (opening ++ flat_map attempt attempts)) ->
  (ac_authenticated (sv_account (vrun cfg sid peer (opening ++ flat_map attempt attempts ++ attempt (payload, w)))) = true <->
   accepted (snd (OnUserAuthRequest cfg w sid payload (sv_account (vrun cfg sid peer (opening ++ flat_map attempt attempts)))))).
Proof.
  intros cfg sid peer attempts payload w OK R. rewrite app_assoc, vrun_attempt. cbn [fst snd].
  destruct (attempt_step cfg sid payload {| pe_channel := 0; pe_pty := true |} w _ R OK) as (out & E & G' & H).
  rewrite E. cbn [snd]. destruct out as [m|x y| |p]; cbn [accepted].
  - destruct H as (_ & _ & _ & _ & _ & H). rewrite H. split; [discriminate|contradiction].
  - destruct H as (_ & _ & _ & _ & _ & H). rewrite H. split; [discriminate|contradiction].
  - split; [|contradiction]. intro A. exfalso.
    destruct R as (G & AL & _ & _ & _ & A0). destruct (proj2 G AL) as [_ LB _]. destruct (LB A0) as (BL & _).
    destruct (OnUserAuthRequest_cases _ _ _ _ _ _ _ BL OK E) as [(X & _)|(user & method & d & _ & _ & _ & [N|MS])].
    + rewrite X in A. congruence.
    + destruct N as (X & _). congruence.
    + destruct MS as (src & pa & methods & arch & sticky & a1 & d' & MS & _ & _ & AM).
      apply AuthMethod_failed in AM as (X & _); [|auto]. rewrite X, (ms_auth _ _ _ _ _ _ _ _ MS) in A. congruence.
  - destruct H as [H _]. split; auto.
Qed.

(** ** Which account data matter *)

Lemma ReadString_enc_cons : forall x fs, len x < pow32 -> ReadString (enc (FString x :: fs)) = Some (x, enc fs).
Proof. intros x fs L. rewrite enc_cons. cbn [enc_field]. now apply ReadString_enc. Qed.

(** a password request *)
Lemma password_outcome : forall cfg w sid user password a b, len user < pow32 -> len password < pow32 ->
  snd (OnUserAuthRequest cfg w sid (enc (password_request user password)) a) =
  snd (OnUserAuthRequest cfg w sid (enc (password_request user password)) b).
Proof.
  intros cfg w sid user password a b L1 L2. unfold OnUserAuthRequest, password_request.
  rewrite ReadString_enc_cons by exact L1. rewrite ReadString_enc_cons by (vm_compute; reflexivity).
  rewrite ReadString_enc_cons by (vm_compute; reflexivity).
  destruct (negb (bytes_eqb CONNECTION _)); [reflexivity|]. destruct (negb (IsValidUsername user)); [reflexivity|].
  destruct (cf_translation_server cfg).
  - unfold AuthTranslation. change (bytes_eqb PASSWORD (bs "password")) with true. cbv iota zeta.
    rewrite enc_cons. cbn [enc_field]. change (ReadBool ([0] ++ enc [FString password])) with (Some (false, enc [FString password])).
    cbv iota beta. rewrite ReadString_enc_cons by exact L2. change (ExpectEnd (enc [])) with (Some tt). cbv iota.
    destruct password as [|c password]; [reflexivity|]. cbn [is_nil].
    assert (LT : forall x, LazyTranslate w user (c :: password) x =
      match w_translate w user (c :: password) with
      | Some r => (set_translation (user, r) (log_event (ATranslate user (c :: password) (Some r)) x), Some r)
      | None => (log_event (ATranslate user (c :: password) None) x, None) end).
    { intro x. unfold LazyTranslate. cbn [is_nil andb]. destruct (ac_translation x) as [[u r]|]; destruct (w_translate w user (c :: password)); reflexivity. }
    rewrite !LT. destruct (w_translate w user (c :: password)) as [r|]; [|reflexivity].
    destruct (negb (tr_status_ok r)); [reflexivity|].
    assert (AR : forall x, exists y, ApplyResponse r (c :: password) x = (y, true)) by (intro x; unfold ApplyResponse; cbn [is_nil negb]; eauto).
    destruct (AR (set_translation (user, r) (log_event (ATranslate user (c :: password) (Some r)) a))) as (a' & ->).
    destruct (AR (set_translation (user, r) (log_event (ATranslate user (c :: password) (Some r)) b))) as (b' & ->).
    destruct (negb (CheckTranslateResponse r)); [reflexivity|]. unfold AuthMethod. reflexivity.
  - cbv zeta. destruct (w_getpwnam w user) as [p|]; reflexivity.
Qed.

(** without a translation server *)
Lemma passwd_outcome : forall cfg w sid payload a b, cf_translation_server cfg = false ->
  ac_translation a = ac_translation b -> ac_allow_sftp a = ac_allow_sftp b ->
  snd (OnUserAuthRequest cfg w sid payload a) = snd (OnUserAuthRequest cfg w sid payload b).
Proof.
  intros cfg w sid payload a b TS T S. unfold OnUserAuthRequest.
  destruct (ReadString payload) as [[user d1]|]; [|reflexivity].
  destruct (ReadString d1) as [[service d2]|]; [|reflexivity].
  destruct (ReadString d2) as [[method d3]|]; [|reflexivity].
  destruct (negb (bytes_eqb service _)); [reflexivity|]. destruct (negb (IsValidUsername user)); [reflexivity|].
  rewrite TS. cbv zeta. destruct (w_getpwnam w user) as [p|]; [|reflexivity].
  apply AuthMethod_alike. repeat split; assumption.
Qed.

Lemma passwd_keeps : forall cfg w sid payload a b out, cf_translation_server cfg = false ->
  OnUserAuthRequest cfg w sid payload a = (b, out) -> ~ accepted out ->
  ac_translation b = ac_translation a /\ ac_allow_sftp b = ac_allow_sftp a.
Proof.
  intros cfg w sid payload a b out TS H NA. unfold OnUserAuthRequest in H.
  destruct (ReadString payload) as [[user d1]|]; [|injection H as <- _; auto].
  destruct (ReadString d1) as [[service d2]|]; [|injection H as <- _; auto].
  destruct (ReadString d2) as [[method d3]|]; [|injection H as <- _; auto].
  destruct (negb (bytes_eqb service _)); [injection H as <- _; auto|]. destruct (negb (IsValidUsername user)); [injection H as <- _; auto|].
  rewrite TS in H. cbv zeta in H. destruct (w_getpwnam w user) as [p|]; [|injection H as <- _; auto].
  apply AuthMethod_keeps in H as (T & _ & S); [|exact NA]. auto.
Qed.

(** with a translation server: a request of [user] without a password *)
Definition sftp_of (r : response) : bool :=
  match tr_execute_options r with
  | Some _ => true
  | None => match GetService r SFTP with Some _ => true | None => false end
  end.

(** what attempts of [user] without a password leave behind *)
Definition tried (w : world) (user : bytes) (a : account) : Prop :=
  ac_passwd a = None /\
  ((ac_translation a = None /\ ac_allow_sftp a = true) \/
   (exists r, w_translate w user [] = Some r /\ ac_translation a = Some (user, r) /\
      (ac_allow_sftp a = true \/ (tr_status_ok r = true /\ ac_allow_sftp a = sftp_of r)))).

Lemma ApplyResponse_sftp : forall r a b ok, ApplyResponse r [] a = (b, ok) ->
  ac_translation b = ac_translation a /\ ac_passwd b = ac_passwd a /\
  (ac_allow_sftp a = true \/ ac_allow_sftp a = sftp_of r -> ac_allow_sftp b = sftp_of r) /\
  forall a' b' ok', ApplyResponse r [] a' = (b', ok') -> ok' = ok.
Proof.
  intros r a b ok H. unfold ApplyResponse in H. cbn [is_nil negb] in H. unfold ApplyResponse. cbn [is_nil negb]. unfold sftp_of.
  destruct (tr_token r) as [token|]; [destruct (bytes_eqb token (bs "sftp-only"))|];
    destruct (tr_execute_options r) as [eo|];
    (destruct (tr_no_password r) as [np|]; [destruct (bytes_eqb np SFTP)|]);
    injection H as <- <-; cbn; (split; [reflexivity|split; [reflexivity|split; [intros [X|X]; auto|intros a' b' ok' E; congruence]]]).
Qed.

Lemma tried_step : forall cfg w sid user payload a rest, cf_translation_server cfg = true ->
  payload = string_enc user ++ rest -> len user < pow32 ->
  (forall service rest', rest <> string_enc service ++ string_enc PASSWORD ++ rest') -> bytes_ok payload ->
  tried w user a ->
  snd (OnUserAuthRequest cfg w sid payload a) = snd (OnUserAuthRequest cfg w sid payload (new_account [])) /\
  forall b out, OnUserAuthRequest cfg w sid payload a = (b, out) -> ~ accepted out -> tried w user b.
Proof.
  intros cfg w sid user payload a rest TS P L NP OK TR. unfold OnUserAuthRequest.
  rewrite P, ReadString_enc by exact L. rewrite <- P.
  destruct (ReadString rest) as [[service d2]|] eqn:R2; [|split; [reflexivity|intros b out E _; injection E as <- _; exact TR]].
  destruct (ReadString d2) as [[method d3]|] eqn:R3; [|split; [reflexivity|intros b out E _; injection E as <- _; exact TR]].
  destruct (negb (bytes_eqb service _)); [split; [reflexivity|intros b out E _; injection E as <- _; exact TR]|].
  destruct (negb (IsValidUsername user)); [split; [reflexivity|intros b out E _; injection E as <- _; exact TR]|].
  rewrite TS. unfold AuthTranslation.
  assert (NM : bytes_eqb method (bs "password") = false).
  { apply bytes_eqb_neq. intros ->. assert (B1 : bytes_ok rest) by (rewrite P in OK; apply Forall_app in OK; apply OK).
    apply ReadString_inv in R2 as (E2 & _ & B2 & _); [|exact B1]. apply ReadString_inv in R3 as (E3 & _); [|exact B2].
    apply (NP service d3). rewrite E2, E3. reflexivity. }
  rewrite NM. cbv zeta.
  set (methods := AuthMethods _ _).
  set (body := fun (r : response) (a : account) => if negb (tr_status_ok r) then (a, Failure [])
    else let '(a, password_accepted) := ApplyResponse r [] a in
      if negb (CheckTranslateResponse r) then (a, Die)
      else AuthMethod cfg w sid payload user method d3 methods password_accepted (tr_arch r)
        (match tr_site r with Some site => site | None => user end) a).
  assert (BODY : forall r a1 a2, ac_translation a1 = Some (user, r) -> ac_translation a2 = Some (user, r) ->
    ac_passwd a1 = None -> ac_passwd a2 = None ->
    (ac_allow_sftp a1 = true \/ ac_allow_sftp a1 = sftp_of r) -> (ac_allow_sftp a2 = true \/ ac_allow_sftp a2 = sftp_of r) ->
    snd (body r a1) = snd (body r a2) /\
    (w_translate w user [] = Some r -> (tr_status_ok r = false -> ac_allow_sftp a1 = true) ->
     forall b out, body r a1 = (b, out) -> ~ accepted out -> tried w user b)).
  { intros r a1 a2 T1 T2 P1 P2 S1 S2. unfold body. destruct (tr_status_ok r) eqn:ST; cbn [negb].
    - destruct (ApplyResponse r [] a1) as [b1 pa] eqn:A1. destruct (ApplyResponse r [] a2) as [b2 pa2] eqn:A2.
      apply ApplyResponse_sftp in A1 as (X1 & X2 & X3 & X4). pose proof (X4 _ _ _ A2) as ->.
      apply ApplyResponse_sftp in A2 as (Y1 & Y2 & Y3 & _).
      assert (TB1 : w_translate w user [] = Some r -> forall c, alike c b1 -> tried w user c).
      { intros W c (C1 & C2 & C3). split; [congruence|]. right. exists r. split; [exact W|]. split; [congruence|]. right. split; [exact ST|]. rewrite C3. auto. }
      destruct (negb (CheckTranslateResponse r)).
      + split; [reflexivity|]. intros W _ b out E _. injection E as <- _. apply TB1; [exact W|apply alike_refl].
      + split.
        * apply AuthMethod_alike. repeat split; [congruence|congruence|rewrite X3, Y3 by assumption; reflexivity].
        * intros W _ b out E NA. apply TB1; [exact W|]. eapply AuthMethod_keeps; eauto.
    - split; [reflexivity|]. intros W SF b out E _. injection E as <- _. split; [exact P1|]. right. exists r. auto. }
  change (snd (match LazyTranslate w user [] a with (a, None) => (a, Die) | (a, Some r) => body r a end) =
    snd (match LazyTranslate w user [] (new_account []) with (a, None) => (a, Die) | (a, Some r) => body r a end) /\
    forall b out, (match LazyTranslate w user [] a with (a, None) => (a, Die) | (a, Some r) => body r a end) = (b, out) ->
      ~ accepted out -> tried w user b).
  assert (NEW : LazyTranslate w user [] (new_account []) = match w_translate w user [] with
     | Some r => (set_translation (user, r) (log_event (ATranslate user [] (Some r)) (new_account [])), Some r)
     | None => (log_event (ATranslate user [] None) (new_account []), None) end).
  { unfold LazyTranslate. cbn [new_account ac_translation]. destruct (w_translate w user []); reflexivity. }
  rewrite NEW. destruct TR as (TP & [(T & S)|(r & W & T & S)]).
  - assert (LT : LazyTranslate w user [] a = match w_translate w user [] with
     | Some r => (set_translation (user, r) (log_event (ATranslate user [] (Some r)) a), Some r)
     | None => (log_event (ATranslate user [] None) a, None) end).
    { unfold LazyTranslate. rewrite T. destruct (w_translate w user []); reflexivity. }
    rewrite LT. destruct (w_translate w user []) as [r|] eqn:W.
    + destruct (BODY r (set_translation (user, r) (log_event (ATranslate user [] (Some r)) a))
        (set_translation (user, r) (log_event (ATranslate user [] (Some r)) (new_account []))));
        try reflexivity; try assumption; try (left; reflexivity); try (left; assumption).
      split; [assumption|]. intros b out E NA. eapply H0; eauto.
    + split; [reflexivity|]. intros b out E _. injection E as <- _. split; [exact TP|]. left. auto.
  - assert (LT : LazyTranslate w user [] a = (a, Some r)).
    { unfold LazyTranslate. rewrite T. cbn [is_nil]. rewrite bytes_eqb_refl. reflexivity. }
    rewrite LT, W. destruct (BODY r a (set_translation (user, r) (log_event (ATranslate user [] (Some r)) (new_account []))));
      try reflexivity; try assumption; try (left; reflexivity).
    + destruct S as [S|[_ S]]; auto.
    + split; [assumption|]. intros b out E NA. eapply H0; eauto. intro ST. destruct S as [S|[ST' _]]; congruence.
Qed.
