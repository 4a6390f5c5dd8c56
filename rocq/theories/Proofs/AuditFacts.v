(** Proofs about the log of a connection (C89). *)

From Coq Require Import NArith PeanoNat List Bool Lia String.
From Verif.Base Require Import Bytes.
From Verif.Spec Require Import WireSpec AuthSpec AuditSpec.
From Verif.Model Require Import Wire Packets StringList KeyOptions Auth Session Server AuditLog.
From Verif.Proofs Require Import WireFacts AuthFacts ServerFacts.
Import ListNotations.
Open Scope N_scope.

Local Arguments bs : simpl never.

Definition quiet (l : line) : Prop := accepted_user l = [] /\ is_end l = false.
Definition no_address (l : line) : Prop := match l with LAddress _ => False | _ => True end.

(** What the lines of a request have to do with its outcome. *)
Definition agree (cfg : config) (sid : bytes) (w : world) (payload : bytes) (r : account * outcome) (ls : list line) : Prop :=
  match snd r with
  | Accepted _ => exists pre l, ls = pre ++ [l] /\ Forall quiet pre /\ accepted_user l = [ac_username (fst r)] /\
      is_end l = false /\ supports cfg sid w payload l
  | _ => Forall quiet ls /\ Forall no_address ls
  end.

Lemma agree_nil : forall cfg sid w payload a out, (forall p, out <> Accepted p) -> agree cfg sid w payload (a, out) [].
Proof. intros. unfold agree. cbn [snd]. destruct out; try (split; constructor). now destruct (H proxy_to). Qed.

Lemma agree_one : forall cfg sid w payload a out l, (forall p, out <> Accepted p) -> quiet l -> no_address l ->
  agree cfg sid w payload (a, out) [l].
Proof. intros. unfold agree. cbn [snd]. destruct out; try (split; repeat constructor; apply H0 || assumption). now destruct (H proxy_to). Qed.

Lemma agree_cons : forall cfg sid w payload r l ls, quiet l -> no_address l -> agree cfg sid w payload r ls ->
  agree cfg sid w payload r (l :: ls).
Proof.
  intros cfg sid w payload r l ls Q A H. unfold agree in *. destruct (snd r).
  1-3: destruct H; split; constructor; assumption.
  destruct H as (pre & l' & -> & F & R). exists (l :: pre), l'. split; [reflexivity|]. split; [now constructor|exact R].
Qed.

Ltac no_accept := let p := fresh in intros p; discriminate.
Ltac quiet1 := split; reflexivity.

Lemma VerifyLines_true : forall cfg sid blob tbs sig acc, VerifyRequest cfg sid blob tbs sig = true ->
  VerifyLines cfg sid blob tbs sig acc = acc.
Proof.
  intros cfg sid blob tbs sig acc H. unfold VerifyRequest, VerifyLines in *. destruct (ToBeVerified sid tbs); [|discriminate].
  destruct (cf_verify cfg blob b sig) as [[|]|]; [reflexivity|discriminate|discriminate].
Qed.

Lemma VerifyLines_false : forall cfg sid w payload a m blob tbs sig acc, VerifyRequest cfg sid blob tbs sig = false ->
  agree cfg sid w payload (a, Failure m) (VerifyLines cfg sid blob tbs sig acc).
Proof.
  intros cfg sid w payload a m blob tbs sig acc H. unfold VerifyRequest, VerifyLines in *.
  destruct (ToBeVerified sid tbs); [|apply agree_one; [no_accept|quiet1|exact Logic.I]].
  destruct (cf_verify cfg blob b sig) as [[|]|]; [discriminate|apply agree_nil; no_accept|apply agree_one; [no_accept|quiet1|exact Logic.I]].
Qed.

Definition head (user method : bytes) : bytes := string_enc user ++ string_enc CONNECTION ++ string_enc method.

Lemma publickey_lines : forall cfg w sid user d methods arch sticky a, bytes_ok d ->
  agree cfg sid w (head user PUBLICKEY ++ d)
    (AuthPublicKey cfg w sid (head user PUBLICKEY ++ d) user d methods arch sticky a)
    (PublicKeyLines cfg w sid (head user PUBLICKEY ++ d) user d a).
Proof.
  intros cfg w sid user d methods arch sticky a B. set (pre := head user PUBLICKEY).
  unfold AuthPublicKey, PublicKeyLines.
  destruct (ReadBool d) as [[ws d1]|] eqn:E1; [|apply agree_nil; no_accept].
  apply ReadBool_inv in E1 as (flag & -> & Ef & _ & B1); [|exact B].
  change (ReadString d1) with (ReadLengthEncoded d1).
  destruct (ReadLengthEncoded d1) as [[alg d2]|] eqn:E2; [|apply agree_nil; no_accept].
  apply ReadString_inv in E2 as (-> & _ & B2 & _); [|exact B1].
  destruct (ReadLengthEncoded d2) as [[blob d3]|] eqn:E3; [|apply agree_nil; no_accept].
  apply ReadString_inv in E3 as (-> & _ & B3 & _); [|exact B2].
  destruct (IsAcceptedPublicKey cfg w blob a) as [c [|]]; cbn [snd negb]; [|apply agree_nil; no_accept].
  destruct (cf_parse_key cfg blob) eqn:K; cbn [negb]; [|apply agree_one; [no_accept|quiet1|exact Logic.I]].
  destruct ws; cbn [negb]; [|destruct (ExpectEnd d3); apply agree_nil; no_accept].
  destruct (ReadLengthEncoded d3) as [[sig d4]|] eqn:E4; [|apply agree_nil; no_accept].
  apply ReadString_inv in E4 as (-> & _ & _ & _); [|exact B3].
  destruct d4 as [|x d4]; cbn [ExpectEnd]; [|apply agree_nil; no_accept].
  rewrite !app_nil_r.
  destruct (VerifyRequest cfg sid blob _ sig) eqn:V; [|now apply VerifyLines_false].
  rewrite (VerifyLines_true _ _ _ _ _ _ V). apply VerifyRequest_spec in V.
  unfold agree, Login. cbn [snd]. exists [], (LAcceptedKey user blob). split; [reflexivity|]. split; [constructor|].
  split; [reflexivity|]. split; [reflexivity|].
  replace (pre ++ flag :: string_enc alg ++ string_enc blob ++ string_enc sig)
    with (enc (key_request user flag alg blob ++ [FString sig])).
  2:{ unfold pre, head, enc, key_request. cbn [map List.app List.concat enc_field]. rewrite app_nil_r, <- !app_assoc. reflexivity. }
  apply S_key; [intros ->; discriminate|exact K|]. rewrite <- V.
  replace (pre ++ flag :: string_enc alg ++ string_enc blob ++ string_enc sig)
    with ((pre ++ [flag] ++ string_enc alg ++ string_enc blob) ++ string_enc sig)
    by (rewrite <- !app_assoc; reflexivity).
  rewrite DSince_app. unfold signed_data, key_request, pre, head, enc. cbn [map List.app List.concat enc_field].
  rewrite app_nil_r, <- !app_assoc. reflexivity.
Qed.

Lemma address_lines : forall cfg u, Forall quiet (AddressLines cfg u).
Proof.
  intros cfg u. unfold AddressLines. destruct (cf_accept_client_address cfg); [|constructor]. destruct (Split u 64) as [a b].
  destruct (negb (is_nil a) && negb (is_nil b)); [|constructor].
  destruct (cf_parse_address cfg (c_str b)); (constructor; [quiet1|constructor]).
Qed.

Lemma hostbased_lines : forall cfg w sid user d methods arch sticky a, bytes_ok d ->
  agree cfg sid w (head user HOSTBASED ++ d)
    (AuthHostbased cfg sid (head user HOSTBASED ++ d) user d methods arch sticky a)
    (HostbasedLines cfg sid (head user HOSTBASED ++ d) user d a).
Proof.
  intros cfg w sid user d methods arch sticky a B. set (pre := head user HOSTBASED).
  unfold AuthHostbased, HostbasedLines.
  change (ReadString d) with (ReadLengthEncoded d).
  destruct (ReadLengthEncoded d) as [[alg d1]|] eqn:E1; [|apply agree_nil; no_accept].
  apply ReadString_inv in E1 as (-> & _ & B1 & _); [|exact B].
  destruct (ReadLengthEncoded d1) as [[blob d2]|] eqn:E2; [|apply agree_nil; no_accept].
  apply ReadString_inv in E2 as (-> & _ & B2 & _); [|exact B1].
  change (ReadString d2) with (ReadLengthEncoded d2).
  destruct (ReadLengthEncoded d2) as [[host d3]|] eqn:E3; [|apply agree_nil; no_accept].
  apply ReadString_inv in E3 as (-> & _ & B3 & _); [|exact B2].
  change (ReadString d3) with (ReadLengthEncoded d3).
  destruct (ReadLengthEncoded d3) as [[cuser d4]|] eqn:E4; [|apply agree_nil; no_accept].
  apply ReadString_inv in E4 as (-> & _ & B4 & _); [|exact B3].
  cbv zeta.
  destruct (ReadLengthEncoded d4) as [[sig d5]|] eqn:E5; [|apply agree_nil; no_accept].
  apply ReadString_inv in E5 as (-> & _ & _ & _); [|exact B4].
  destruct d5 as [|x d5]; cbn [ExpectEnd]; [|apply agree_nil; no_accept].
  unfold IsAcceptedHostPublicKey.
  destruct (Find (cf_authorized_host_keys cfg) blob) as [o|] eqn:F; cbn [snd negb]; [|apply agree_nil; no_accept]. apply Find_In in F.
  destruct (cf_parse_key cfg blob) eqn:K; cbn [negb]; [|apply agree_one; [no_accept|quiet1|exact Logic.I]].
  rewrite !app_nil_r.
  destruct (VerifyRequest cfg sid blob _ sig) eqn:V; [|now apply VerifyLines_false].
  rewrite (VerifyLines_true _ _ _ _ _ _ V). apply VerifyRequest_spec in V.
  unfold agree, Login. cbn [snd]. exists (AddressLines cfg cuser), (LAcceptedHost user blob). split; [reflexivity|].
  split; [apply address_lines|]. split; [reflexivity|]. split; [reflexivity|].
  replace (pre ++ string_enc alg ++ string_enc blob ++ string_enc host ++ string_enc cuser ++ string_enc sig)
    with (enc (host_request user alg blob host cuser ++ [FString sig])).
  2:{ unfold pre, head, enc, host_request. cbn [map List.app List.concat enc_field]. rewrite app_nil_r, <- !app_assoc. reflexivity. }
  eapply S_host; [exact F|exact K|]. rewrite <- V.
  replace (pre ++ string_enc alg ++ string_enc blob ++ string_enc host ++ string_enc cuser ++ string_enc sig)
    with ((pre ++ string_enc alg ++ string_enc blob ++ string_enc host ++ string_enc cuser) ++ string_enc sig)
    by (rewrite <- !app_assoc; reflexivity).
  rewrite DSince_app. unfold signed_data, host_request, pre, head, enc. cbn [map List.app List.concat enc_field].
  rewrite app_nil_r, <- !app_assoc. reflexivity.
Qed.

Lemma method_lines : forall cfg w sid payload user method d methods pa arch sticky a,
  bytes_ok d -> (method <> PASSWORD -> payload = head user method ++ d) ->
  (pa = true -> method <> PUBLICKEY -> method <> HOSTBASED -> supports cfg sid w payload (LAcceptedPassword user)) ->
  agree cfg sid w payload (AuthMethod cfg w sid payload user method d methods pa arch sticky a)
    (MethodLines cfg w sid payload user method d pa a).
Proof.
  intros cfg w sid payload user method d methods pa arch sticky a B PL PA. unfold AuthMethod, MethodLines.
  destruct (bytes_eqb method (bs "publickey")) eqn:M1.
  { apply bytes_eqb_eq in M1. subst method. rewrite PL by discriminate. now apply publickey_lines. }
  destruct (bytes_eqb method (bs "hostbased")) eqn:M2.
  { apply bytes_eqb_eq in M2. subst method. rewrite PL by discriminate. now apply hostbased_lines. }
  apply bytes_eqb_neq in M1, M2.
  destruct pa; [|apply agree_nil; no_accept].
  unfold agree, Login. cbn [snd]. exists [], (LAcceptedPassword user). split; [reflexivity|]. split; [constructor|]. split; [reflexivity|].
  split; [reflexivity|]. now apply PA.
Qed.

(** LazyTranslate() with a password asks. *)
Lemma LazyTranslate_password : forall w user password a a' r, password <> [] ->
  LazyTranslate w user password a = (a', Some r) -> w_translate w user password = Some r.
Proof.
  intros w user password a a' r N H. unfold LazyTranslate in H.
  replace (is_nil password) with false in H by (destruct password; [contradiction|reflexivity]). cbn [andb] in H.
  destruct (ac_translation a) as [[u r0]|]; destruct (w_translate w user password); congruence.
Qed.

Lemma translation_lines : forall cfg w sid user method d a, cf_translation_server cfg = true -> bytes_ok d ->
  agree cfg sid w (head user method ++ d)
    (AuthTranslation cfg w sid (head user method ++ d) user method d a)
    (TranslationLines cfg w sid (head user method ++ d) user method d a).
Proof.
  intros cfg w sid user method d a TS B. set (payload := head user method ++ d). unfold AuthTranslation, TranslationLines. cbv zeta.
  match goal with |- agree _ _ _ _ (if _ then ?x else ?y []  _) _ => set (go := y) end || idtac.
  assert (T : forall password d', bytes_ok d' -> (method <> PASSWORD -> d' = d /\ password = []) ->
    (method = PASSWORD -> password <> [] /\ payload = enc (password_request user password)) ->
    agree cfg sid w payload
      (match LazyTranslate w user password a with
       | (a, None) => (a, Die)
       | (a, Some r) =>
           if negb (tr_status_ok r) then (a, Failure [])
           else
             let '(a, password_accepted) := ApplyResponse r password a in
             if negb (CheckTranslateResponse r) then (a, Die)
             else
               AuthMethod cfg w sid payload user method d'
                 (AuthMethods (match cf_authorized_host_keys cfg with [] => false | _ => true end) true) password_accepted (tr_arch r)
                 (match tr_site r with Some site => site | None => user end) a
       end)
      (match LazyTranslate w user password a with
       | (_, None) => [LTranslationError]
       | (a, Some r) =>
           if negb (tr_status_ok r) then
             if is_nil password then [LRejected user] else [LFailedPassword user]
           else
             let '(a, password_accepted) := ApplyResponse r password a in
             if negb (CheckTranslateResponse r) then [LTranslationError]
             else MethodLines cfg w sid payload user method d' password_accepted a
       end)).
  { intros password d' B' ND PD. destruct (LazyTranslate w user password a) as [b [r|]] eqn:LT.
    2: apply agree_one; [no_accept|quiet1|exact Logic.I].
    destruct (tr_status_ok r) eqn:ST; cbn [negb].
    2: destruct (is_nil password); apply agree_one; [no_accept|quiet1|exact Logic.I|no_accept|quiet1|exact Logic.I].
    destruct (ApplyResponse r password b) as [b' pa]. destruct (CheckTranslateResponse r); cbn [negb].
    2: apply agree_one; [no_accept|quiet1|exact Logic.I].
    apply method_lines; [exact B'|intro N; destruct (ND N) as [-> _]; reflexivity|].
    intros _ N1 N2. destruct (list_eq_dec N.eq_dec method PASSWORD) as [E|E].
    - destruct (PD E) as [NP ->]. eapply S_password; [exact NP|eapply LazyTranslate_password; eauto|exact ST].
    - destruct (ND E) as [-> _].
      replace payload with (enc [FString user; FString CONNECTION; FString method; FRaw d]).
      + apply S_waived; [exact TS|]. cbn. intros [X|[X|[X|[]]]]; congruence.
      + unfold payload, head, enc. cbn [map List.concat enc_field]. rewrite app_nil_r, <- !app_assoc. reflexivity. }
  destruct (bytes_eqb method (bs "password")) eqn:M.
  - apply bytes_eqb_eq in M.
    destruct (ReadBool d) as [[change d1]|] eqn:E1; [|apply agree_nil; no_accept].
    apply ReadBool_inv in E1 as (flag & E1 & Ef & _ & B1); [|exact B].
    destruct (ReadString d1) as [[password d2]|] eqn:E2; [|apply agree_nil; no_accept].
    apply ReadString_inv in E2 as (E2 & _ & B2 & _); [|exact B1].
    destruct d2 as [|x d2]; cbn [ExpectEnd]; [|apply agree_nil; no_accept].
    destruct change; [apply agree_nil; no_accept|].
    destruct (is_nil password) eqn:NP; [apply agree_nil; no_accept|].
    specialize (T password []). rewrite NP in T. apply T; [constructor|intro N; now destruct N|].
    intros _. split; [intros ->; discriminate|].
    assert (flag = 0) by (destruct (flag =? 0) eqn:F; [now apply N.eqb_eq in F|discriminate]). subst flag.
    unfold payload, head, password_request, enc. rewrite M, E1, E2. cbn [map List.concat enc_field].
    rewrite !app_nil_r, <- !app_assoc. reflexivity.
  - apply bytes_eqb_neq in M. exact (T [] d B (fun _ => conj eq_refl eq_refl) (fun E => False_ind _ (M E))).
Qed.

Lemma request_lines : forall cfg w sid payload a, bytes_ok payload ->
  agree cfg sid w payload (OnUserAuthRequest cfg w sid payload a) (RequestLines cfg w sid payload a).
Proof.
  intros cfg w sid payload a B. unfold OnUserAuthRequest, RequestLines.
  change (ReadString payload) with (ReadLengthEncoded payload).
  destruct (ReadLengthEncoded payload) as [[user d1]|] eqn:E1; [|apply agree_nil; no_accept].
  apply ReadString_inv in E1 as (-> & _ & B1 & _); [|exact B].
  change (ReadString d1) with (ReadLengthEncoded d1).
  destruct (ReadLengthEncoded d1) as [[service d2]|] eqn:E2; [|apply agree_nil; no_accept].
  apply ReadString_inv in E2 as (-> & _ & B2 & _); [|exact B1].
  change (ReadString d2) with (ReadLengthEncoded d2).
  destruct (ReadLengthEncoded d2) as [[method d]|] eqn:E3; [|apply agree_nil; no_accept].
  apply ReadString_inv in E3 as (-> & _ & B3 & _); [|exact B2].
  apply agree_cons; [quiet1|exact Logic.I|].
  destruct (bytes_eqb service (bs "ssh-connection")) eqn:S; cbn [negb]; [|apply agree_nil; no_accept].
  apply bytes_eqb_eq in S. subst service.
  destruct (IsValidUsername user); cbn [negb]; [|apply agree_nil; no_accept].
  replace (string_enc user ++ string_enc (bs "ssh-connection") ++ string_enc method ++ d) with (head user method ++ d)
    by (unfold head; rewrite <- !app_assoc; reflexivity).
  destruct (cf_translation_server cfg) eqn:TS; [now apply translation_lines|].
  destruct (w_getpwnam w user) as [pw|]; [|apply agree_nil; no_accept].
  apply method_lines; [exact B3|reflexivity|discriminate].
Qed.

(** ** "Failed password" *)

Definition failed_password (w : world) (payload : bytes) (l : line) : Prop :=
  match l with
  | LFailedPassword user => exists password r, payload = enc (password_request user password) /\ password <> [] /\
      w_translate w user password = Some r /\ tr_status_ok r = false
  | _ => True
  end.

Lemma verify_not_failed : forall cfg sid w payload blob tbs sig acc, Forall (failed_password w payload) acc ->
  Forall (failed_password w payload) (VerifyLines cfg sid blob tbs sig acc).
Proof.
  intros. unfold VerifyLines. destruct (ToBeVerified sid tbs); [|repeat constructor].
  destruct (cf_verify _ _ _ _) as [[|]|]; [assumption|constructor|repeat constructor].
Qed.

Lemma method_not_failed : forall cfg w sid payload user method d pa a,
  Forall (failed_password w payload) (MethodLines cfg w sid payload user method d pa a).
Proof.
  intros. unfold MethodLines. destruct (bytes_eqb method (bs "publickey")).
  { unfold PublicKeyLines. destruct (ReadBool d) as [[ws d1]|]; [|constructor]. destruct (ReadString d1) as [[alg d2]|]; [|constructor].
    destruct (ReadLengthEncoded d2) as [[blob d3]|]; [|constructor]. destruct (negb (snd _)); [constructor|].
    destruct (negb (cf_parse_key cfg blob)); [repeat constructor|]. destruct (negb ws); [constructor|]. cbv zeta.
    destruct (ReadLengthEncoded d3) as [[sig d4]|]; [|constructor]. destruct (ExpectEnd d4); [|constructor].
    apply verify_not_failed. repeat constructor. }
  destruct (bytes_eqb method (bs "hostbased")).
  { unfold HostbasedLines. destruct (ReadString d) as [[alg d1]|]; [|constructor]. destruct (ReadLengthEncoded d1) as [[blob d2]|]; [|constructor].
    destruct (ReadString d2) as [[host d3]|]; [|constructor]. destruct (ReadString d3) as [[cuser d4]|]; [|constructor]. cbv zeta.
    destruct (ReadLengthEncoded d4) as [[sig d5]|]; [|constructor]. destruct (ExpectEnd d5); [|constructor].
    destruct (negb (snd _)); [constructor|]. destruct (negb (cf_parse_key cfg blob)); [repeat constructor|].
    apply verify_not_failed. apply Forall_app. split; [|repeat constructor].
    unfold AddressLines. destruct (cf_accept_client_address cfg); [|constructor]. destruct (Split cuser 64) as [u0 b].
    destruct (negb (is_nil u0) && negb (is_nil b)); [|constructor].
    destruct (cf_parse_address cfg (c_str b)); repeat constructor. }
  destruct pa; repeat constructor.
Qed.

Lemma request_failed : forall cfg w sid payload a, bytes_ok payload ->
  Forall (failed_password w payload) (RequestLines cfg w sid payload a).
Proof.
  intros cfg w sid payload a B. unfold RequestLines.
  change (ReadString payload) with (ReadLengthEncoded payload).
  destruct (ReadLengthEncoded payload) as [[user d1]|] eqn:E1; [|constructor].
  apply ReadString_inv in E1 as (E1 & _ & B1 & _); [|exact B].
  change (ReadString d1) with (ReadLengthEncoded d1).
  destruct (ReadLengthEncoded d1) as [[service d2]|] eqn:E2; [|constructor].
  apply ReadString_inv in E2 as (E2 & _ & B2 & _); [|exact B1].
  change (ReadString d2) with (ReadLengthEncoded d2).
  destruct (ReadLengthEncoded d2) as [[method d]|] eqn:E3; [|constructor].
  apply ReadString_inv in E3 as (E3 & _ & B3 & _); [|exact B2].
  constructor; [exact Logic.I|].
  destruct (bytes_eqb service (bs "ssh-connection")) eqn:S; cbn [negb]; [|constructor]. apply bytes_eqb_eq in S.
  destruct (negb (IsValidUsername user)); [constructor|].
  destruct (cf_translation_server cfg).
  2:{ destruct (w_getpwnam w user); [apply method_not_failed|constructor]. }
  unfold TranslationLines. cbv zeta. destruct (bytes_eqb method (bs "password")) eqn:M.
  - apply bytes_eqb_eq in M.
    destruct (ReadBool d) as [[change d4]|] eqn:E4; [|constructor].
    apply ReadBool_inv in E4 as (flag & E4 & Ef & _ & B4); [|exact B3].
    destruct (ReadString d4) as [[password d5]|] eqn:E5; [|constructor].
    apply ReadString_inv in E5 as (E5 & _ & B5 & _); [|exact B4].
    destruct d5 as [|y d5]; cbn [ExpectEnd]; [|constructor].
    destruct change; [constructor|]. destruct (is_nil password) eqn:NP; [constructor|].
    assert (PN : password <> []) by (intros ->; discriminate).
    destruct (LazyTranslate w user password a) as [b [r|]] eqn:LT; [|repeat constructor].
    destruct (tr_status_ok r) eqn:ST; cbn [negb].
    + destruct (ApplyResponse r password b) as [b' pa]. destruct (negb (CheckTranslateResponse r)); [repeat constructor|apply method_not_failed].
    + constructor; [|constructor]. exists password, r. split; [|split; [exact PN|split; [eapply LazyTranslate_password; eauto|exact ST]]].
      assert (flag = 0) by (destruct (flag =? 0) eqn:F; [now apply N.eqb_eq in F|discriminate]). subst flag.
      rewrite E1, E2, E3, E4, E5, S, M. unfold password_request, enc. cbn [map List.concat enc_field]. reflexivity.
  - destruct (LazyTranslate w user [] a) as [b [r|]]; [|repeat constructor].
    destruct (negb (tr_status_ok r)); [repeat constructor|].
    destruct (ApplyResponse r [] b) as [b' pa]. destruct (negb (CheckTranslateResponse r)); [repeat constructor|apply method_not_failed].
Qed.

(** ** The connection *)

Definition talk (x : texts) (st : bytes * list (bytes * line)) (ls : list line) : bytes * list (bytes * line) :=
  fold_left (fun st l => (next_domain x l (fst st), snd st ++ [(fst st, l)])) ls st.

Definition seen (s : audit) : bytes * list (bytes * line) := (au_domain s, au_lines s).

Lemma talk_app : forall x st l l', talk x st (l ++ l') = talk x (talk x st l) l'.
Proof. intros. apply fold_left_app. Qed.

Lemma say_all : forall x ls s, seen (fold_left (say x) ls s) = talk x (seen s) ls /\
  au_server (fold_left (say x) ls s) = au_server s /\ au_flag (fold_left (say x) ls s) = au_flag s /\
  au_gone (fold_left (say x) ls s) = au_gone s.
Proof.
  intros x ls. induction ls as [|l ls IH]; intro s; [repeat split|]. cbn [fold_left talk].
  destruct (IH (say x s l)) as (A & B & C & D). rewrite A, B, C, D. repeat split.
Qed.

(** a message which does not change the domain *)
Definition neutral (l : line) : Prop := accepted_user l = [] /\ no_address l.

(** what is written when a connection ends *)
Definition ending (l : line) : Prop := match l with LError => True | l => is_end l = true end.

Lemma ending_neutral : forall l, Forall ending l -> Forall neutral l.
Proof.
  intros l F. eapply Forall_impl; [|exact F]. intros e H. unfold neutral. destruct e; cbn in *; try discriminate; auto.
Qed.

(** [1] once the end has been logged *)
Definition told (s : audit) : nat := if au_flag s && negb (au_gone s) then 0%nat else 1%nat.

Definition step_lines (cfg : config) (sid : bytes) (op : gop) (s : audit) : list line :=
  if au_gone s then [] else match op with GOp op _ => op_lines cfg sid op (au_server s) | _ => [] end.

Record tells (cfg : config) (x : texts) (ls : list line) (s s' : audit) : Prop := {
  tl_seen : exists tail, seen s' = talk x (seen s) (ls ++ tail) /\ Forall ending tail /\
    (List.length (filter is_end tail) + told s = told s')%nat }.

Lemma ended_tells : forall x op fault s, au_gone s = false -> exists tail, seen (ended x op fault s) = talk x (seen s) tail /\
  Forall ending tail /\ (List.length (filter is_end tail) + told s = told (ended x op fault s))%nat /\
  au_server (ended x op fault s) = au_server s.
Proof.
  intros x op fault s G.
  assert (N : ending LError /\ ending LDisconnecting /\ ending LDisconnected /\ ending LTimeout) by (repeat split).
  destruct N as (N1 & N2 & N3 & N4).
  assert (FLT : exists tail, seen (destroy x (say x s LError)) = talk x (seen s) tail /\ Forall ending tail /\
    (List.length (filter is_end tail) + told s = told (destroy x (say x s LError)))%nat /\
    au_server (destroy x (say x s LError)) = au_server s).
  { unfold destroy, told. cbn [say au_flag]. rewrite G. destruct (au_flag s) eqn:F.
    - exists [LError; LDisconnected]. repeat split; auto; cbn; rewrite ?F; reflexivity.
    - exists [LError]. repeat split; auto; cbn; rewrite ?F; reflexivity. }
  assert (END : forall l, is_end l = true -> ending l -> exists tail, seen (end_line x l s) = talk x (seen s) tail /\ Forall ending tail /\
    (List.length (filter is_end tail) + told s = told (end_line x l s))%nat /\ au_server (end_line x l s) = au_server s).
  { intros l E N. unfold end_line, told. rewrite G. destruct (au_flag s) eqn:F.
    - exists [l]. repeat split; auto. cbn. rewrite E. reflexivity.
    - exists []. repeat split; auto. cbn [filter List.length]. rewrite F, G. reflexivity. }
  assert (OTHER : exists tail, seen (if fault then destroy x (say x s LError) else end_line x LDisconnecting s) = talk x (seen s) tail /\ Forall ending tail /\
    (List.length (filter is_end tail) + told s = told (if fault then destroy x (say x s LError) else end_line x LDisconnecting s))%nat /\
    au_server (if fault then destroy x (say x s LError) else end_line x LDisconnecting s) = au_server s).
  { destruct fault; [exact FLT|apply END; auto]. }
  destruct op; try exact OTHER; unfold ended.
  - destruct (msg =? MSG_DISCONNECT); [|exact OTHER]. destruct (ParseDisconnect payload) as [d|]; [|apply END; auto].
    unfold destroy, end_line, told. rewrite G. destruct (au_flag s) eqn:F.
    + exists [LClientDisconnected (disconnect_description d)]. repeat split; auto; repeat constructor.
    + rewrite F. exists []. repeat split; auto; cbn; rewrite ?F, ?G; reflexivity.
  - destruct fault; [|apply END; auto]. unfold end_line, told. cbn [say au_flag]. rewrite G. destruct (au_flag s) eqn:F.
    + exists [LError; LDisconnecting]. repeat split; auto.
    + exists [LError]. repeat split; auto; cbn; rewrite ?F; reflexivity.
  - apply END; auto.
  - destruct fault; [exact FLT|]. unfold destroy, told. rewrite G. destruct (au_flag s) eqn:F.
    + exists [LDisconnected]. repeat split; auto; cbn; rewrite ?F; reflexivity.
    + exists []. repeat split; auto; cbn; rewrite ?F, ?G; reflexivity.
Qed.

Lemma gstep_tells : forall cfg x sid op s,
  tells cfg x (step_lines cfg sid op s) s (gstep cfg x sid op s).
Proof.
  intros cfg x sid op s. constructor. unfold gstep, step_lines. destruct (au_gone s) eqn:G.
  { exists []. repeat split; auto. }
  destruct op as [op fault| |by_us m|].
  - cbv zeta. destruct (say_all x (op_lines cfg sid op (au_server s)) s) as (A & B & C & D).
    set (t := fold_left (say x) (op_lines cfg sid op (au_server s)) s) in *.
    assert (T : told t = told s) by (unfold told; now rewrite C, D).
    destruct (sv_alive (au_server s) && negb (sv_alive (vstep cfg sid op (au_server s)))).
    + destruct (ended_tells x op fault (with_server (vstep cfg sid op (au_server s)) t)) as (tail & E1 & E2 & E3 & _); [exact (eq_trans D G)|].
      exists tail. rewrite talk_app, <- A. repeat split; auto. rewrite <- E3. cbn. unfold told in T |- *. cbn [with_server au_flag au_gone]. lia.
    + exists []. rewrite app_nil_r. repeat split; auto.
  - unfold end_line, told. rewrite G. destruct (au_flag s) eqn:F.
    + exists [LTerminating]. repeat split; auto; repeat constructor.
    + exists []. repeat split; auto; cbn; rewrite ?F, ?G; reflexivity.
  - destruct (sv_outgoing (au_server s)); [|exists []; repeat split; auto].
    unfold end_line, told. rewrite G. destruct (au_flag s) eqn:F.
    + exists [LOutgoing by_us m]. repeat split; auto; repeat constructor.
    + exists []. repeat split; auto; cbn; rewrite ?F, ?G; reflexivity.
  - unfold destroy, told. cbn [with_server au_flag]. rewrite G. destruct (au_flag s) eqn:F.
    + exists [LDisconnected]. repeat split; auto; [repeat constructor|]. cbn. rewrite F. reflexivity.
    + exists []. repeat split; auto; cbn; rewrite ?F, ?G; reflexivity.
Qed.

Lemma gstep_server : forall cfg x sid op s, exists o, (gop_ok op -> op_ok o) /\
  (au_server (gstep cfg x sid op s) = au_server s \/ au_server (gstep cfg x sid op s) = vstep cfg sid o (au_server s)) /\
  match op with GOp o' _ => o = o' | _ => o = OClose end.
Proof.
  intros cfg x sid op s. exists (match op with GOp o _ => o | _ => OClose end).
  split; [destruct op; cbn; auto|]. split; [|destruct op; reflexivity].
  unfold gstep. destruct (au_gone s) eqn:G; [now left|]. destruct op as [op fault| |by_us m|].
  - right. cbv zeta. destruct (say_all x (op_lines cfg sid op (au_server s)) s) as (A & B & C & D).
    destruct (sv_alive (au_server s) && negb (sv_alive (vstep cfg sid op (au_server s)))); [|reflexivity].
    edestruct (ended_tells x op fault (with_server (vstep cfg sid op (au_server s)) (fold_left (say x) (op_lines cfg sid op (au_server s)) s)))
      as (_ & _ & _ & _ & E); [exact (eq_trans D G)|]. exact E.
  - right. reflexivity.
  - left. destruct (sv_outgoing (au_server s)); [|reflexivity]. unfold end_line. destruct (au_flag s); reflexivity.
  - right. unfold destroy. cbn [with_server au_flag]. destruct (au_flag s); reflexivity.
Qed.

Lemma logins_app : forall l l', logins (l ++ l') = logins l ++ logins l'.
Proof. intros. apply flat_map_app. Qed.

Lemma logins_not_auth : forall l, Forall not_auth l -> logins l = [].
Proof. intros l F. induction F as [|e l H _ IH]; [reflexivity|]. cbn [logins flat_map]. destruct e; cbn in H; try contradiction; exact IH. Qed.

Lemma logins_plain : forall l, Forall plain l -> logins l = [].
Proof. intros l F. induction F as [|e l H _ IH]; [reflexivity|]. cbn [logins flat_map]. destruct e; cbn in H; try contradiction; exact IH. Qed.

Lemma quiet_acc : forall l, Forall quiet l -> flat_map accepted_user l = [].
Proof. intros l F. induction F as [|e l [H _] _ IH]; [reflexivity|]. cbn [flat_map]. now rewrite H. Qed.

Lemma op_lines_other : forall cfg sid op v, (forall w payload, op = OAuth w -> sv_alive v = true -> sv_busy v = Checking payload -> False) ->
  Forall quiet (op_lines cfg sid op v) /\ Forall no_address (op_lines cfg sid op v).
Proof.
  intros cfg sid op v N. unfold op_lines. destruct (sv_alive v) eqn:AL; [|repeat constructor].
  destruct op; try (split; constructor).
  - destruct (sv_busy v) eqn:B; try (split; constructor). destruct (N w payload eq_refl eq_refl eq_refl).
  - destruct ok; [|split; constructor]. destruct (sv_busy v); split; repeat constructor.
Qed.

Lemma checking_dec : forall op v, (exists w payload, op = OAuth w /\ sv_alive v = true /\ sv_busy v = Checking payload) \/
  (forall w payload, op = OAuth w -> sv_alive v = true -> sv_busy v = Checking payload -> False).
Proof.
  intros op v. destruct op; try (right; intros; discriminate). destruct (sv_alive v) eqn:AL; [|right; intros; discriminate].
  destruct (sv_busy v) as [|payload|] eqn:B; [right; intros; discriminate| |right; intros; discriminate].
  left. eauto.
Qed.

Lemma checking_facts : forall cfg v payload, good cfg v -> sv_alive v = true -> sv_busy v = Checking payload ->
  bytes_ok payload /\ logins (sv_log v) = [].
Proof.
  intros cfg v payload [_ LV] AL B. specialize (LV AL). destruct LV as [LB LBE _]. rewrite B in LB. destruct LB as [OK A].
  destruct (LBE A) as (_ & _ & _ & PL). split; [exact OK|]. now apply logins_plain.
Qed.

Lemma vstep_logins : forall cfg sid op v, good cfg v ->
  logins (sv_log (vstep cfg sid op v)) = logins (sv_log v) ++ flat_map accepted_user (op_lines cfg sid op v).
Proof.
  intros cfg sid op v G. destruct (checking_dec op v) as [(w & payload & -> & AL & B)|N].
  - destruct (checking_facts cfg v payload G AL B) as [OK _].
    destruct (oauth_cases cfg sid w v payload G AL B) as (a & out & E & ACC & H).
    pose proof (request_lines cfg w sid payload (sv_account v) OK) as AG. rewrite E in AG. unfold agree in AG. cbn [fst snd] in AG.
    unfold op_lines. rewrite AL, B. destruct out as [m|alg blob| |p].
    1-2: destruct H as (_ & _ & _ & L); destruct AG as [Q _]; rewrite L, logins_app, (quiet_acc _ Q); reflexivity.
    + destruct H as (_ & L). destruct AG as [Q _]. rewrite L, logins_app, (quiet_acc _ Q). reflexivity.
    + destruct H as (_ & L & _). destruct AG as (pre & l & -> & Q & A & _). rewrite L, logins_app, flat_map_app, (quiet_acc _ Q).
      cbn [flat_map]. rewrite A. f_equal. cbn [logins flat_map]. destruct p; reflexivity.
  - destruct (op_lines_other cfg sid op v N) as [Q _]. rewrite (quiet_acc _ Q), app_nil_r.
    destruct (ServerFacts.step_log cfg sid op v G) as (l & L & [NE|(w & payload & H1 & H2 & H3)]).
    + rewrite L, logins_app, (logins_not_auth l), app_nil_r; [reflexivity|]. exact (needs_not_auth _ _ _ NE).
    + destruct (N w payload H1 H2 H3).
Qed.

Definition acc (l : list (bytes * line)) : list bytes := flat_map accepted_user (map snd l).

Lemma talk_lines : forall x ls st, map snd (snd (talk x st ls)) = map snd (snd st) ++ ls.
Proof.
  intros x ls. induction ls as [|l ls IH]; intro st; [symmetry; apply app_nil_r|]. cbn [talk fold_left]. fold (talk x).
  unfold talk in IH. rewrite IH. cbn [snd]. rewrite map_app, <- app_assoc. reflexivity.
Qed.

(** After a login, all lines have the user name. *)
Definition attributed (x : texts) (st : bytes * list (bytes * line)) : Prop :=
  forall l1 d l user l2, snd st = l1 ++ (d, l) :: l2 -> accepted_user l = [user] ->
  Forall (fun e => fst e = d ++ bs " user=" ++ quote x user) l2 /\ fst st = d ++ bs " user=" ++ quote x user.

Lemma next_neutral : forall x l d, neutral l -> next_domain x l d = d.
Proof. intros x l d [A B]. destruct l; cbn in *; try reflexivity; try discriminate; contradiction. Qed.

Lemma snoc_split : forall {A} (l l1 l2 : list A) a b, l ++ [a] = l1 ++ b :: l2 ->
  (l2 = [] /\ b = a /\ l1 = l) \/ exists l3, l2 = l3 ++ [a] /\ l = l1 ++ b :: l3.
Proof.
  intros A l l1 l2 a b H. destruct l2 as [|y l2 _] using rev_ind.
  - left. apply app_inj_tail in H as [-> ->]. auto.
  - right. exists l2. rewrite app_comm_cons, app_assoc in H. apply app_inj_tail in H as [-> ->]. auto.
Qed.

Lemma attributed_one : forall x st l, attributed x st -> acc (snd st) = [] \/ neutral l ->
  attributed x (talk x st [l]).
Proof.
  intros x [dom ls] l K H l1 d l' user l2 E A. cbn [talk fold_left fst snd] in *.
  apply snoc_split in E as [(-> & E & ->)|(l3 & -> & ->)].
  - injection E as -> ->. split; [constructor|]. destruct l; cbn in A; try discriminate; injection A as ->; reflexivity.
  - destruct (K l1 d l' user l3 eq_refl A) as [F D]. cbn [fst] in D.
    destruct H as [H|N].
    + exfalso. unfold acc in H. rewrite map_app, flat_map_app in H. apply app_eq_nil in H as [_ H]. cbn [map flat_map snd] in H.
      rewrite A in H. discriminate.
    + rewrite (next_neutral x l dom N). split; [|exact D]. apply Forall_app. split; [exact F|]. constructor; [exact D|constructor].
Qed.

Lemma talk_acc : forall x ls st, acc (snd (talk x st ls)) = acc (snd st) ++ flat_map accepted_user ls.
Proof. intros. unfold acc. now rewrite talk_lines, flat_map_app. Qed.

Lemma attributed_neutral : forall x ls st, attributed x st -> Forall neutral ls -> attributed x (talk x st ls).
Proof.
  intros x ls st K F. revert st K. induction F as [|l ls N _ IH]; intros st K; [exact K|].
  change (l :: ls) with ([l] ++ ls). rewrite talk_app. apply IH. apply attributed_one; auto.
Qed.

Lemma attributed_quiet : forall x ls st, attributed x st -> acc (snd st) = [] -> Forall quiet ls -> attributed x (talk x st ls).
Proof.
  intros x ls st K A F. revert st K A. induction F as [|l ls N _ IH]; intros st K A; [exact K|].
  change (l :: ls) with ([l] ++ ls). rewrite talk_app. apply IH; [apply attributed_one; auto|].
  rewrite talk_acc, A. cbn [flat_map]. destruct N as [-> _]. reflexivity.
Qed.

Record audit_ok (cfg : config) (x : texts) (s : audit) : Prop := {
  ok_good : good cfg (au_server s);
  ok_acc : acc (au_lines s) = logins (sv_log (au_server s));
  ok_ends : List.length (ends (au_lines s)) = told s;
  ok_att : attributed x (seen s)
}.

Lemma quiet_ends : forall l, Forall quiet l -> filter is_end l = [].
Proof. intros l F. induction F as [|e l [_ H] _ IH]; [reflexivity|]. cbn [filter]. now rewrite H. Qed.

Lemma op_lines_ends : forall cfg sid op v, good cfg v -> filter is_end (op_lines cfg sid op v) = [].
Proof.
  intros cfg sid op v G. destruct (checking_dec op v) as [(w & payload & -> & AL & B)|N].
  - destruct (checking_facts cfg v payload G AL B) as [OK _].
    pose proof (request_lines cfg w sid payload (sv_account v) OK) as AG. unfold agree in AG.
    unfold op_lines. rewrite AL, B. destruct (snd (OnUserAuthRequest cfg w sid payload (sv_account v))).
    1-3: destruct AG as [Q _]; now apply quiet_ends.
    destruct AG as (pre & l & -> & Q & _ & E & _). rewrite filter_app, (quiet_ends _ Q). cbn [filter]. rewrite E. reflexivity.
  - destruct (op_lines_other cfg sid op v N) as [Q _]. now apply quiet_ends.
Qed.

Lemma op_lines_attributed : forall cfg x sid op v st, good cfg v -> attributed x st -> acc (snd st) = logins (sv_log v) ->
  attributed x (talk x st (op_lines cfg sid op v)).
Proof.
  intros cfg x sid op v st G K A. destruct (checking_dec op v) as [(w & payload & -> & AL & B)|N].
  - destruct (checking_facts cfg v payload G AL B) as [OK L]. rewrite L in A.
    pose proof (request_lines cfg w sid payload (sv_account v) OK) as AG. unfold agree in AG.
    unfold op_lines. rewrite AL, B. destruct (snd (OnUserAuthRequest cfg w sid payload (sv_account v))).
    1-3: destruct AG as [Q _]; now apply attributed_quiet.
    destruct AG as (pre & l & -> & Q & _). rewrite talk_app. apply attributed_one; [now apply attributed_quiet|].
    left. rewrite talk_acc, A, (quiet_acc _ Q). reflexivity.
  - destruct (op_lines_other cfg sid op v N) as [Q NA]. apply attributed_neutral; [exact K|].
    rewrite Forall_forall in *. intros l I. destruct (Q l I). split; [assumption|now apply NA].
Qed.

Lemma neutral_acc : forall l, Forall neutral l -> flat_map accepted_user l = [].
Proof. intros l F. induction F as [|e l [H _] _ IH]; [reflexivity|]. cbn [flat_map]. now rewrite H. Qed.

Lemma gstep_gone : forall cfg x sid op s, au_gone s = true -> gstep cfg x sid op s = s.
Proof. intros. unfold gstep. now rewrite H. Qed.

Lemma gstep_ok : forall cfg x sid op s, gop_ok op -> audit_ok cfg x s -> audit_ok cfg x (gstep cfg x sid op s).
Proof.
  intros cfg x sid op s OK [G A E K]. destruct (au_gone s) eqn:GO; [rewrite gstep_gone by exact GO; constructor; assumption|].
  destruct (gstep_tells cfg x sid op s) as [[tail [S [ET CN]]]]. pose proof (ending_neutral _ ET) as NT.
  destruct (gstep_server cfg x sid op s) as (o & OKo & SV & OP). set (s' := gstep cfg x sid op s) in *.
  assert (SL : step_lines cfg sid op s = match op with GOp o _ => op_lines cfg sid o (au_server s) | _ => [] end)
    by (unfold step_lines; now rewrite GO).
  assert (LG : logins (sv_log (au_server s')) = logins (sv_log (au_server s)) ++ flat_map accepted_user (step_lines cfg sid op s)).
  { rewrite SL. destruct op as [o' f| |b m|].
    - subst o. destruct SV as [SV|SV]; [|rewrite SV; now apply vstep_logins].
      subst s'. unfold gstep in SV |- *. rewrite GO in *. cbv zeta in *.
      destruct (say_all x (op_lines cfg sid o' (au_server s)) s) as (_ & B & _ & D).
      destruct (sv_alive (au_server s) && negb (sv_alive (vstep cfg sid o' (au_server s)))).
      + edestruct (ended_tells x o' f (with_server (vstep cfg sid o' (au_server s)) (fold_left (say x) (op_lines cfg sid o' (au_server s)) s)))
          as (_ & _ & _ & _ & E'); [exact (eq_trans D GO)|]. rewrite E'. cbn [with_server au_server]. now apply vstep_logins.
      + cbn [with_server au_server]. now apply vstep_logins.
    - cbn [flat_map]. rewrite app_nil_r. destruct SV as [-> | ->]; [reflexivity|]. rewrite vstep_logins by exact G. subst o. unfold op_lines.
      destruct (sv_alive (au_server s)); cbn [flat_map]; now rewrite app_nil_r.
    - cbn [flat_map]. rewrite app_nil_r. destruct SV as [-> | ->]; [reflexivity|]. rewrite vstep_logins by exact G. subst o. unfold op_lines.
      destruct (sv_alive (au_server s)); cbn [flat_map]; now rewrite app_nil_r.
    - cbn [flat_map]. rewrite app_nil_r. destruct SV as [-> | ->]; [reflexivity|]. rewrite vstep_logins by exact G. subst o. unfold op_lines.
      destruct (sv_alive (au_server s)); cbn [flat_map]; now rewrite app_nil_r. }
  assert (EL : filter is_end (step_lines cfg sid op s) = []).
  { rewrite SL. destruct op; try reflexivity. now apply op_lines_ends. }
  assert (LN : au_lines s' = snd (talk x (seen s) (step_lines cfg sid op s ++ tail))) by (rewrite <- S; reflexivity).
  constructor.
  - destruct SV as [-> | ->]; [exact G|]. apply good_step; auto.
  - rewrite LN, LG, talk_acc, flat_map_app, (neutral_acc _ NT), app_nil_r. cbn [seen snd]. now rewrite A.
  - unfold ends in *. rewrite LN, talk_lines, !filter_app, EL, app_nil_l, app_length. cbn [seen snd]. rewrite E. lia.
  - rewrite S, talk_app. apply attributed_neutral; [|exact NT]. rewrite SL. destruct op; try exact K.
    apply op_lines_attributed; [exact G|exact K|exact A].
Qed.

Lemma grun_snoc : forall cfg x sid peer dom ops op,
  grun cfg x sid peer dom (ops ++ [op]) = gstep cfg x sid op (grun cfg x sid peer dom ops).
Proof. intros. unfold grun. now rewrite fold_left_app. Qed.

Lemma grun_ok : forall cfg x sid peer dom ops, Forall gop_ok ops -> audit_ok cfg x (grun cfg x sid peer dom ops).
Proof.
  intros cfg x sid peer dom ops. induction ops as [|op t IH] using rev_ind; intro F.
  - constructor; [apply good_new|reflexivity|reflexivity|]. intros l1 d l u l2 E. cbn in E. destruct l1; discriminate.
  - apply Forall_app in F as [F1 F2]. inversion F2. rewrite grun_snoc. apply gstep_ok; auto.
Qed.

Lemma ended_told : forall x op fault s, told (ended x op fault s) = 1%nat.
Proof.
  intros x op fault s.
  assert (D : forall t, told (destroy x t) = 1%nat) by (intro t; unfold told, destroy; cbn [au_flag au_gone]; now rewrite andb_false_r).
  assert (E : forall l t, told (end_line x l t) = 1%nat).
  { intros l t. unfold told, end_line. destruct (au_flag t) eqn:F; cbn [au_flag]; [reflexivity|now rewrite F]. }
  destruct op; cbn [ended]; try (destruct fault; [apply D|apply E]).
  - destruct (msg =? MSG_DISCONNECT); [destruct (ParseDisconnect payload); [apply D|apply E]|destruct fault; [apply D|apply E]].
  - apply E.
  - apply E.
  - apply D.
Qed.

(** A dead connection has said so. *)
Lemma grun_dead : forall cfg x sid peer dom ops,
  sv_alive (au_server (grun cfg x sid peer dom ops)) = false -> told (grun cfg x sid peer dom ops) = 1%nat.
Proof.
  intros cfg x sid peer dom ops. induction ops as [|op t IH] using rev_ind; [discriminate|]. rewrite grun_snoc.
  set (s := grun cfg x sid peer dom t) in *. unfold gstep. destruct (au_gone s) eqn:G; [exact IH|]. destruct op as [op fault| |b m|].
  - cbv zeta. destruct (say_all x (op_lines cfg sid op (au_server s)) s) as (_ & _ & C & D).
    destruct (sv_alive (au_server s)) eqn:AL; cbn [andb].
    + destruct (sv_alive (vstep cfg sid op (au_server s))) eqn:AL'; cbn [negb]; [|intros _; apply ended_told].
      cbn [with_server au_server]. congruence.
    + intros _. specialize (IH eq_refl). unfold told in *. cbn [with_server au_flag au_gone]. now rewrite C, D.
  - intros _. unfold told, end_line. destruct (au_flag s) eqn:F; cbn [with_server au_flag]; [reflexivity|now rewrite F].
  - destruct (sv_outgoing (au_server s)); [|exact IH]. intros _. unfold told, end_line.
    destruct (au_flag s) eqn:F; cbn [au_flag]; [reflexivity|now rewrite F].
  - intros _. unfold told, destroy. cbn [au_flag au_gone]. now rewrite andb_false_r.
Qed.

(** ** Text *)

Lemma one_line_app : forall a b, one_line a -> one_line b -> one_line (a ++ b).
Proof. intros a b A B I. apply in_app_or in I as [I|I]; [exact (A I)|exact (B I)]. Qed.

Lemma one_line_b : forall t, forallb (fun c => negb (c =? 10)) t = true -> one_line t.
Proof. intros t H I. rewrite forallb_forall in H. specialize (H 10 I). discriminate. Qed.

Lemma one_line_firstn : forall n t, one_line t -> one_line (firstn n t).
Proof. intros n t O I. apply O. rewrite <- (firstn_skipn n t). apply in_or_app. now left. Qed.

Lemma escape_line : forall x c, one_line (escape x c).
Proof.
  intros x c. unfold escape.
  destruct (N.eqb_spec c 10) as [->|N]; [apply one_line_b; reflexivity|].
  destruct (c =? 13); [apply one_line_b; reflexivity|]. destruct (c =? 9); [apply one_line_b; reflexivity|].
  destruct ((c =? 34) || (c =? 92)); [intros [E|[E|[]]]; congruence|].
  destruct (_ || _); [intros [E|[]]; congruence|].
  assert (H : forall n, hex_digit n <> 10).
  { intro n. unfold hex_digit. destruct (N.ltb_spec n 10); lia. }
  intros [E|[E|[E|[E|[]]]]]; try discriminate; now apply H in E.
Qed.

Lemma quote_line : forall x s, one_line (quote x s).
Proof.
  intros x s [E|I]; [discriminate|]. apply in_app_or in I as [I|[E|[]]]; [|discriminate].
  apply in_flat_map in I as (c & _ & I). exact (escape_line x c I).
Qed.

Definition printed (x : texts) (l : line) : bytes :=
  match l with LProxy address => bs "Proxy to " ++ address | l => format x l end.

Lemma printed_line : forall x l, texts_ok x -> one_line (raw_text l) -> one_line (printed x l).
Proof.
  intros x l [_ TK] R. destruct l; cbn [printed format raw_text] in *;
    try (destruct by_us);
    repeat first [apply one_line_app | apply quote_line | apply TK | exact R | apply one_line_b; reflexivity].
Qed.

Lemma LINE_MAX_succ : exists n, LINE_MAX = Datatypes.S n.
Proof. exists (N.to_nat 2047). unfold LINE_MAX. change 2048 with (N.succ 2047). apply N2Nat.inj_succ. Qed.

Lemma printed_nonempty : forall x l, firstn LINE_MAX (printed x l) <> [].
Proof.
  intros x l. destruct LINE_MAX_succ as [n ->].
  assert (H : exists c r, printed x l = c :: r).
  { destruct l; try (destruct by_us); cbn [printed format]; eexists; eexists; unfold bs; cbn [map list_ascii_of_string List.app]; reflexivity. }
  destruct H as (c & r & ->). discriminate.
Qed.

Lemma split_line : forall t acc r, one_line t -> split_from acc (t ++ 10 :: r) = (acc ++ t) :: split_from [] r.
Proof.
  induction t as [|c t IH]; intros acc r O; [cbn; now rewrite app_nil_r|]. cbn [List.app split_from].
  destruct (N.eqb_spec c 10) as [->|N]; [destruct O; now left|].
  rewrite IH; [now rewrite <- app_assoc|]. intro I. apply O. now right.
Qed.

Lemma records_line : forall t r, one_line t -> t <> [] -> records (t ++ 10 :: r) = t :: records r.
Proof. intros t r O N. unfold records. rewrite split_line by exact O. cbn [List.app filter]. destruct t; [contradiction|reflexivity]. Qed.

Lemma records_newline : forall r, records (10 :: r) = records r.
Proof. reflexivity. Qed.

Lemma record_printed : forall x e, record_of x e = tx_prefix x (fst e) ++ firstn LINE_MAX (printed x (snd e)).
Proof. intros x [d l]. destruct l; reflexivity. Qed.

Lemma written_record : forall x e, exists z, (z = [] \/ z = [10]) /\ written x e = record_of x e ++ 10 :: z.
Proof.
  intros x [d l]. unfold written, record_of. cbn [fst snd].
  destruct l; try (exists []; split; [now left|]; now rewrite <- app_assoc).
  cbn [format]. rewrite app_assoc with (l := bs "Proxy to "), firstn_app.
  set (b := bs "Proxy to " ++ address).
  destruct (LINE_MAX - List.length b)%nat as [|n].
  - exists []. split; [now left|]. cbn [firstn]. now rewrite app_nil_r, <- app_assoc.
  - exists [10]. split; [now right|]. cbn [firstn]. rewrite firstn_nil, <- !app_assoc. reflexivity.
Qed.

Lemma records_text : forall x l, texts_ok x -> Forall (fun e => one_line (fst e) /\ one_line (raw_text (snd e))) l ->
  records (log_text x l) = map (record_of x) l.
Proof.
  intros x l T F. induction F as [|e l [D R] _ IH]; [reflexivity|]. cbn [log_text flat_map map].
  destruct (written_record x e) as (z & Z & ->). rewrite <- app_assoc. cbn [List.app].
  assert (O : one_line (record_of x e)).
  { rewrite record_printed. apply one_line_app; [apply T; exact D|]. apply one_line_firstn. exact (printed_line x (snd e) T R). }
  assert (NE : record_of x e <> []).
  { rewrite record_printed. intro E. apply app_eq_nil in E as [_ E]. exact (printed_nonempty x (snd e) E). }
  rewrite records_line by assumption. f_equal. destruct Z as [-> | ->]; [exact IH|exact IH].
Qed.

Lemma talk_domains : forall x ls st, one_line (fst st) -> Forall (fun e => one_line (fst e)) (snd st) ->
  Forall (fun l => one_line (raw_text l)) ls ->
  one_line (fst (talk x st ls)) /\ Forall (fun e => one_line (fst e)) (snd (talk x st ls)).
Proof.
  intros x ls st D F R. revert st D F. induction R as [|l ls H _ IH]; intros st D F; [auto|]. cbn [talk fold_left].
  apply IH; cbn [fst snd].
  - destruct l; cbn [next_domain raw_text] in *; auto; repeat first [apply one_line_app | exact D | apply quote_line | apply one_line_b; reflexivity].
  - apply Forall_app. split; [exact F|]. constructor; [exact D|constructor].
Qed.

Lemma grun_domains : forall cfg x sid peer dom ops, one_line dom ->
  let s := grun cfg x sid peer dom ops in
  Forall (fun e => one_line (raw_text (snd e))) (au_lines s) ->
  one_line (au_domain s) /\ Forall (fun e => one_line (fst e)) (au_lines s).
Proof.
  intros cfg x sid peer dom ops OD. induction ops as [|op t IH] using rev_ind; cbv zeta in *; [intros _; split; [exact OD|constructor]|].
  rewrite grun_snoc. set (s := grun cfg x sid peer dom t) in *.
  destruct (gstep_tells cfg x sid op s) as [[tail [S _]]]. set (s' := gstep cfg x sid op s) in *.
  set (ls := step_lines cfg sid op s ++ tail) in *. intro R.
  assert (E1 : au_domain s' = fst (talk x (seen s) ls)) by (rewrite <- S; reflexivity).
  assert (E2 : au_lines s' = snd (talk x (seen s) ls)) by (rewrite <- S; reflexivity).
  assert (R' : Forall (fun l => one_line (raw_text l)) (map snd (au_lines s'))) by (apply Forall_map; exact R).
  rewrite E2, talk_lines in R'. apply Forall_app in R' as [R1 R2]. cbn [seen snd] in R1.
  assert (R1' : Forall (fun e : bytes * line => one_line (raw_text (snd e))) (au_lines s))
    by (rewrite Forall_forall in *; intros e I; exact (R1 (snd e) (in_map snd _ _ I))).
  rewrite E1, E2. destruct (IH R1') as [I1 I2]. apply talk_domains; assumption.
Qed.

(** ** DISCONNECT *)

Lemma disconnect_bytes : forall reason desc lang, bytes_ok desc -> bytes_ok lang ->
  bytes_ok (enc [FU32 reason; FString desc; FString lang]).
Proof.
  intros reason desc lang D L. unfold enc. cbn [map List.concat enc_field]. rewrite app_nil_r. unfold string_enc.
  apply bytes_ok_app. split; [apply be32_ok|]. apply bytes_ok_app.
  split; (apply bytes_ok_app; split; [apply be32_ok|assumption]).
Qed.

Lemma disconnect_parsed : forall reason desc lang, reason < pow32 -> len desc < pow32 -> len lang < pow32 ->
  ParseDisconnect (enc [FU32 reason; FString desc; FString lang]) =
  Some {| disconnect_reason := reason; disconnect_description := desc |}.
Proof.
  intros reason desc lang R D L. unfold ParseDisconnect, enc. cbn [map List.concat enc_field]. rewrite app_nil_r.
  rewrite ReadU32_be32 by exact R. cbn [obind]. rewrite ReadString_enc by exact D. cbn [obind].
  rewrite <- (app_nil_r (string_enc lang)), ReadString_enc by exact L. reflexivity.
Qed.

(** ** The address which a proxy tells *)

Definition told_address (cfg : config) (sid payload : bytes) (l : line) : Prop :=
  match l with LAddress a => claims_address cfg sid payload a | _ => True end.

Lemma Split_at : forall s a b, Split s 64 = (a, b) -> b <> [] -> ~ In 64 a /\ s = a ++ 64 :: b.
Proof.
  induction s as [|c s IH]; intros a b H N; cbn [Split] in H.
  - injection H as <- <-. now destruct N.
  - destruct (N.eqb_spec c 64) as [->|C].
    + injection H as <- <-. split; [intros []|reflexivity].
    + destruct (Split s 64) as [a' b'] eqn:E. injection H as <- <-. destruct (IH a' b' eq_refl N) as [I ->].
      split; [intros [X|X]; [congruence|exact (I X)]|reflexivity].
Qed.

Lemma verify_told : forall cfg sid payload blob tbs sig acc,
  (VerifyRequest cfg sid blob tbs sig = true -> Forall (told_address cfg sid payload) acc) ->
  Forall (told_address cfg sid payload) (VerifyLines cfg sid blob tbs sig acc).
Proof.
  intros cfg sid payload blob tbs sig acc H. unfold VerifyLines, VerifyRequest in *. destruct (ToBeVerified sid tbs); [|repeat constructor].
  destruct (cf_verify _ _ _ _) as [[|]|]; [now apply H|constructor|repeat constructor].
Qed.

Lemma hostbased_told : forall cfg sid user d a, bytes_ok d ->
  Forall (told_address cfg sid (head user HOSTBASED ++ d)) (HostbasedLines cfg sid (head user HOSTBASED ++ d) user d a).
Proof.
  intros cfg sid user d a B. set (pre := head user HOSTBASED). unfold HostbasedLines.
  change (ReadString d) with (ReadLengthEncoded d).
  destruct (ReadLengthEncoded d) as [[alg d1]|] eqn:E1; [|constructor].
  apply ReadString_inv in E1 as (-> & _ & B1 & _); [|exact B].
  destruct (ReadLengthEncoded d1) as [[blob d2]|] eqn:E2; [|constructor].
  apply ReadString_inv in E2 as (-> & _ & B2 & _); [|exact B1].
  change (ReadString d2) with (ReadLengthEncoded d2).
  destruct (ReadLengthEncoded d2) as [[host d3]|] eqn:E3; [|constructor].
  apply ReadString_inv in E3 as (-> & _ & B3 & _); [|exact B2].
  change (ReadString d3) with (ReadLengthEncoded d3).
  destruct (ReadLengthEncoded d3) as [[cuser d4]|] eqn:E4; [|constructor].
  apply ReadString_inv in E4 as (-> & _ & B4 & _); [|exact B3].
  cbv zeta.
  destruct (ReadLengthEncoded d4) as [[sig d5]|] eqn:E5; [|constructor].
  apply ReadString_inv in E5 as (-> & _ & _ & _); [|exact B4].
  destruct d5 as [|x d5]; cbn [ExpectEnd]; [|constructor].
  unfold IsAcceptedHostPublicKey.
  destruct (Find (cf_authorized_host_keys cfg) blob) as [o|] eqn:F; cbn [snd negb]; [|constructor]. apply Find_In in F.
  destruct (cf_parse_key cfg blob) eqn:K; cbn [negb]; [|repeat constructor].
  rewrite !app_nil_r. apply verify_told. intro V. apply VerifyRequest_spec in V.
  apply Forall_app. split; [|repeat constructor].
  unfold AddressLines. destruct (cf_accept_client_address cfg) eqn:AC; [|constructor].
  destruct (Split cuser 64) as [name address] eqn:S.
  destruct (is_nil name) eqn:N1; cbn [negb andb]; [constructor|].
  destruct (is_nil address) eqn:N2; cbn [negb]; [constructor|].
  assert (NN : name <> []) by (intros ->; discriminate). assert (NA : address <> []) by (intros ->; discriminate).
  destruct (Split_at _ _ _ S NA) as [NI ->].
  destruct (cf_parse_address cfg (c_str address)) eqn:P; [|repeat constructor]. constructor; [|constructor].
  exists user, alg, blob, host, name, sig, o.
  split. { unfold pre, head, enc, host_request. cbn [map List.app List.concat enc_field]. rewrite app_nil_r, <- !app_assoc. reflexivity. }
  split; [exact NN|]. split; [exact NI|]. split; [exact NA|]. split; [exact AC|]. split; [congruence|]. split; [exact F|].
  rewrite <- V.
  replace (pre ++ string_enc alg ++ string_enc blob ++ string_enc host ++ string_enc (name ++ 64 :: address) ++ string_enc sig)
    with ((pre ++ string_enc alg ++ string_enc blob ++ string_enc host ++ string_enc (name ++ 64 :: address)) ++ string_enc sig)
    by (rewrite <- !app_assoc; reflexivity).
  rewrite DSince_app. unfold signed_data, host_request, pre, head, enc. cbn [map List.app List.concat enc_field].
  rewrite app_nil_r, <- !app_assoc. reflexivity.
Qed.

Lemma method_told : forall cfg w sid payload user method d pa a, bytes_ok d ->
  (method <> PASSWORD -> payload = head user method ++ d) ->
  Forall (told_address cfg sid payload) (MethodLines cfg w sid payload user method d pa a).
Proof.
  intros cfg w sid payload user method d pa a B P. unfold MethodLines. destruct (bytes_eqb method (bs "publickey")).
  { unfold PublicKeyLines. destruct (ReadBool d) as [[ws d1]|]; [|constructor]. destruct (ReadString d1) as [[alg d2]|]; [|constructor].
    destruct (ReadLengthEncoded d2) as [[blob d3]|]; [|constructor]. destruct (negb (snd _)); [constructor|].
    destruct (negb (cf_parse_key cfg blob)); [repeat constructor|]. destruct (negb ws); [constructor|]. cbv zeta.
    destruct (ReadLengthEncoded d3) as [[sig d4]|]; [|constructor]. destruct (ExpectEnd d4); [|constructor].
    apply verify_told. intros _. repeat constructor. }
  destruct (bytes_eqb method (bs "hostbased")) eqn:M.
  { apply bytes_eqb_eq in M. subst method. rewrite P by discriminate. apply hostbased_told. exact B. }
  destruct pa; repeat constructor.
Qed.

Lemma request_told : forall cfg w sid payload a, bytes_ok payload ->
  Forall (told_address cfg sid payload) (RequestLines cfg w sid payload a).
Proof.
  intros cfg w sid payload a B. unfold RequestLines.
  change (ReadString payload) with (ReadLengthEncoded payload).
  destruct (ReadLengthEncoded payload) as [[user d1]|] eqn:E1; [|constructor].
  apply ReadString_inv in E1 as (E1 & _ & B1 & _); [|exact B].
  change (ReadString d1) with (ReadLengthEncoded d1).
  destruct (ReadLengthEncoded d1) as [[service d2]|] eqn:E2; [|constructor].
  apply ReadString_inv in E2 as (E2 & _ & B2 & _); [|exact B1].
  change (ReadString d2) with (ReadLengthEncoded d2).
  destruct (ReadLengthEncoded d2) as [[method d]|] eqn:E3; [|constructor].
  apply ReadString_inv in E3 as (E3 & _ & B3 & _); [|exact B2].
  constructor; [exact Logic.I|].
  destruct (bytes_eqb service (bs "ssh-connection")) eqn:S; cbn [negb]; [|constructor]. apply bytes_eqb_eq in S.
  assert (P : payload = head user method ++ d).
  { rewrite E1, E2, E3, S. unfold head. rewrite <- !app_assoc. reflexivity. }
  destruct (negb (IsValidUsername user)); [constructor|].
  destruct (cf_translation_server cfg).
  2:{ destruct (w_getpwnam w user); [apply method_told; auto|constructor]. }
  unfold TranslationLines. cbv zeta. destruct (bytes_eqb method (bs "password")) eqn:M.
  - apply bytes_eqb_eq in M.
    destruct (ReadBool d) as [[change d4]|] eqn:E4; [|constructor].
    apply ReadBool_inv in E4 as (flag & E4 & Ef & _ & B4); [|exact B3].
    destruct (ReadString d4) as [[password d5]|] eqn:E5; [|constructor].
    apply ReadString_inv in E5 as (E5 & _ & B5 & _); [|exact B4].
    destruct d5 as [|y d5]; cbn [ExpectEnd]; [|constructor].
    destruct change; [constructor|]. destruct (is_nil password) eqn:NP; [constructor|].
    destruct (LazyTranslate w user password a) as [b [r|]]; [|repeat constructor].
    destruct (negb (tr_status_ok r)); [repeat constructor|].
    destruct (ApplyResponse r password b) as [b' pa]. destruct (negb (CheckTranslateResponse r)); [repeat constructor|].
    apply method_told; [constructor|]. intro N. exfalso. now apply N.
  - destruct (LazyTranslate w user [] a) as [b [r|]]; [|repeat constructor].
    destruct (negb (tr_status_ok r)); [cbn [is_nil]; repeat constructor|].
    destruct (ApplyResponse r [] b) as [b' pa]. destruct (negb (CheckTranslateResponse r)); [repeat constructor|].
    apply method_told; auto.
Qed.

(** the domains of lines follow from the lines *)
Lemma grun_talk : forall cfg x sid peer dom ops, exists ls,
  seen (grun cfg x sid peer dom ops) = talk x (dom, []) ls.
Proof.
  intros cfg x sid peer dom ops. induction ops as [|op ops IH] using rev_ind; [exists []; reflexivity|].
  rewrite grun_snoc. destruct IH as (ls & IH). destruct (gstep_tells cfg x sid op (grun cfg x sid peer dom ops)) as [(tail & S & _)].
  exists (ls ++ step_lines cfg sid op (grun cfg x sid peer dom ops) ++ tail). rewrite S, IH. symmetry. apply talk_app.
Qed.

Lemma talk_cons : forall x d l m ls, talk x (d, l) (m :: ls) = talk x (next_domain x m d, l ++ [(d, m)]) ls.
Proof. reflexivity. Qed.

Lemma talk_snd : forall x ls d l, snd (talk x (d, l) ls) = l ++ snd (talk x (d, []) ls).
Proof.
  intros x ls. induction ls as [|m ls IH]; intros d l; [cbn; now rewrite app_nil_r|].
  rewrite !talk_cons, (IH _ (l ++ _)), (IH _ ([] ++ _)). cbn [List.app]. now rewrite <- app_assoc.
Qed.

Lemma talk_prefix : forall x a ls d, (exists t, d = a ++ t) -> Forall no_address ls ->
  Forall (fun e => exists t, fst e = a ++ t) (snd (talk x (d, []) ls)).
Proof.
  intros x a ls. induction ls as [|m ls IH]; intros d D N; [constructor|]. inversion N as [|? ? N1 N2]; subst.
  rewrite talk_cons, talk_snd. cbn [List.app]. constructor; [exact D|]. apply IH; [|exact N2].
  destruct D as (t & ->). destruct m; cbn [next_domain]; try (exists t; reflexivity); try destruct N1;
    eexists; rewrite <- app_assoc; reflexivity.
Qed.

Lemma talk_cut : forall x ls d before e m after, snd (talk x (d, []) ls) = before ++ (e, m) :: after ->
  exists l1 l2, ls = l1 ++ m :: l2 /\ after = snd (talk x (next_domain x m e, []) l2).
Proof.
  intros x ls. induction ls as [|n ls IH]; intros d before e m after H; [destruct before; discriminate H|].
  rewrite talk_cons, talk_snd in H. cbn [List.app] in H. destruct before as [|b before]; cbn [List.app] in H.
  - injection H as -> -> H. exists [], ls. split; [reflexivity|]. now rewrite H.
  - injection H as _ H. destruct (IH _ _ _ _ _ H) as (l1 & l2 & -> & ->). exists (n :: l1), l2. auto.
Qed.

(** ** Quoted text *)

Lemma hex_range : forall n, n < 16 -> 48 <= hex_digit n < 127 /\ hex_digit n <> 92.
Proof. intros n H. unfold hex_digit. destruct (N.ltb_spec n 10); lia. Qed.

Lemma hex_inj : forall n m, hex_digit n = hex_digit m -> n < 16 -> m < 16 -> n = m.
Proof. intros n m. unfold hex_digit. destruct (N.ltb_spec n 10), (N.ltb_spec m 10); lia. Qed.

Lemma escape_visible : forall x c, c < 256 -> Forall (visible x) (escape x c).
Proof.
  intros x c H. unfold escape, visible.
  destruct (c =? 10); [repeat (constructor; [left; lia|]); constructor|].
  destruct (c =? 13); [repeat (constructor; [left; lia|]); constructor|].
  destruct (c =? 9); [repeat (constructor; [left; lia|]); constructor|].
  destruct ((c =? 34) || (c =? 92)) eqn:Q.
  { apply orb_true_iff in Q. rewrite !N.eqb_eq in Q. repeat (constructor; [left; lia|]). constructor. }
  destruct ((32 <=? c) && (c <? 127) || (127 <? c) && tx_printable x c) eqn:V.
  { constructor; [|constructor]. apply orb_true_iff in V as [V|V]; apply andb_true_iff in V as [V1 V2].
    - left. apply N.leb_le in V1. apply N.ltb_lt in V2. lia.
    - right. apply N.ltb_lt in V1. auto. }
  assert (c / 16 < 16) by (apply N.div_lt_upper_bound; lia). assert (c mod 16 < 16) by (apply N.mod_lt; lia).
  destruct (hex_range (c / 16)) as [? _]; [assumption|]. destruct (hex_range (c mod 16)) as [? _]; [assumption|].
  repeat (constructor; [left; lia|]). constructor.
Qed.

Lemma quote_visible : forall x s, bytes_ok s -> Forall (visible x) (quote x s).
Proof.
  intros x s B. constructor; [left; lia|]. apply Forall_app. split; [|constructor; [left; lia|constructor]].
  apply Forall_forall. intros c I. apply in_flat_map in I as (b & J & I). unfold bytes_ok in B. rewrite Forall_forall in B.
  specialize (B b J). pose proof (escape_visible x b B) as E. rewrite Forall_forall in E. exact (E c I).
Qed.

(** two escaped bytes are equal, or differ within both *)
Lemma escape_prefix : forall x a b r r', a < 256 -> b < 256 -> escape x a ++ r = escape x b ++ r' -> a = b /\ r = r'.
Proof.
  assert (SH : forall x c, c < 256 ->
    (escape x c = [92; 110] /\ c = 10) \/ (escape x c = [92; 114] /\ c = 13) \/ (escape x c = [92; 116] /\ c = 9) \/
    (escape x c = [92; 34] /\ c = 34) \/ (escape x c = [92; 92] /\ c = 92) \/
    (escape x c = [c] /\ c <> 92) \/ (escape x c = [92; 120; hex_digit (c / 16); hex_digit (c mod 16)])).
  { intros x c H. unfold escape.
    destruct (N.eqb_spec c 10); [auto|]. destruct (N.eqb_spec c 13); [auto|]. destruct (N.eqb_spec c 9); [auto|].
    destruct (N.eqb_spec c 34) as [->|N34]; cbn [orb]; [auto 6|]. destruct (N.eqb_spec c 92) as [->|N92]; [auto 7|].
    destruct (_ || _); auto 10. }
  intros x a b r r' Ha Hb E.
  destruct (SH x a Ha) as [[A A']|[[A A']|[[A A']|[[A A']|[[A A']|[[A A']|A]]]]]];
  destruct (SH x b Hb) as [[B B']|[[B B']|[[B B']|[[B B']|[[B B']|[[B B']|B]]]]]];
    rewrite A, B in E; cbn [List.app] in E; try discriminate E;
    try (injection E as E; split; congruence); try (injection E as E1 E2; exfalso; congruence).
  injection E as E1 E2 E3. split; [|exact E3].
  rewrite (N.div_mod' a 16), (N.div_mod' b 16).
  rewrite (hex_inj _ _ E1) by (apply N.div_lt_upper_bound; lia). rewrite (hex_inj _ _ E2) by (apply N.mod_lt; lia). reflexivity.
Qed.

Lemma escape_head : forall x c r, exists h t, escape x c ++ r = h :: t /\ h <> 34.
Proof.
  intros x c r. unfold escape. destruct (c =? 10); [eexists _, _; split; [reflexivity|discriminate]|].
  destruct (c =? 13); [eexists _, _; split; [reflexivity|discriminate]|]. destruct (c =? 9); [eexists _, _; split; [reflexivity|discriminate]|].
  destruct (N.eqb_spec c 34) as [->|N34]; cbn [orb]; [eexists _, _; split; [reflexivity|discriminate]|].
  destruct (c =? 92); [eexists _, _; split; [reflexivity|discriminate]|].
  destruct (_ || _); eexists _, _; (split; [reflexivity|]); [exact N34|discriminate].
Qed.

Lemma quote_inj : forall x a b r r', bytes_ok a -> bytes_ok b -> quote x a ++ r = quote x b ++ r' -> a = b /\ r = r'.
Proof.
  intros x a b r r' A B E. unfold quote in E. cbn [List.app] in E. injection E as E. rewrite <- !app_assoc in E. cbn [List.app] in E.
  revert b B E. induction A as [|c a C A IH]; intros [|d b] B E; cbn [flat_map List.app] in E.
  - injection E as ->. auto.
  - exfalso. rewrite <- app_assoc in E. destruct (escape_head x d (flat_map (escape x) b ++ 34 :: r')) as (h & t & F & N). rewrite F in E. congruence.
  - exfalso. rewrite <- app_assoc in E. destruct (escape_head x c (flat_map (escape x) a ++ 34 :: r)) as (h & t & F & N). rewrite F in E. congruence.
  - rewrite <- !app_assoc in E. inversion B as [|? ? D B']; subst. apply escape_prefix in E as [-> E]; [|assumption..].
    destruct (IH b B' E) as [-> ->]. auto.
Qed.
