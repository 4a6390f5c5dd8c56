(** Facts about the counters for authentication requests (C82). *)

From Coq Require Import NArith Arith List Bool Lia String.
From Verif.Base Require Import Bytes.
From Verif.Spec Require Import WireSpec KeySpec AuthSpec MetricsSpec.
From Verif.Model Require Import Wire Packets StringList KeyOptions Auth Session Server Metrics.
From Verif.Proofs Require Import WireFacts PacketFacts KeyFacts AuthFacts ServerFacts.
Import ListNotations.
Open Scope N_scope.

Local Arguments bs : simpl never.

(** ** Nothing else is different *)

Lemma fst_also : forall l x, fst (also l x) = fst x.
Proof. reflexivity. Qed.

Lemma erase_publickey : forall cfg w sid payload user d methods arch sticky a,
  fst (NPublicKey cfg w sid payload user d methods arch sticky a) = AuthPublicKey cfg w sid payload user d methods arch sticky a.
Proof.
  intros. unfold NPublicKey, AuthPublicKey.
  repeat match goal with
  | |- context [match ReadBool ?d with _ => _ end] => destruct (ReadBool d) as [[? ?]|]
  | |- context [match ReadString ?d with _ => _ end] => destruct (ReadString d) as [[? ?]|]
  | |- context [match ReadLengthEncoded ?d with _ => _ end] => destruct (ReadLengthEncoded d) as [[? ?]|]
  | |- context [match ExpectEnd ?d with _ => _ end] => destruct (ExpectEnd d)
  | |- context [match IsAcceptedPublicKey ?a ?b ?c ?d with _ => _ end] => rewrite fst_also; destruct (IsAcceptedPublicKey a b c d) as [? []]
  | |- context [if ?b then _ else _] => destruct b
  end; reflexivity.
Qed.

Lemma erase_hostbased : forall cfg sid payload user d methods arch sticky a,
  fst (NHostbased cfg sid payload user d methods arch sticky a) = AuthHostbased cfg sid payload user d methods arch sticky a.
Proof.
  intros. unfold NHostbased, AuthHostbased.
  repeat match goal with
  | |- context [match ReadString ?d with _ => _ end] => destruct (ReadString d) as [[? ?]|]
  | |- context [match ReadLengthEncoded ?d with _ => _ end] => destruct (ReadLengthEncoded d) as [[? ?]|]
  | |- context [match ExpectEnd ?d with _ => _ end] => destruct (ExpectEnd d)
  | |- context [match IsAcceptedHostPublicKey ?a ?b ?c with _ => _ end] => destruct (IsAcceptedHostPublicKey a b c) as [? []]
  | |- context [if negb (cf_parse_key ?a ?b) then _ else _] => destruct (cf_parse_key a b)
  | |- context [if VerifyRequest ?a ?b ?c ?d ?e then _ else _] => destruct (VerifyRequest a b c d e)
  end; reflexivity.
Qed.

Lemma erase_method : forall cfg w sid payload user method d methods pa arch sticky a,
  fst (NMethod cfg w sid payload user method d methods pa arch sticky a) =
  AuthMethod cfg w sid payload user method d methods pa arch sticky a.
Proof.
  intros. unfold NMethod, AuthMethod.
  destruct (bytes_eqb method (bs "publickey")); [apply erase_publickey|].
  destruct (bytes_eqb method (bs "hostbased")); [apply erase_hostbased|].
  destruct pa; reflexivity.
Qed.

Lemma erase_translation : forall cfg w sid payload user method d a,
  fst (NTranslation cfg w sid payload user method d a) = AuthTranslation cfg w sid payload user method d a.
Proof.
  intros. unfold NTranslation, AuthTranslation. cbv zeta.
  assert (T : forall password d0,
    fst (match LazyTranslate w user password a with
    | (a, None) => ((a, Die), [Count TranslationErrors; Spend 2000])
    | (a, Some r) =>
        if negb (tr_status_ok r) then
          ((a, Failure []), [Spend 8000; Count (if is_nil password then UnknownFailed else PasswordFailed)])
        else
          let '(a, password_accepted) := ApplyResponse r password a in
          if negb (CheckTranslateResponse r) then ((a, Die), [Count TranslationErrors; Spend 2000])
          else
            also (if password_accepted then [Count PasswordAccepted] else [])
              (NMethod cfg w sid payload user method d0
                 (AuthMethods (match cf_authorized_host_keys cfg with [] => false | _ => true end) true) password_accepted (tr_arch r)
                 (match tr_site r with Some site => site | None => user end) a)
    end) =
    match LazyTranslate w user password a with
    | (a, None) => (a, Die)
    | (a, Some r) =>
        if negb (tr_status_ok r) then (a, Failure [])
        else
          let '(a, password_accepted) := ApplyResponse r password a in
          if negb (CheckTranslateResponse r) then (a, Die)
          else AuthMethod cfg w sid payload user method d0
                 (AuthMethods (match cf_authorized_host_keys cfg with [] => false | _ => true end) true) password_accepted (tr_arch r)
                 (match tr_site r with Some site => site | None => user end) a
    end).
  { intros password d0. destruct (LazyTranslate w user password a) as [b [r|]]; [|reflexivity].
    destruct (tr_status_ok r); [|reflexivity]. cbn [negb]. destruct (ApplyResponse r password b) as [b' pa].
    destruct (CheckTranslateResponse r); [|reflexivity]. cbn [negb]. rewrite fst_also. apply erase_method. }
  destruct (bytes_eqb method (bs "password")); [|apply T].
  destruct (ReadBool d) as [[change d1]|]; [|reflexivity]. destruct (ReadString d1) as [[password d2]|]; [|reflexivity].
  destruct (ExpectEnd d2); [|reflexivity]. destruct change; [reflexivity|]. specialize (T password d2).
  destruct (is_nil password); [reflexivity|]. exact T.
Qed.

Lemma erase_request : forall cfg w sid payload a,
  fst (NUserAuthRequest cfg w sid payload a) = OnUserAuthRequest cfg w sid payload a.
Proof.
  intros. unfold NUserAuthRequest, OnUserAuthRequest.
  destruct (ReadString payload) as [[user d]|]; [|reflexivity]. destruct (ReadString d) as [[service d1]|]; [|reflexivity].
  destruct (ReadString d1) as [[method d2]|]; [|reflexivity].
  destruct (negb (bytes_eqb service (bs "ssh-connection"))); [reflexivity|].
  destruct (negb (IsValidUsername user)); [reflexivity|].
  destruct (cf_translation_server cfg); [apply erase_translation|]. cbv zeta.
  destruct (w_getpwnam w user); [apply erase_method|reflexivity].
Qed.

(** ** Counting *)

Lemma how_many_app : forall {A} (p : A -> bool) l l', how_many p (l ++ l') = (how_many p l + how_many p l')%nat.
Proof. intros. unfold how_many. now rewrite filter_app, app_length. Qed.

Lemma value_app : forall m l l', value m (l ++ l') = (value m l + value m l')%nat.
Proof. intros. apply how_many_app. Qed.

Lemma accepted_app : forall l l', accepted_total (l ++ l') = (accepted_total l + accepted_total l')%nat.
Proof. intros. unfold accepted_total. rewrite !value_app. lia. Qed.

Lemma failed_app : forall l l', failed_total (l ++ l') = (failed_total l + failed_total l')%nat.
Proof. intros. unfold failed_total. rewrite !value_app. lia. Qed.

(** ** One request *)

Definition answer_out (o : outcome) : answer :=
  match o with Failure _ => Refused | PkOk _ _ => Continue | Die => Closed | Accepted _ => LoggedIn end.

Definition one_if (b : bool) : nat := if b then 1 else 0.
Definition is_login (a : answer) : bool := match a with LoggedIn => true | _ => false end.
Definition is_refusal (a : answer) : bool := match a with Refused => true | _ => false end.

(** Its share of the sums; the booleans: the service and the methods. *)
Record share (svc kp kh kpw kn : bool) (np : Prop) (ans : answer) (n : list note) : Prop := {
  sh_received : value Received n = 0%nat;
  sh_publickey : value PublickeyAccepted n = one_if (is_login ans && kp);
  sh_hostbased : value HostbasedAccepted n = one_if (is_login ans && kh);
  sh_login : (one_if (is_login ans) <= accepted_total n)%nat;
  sh_password : np -> value PasswordAccepted n = one_if (is_login ans && kpw) /\ accepted_total n = one_if (is_login ans);
  sh_failed : (failed_total n + value Unsupported n <= one_if (is_refusal ans))%nat;
  sh_refused : (one_if (is_refusal ans && svc && negb kn) <= failed_total n + value Unsupported n)%nat;
  sh_change : (value Unsupported n <= one_if (is_refusal ans && kpw))%nat;
  sh_password_failed : (value PasswordFailed n <= one_if (is_refusal ans && kpw))%nat;
  sh_publickey_failed : (value PublickeyFailed n <= one_if (is_refusal ans && kp))%nat;
  sh_hostbased_failed : (value HostbasedFailed n <= one_if (is_refusal ans && kh))%nat;
  sh_unsupported_failed : (value UnsupportedFailed n <= one_if (is_refusal ans && negb kp && negb kh && negb kn))%nat
}.

Ltac solve_share := constructor; try (intro; split); try reflexivity; try (cbv; lia).

Lemma share_also_spend : forall svc kp kh kpw kn np ans n t, share svc kp kh kpw kn np ans n -> share svc kp kh kpw kn np ans (Spend t :: n).
Proof. intros svc kp kh kpw kn np ans n t [X1 X2 X3 X4 X5 X6 X7 X8 X9 X10 X11 X12]. constructor; assumption. Qed.

(** Methods are different. *)
Definition apart (kp kh kpw kn : bool) : Prop :=
  (kp = true -> kh = false /\ kpw = false /\ kn = false) /\ (kh = true -> kpw = false /\ kn = false) /\ (kpw = true -> kn = false).

Lemma methods_apart : forall m, apart (bytes_eqb m (bs "publickey")) (bytes_eqb m (bs "hostbased")) (bytes_eqb m (bs "password")) (bytes_eqb m (bs "none")).
Proof.
  intro m. unfold apart. split; [|split]; intro H; apply bytes_eqb_eq in H; subst m; auto.
Qed.

Lemma publickey_share : forall cfg w sid payload user d methods arch sticky a x np,
  NPublicKey cfg w sid payload user d methods arch sticky a = x -> share true true false false false np (answer_out (snd (fst x))) (snd x).
Proof.
  intros cfg w sid payload user d methods arch sticky a x np E. unfold NPublicKey in E.
  repeat match type of E with
  | context [match ReadBool ?d with _ => _ end] => destruct (ReadBool d) as [[? ?]|]
  | context [match ReadString ?d with _ => _ end] => destruct (ReadString d) as [[? ?]|]
  | context [match ReadLengthEncoded ?d with _ => _ end] => destruct (ReadLengthEncoded d) as [[? ?]|]
  | context [match ExpectEnd ?d with _ => _ end] => destruct (ExpectEnd d)
  | context [match IsAcceptedPublicKey ?a ?b ?c ?d with _ => _ end] => destruct (IsAcceptedPublicKey a b c d) as [? []]
  | context [if ?b then _ else _] => destruct b
  end; subst x; solve_share.
Qed.

Lemma hostbased_share : forall cfg sid payload user d methods arch sticky a x np,
  NHostbased cfg sid payload user d methods arch sticky a = x -> share true false true false false np (answer_out (snd (fst x))) (snd x).
Proof.
  intros cfg sid payload user d methods arch sticky a x np E. unfold NHostbased in E.
  repeat match type of E with
  | context [match ReadString ?d with _ => _ end] => destruct (ReadString d) as [[? ?]|]
  | context [match ReadLengthEncoded ?d with _ => _ end] => destruct (ReadLengthEncoded d) as [[? ?]|]
  | context [match ExpectEnd ?d with _ => _ end] => destruct (ExpectEnd d)
  | context [match IsAcceptedHostPublicKey ?a ?b ?c with _ => _ end] => destruct (IsAcceptedHostPublicKey a b c) as [? []]
  | context [if negb (cf_parse_key ?a ?b) then _ else _] => destruct (cf_parse_key a b)
  | context [if VerifyRequest ?a ?b ?c ?d ?e then _ else _] => destruct (VerifyRequest a b c d e)
  end; subst x; solve_share.
Qed.

(** With what was counted for the password before.  [np]: what is known when
    no account is without a password. *)
Lemma method_share : forall cfg w sid payload user method d methods pa arch sticky a (np : Prop) x,
  (np -> pa = bytes_eqb method (bs "password")) ->
  also (if pa then [Count PasswordAccepted] else []) (NMethod cfg w sid payload user method d methods pa arch sticky a) = x ->
  share true (bytes_eqb method (bs "publickey")) (bytes_eqb method (bs "hostbased")) (bytes_eqb method (bs "password")) (bytes_eqb method (bs "none"))
    np (answer_out (snd (fst x))) (snd x).
Proof.
  intros cfg w sid payload user method d methods pa arch sticky a np x NP E.
  pose proof (methods_apart method) as (A1 & A2 & A3). unfold NMethod in E.
  assert (K : forall kp kh x0, share true kp kh false false np (answer_out (snd (fst x0))) (snd x0) -> (np -> pa = false) ->
    share true kp kh false false np (answer_out (snd (fst (also (if pa then [Count PasswordAccepted] else []) x0))))
      (snd (also (if pa then [Count PasswordAccepted] else []) x0))).
  { intros kp kh x0 S P. rewrite fst_also. unfold also. cbn [snd]. destruct pa; [|exact S].
    destruct S as [X1 X2 X3 X4 X5 X6 X7 X8 X9 X10 X11 X12]. constructor; try assumption.
    - unfold accepted_total in *. change (value PasswordAccepted ([Count PasswordAccepted] ++ snd x0)) with (S (value PasswordAccepted (snd x0))).
      change (value PublickeyAccepted ([Count PasswordAccepted] ++ snd x0)) with (value PublickeyAccepted (snd x0)).
      change (value HostbasedAccepted ([Count PasswordAccepted] ++ snd x0)) with (value HostbasedAccepted (snd x0)). lia.
    - intro Q. specialize (P Q). discriminate. }
  destruct (bytes_eqb method (bs "publickey")) eqn:KP.
  { destruct (A1 eq_refl) as (-> & E2 & ->). rewrite E2 in *. rewrite <- E. apply K; [|exact NP]. eapply publickey_share. reflexivity. }
  destruct (bytes_eqb method (bs "hostbased")) eqn:KH.
  { destruct (A2 eq_refl) as (E2 & ->). rewrite E2 in *. rewrite <- E. apply K; [|exact NP]. eapply hostbased_share. reflexivity. }
  destruct pa.
  - destruct (bytes_eqb method (bs "password")) eqn:KW.
    + rewrite (A3 eq_refl). subst x. solve_share.
    + subst x. destruct (bytes_eqb method (bs "none")); (constructor; try reflexivity; try (cbv; lia); intro Q; specialize (NP Q); discriminate).
  - destruct (bytes_eqb method (bs "none")) eqn:KN.
    + assert (W : bytes_eqb method (bs "password") = false) by (destruct (bytes_eqb method (bs "password")); [specialize (A3 eq_refl); discriminate|reflexivity]).
      rewrite W in *. subst x. solve_share.
    + subst x. destruct (bytes_eqb method (bs "password")) eqn:KW; (constructor; try (intro; split); try reflexivity; try (cbv; lia)).
Qed.

(** No response without password, here and in what the connection remembers *)
Definition password_world (w : world) : Prop :=
  forall user password r, w_translate w user password = Some r -> tr_no_password r = None.
Definition password_account (a : account) : Prop :=
  forall user r, ac_translation a = Some (user, r) -> tr_no_password r = None.

Lemma LazyTranslate_np : forall w user password a b r, password_world w -> password_account a ->
  LazyTranslate w user password a = (b, Some r) -> tr_no_password r = None.
Proof.
  intros w user password a b r W A E. unfold LazyTranslate in E.
  assert (ASK : (let r := w_translate w user password in
    let a := log_event (ATranslate user password r) a in
    match r with Some r => (set_translation (user, r) a, Some r) | None => (a, None) end) = (b, Some r) -> tr_no_password r = None).
  { cbv zeta. destruct (w_translate w user password) as [r'|] eqn:T; [|discriminate]. intro X.
    assert (r' = r) by congruence. subst r'. now apply W in T. }
  destruct (ac_translation a) as [[u r']|] eqn:T; [|now apply ASK].
  destruct (is_nil password && bytes_eqb user u); [|now apply ASK]. assert (r' = r) by congruence. subst r'. now apply (A u).
Qed.

Lemma request_share : forall cfg w sid payload a user d service d1 method d2 x,
  ReadString payload = Some (user, d) -> ReadString d = Some (service, d1) -> ReadString d1 = Some (method, d2) ->
  NUserAuthRequest cfg w sid payload a = x ->
  share (bytes_eqb service (bs "ssh-connection")) (bytes_eqb method (bs "publickey")) (bytes_eqb method (bs "hostbased"))
    (bytes_eqb method (bs "password")) (bytes_eqb method (bs "none"))
    (password_world w /\ password_account a) (answer_out (snd (fst x))) (snd x).
Proof.
  intros cfg w sid payload a user d service d1 method d2 x R1 R2 R3 E. unfold NUserAuthRequest in E. rewrite R1, R2, R3 in E.
  destruct (bytes_eqb service (bs "ssh-connection")); cbn [negb] in E; [|subst x; solve_share].
  destruct (IsValidUsername user); cbn [negb] in E; [|subst x; solve_share].
  destruct (cf_translation_server cfg).
  - unfold NTranslation in E. cbv zeta in E.
    pose proof (methods_apart method) as (A1 & A2 & A3).
    assert (KW : bytes_eqb method (bs "password") = true -> bytes_eqb method (bs "publickey") = false /\ bytes_eqb method (bs "hostbased") = false /\ bytes_eqb method (bs "none") = false).
    { intro X. apply bytes_eqb_eq in X. subst method. auto. }
    assert (T : forall password d0 x, is_nil password = negb (bytes_eqb method (bs "password")) ->
      match LazyTranslate w user password a with
      | (a, None) => ((a, Die), [Count TranslationErrors; Spend 2000])
      | (a, Some r) =>
          if negb (tr_status_ok r) then
            ((a, Failure []), [Spend 8000; Count (if is_nil password then UnknownFailed else PasswordFailed)])
          else
            let '(a, password_accepted) := ApplyResponse r password a in
            if negb (CheckTranslateResponse r) then ((a, Die), [Count TranslationErrors; Spend 2000])
            else
              also (if password_accepted then [Count PasswordAccepted] else [])
                (NMethod cfg w sid payload user method d0
                   (AuthMethods (match cf_authorized_host_keys cfg with [] => false | _ => true end) true) password_accepted (tr_arch r)
                   (match tr_site r with Some site => site | None => user end) a)
      end = x ->
      share true (bytes_eqb method (bs "publickey")) (bytes_eqb method (bs "hostbased"))
        (bytes_eqb method (bs "password")) (bytes_eqb method (bs "none"))
        (password_world w /\ password_account a) (answer_out (snd (fst x))) (snd x)).
    { clear E x. intros password d0 x NE E. destruct (LazyTranslate w user password a) as [b [r|]] eqn:L; [|subst x; solve_share].
      destruct (tr_status_ok r); cbn [negb] in E.
      2: { rewrite NE in E. destruct (bytes_eqb method (bs "password")) eqn:W.
           - destruct (KW eq_refl) as (-> & -> & ->). subst x. solve_share.
           - subst x. cbn [negb]. constructor; try (intro; split); try reflexivity; try (cbv; lia); destruct (bytes_eqb method (bs "none")), (bytes_eqb method (bs "publickey")), (bytes_eqb method (bs "hostbased")); cbv; lia. }
      destruct (ApplyResponse r password b) as [b' pa] eqn:AR.
      destruct (CheckTranslateResponse r); cbn [negb] in E; [|subst x; solve_share].
      eapply method_share; [|exact E]. intros [W A].
      pose proof (LazyTranslate_np _ _ _ _ _ _ W A L) as NP. unfold ApplyResponse in AR. cbv zeta in AR. rewrite NE, NP in AR.
      destruct (bytes_eqb method (bs "password")); cbn [negb] in AR; congruence. }
    destruct (bytes_eqb method (bs "password")) eqn:W; [|apply (T [] d2 x eq_refl E)].
    destruct (ReadBool d2) as [[change d3]|]; [|subst x; solve_share]. destruct (ReadString d3) as [[password d4]|]; [|subst x; solve_share].
    destruct (KW eq_refl) as (K1 & K2 & K3).
    destruct (ExpectEnd d4); [|subst x; solve_share]. destruct change; [subst x; rewrite K1, K2, K3; solve_share|].
    destruct (is_nil password) eqn:N; [subst x; rewrite K1, K2, K3; solve_share|].
    match type of E with also _ ?y = _ => assert (S := T password d4 y) end. rewrite N in S. specialize (S eq_refl eq_refl).
    rewrite <- E, fst_also. unfold also. cbn [snd app]. now apply share_also_spend.
  - cbv zeta in E. destruct (w_getpwnam w user) as [p|].
    2: { subst x. constructor; try (intro; split); try reflexivity; try (cbv; lia);
         destruct (bytes_eqb method (bs "none")), (bytes_eqb method (bs "publickey")), (bytes_eqb method (bs "hostbased")), (bytes_eqb method (bs "password")); cbv; lia. }
    (* no password is accepted here *)
    pose proof (method_share cfg w sid payload user method d2
      (AuthMethods (match cf_authorized_host_keys cfg with [] => false | _ => true end) false) false ARCH_NONE user
      (set_passwd p (log_event (AGetpwnam user (Some p)) a)) False x (fun f => match f with end)) as S.
    cbn [also app] in S. destruct x as [x n]. unfold also in S. cbn [app] in S. rewrite E in S. specialize (S eq_refl).
    destruct S as [X1 X2 X3 X4 _ X6 X7 X8 X9 X10 X11 X12]. constructor; try assumption.
    intros _.
    assert (PA : value PasswordAccepted n = 0%nat /\ (is_login (answer_out (snd x)) = true ->
      bytes_eqb method (bs "publickey") = true \/ bytes_eqb method (bs "hostbased") = true)).
    { clear -E. unfold NMethod in E. destruct (bytes_eqb method (bs "publickey")).
      - split; [|auto]. unfold NPublicKey in E.
        repeat match type of E with
        | context [match ReadBool ?d with _ => _ end] => destruct (ReadBool d) as [[? ?]|]
        | context [match ReadString ?d with _ => _ end] => destruct (ReadString d) as [[? ?]|]
        | context [match ReadLengthEncoded ?d with _ => _ end] => destruct (ReadLengthEncoded d) as [[? ?]|]
        | context [match ExpectEnd ?d with _ => _ end] => destruct (ExpectEnd d)
        | context [match IsAcceptedPublicKey ?a ?b ?c ?d with _ => _ end] => destruct (IsAcceptedPublicKey a b c d) as [? []]
        | context [if ?b then _ else _] => destruct b
        end; apply (f_equal snd) in E; cbn in E; subst n; reflexivity.
      - destruct (bytes_eqb method (bs "hostbased")).
        + split; [|auto]. unfold NHostbased in E.
          repeat match type of E with
          | context [match ReadString ?d with _ => _ end] => destruct (ReadString d) as [[? ?]|]
          | context [match ReadLengthEncoded ?d with _ => _ end] => destruct (ReadLengthEncoded d) as [[? ?]|]
          | context [match ExpectEnd ?d with _ => _ end] => destruct (ExpectEnd d)
          | context [match IsAcceptedHostPublicKey ?a ?b ?c with _ => _ end] => destruct (IsAcceptedHostPublicKey a b c) as [? []]
          | context [if negb (cf_parse_key ?a ?b) then _ else _] => destruct (cf_parse_key a b)
          | context [if VerifyRequest ?a ?b ?c ?d ?e then _ else _] => destruct (VerifyRequest a b c d e)
          end; apply (f_equal snd) in E; cbn in E; subst n; reflexivity.
        + split; [destruct (bytes_eqb method (bs "none")); apply (f_equal snd) in E; cbn in E; subst n; reflexivity|].
          apply (f_equal fst) in E. cbn in E. subst x. discriminate. }
    destruct PA as [P1 P2]. pose proof (methods_apart method) as (A1 & A2 & A3). unfold accepted_total. cbn [fst snd] in *. rewrite P1, X2, X3.
    destruct (is_login (answer_out (snd x))); [|auto]. cbn [andb].
    destruct (P2 eq_refl) as [K|K]; rewrite K in *.
    + destruct (A1 eq_refl) as (K1 & K2 & K3). rewrite K1, K2. auto.
    + destruct (A2 eq_refl) as (K2 & K3). rewrite K2. destruct (bytes_eqb method (bs "publickey")); [destruct (A1 eq_refl) as [Z _]; discriminate|auto].
Qed.

(** ** What a connection remembers *)

Lemma publickey_keeps : forall cfg w sid payload user d methods arch sticky a,
  ac_translation (fst (AuthPublicKey cfg w sid payload user d methods arch sticky a)) = ac_translation a.
Proof.
  intros. unfold AuthPublicKey. destruct (ReadBool d) as [[ws d1]|]; [|reflexivity].
  destruct (ReadString d1) as [[alg d2]|]; [|reflexivity]. destruct (ReadLengthEncoded d2) as [[blob d3]|]; [|reflexivity].
  match goal with |- context [IsAcceptedPublicKey ?c ?w ?b ?a] => pose proof (IsAcceptedPublicKey_sbo c w b a) as (_ & _ & K & _);
    destruct (IsAcceptedPublicKey c w b a) as [a' ok] end. cbn [fst] in K.
  repeat match goal with
  | |- context [match ReadLengthEncoded ?d with _ => _ end] => destruct (ReadLengthEncoded d) as [[? ?]|]
  | |- context [match ExpectEnd ?d with _ => _ end] => destruct (ExpectEnd d)
  | |- context [if ?b then _ else _] => destruct b
  end; exact K.
Qed.

Lemma hostbased_keeps : forall cfg sid payload user d methods arch sticky a,
  ac_translation (fst (AuthHostbased cfg sid payload user d methods arch sticky a)) = ac_translation a.
Proof.
  intros. unfold AuthHostbased, IsAcceptedHostPublicKey.
  repeat match goal with
  | |- context [match ReadString ?d with _ => _ end] => destruct (ReadString d) as [[? ?]|]; try reflexivity
  | |- context [match ReadLengthEncoded ?d with _ => _ end] => destruct (ReadLengthEncoded d) as [[? ?]|]; try reflexivity
  | |- context [match ExpectEnd ?d with _ => _ end] => destruct (ExpectEnd d); try reflexivity
  | |- context [match Find ?a ?b with _ => _ end] => destruct (Find a b)
  | |- context [if negb (cf_parse_key ?a ?b) then _ else _] => destruct (cf_parse_key a b)
  | |- context [if VerifyRequest ?a ?b ?c ?d ?e then _ else _] => destruct (VerifyRequest a b c d e)
  end; try reflexivity.
  destruct (cf_accept_client_address cfg); [|reflexivity].
  match goal with |- context [Split ?x ?y] => destruct (Split x y) as [uu vv] end.
  destruct (negb (is_nil uu) && negb (is_nil vv)); [|reflexivity]. destruct (cf_parse_address cfg (c_str vv)); reflexivity.
Qed.

Lemma method_keeps : forall cfg w sid payload user method d methods pa arch sticky a,
  ac_translation (fst (AuthMethod cfg w sid payload user method d methods pa arch sticky a)) = ac_translation a.
Proof.
  intros. unfold AuthMethod. destruct (bytes_eqb method (bs "publickey")); [apply publickey_keeps|].
  destruct (bytes_eqb method (bs "hostbased")); [apply hostbased_keeps|]. destruct pa; reflexivity.
Qed.

Lemma apply_keeps : forall r password a, ac_translation (fst (ApplyResponse r password a)) = ac_translation a.
Proof.
  intros. unfold ApplyResponse. cbv zeta.
  destruct (tr_token r) as [t|]; [destruct (bytes_eqb t (bs "sftp-only"))|]; destruct (tr_execute_options r);
    (destruct (negb (is_nil password)); [reflexivity|]; destruct (tr_no_password r) as [np|]; [destruct (bytes_eqb np SFTP); reflexivity|reflexivity]).
Qed.

Lemma request_keeps : forall cfg w sid payload a, password_world w -> password_account a ->
  password_account (fst (OnUserAuthRequest cfg w sid payload a)).
Proof.
  intros cfg w sid payload a W A. unfold OnUserAuthRequest.
  destruct (ReadString payload) as [[user d]|]; [|exact A]. destruct (ReadString d) as [[service d1]|]; [|exact A].
  destruct (ReadString d1) as [[method d2]|]; [|exact A].
  destruct (negb (bytes_eqb service (bs "ssh-connection"))); [exact A|].
  destruct (negb (IsValidUsername user)); [exact A|].
  destruct (cf_translation_server cfg).
  - unfold AuthTranslation. cbv zeta.
    assert (T : forall password d0, password_account (fst
      (match LazyTranslate w user password a with
      | (a, None) => (a, Die)
      | (a, Some r) =>
          if negb (tr_status_ok r) then (a, Failure [])
          else
            let '(a, password_accepted) := ApplyResponse r password a in
            if negb (CheckTranslateResponse r) then (a, Die)
            else AuthMethod cfg w sid payload user method d0
                   (AuthMethods (match cf_authorized_host_keys cfg with [] => false | _ => true end) true) password_accepted (tr_arch r)
                   (match tr_site r with Some site => site | None => user end) a
      end))).
    { intros password d0.
      assert (L : password_account (fst (LazyTranslate w user password a))).
      { unfold LazyTranslate.
        assert (ASK : password_account (fst (let r := w_translate w user password in
          let a := log_event (ATranslate user password r) a in
          match r with Some r => (set_translation (user, r) a, Some r) | None => (a, None) end))).
        { cbv zeta. destruct (w_translate w user password) as [r|] eqn:E; [|exact A].
          intros u r' X. cbn in X. assert (r' = r) by congruence. subst r'. now apply W in E. }
        destruct (ac_translation a) as [[u r]|]; [|exact ASK]. destruct (is_nil password && bytes_eqb user u); [exact A|exact ASK]. }
      destruct (LazyTranslate w user password a) as [b [r|]]; [|exact L]. cbn [fst] in L.
      destruct (negb (tr_status_ok r)); [exact L|]. pose proof (apply_keeps r password b) as K.
      destruct (ApplyResponse r password b) as [b' pa]. cbn [fst] in K.
      assert (L' : password_account b') by (unfold password_account in *; now rewrite K).
      destruct (negb (CheckTranslateResponse r)); [exact L'|].
      unfold password_account in *. now rewrite method_keeps. }
    destruct (bytes_eqb method (bs "password")); [|apply T].
    destruct (ReadBool d2) as [[change d3]|]; [|exact A]. destruct (ReadString d3) as [[password d4]|]; [|exact A].
    destruct (ExpectEnd d4); [|exact A]. destruct change; [exact A|]. destruct (is_nil password); [exact A|]. apply T.
  - cbv zeta. destruct (w_getpwnam w user); [|exact A]. unfold password_account in *. now rewrite method_keeps.
Qed.

(** ** What a request says *)

Lemma layout_reads : forall user service method rest, len user < pow32 -> len service < pow32 -> len method < pow32 ->
  let p := enc [FString user; FString service; FString method; FRaw rest] in
  exists d d1, ReadString p = Some (user, d) /\ ReadString d = Some (service, d1) /\ ReadString d1 = Some (method, rest).
Proof.
  intros user service method rest L1 L2 L3 p. exists (string_enc service ++ string_enc method ++ rest), (string_enc method ++ rest).
  unfold p, enc. cbn [map enc_field List.concat]. rewrite app_nil_r. now rewrite !ReadString_enc by assumption.
Qed.

Lemma says_unique : forall p f g, says p f -> says p g -> f = g.
Proof.
  intros p f g F G. destruct f as [s m|], g as [s' m'|]; try reflexivity.
  - destruct F as (u & r & -> & L1 & L2 & L3), G as (u' & r' & E & M1 & M2 & M3).
    destruct (layout_reads u s m r L1 L2 L3) as (d & d1 & A1 & A2 & A3), (layout_reads u' s' m' r' M1 M2 M3) as (e & e1 & B1 & B2 & B3).
    cbv zeta in *. rewrite E, B1 in A1. injection A1 as <- <-. rewrite B2 in A2. injection A2 as <- <-. congruence.
  - exfalso. destruct F as (u & r & F). apply G. now exists u, s, m, r.
  - exfalso. destruct G as (u & r & G). apply F. now exists u, s', m', r.
Qed.

Lemma form_of : forall p, bytes_ok p ->
  (exists u d s d1 m d2, ReadString p = Some (u, d) /\ ReadString d = Some (s, d1) /\ ReadString d1 = Some (m, d2) /\ says p (Form s m)) \/
  (says p Malformed /\ NReceived p = [] /\ forall cfg w sid a, NUserAuthRequest cfg w sid p a = ((a, Die), [])).
Proof.
  intros p B.
  destruct (ReadString p) as [[u d]|] eqn:R1;
    [destruct (ReadString d) as [[s d1]|] eqn:R2; [destruct (ReadString d1) as [[m d2]|] eqn:R3|]|].
  - left. exists u, d, s, d1, m, d2. split; [reflexivity|]. split; [exact R2|]. split; [exact R3|]. exists u, d2.
    apply ReadString_inv in R1 as (-> & L1 & B1 & _); [|exact B]. apply ReadString_inv in R2 as (-> & L2 & B2 & _); [|exact B1].
    apply ReadString_inv in R3 as (-> & L3 & _); [|exact B2]. unfold enc. cbn [map enc_field List.concat]. rewrite app_nil_r. auto.
  - right. split; [|split; [unfold NReceived; now rewrite R1, R2, R3|intros; unfold NUserAuthRequest; now rewrite R1, R2, R3]].
    intros (u' & s' & m' & r & -> & L1 & L2 & L3). destruct (layout_reads u' s' m' r L1 L2 L3) as (e & e1 & E1 & E2 & E3). congruence.
  - right. split; [|split; [unfold NReceived; now rewrite R1, R2|intros; unfold NUserAuthRequest; now rewrite R1, R2]].
    intros (u' & s' & m' & r & -> & L1 & L2 & L3). destruct (layout_reads u' s' m' r L1 L2 L3) as (e & e1 & E1 & E2 & E3). congruence.
  - right. split; [|split; [unfold NReceived; now rewrite R1|intros; unfold NUserAuthRequest; now rewrite R1]].
    intros (u' & s' & m' & r & -> & L1 & L2 & L3). destruct (layout_reads u' s' m' r L1 L2 L3) as (e & e1 & E1 & E2 & E3). congruence.
Qed.

Lemma Forall2_same_length : forall {A B} (P : A -> B -> Prop) l l', Forall2 P l l' -> List.length l = List.length l'.
Proof. intros A B P l l' H. induction H; cbn; congruence. Qed.

(** ** All connections *)

Definition shares (np : Prop) (f : form) (ans : answer) (n : list note) : Prop :=
  share (for_connection (f, ans)) (by_method PUBLICKEY (f, ans)) (by_method HOSTBASED (f, ans)) (by_method PASSWORD (f, ans))
    (by_method (bs "none") (f, ans)) np ans n.

(** The sums of the shares *)
Record sums (np : Prop) (l : list (form * answer)) (n : list note) : Prop := {
  su_publickey : value PublickeyAccepted n = how_many (fun x => was_accepted x && by_method PUBLICKEY x) l;
  su_hostbased : value HostbasedAccepted n = how_many (fun x => was_accepted x && by_method HOSTBASED x) l;
  su_login : (how_many was_accepted l <= accepted_total n)%nat;
  su_password : np -> value PasswordAccepted n = how_many (fun x => was_accepted x && by_method PASSWORD x) l /\
    accepted_total n = how_many was_accepted l;
  su_failed : (failed_total n + value Unsupported n <= how_many was_refused l)%nat;
  su_refused : (how_many (fun x => was_refused x && for_connection x && negb (by_method (bs "none") x)) l <= failed_total n + value Unsupported n)%nat;
  su_change : (value Unsupported n <= how_many (fun x => was_refused x && by_method PASSWORD x) l)%nat;
  su_password_failed : (value PasswordFailed n <= how_many (fun x => was_refused x && by_method PASSWORD x) l)%nat;
  su_publickey_failed : (value PublickeyFailed n <= how_many (fun x => was_refused x && by_method PUBLICKEY x) l)%nat;
  su_hostbased_failed : (value HostbasedFailed n <= how_many (fun x => was_refused x && by_method HOSTBASED x) l)%nat;
  su_unsupported_failed : (value UnsupportedFailed n <=
    how_many (fun x => was_refused x && negb (by_method PUBLICKEY x) && negb (by_method HOSTBASED x) && negb (by_method (bs "none") x)) l)%nat
}.

Lemma how_many_one : forall {A} (p : A -> bool) x, how_many p [x] = one_if (p x).
Proof. intros. unfold how_many. cbn. now destruct (p x). Qed.

Lemma sums_snoc : forall (np np1 : Prop) l n f ans n1, (np -> np1) -> sums np l n -> shares np1 f ans n1 -> sums np (l ++ [(f, ans)]) (n ++ n1).
Proof.
  intros np np1 l n f ans n1 I [X1 X2 X3 X4 X5 X6 X7 X8 X9 X10 X11] [_ Y1 Y2 Y3 Y4 Y5 Y6 Y7 Y8 Y9 Y10 Y11].
  constructor; rewrite ?how_many_app, ?value_app, ?accepted_app, ?failed_app, ?how_many_one;
    change (was_accepted (f, ans)) with (is_login ans); change (was_refused (f, ans)) with (is_refusal ans); try lia.
  intro P. destruct (X4 P) as [A B], (Y4 (I P)) as [C D]. split; lia.
Qed.

Lemma sums_received : forall np l n, sums np l n -> sums np l (n ++ [Count Received]).
Proof.
  intros np l n [X1 X2 X3 X4 X5 X6 X7 X8 X9 X10 X11].
  constructor; rewrite ?value_app, ?accepted_app, ?failed_app; cbn [value how_many filter metric_eqb List.length]; try assumption;
    change (accepted_total [Count Received]) with 0%nat; change (failed_total [Count Received]) with 0%nat;
    change (value PublickeyAccepted [Count Received]) with 0%nat; change (value HostbasedAccepted [Count Received]) with 0%nat;
    change (value PasswordAccepted [Count Received]) with 0%nat; change (value Unsupported [Count Received]) with 0%nat;
    change (value PasswordFailed [Count Received]) with 0%nat; change (value PublickeyFailed [Count Received]) with 0%nat;
    change (value HostbasedFailed [Count Received]) with 0%nat; change (value UnsupportedFailed [Count Received]) with 0%nat; try lia.
  intro P. destruct (X4 P) as [A B]. split; lia.
Qed.

Record counted (np : Prop) (i : minst) : Prop := {
  co_arrived : exists forms, Forall2 says (mi_arrived i) forms /\ value Received (mi_notes i) = how_many readable forms;
  co_answered : exists forms, Forall2 says (map fst (mi_answered i)) forms /\
    sums np (combine forms (map snd (mi_answered i))) (mi_notes i);
  co_remembered : np -> forall c, password_account (sv_account (mi_servers i c))
}.

Lemma mi_run_snoc : forall cfg sid peers ops x, mi_run cfg sid peers (ops ++ [x]) = mi_step cfg sid (mi_run cfg sid peers ops) x.
Proof. intros. unfold mi_run. now rewrite fold_left_app. Qed.

Lemma mi_servers_step : forall cfg sid i c op n,
  mi_servers (mi_step cfg sid i (c, op)) n = if n =? c then vstep cfg (sid c) op (mi_servers i c) else mi_servers i n.
Proof.
  intros. unfold mi_step. cbv zeta.
  destruct op; destruct (sv_alive (mi_servers i c)); destruct (sv_busy (mi_servers i c));
    try reflexivity; match goal with |- context [match sv_busy ?x with _ => _ end] => destruct (sv_busy x) end; reflexivity.
Qed.

(** Every connection runs as if it were alone. *)
Lemma mi_alone : forall cfg sid peers ops c,
  mi_servers (mi_run cfg sid peers ops) c = vrun cfg (sid c) (peers c) (map snd (filter (fun x => fst x =? c) ops)).
Proof.
  intros cfg sid peers ops c. induction ops as [|[n op] t IH] using rev_ind; [reflexivity|].
  rewrite mi_run_snoc, mi_servers_step, filter_app, map_app. cbn [filter fst]. rewrite (N.eqb_sym n c).
  destruct (c =? n) eqn:E; [|cbn [map]; now rewrite app_nil_r]. apply N.eqb_eq in E. subst n.
  cbn [map snd]. rewrite vrun_snoc. now rewrite <- IH.
Qed.

Lemma mi_good : forall cfg sid peers ops c, Forall (fun x => op_ok (snd x)) ops -> good cfg (mi_servers (mi_run cfg sid peers ops) c).
Proof.
  intros cfg sid peers ops c F. rewrite mi_alone. apply vrun_good. apply Forall_forall. intros op I.
  apply in_map_iff in I as (x & <- & I). apply filter_In in I as [I _]. rewrite Forall_forall in F. now apply F.
Qed.

Lemma same_counted : forall (np : Prop) i i', counted np i -> mi_notes i' = mi_notes i -> mi_arrived i' = mi_arrived i -> mi_answered i' = mi_answered i ->
  (np -> forall c, password_account (sv_account (mi_servers i' c))) -> counted np i'.
Proof. intros np i i' [A B _] E1 E2 E3 R. constructor; rewrite ?E1, ?E2, ?E3; assumption. Qed.

Lemma remembered_step : forall cfg sid c op i (np : Prop), (np -> forall w, op = OAuth w -> password_world w) ->
  (np -> forall n, password_account (sv_account (mi_servers i n))) ->
  np -> forall n, password_account (sv_account (mi_servers (mi_step cfg sid i (c, op)) n)).
Proof.
  intros cfg sid c op i np W R P n. rewrite mi_servers_step. destruct (n =? c); [|now apply R].
  specialize (R P c). specialize (W P). set (s := mi_servers i c) in *.
  destruct (is_oauth op) as [[w ->]|NA].
  - specialize (W w eq_refl). destruct (sv_alive s) eqn:AL; [|now rewrite vstep_dead].
    destruct (sv_busy s) as [|payload|x] eqn:B; [rewrite oauth_idle by (intros; congruence); exact R| |rewrite oauth_idle by (intros; congruence); exact R].
    pose proof (request_keeps cfg w (sid c) payload (sv_account s) W R) as K. unfold vstep. rewrite AL, B. cbn [negb].
    destruct (OnUserAuthRequest cfg w (sid c) payload (sv_account s)) as [a o]. cbn [fst] in K.
    destruct o as [m|alg blob| |[x|]]; exact K.
  - destruct (q_account _ _ _ _ (vstep_quiet cfg (sid c) op s NA)) as [->|(_ & _ & _ & o & ->)]; exact R.
Qed.

Lemma counted_step : forall cfg sid c op i (np : Prop), op_ok op -> good cfg (mi_servers i c) ->
  (np -> forall w, op = OAuth w -> password_world w) -> counted np i -> counted np (mi_step cfg sid i (c, op)).
Proof.
  intros cfg sid c op i np OK G W C. pose proof (remembered_step cfg sid c op i np W (co_remembered _ _ C)) as R.
  set (s := mi_servers i c) in *. set (s' := vstep cfg (sid c) op s) in *.
  destruct (sv_alive s) eqn:AL.
  2: { apply (same_counted np i); [exact C| | | |exact R]; unfold mi_step; fold s; rewrite AL; destruct op; reflexivity. }
  destruct (is_oauth op) as [[w ->]|NA].
  - destruct (sv_busy s) as [|payload|x] eqn:B.
    + assert (E : vstep cfg (sid c) (OAuth w) s = s) by (apply oauth_idle; intros; congruence).
      apply (same_counted np i); [exact C| | | |exact R]; unfold mi_step; fold s; rewrite AL, E, B; reflexivity.
    + destruct C as [CA (forms & F & S) CR].
      assert (E : mi_step cfg sid i (c, OAuth w) =
        {| mi_servers := fun n => if n =? c then s' else mi_servers i n;
           mi_notes := mi_notes i ++ snd (NUserAuthRequest cfg w (sid c) payload (sv_account s));
           mi_arrived := mi_arrived i;
           mi_answered := mi_answered i ++ [(payload, answer_of (skipn (List.length (sv_log s)) (sv_log s')))] |})
        by (unfold mi_step; fold s; rewrite AL, B; reflexivity).
      set (i' := mi_step cfg sid i (c, OAuth w)) in *. clearbody i'.
      assert (BO : bytes_ok payload) by (destruct G as [_ LV]; specialize (LV AL); destruct LV as [LB _ _]; rewrite B in LB; apply LB).
      assert (ANS : answer_of (skipn (List.length (sv_log s)) (sv_log s')) = answer_out (snd (fst (NUserAuthRequest cfg w (sid c) payload (sv_account s))))).
      { rewrite erase_request. destruct (oauth_cases cfg (sid c) w s payload G AL B) as (a & out & E1 & _ & H). rewrite E1. cbn [snd].
        fold s' in H.
        assert (SK : forall l, sv_log s' = sv_log s ++ l -> skipn (List.length (sv_log s)) (sv_log s') = l).
        { intros l ->. rewrite skipn_app, skipn_all, Nat.sub_diag. reflexivity. }
        destruct out as [m|alg blob| |p].
        - destruct H as (_ & _ & _ & H). rewrite (SK _ H). reflexivity.
        - destruct H as (_ & _ & _ & H). rewrite (SK _ H). reflexivity.
        - destruct H as (_ & H). rewrite (SK _ H). reflexivity.
        - destruct H as (_ & H & _). rewrite (SK _ H). reflexivity. }
      rewrite ANS in E. set (x := NUserAuthRequest cfg w (sid c) payload (sv_account s)) in *.
      assert (SH : exists f, says payload f /\ shares (password_world w /\ password_account (sv_account s)) f (answer_out (snd (fst x))) (snd x)).
      { destruct (form_of payload BO) as [(u & d & sv & d1 & m & d2 & R1 & R2 & R3 & SY)|(SY & _ & D)].
        - exists (Form sv m). split; [exact SY|]. eapply request_share; [exact R1|exact R2|exact R3|reflexivity].
        - exists Malformed. split; [exact SY|]. unfold x. rewrite D. unfold shares. solve_share. }
      destruct SH as (f & SY & SH).
      assert (VR : value Received (snd x) = 0%nat) by (destruct SH; assumption).
      constructor.
      * rewrite E. cbn [mi_arrived mi_notes]. destruct CA as (fa & FA & VA). exists fa. split; [exact FA|]. rewrite value_app. lia.
      * rewrite E. cbn [mi_answered mi_notes]. rewrite !map_app. cbn [map fst snd]. exists (forms ++ [f]). split; [apply Forall2_app; auto|].
        assert (L : List.length forms = List.length (map snd (mi_answered i))).
        { apply Forall2_same_length in F. rewrite map_length in *. auto. }
        assert (CO : combine (forms ++ [f]) (map snd (mi_answered i) ++ [answer_out (snd (fst x))]) =
          combine forms (map snd (mi_answered i)) ++ [(f, answer_out (snd (fst x)))]).
        { revert L. generalize (map snd (mi_answered i)). generalize forms. clear. intros l. induction l as [|a l IH]; intros [|b m] L; try discriminate; [reflexivity|].
          cbn. f_equal. apply IH. now injection L. }
        rewrite CO. eapply sums_snoc; [|exact S|exact SH]. intro P. split; [now apply (W P)|apply (CR P)].
      * exact R.
    + assert (E : vstep cfg (sid c) (OAuth w) s = s) by (apply oauth_idle; intros; congruence).
      apply (same_counted np i); [exact C| | | |exact R]; unfold mi_step; fold s; rewrite AL, B; reflexivity.
  - assert (E : mi_step cfg sid i (c, op) = {| mi_servers := fun n => if n =? c then s' else mi_servers i n;
        mi_notes := mi_notes i; mi_arrived := mi_arrived i; mi_answered := mi_answered i |} \/
      exists payload, sv_busy s = Idle /\ sv_busy s' = Checking payload /\
        mi_step cfg sid i (c, op) = {| mi_servers := fun n => if n =? c then s' else mi_servers i n; mi_notes := mi_notes i ++ NReceived payload;
         mi_arrived := mi_arrived i ++ [payload]; mi_answered := mi_answered i |}).
    { unfold mi_step. fold s. fold s'. rewrite AL.
      destruct op; try (exfalso; now apply (NA w)); (destruct (sv_busy s); [destruct (sv_busy s') eqn:B'|left; reflexivity|left; reflexivity]);
        (left; reflexivity) || (right; eexists; split; [reflexivity|]; split; [reflexivity|reflexivity]). }
    destruct E as [E|(payload & B & B' & E)].
    { apply (same_counted np i); [exact C| | | |exact R]; rewrite E; reflexivity. }
    assert (BO : bytes_ok payload).
    { destruct (q_busy _ _ _ _ (vstep_quiet cfg (sid c) op s NA)) as [X|[X|(_ & _ & _ & _ & p & X & env & ->)]]; fold s' in X; try congruence.
      assert (p = payload) by congruence. subst p. exact OK. }
    destruct C as [(fa & FA & VA) (forms & F & S) CR].
    destruct (form_of payload BO) as [(u & d & sv & d1 & m & d2 & R1 & R2 & R3 & SY)|(SY & D & _)].
    + assert (NR : NReceived payload = [Count Received]) by (unfold NReceived; now rewrite R1, R2, R3).
      constructor; [| |exact R]; rewrite E, NR; cbn [mi_arrived mi_notes mi_answered].
      * exists (fa ++ [Form sv m]). split; [apply Forall2_app; auto|]. rewrite value_app, how_many_app, VA. reflexivity.
      * exists forms. split; [exact F|]. now apply sums_received.
    + constructor; [| |exact R]; rewrite E, D, app_nil_r; cbn [mi_arrived mi_notes mi_answered].
      * exists (fa ++ [Malformed]). split; [apply Forall2_app; auto|]. rewrite how_many_app, VA. cbn. lia.
      * exists forms. auto.
Qed.

Lemma counted_run : forall cfg sid peers ops, Forall (fun x => op_ok (snd x)) ops ->
  counted (passwords_needed ops) (mi_run cfg sid peers ops).
Proof.
  intros cfg sid peers ops F.
  assert (H : forall np : Prop, (np -> passwords_needed ops) -> counted np (mi_run cfg sid peers ops)); [|now apply H].
  revert F. induction ops as [|[c op] t IH] using rev_ind; intros F np W.
  - constructor.
    + exists []. split; [constructor|reflexivity].
    + exists []. split; [constructor|]. constructor; cbn; try lia; auto.
    + intros _ c u r X. discriminate.
  - rewrite mi_run_snoc. apply Forall_app in F as [F F2]. apply counted_step.
    + inversion F2. assumption.
    + now apply mi_good.
    + intros P w ->. intros user password r T. apply (W P c w) with user password; [apply in_or_app; right; now left|exact T].
    + apply IH; [exact F|]. intros P c' w I. apply (W P c' w). apply in_or_app. now left.
Qed.
