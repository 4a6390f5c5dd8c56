(** Facts about Model/AuthClient.v and about what is signed. *)

From Coq Require Import NArith List Bool Lia String.
From Verif.Base Require Import Bytes.
From Verif.Spec Require Import WireSpec KeySpec AuthSpec ClientSpec.
From Verif.Model Require Import Wire WireSchema Frame Packets AuthClient.
From Verif.Proofs Require Import WireFacts.
Import ListNotations.
Open Scope N_scope.

Local Arguments take : simpl never.
Local Arguments drop : simpl never.
Local Arguments bs : simpl never.

(** ** Writing *)

Lemma WriteSized_inv : forall s body s', len s <= BUFFER_SIZE -> WriteSized s body = Some s' ->
  s' = s ++ string_enc body /\ len s' <= BUFFER_SIZE.
Proof.
  intros s body s' Hs H. unfold WriteSized, PrepareLength, WriteU32 in H.
  destruct (WriteN s (put_u32 0)) as [x|] eqn:E; [|discriminate].
  cbn [obind] in H. apply WriteN_inv in E as [-> E]; [|assumption].
  destruct (WriteN (s ++ put_u32 0) body) as [y|] eqn:E2; [|discriminate].
  cbn [obind] in H. apply WriteN_inv in E2 as [-> E2]; [|assumption].
  assert (X : CommitLength ((s ++ put_u32 0) ++ body) (len s) = s ++ string_enc body).
  { unfold CommitLength. rewrite !len_app.
    replace (len (put_u32 0)) with 4 by reflexivity.
    replace (len s + 4 + len body - len s - 4) with (len body) by lia.
    rewrite <- app_assoc. rewrite take_len.
    rewrite (app_assoc s (put_u32 0) body).
    replace (len s + 4) with (len (s ++ put_u32 0)) by (rewrite len_app; reflexivity).
    rewrite drop_len. unfold string_enc. now rewrite put_u32_be32. }
  rewrite X in H. assert (s' = s ++ string_enc body) by congruence. subst s'. split; [reflexivity|].
  unfold string_enc. rewrite !len_app, len_be32 in *. replace (len (put_u32 0)) with 4 in E2 by reflexivity. lia.
Qed.

Lemma WriteString_inv : forall s x s', len s <= BUFFER_SIZE -> WriteString s x = Some s' ->
  s' = s ++ string_enc x /\ len s' <= BUFFER_SIZE.
Proof.
  intros s x s' Hs H. rewrite WriteString_spec in H by assumption.
  destruct (len s + len (string_enc x) <=? BUFFER_SIZE) eqn:E; [|discriminate].
  assert (s' = s ++ string_enc x) by congruence. subst. split; [reflexivity|]. rewrite len_app. now apply N.leb_le.
Qed.

Lemma WriteLengthEncoded_inv : forall s x s', len s <= BUFFER_SIZE -> WriteLengthEncoded s x = Some s' ->
  s' = s ++ string_enc x /\ len s' <= BUFFER_SIZE.
Proof. exact WriteString_inv. Qed.

Lemma WriteU8_inv : forall s b s', len s <= BUFFER_SIZE -> b < 256 -> WriteU8 s b = Some s' ->
  s' = s ++ [b] /\ len s' <= BUFFER_SIZE.
Proof. intros s b s' Hs Hb H. unfold WriteU8 in H. rewrite N.mod_small in H by assumption. now apply WriteN_inv in H. Qed.

(** One step of a chain of writes. *)
Ltac write H :=
  match type of H with
  | obind ?x _ = Some _ =>
      let E := fresh "E" in destruct x eqn:E; [cbn [obind] in H|discriminate H];
      ((apply WriteString_inv in E as [-> ?]) || (apply WriteSized_inv in E as [-> ?]) ||
       (apply WriteLengthEncoded_inv in E as [-> ?]) || (apply WriteU8_inv in E as [-> ?]) ||
       (apply WriteN_inv in E as [-> ?])); [|assumption || (vm_compute; discriminate) || (vm_compute; reflexivity) ..]
  end.

Lemma AppendSignature_inv : forall sid key alg pre fields s',
  len (pre ++ enc fields) <= BUFFER_SIZE ->
  AppendSignature sid key alg (len pre) (pre ++ enc fields) = Some s' ->
  exists signature, sk_sign key (signed_data sid fields) alg = Some signature /\
    s' = pre ++ enc (fields ++ [FString signature]).
Proof.
  intros sid key alg pre fields s' L H. unfold AppendSignature in H. unfold Since in H. rewrite drop_len in H.
  write H. write H. write H. unfold Finish, new_serializer in H. cbn [app] in H.
  replace ((string_enc sid ++ [MSG_USERAUTH_REQUEST]) ++ enc fields) with (signed_data sid fields) in H
    by (unfold signed_data, enc; cbn [map List.concat enc_field]; now rewrite <- app_assoc).
  destruct (sk_sign key (signed_data sid fields) alg) as [signature|]; [|discriminate]. cbn [obind] in H.
  apply WriteSized_inv in H as [-> _]; [|assumption]. exists signature. split; [reflexivity|].
  unfold enc. rewrite map_app, concat_app. cbn [map List.concat enc_field]. now rewrite app_nil_r, app_assoc.
Qed.

Lemma enc_app : forall a b, enc (a ++ b) = enc a ++ enc b.
Proof. intros. unfold enc. now rewrite map_app, concat_app. Qed.

(** The packet: five bytes of header, the message number, the payload. *)
Lemma UserAuthRequestPublicKey_inv : forall junk sid user key alg s, len junk = 5 ->
  UserAuthRequestPublicKey junk sid user key alg = Some s ->
  exists signature, sk_sign key (signed_data sid (key_request user 1 alg (sk_blob key))) alg = Some signature /\
    s = junk ++ [50] ++ enc (key_request user 1 alg (sk_blob key) ++ [FString signature]).
Proof.
  intros junk sid user key alg s J H. unfold UserAuthRequestPublicKey, new_packet in H.
  assert (JB : len junk <= BUFFER_SIZE) by (rewrite J; vm_compute; discriminate).
  destruct (WriteU8 junk MSG_USERAUTH_REQUEST) as [p|] eqn:E; [cbn [obind] in H|discriminate].
  apply WriteU8_inv in E as [-> ?]; [|assumption|vm_compute; reflexivity].
  unfold Mark in H. unfold WriteBool in H. do 6 write H.
  rewrite <- !app_assoc in H. rewrite app_assoc in H.
  change (string_enc user ++ string_enc (bs "ssh-connection") ++ string_enc (bs "publickey") ++ [1] ++ string_enc alg ++ string_enc (sk_blob key))
    with (string_enc user ++ string_enc CONNECTION ++ string_enc PUBLICKEY ++ [1] ++ string_enc alg ++ string_enc (sk_blob key)) in H.
  replace (string_enc user ++ string_enc CONNECTION ++ string_enc PUBLICKEY ++ [1] ++ string_enc alg ++ string_enc (sk_blob key))
    with (enc (key_request user 1 alg (sk_blob key))) in H
    by (unfold enc, key_request; cbn [map List.concat enc_field]; now rewrite app_nil_r).
  apply AppendSignature_inv in H as (signature & SG & ->).
  - exists signature. split; [exact SG|]. now rewrite <- app_assoc.
  - clear H. unfold enc, key_request. cbn [map List.concat enc_field]. rewrite app_nil_r. rewrite <- !app_assoc in *. assumption.
Qed.

Lemma UserAuthRequestHostbased_inv : forall junk sid user key alg host cuser s, len junk = 5 ->
  UserAuthRequestHostbased junk sid user key alg host cuser = Some s ->
  exists signature, sk_sign key (signed_data sid (host_request user alg (sk_blob key) host cuser)) alg = Some signature /\
    s = junk ++ [50] ++ enc (host_request user alg (sk_blob key) host cuser ++ [FString signature]).
Proof.
  intros junk sid user key alg host cuser s J H. unfold UserAuthRequestHostbased, new_packet in H.
  assert (JB : len junk <= BUFFER_SIZE) by (rewrite J; vm_compute; discriminate).
  destruct (WriteU8 junk MSG_USERAUTH_REQUEST) as [p|] eqn:E; [cbn [obind] in H|discriminate].
  apply WriteU8_inv in E as [-> ?]; [|assumption|vm_compute; reflexivity].
  unfold Mark in H. do 7 write H.
  rewrite <- !app_assoc in H. rewrite app_assoc in H.
  replace (string_enc user ++ string_enc (bs "ssh-connection") ++ string_enc (bs "hostbased") ++ string_enc alg ++ string_enc (sk_blob key) ++ string_enc host ++ string_enc cuser)
    with (enc (host_request user alg (sk_blob key) host cuser)) in H
    by (unfold enc, host_request; cbn [map List.concat enc_field]; now rewrite app_nil_r).
  apply AppendSignature_inv in H as (signature & SG & ->).
  - exists signature. split; [exact SG|]. now rewrite <- app_assoc.
  - clear H. unfold enc, host_request. cbn [map List.concat enc_field]. rewrite app_nil_r. rewrite <- !app_assoc in *. assumption.
Qed.

(** ** Injectivity *)

Lemma be32_inj : forall a b x y, a < pow32 -> b < pow32 -> be32 a ++ x = be32 b ++ y -> a = b /\ x = y.
Proof.
  intros a b x y Ha Hb H. pose proof (ReadU32_be32 a x Ha) as A. rewrite H, (ReadU32_be32 b y Hb) in A.
  split; congruence.
Qed.

Lemma string_enc_inj : forall a b x y, len a < pow32 -> len b < pow32 ->
  string_enc a ++ x = string_enc b ++ y -> a = b /\ x = y.
Proof.
  intros a b x y Ha Hb H. pose proof (ReadString_enc a x Ha) as A. rewrite H, (ReadString_enc b y Hb) in A.
  split; congruence.
Qed.

Lemma enc_cons : forall f fs, enc (f :: fs) = enc_field f ++ enc fs.
Proof. reflexivity. Qed.

Lemma enc_string_inj : forall a b fs gs, len a < pow32 -> len b < pow32 ->
  enc (FString a :: fs) = enc (FString b :: gs) -> a = b /\ enc fs = enc gs.
Proof. intros a b fs gs Ha Hb H. rewrite !enc_cons in H. cbn [enc_field] in H. now apply string_enc_inj. Qed.

Lemma enc_byte_inj : forall a b fs gs, enc (FByte a :: fs) = enc (FByte b :: gs) -> a = b /\ enc fs = enc gs.
Proof. intros a b fs gs H. rewrite !enc_cons in H. cbn [enc_field app] in H. split; congruence. Qed.

(** ** The state machine (C51) *)

Lemma crun_snoc : forall ops op, crun (ops ++ [op]) = cstep op (crun ops).
Proof. intros. unfold crun. now rewrite fold_left_app. Qed.

Lemma happened_more : forall l ops x, happened l ops -> happened l (ops ++ x).
Proof.
  induction l as [|p l IH]; intros ops x H; [exact Logic.I|].
  destruct H as (a & op & b & -> & P & H). exists a, op, (b ++ x). split; [now rewrite <- app_assoc|]. auto.
Qed.

Lemma happened_snoc : forall (p : cop -> Prop) op l ops, p op -> happened l ops -> happened (l ++ [p]) (ops ++ [op]).
Proof.
  intros p op. induction l as [|q l IH]; intros ops P H.
  - exists ops, op, []. repeat split; assumption.
  - destruct H as (a & o & b & -> & Q & H). exists a, o, (b ++ [op]). split; [now rewrite <- app_assoc|]. auto.
Qed.

Lemma milestones_app : forall a b, milestones (a ++ b) = milestones a ++ milestones b.
Proof. intros. apply filter_app. Qed.

Lemma ParseServiceAccept_inv : forall payload name, bytes_ok payload -> ParseServiceAccept payload = Some name ->
  payload = enc [FString name].
Proof.
  intros payload name OK H. unfold ParseServiceAccept in H.
  destruct (ReadString payload) as [[x d]|] eqn:E; [|discriminate]. cbn [obind] in H.
  destruct (ExpectEnd d) eqn:X; [|discriminate]. cbn [obind] in H.
  apply ReadString_inv in E as (-> & _); [|assumption].
  assert (d = []) as -> by (unfold ExpectEnd in X; destruct d; [reflexivity|discriminate]).
  unfold enc. cbn [map List.concat enc_field]. congruence.
Qed.

Definition accepted_in_order : list (cop -> Prop) := [encrypted; service_accepted; success].

(** nothing is forwarded before [CAuthenticated] *)
Definition quiet_log (l : list cevent) : Prop := forall m, ~ In (CRelay m) l.

Record phase (n : nat) (ops : list cop) (c : client) : Prop := {
  ph_milestones : exists fin, milestones (cl_log c) = firstn n steps ++ fin /\
    (cl_alive c = true -> fin = []) /\
    (fin = [] \/ fin = [CDisconnect] \/ fin = [CError] /\ n = 1%nat \/ fin = [CFailure] /\ n = 2%nat);
  ph_ops : happened (firstn n accepted_in_order) ops;
  ph_relay : (exists a b, cl_log c = a ++ CAuthenticated :: b /\ quiet_log a) /\ n = 3%nat \/ quiet_log (cl_log c);
  ph_authenticated : cl_authenticated c = true <-> n = 3%nat;
  ph_encrypted : cl_encrypted c = true <-> n <> 0%nat;
  ph_user_auth : cl_alive c = true -> cl_user_auth c = nth n [None; Some SERVICE_REQUEST_SSH_USERAUTH; Some USERAUTH_REQUEST] None
}.

Lemma phase_end : forall n ops op c u e, phase n ops c -> cl_alive c = true ->
  In e [CDisconnect; CError; CFailure] -> (e = CError -> n = 1%nat) -> (e = CFailure -> n = 2%nat) ->
  phase n (ops ++ [op]) (cl_set u false [e] c).
Proof.
  intros n ops op c u e [(fin & M & F & _) O R A E U] AL I CE CF. specialize (F AL). subst fin. rewrite app_nil_r in M.
  constructor; cbn [cl_set cl_log cl_alive cl_user_auth cl_authenticated cl_encrypted]; try assumption; try discriminate.
  - exists [e]. rewrite milestones_app, M. split.
    { destruct I as [<-|[<-|[<-|[]]]]; reflexivity. }
    split; [discriminate|]. destruct I as [<-|[<-|[<-|[]]]]; [auto|right; right; left; auto|right; right; right; auto].
  - now apply happened_more.
  - assert (NR : quiet_log [e]) by (intros m [X|[]]; subst e; destruct I as [I|[I|[I|[]]]]; discriminate).
    destruct R as [[(a & b & L & Q) N]|Q].
    + left. split; [|exact N]. exists a, (b ++ [e]). rewrite L, <- app_assoc. auto.
    + right. intros m X. apply in_app_or in X as [X|X]; [exact (Q m X)|exact (NR m X)].
Qed.

Lemma phase_pass : forall n ops op c msg, phase n ops c -> cl_alive c = true ->
  phase n (ops ++ [op]) (NotConsumed msg c).
Proof.
  intros n ops op c msg [(fin & M & F & D) O R A E U] AL.
  constructor; cbn [NotConsumed cl_set cl_log cl_alive cl_user_auth cl_authenticated cl_encrypted]; try assumption.
  - exists fin. rewrite milestones_app, M. split; [|auto]. destruct (cl_authenticated c); cbn; now rewrite app_nil_r.
  - now apply happened_more.
  - destruct R as [[(a & b & L & Q) N]|Q].
    + left. split; [|exact N]. eexists a, _. rewrite L, <- app_assoc. split; [reflexivity|exact Q].
    + destruct (cl_authenticated c) eqn:AU.
      * left. assert (n = 3%nat) as -> by (apply A; reflexivity). split; [|reflexivity]. specialize (F AL). subst fin. clear A E U.
        assert (X : In CAuthenticated (cl_log c)).
        { apply (proj1 (filter_In milestone CAuthenticated (cl_log c))). unfold milestones in M. rewrite M. cbn. auto. }
        apply in_split in X as (a & b & L). exists a, (b ++ [CRelay msg]). rewrite L, <- app_assoc. split; [reflexivity|].
        intros m X. apply (Q m). rewrite L. apply in_or_app. auto.
      * right. intros m X. apply in_app_or in X as [X|[X|[]]]; [exact (Q m X)|discriminate].
  - intros _. now apply U.
Qed.

Lemma phase_advance : forall n ops op c c' e (p : cop -> Prop), phase n ops c -> cl_alive c = true -> (n < 3)%nat ->
  nth_error steps n = Some e -> nth_error accepted_in_order n = Some p -> p op ->
  cl_log c' = cl_log c ++ [e] -> cl_encrypted c' = true -> (cl_authenticated c' = true <-> n = 2%nat) ->
  cl_user_auth c' = nth (S n) [None; Some SERVICE_REQUEST_SSH_USERAUTH; Some USERAUTH_REQUEST] None ->
  phase (S n) (ops ++ [op]) c'.
Proof.
  intros n ops op c c' e p [(fin & M & F & D) O R A E U] AL LT N1 N2 P L EN AU UA. specialize (F AL). subst fin. rewrite app_nil_r in M.
  assert (X1 : firstn (S n) steps = firstn n steps ++ [e]) by
    (destruct n as [|[|[|n]]]; [..|lia]; cbn in *; congruence).
  assert (X2 : firstn (S n) accepted_in_order = firstn n accepted_in_order ++ [p]) by
    (destruct n as [|[|[|n]]]; [..|lia]; cbn in *; congruence).
  assert (ME : milestones [e] = [e]) by (destruct n as [|[|[|n]]]; [..|lia]; cbn in N1; assert (e = e) by auto; injection N1 as <-; reflexivity).
  assert (QR : quiet_log (cl_log c)) by (destruct R as [[_ N]|Q]; [lia|exact Q]).
  constructor.
  - exists []. rewrite L, milestones_app, M, ME, X1, app_nil_r. auto.
  - rewrite X2. now apply happened_snoc.
  - right. rewrite L. intros m X. apply in_app_or in X as [X|[X|[]]]; [exact (QR m X)|].
    destruct n as [|[|[|n]]]; [..|lia]; cbn in N1; congruence.
  - rewrite AU. split; [congruence|congruence].
  - rewrite EN. split; [discriminate|reflexivity].
  - intros _. exact UA.
Qed.

Lemma phase_0 : phase 0 [] new_client.
Proof.
  constructor; cbn.
  - exists []. auto.
  - exact Logic.I.
  - right. intros m [].
  - split; discriminate.
  - split; [discriminate|congruence].
  - auto.
Qed.

Lemma phase_dead : forall n ops op c, phase n ops c -> phase n (ops ++ [op]) c.
Proof. intros n ops op c [M O R A E U]. constructor; try assumption. now apply happened_more. Qed.

Lemma phase_step : forall n ops op c, (n <= 3)%nat -> phase n ops c -> cop_ok op ->
  exists n', (n' <= 3)%nat /\ phase n' (ops ++ [op]) (cstep op c).
Proof.
  intros n ops op c N P OK. unfold cstep. destruct (cl_alive c) eqn:AL; cbn [negb]; [|exists n; split; [exact N|now apply phase_dead]].
  pose proof (ph_user_auth _ _ _ P AL) as U. pose proof (ph_encrypted _ _ _ P) as EN. pose proof (ph_authenticated _ _ _ P) as AU.
  assert (DIS : exists n', (n' <= 3)%nat /\ phase n' (ops ++ [op]) (cl_disconnect c)).
  { exists n. split; [exact N|]. apply phase_end; auto; [cbn; auto|discriminate..]. }
  assert (PASS : forall m, exists n', (n' <= 3)%nat /\ phase n' (ops ++ [op]) (NotConsumed m c)).
  { intro m. exists n. split; [exact N|]. now apply phase_pass. }
  destruct op as [|sendable msg payload|].
  - destruct (cl_encrypted c) eqn:E.
    + exists n. split; [exact N|now apply phase_dead].
    + assert (n = 0%nat) as -> by (destruct n; [reflexivity|]; destruct EN as [_ EN]; discriminate EN; discriminate).
      cbn in U. rewrite U. exists 1%nat. split; [lia|].
      eapply phase_advance with (c := c); [exact P|exact AL|lia|reflexivity|reflexivity|reflexivity|reflexivity|reflexivity| |reflexivity].
      cbn. rewrite AU. lia.
  - unfold ClientPacket. destruct (cl_user_auth c) as [st|] eqn:UA; [|apply PASS].
    destruct (N.eqb_spec msg MSG_SERVICE_ACCEPT) as [->|].
    { unfold HandleServiceAccept. destruct (ParseServiceAccept payload) as [name|] eqn:PA; [|apply DIS].
      rewrite UA. destruct st; try exact DIS.
      destruct (bytes_eqb name (bs "ssh-userauth")) eqn:B; [|exact DIS]. apply bytes_eqb_eq in B. subst name.
      assert (n = 1%nat) as -> by (destruct n as [|[|[|[|n]]]]; cbn in U; congruence || reflexivity || discriminate).
      destruct sendable.
      - exists 2%nat. split; [lia|]. eapply phase_advance with (c := c); [exact P|exact AL|lia|reflexivity|reflexivity| |reflexivity| | |reflexivity].
        + cbn. unfold service_accepted. f_equal. apply ParseServiceAccept_inv; assumption.
        + cbn. rewrite EN. discriminate.
        + cbn. rewrite AU. split; discriminate.
      - exists 1%nat. split; [lia|]. apply phase_end; auto; [cbn; auto|discriminate]. }
    destruct (N.eqb_spec msg MSG_USERAUTH_FAILURE) as [->|].
    { destruct st; try exact DIS. exists n. split; [exact N|]. apply phase_end; auto; [cbn; auto|discriminate|intros _].
      destruct n as [|[|[|[|n]]]]; cbn in U; congruence || reflexivity || discriminate. }
    destruct (N.eqb_spec msg MSG_USERAUTH_SUCCESS) as [->|].
    { destruct st; try exact DIS.
      assert (n = 2%nat) as -> by (destruct n as [|[|[|[|n]]]]; cbn in U; congruence || reflexivity || discriminate).
      exists 3%nat. split; [lia|]. eapply phase_advance with (c := c); [exact P|exact AL|lia|reflexivity|reflexivity| |reflexivity| | |reflexivity].
      + cbn. eexists _, _. reflexivity.
      + cbn. rewrite EN. discriminate.
      + cbn. split; reflexivity. }
    destruct (IsConnectionMessage msg); [destruct st; try exact DIS|]; apply PASS.
  - exists n. split; [exact N|]. destruct P as [M O R A E U']. constructor; cbn [cl_set cl_log cl_alive cl_user_auth cl_authenticated cl_encrypted]; rewrite ?app_nil_r; try assumption.
    + destruct M as (fin & M1 & M2 & M3). exists fin. split; [exact M1|]. split; [discriminate|exact M3].
    + now apply happened_more.
    + discriminate.
Qed.

Lemma crun_phase : forall ops, Forall cop_ok ops -> exists n, (n <= 3)%nat /\ phase n ops (crun ops).
Proof.
  intro ops. induction ops as [|op ops IH] using rev_ind; intro F.
  - exists 0%nat. split; [lia|exact phase_0].
  - apply Forall_app in F as [F1 F2]. inversion F2. destruct (IH F1) as (n & N & P). rewrite crun_snoc. now apply (phase_step n).
Qed.

Lemma IsConnectionMessage_spec : forall msg, IsConnectionMessage msg = true <-> connection_message msg.
Proof.
  intro msg. unfold IsConnectionMessage, connection_message. rewrite existsb_exists. split.
  - intros (x & I & E). apply N.eqb_eq in E. subst x. cbn in I. vm_compute MSG_GLOBAL_REQUEST in I.
    repeat destruct I as [<-|I]; try (destruct I); vm_compute; intuition discriminate.
  - intro H. exists msg. split; [|apply N.eqb_refl].
    assert (X : msg = 80 \/ msg = 81 \/ msg = 82 \/ msg = 90 \/ msg = 91 \/ msg = 92 \/ msg = 93 \/ msg = 94 \/
      msg = 95 \/ msg = 96 \/ msg = 97 \/ msg = 98 \/ msg = 99 \/ msg = 100) by lia.
    vm_compute. intuition.
Qed.
