(** C92: the log names the key of a login by its fingerprint, which is that of
    no other key; the whole fingerprint is in the line; and the owner of this
    key has signed.

    It is a key which the fingerprint names and not an entry of a list of
    authorized keys: two entries with different restrictions may have the same
    fingerprint. *)

From Coq Require Import NArith PeanoNat List Bool Lia String.
From Verif.Base Require Import Bytes.
From Verif.Spec Require Import WireSpec PacketSpec AuthSpec AuditSpec AuthDemo KeyFormatSpec FingerprintSpec.
From Verif.Model Require Import Wire Packets KeyOptions Keys Auth Session Server AuditLog Fingerprint.
From Verif.Proofs Require Import WireFacts PacketFacts KeyFormatFacts AuthFacts ServerFacts AuditFacts FingerprintFacts.
From Verif.Props Require Import C89.
Import ListNotations.
Open Scope N_scope.

Local Arguments bs : simpl never.

(** ** The fingerprint *)

(** It is the hash of the public key in base64. *)
Theorem C92_format :
  forall c padded k, hash32 (c_digest c SHA256) -> public_ok k ->
  fingerprint (c_digest c SHA256) padded k (GetFingerprint c padded k).
Proof. exact fingerprint_ok. Qed.
Print Assumptions C92_format.

(** Another key has another one, unless a collision of the hash was found. *)
Theorem C92_identifies :
  forall c padded k k', hash32 (c_digest c SHA256) -> public_ok k -> public_ok k' ->
  GetFingerprint c padded k = GetFingerprint c padded k' -> k = k' \/ colliding (c_digest c SHA256).
Proof.
  intros c padded k k' H OK OK' E. apply (fingerprint_same _ padded padded _ _ (GetFingerprint c padded k) H OK OK').
  - now apply fingerprint_ok.
  - rewrite E. now apply fingerprint_ok.
Qed.
Print Assumptions C92_identifies.

(** A collision of two public keys, to be exact. *)
Theorem C92_collision :
  forall c padded k k' blob blob', hash32 (c_digest c SHA256) -> public_ok k -> public_ok k' ->
  public_blob k blob -> public_blob k' blob' ->
  (GetFingerprint c padded k = GetFingerprint c padded k' <-> c_digest c SHA256 blob = c_digest c SHA256 blob').
Proof.
  intros c padded k k' blob blob' H OK OK' B B'.
  assert (U : forall k b, public_ok k -> public_blob k b -> GetFingerprint c padded k = bs "SHA256:" ++ base64 padded (c_digest c SHA256 b)).
  { intros k0 b O P. destruct (SerializePublic_some [] k0) as (b0 & E & P0 & _); [vm_compute; discriminate|exact O|].
    unfold GetFingerprint. rewrite E. cbn [app]. replace b0 with b; [reflexivity|].
    destruct k0; cbn [public_blob] in *; [congruence| |congruence].
    destruct P as (x & y & X & Y & ->). destruct P0 as (x0 & y0 & X0 & Y0 & ->).
    now rewrite (is_mpint_unique _ _ _ X X0), (is_mpint_unique _ _ _ Y Y0). }
  rewrite (U k blob OK B), (U k' blob' OK' B'). split; [|now intros ->].
  intro E. apply app_inv_head in E. apply (base64_unique padded padded _ _ (base64 padded (c_digest c SHA256 blob))); [apply H|apply H| |].
  - apply base64_ok, H.
  - rewrite E. apply base64_ok, H.
Qed.
Print Assumptions C92_collision.

(** ** The log *)

(** The line about a login by key has the type and the fingerprint of the key
    which has signed the request; it is not cut off. *)
Theorem C92_line :
  forall cfg c padded x session_id peer_address domain ops, Forall gop_ok ops ->
  uses_keys cfg c -> small_points c -> hash32 (c_digest c SHA256) -> (forall blob, tx_key x blob = KeyText c padded blob) ->
  forall d l user blob, In (d, l) (au_lines (grun cfg x session_id peer_address domain ops)) -> key_line l user blob ->
  exists k t request algorithm raw rest,
    ParsePublicKeyBlob c blob = Some k /\ public_ok k /\ fingerprint (c_digest c SHA256) padded k t /\
    format x l = bs (match l with LAcceptedHost _ _ => "Accepted hostkey for " | _ => "Accepted publickey for " end) ++
      quote x user ++ bs ": " ++ type_name k ++ bs " " ++ t /\
    record_of x (d, l) = tx_prefix x d ++ format x l /\
    ((exists flag name, l = LAcceptedKey user blob /\ flag <> 0 /\ request = key_request user flag name blob) \/
     (exists name host client, l = LAcceptedHost user blob /\ request = host_request user name blob host client)) /\
    cf_verify cfg blob (signed_data session_id request) (enc [FString algorithm; FString raw] ++ rest) = Some true /\
    algorithm_of k algorithm /\ raw_valid c k algorithm (signed_data session_id request) raw.
Proof.
  intros cfg c padded x sid peer dom ops F [UP UV] SP H TX d l user blob I KL.
  assert (A : accepted_user l = [user]) by (destruct KL as [-> | ->]; reflexivity).
  destruct (told_supported cfg x sid peer dom ops d l user F I A) as (w & payload & OK & (_ & VL & _) & SU).
  assert (X : exists request signature, payload = enc (request ++ [FString signature]) /\ bytes_ok blob /\
    cf_parse_key cfg blob = true /\ cf_verify cfg blob (signed_data sid request) signature = Some true /\
    ((exists flag name, l = LAcceptedKey user blob /\ flag <> 0 /\ request = key_request user flag name blob) \/
     (exists name host client, l = LAcceptedHost user blob /\ request = host_request user name blob host client))).
  { assert (BO : forall a f b, enc (a ++ FString f :: b) = enc a ++ string_enc f ++ enc b)
      by (intros; unfold enc; rewrite map_app, concat_app; reflexivity).
    assert (BK : forall a f b, bytes_ok (enc (a ++ FString f :: b)) -> bytes_ok f).
    { intros a f b B. rewrite BO in B. apply bytes_ok_app in B as [_ B]. apply bytes_ok_app in B as [B _]. unfold string_enc in B. now apply bytes_ok_app in B as [_ B]. }
    destruct SU as [u flag name b signature NZ P V|u name b host client signature o IN P V|u pw r ? ? ?|u m r ? ?];
      cbn [accepted_user] in A; injection A as ->; destruct KL as [KL|KL]; try discriminate; injection KL as ->.
    - exists (key_request user flag name blob), signature. split; [reflexivity|]. split; [|split; [exact P|]; split; [exact V|left; eauto]].
      unfold key_request in OK. cbn [List.app] in OK.
      exact (BK [FString user; FString CONNECTION; FString PUBLICKEY; FByte flag; FString name] blob [FString signature] OK).
    - exists (host_request user name blob host client), signature. split; [reflexivity|]. split; [|split; [exact P|]; split; [exact V|right; eauto]].
      unfold host_request in OK. cbn [List.app] in OK.
      exact (BK [FString user; FString CONNECTION; FString HOSTBASED; FString name] blob [FString host; FString client; FString signature] OK). }
  destruct X as (request & signature & -> & BB & P & V & Q).
  assert (BS : bytes_ok signature).
  { unfold enc in OK. rewrite map_app, concat_app in OK. apply bytes_ok_app in OK as [_ OK]. cbn [map enc_field List.concat] in OK.
    rewrite app_nil_r in OK. unfold string_enc in OK. now apply bytes_ok_app in OK as [_ OK]. }
  rewrite UP in P. destruct (ParsePublicKeyBlob c blob) as [k|] eqn:K; [|discriminate].
  pose proof V as V'. rewrite UV, K in V'. destruct (Verify_inv c k _ _ BS V') as (alg & raw & rest & ES & AO & RV).
  pose proof (parsed_ok c blob k SP BB K) as OKK. pose proof (fingerprint_ok c padded k H OKK) as FP.
  exists k, (GetFingerprint c padded k), request, alg, raw, rest. split; [reflexivity|]. split; [exact OKK|]. split; [exact FP|].
  assert (TK : tx_key x blob = type_name k ++ bs " " ++ GetFingerprint c padded k).
  { rewrite TX. unfold KeyText. rewrite K. destruct k; reflexivity. }
  assert (FM : format x l = bs (match l with LAcceptedHost _ _ => "Accepted hostkey for " | _ => "Accepted publickey for " end) ++
      quote x user ++ bs ": " ++ type_name k ++ bs " " ++ GetFingerprint c padded k).
  { destruct KL as [-> | ->]; cbn [format]; rewrite TK; reflexivity. }
  split; [exact FM|]. split.
  { assert (LE : len (format x l) <= 2048).
    { rewrite FM, !len_app. destruct (fingerprint_text _ _ _ _ H FP) as [LF _]. pose proof (quote_len x user).
      change (len (bs ": ")) with 2. change (len (bs " ")) with 1.
      assert (len (type_name k) <= 19) by (destruct k; vm_compute; discriminate).
      assert (len (bs (match l with LAcceptedHost _ _ => "Accepted hostkey for " | _ => "Accepted publickey for " end)) <= 23)
        by (destruct l; vm_compute; discriminate). lia. }
    assert (RO : record_of x (d, l) = tx_prefix x d ++ firstn LINE_MAX (format x l)) by (destruct KL as [-> | ->]; reflexivity).
    rewrite RO, firstn_all2; [reflexivity|]. unfold LINE_MAX. unfold len in LE. lia. }
  split; [exact Q|]. split; [rewrite <- ES; exact V|]. split; [exact AO|exact RV].
Qed.
Print Assumptions C92_line.

(** Two lines about logins, of any two connections, which show the same key
    are about the same key. *)
Theorem C92_same_key :
  forall c padded x, small_points c -> hash32 (c_digest c SHA256) -> (forall blob, tx_key x blob = KeyText c padded blob) ->
  forall cfg cfg' session_id session_id' peer peer' domain domain' ops ops', Forall gop_ok ops -> Forall gop_ok ops' ->
  uses_keys cfg c -> uses_keys cfg' c ->
  forall d l user blob d' l' user' blob',
  In (d, l) (au_lines (grun cfg x session_id peer domain ops)) -> key_line l user blob ->
  In (d', l') (au_lines (grun cfg' x session_id' peer' domain' ops')) -> key_line l' user' blob' ->
  tx_key x blob = tx_key x blob' ->
  ParsePublicKeyBlob c blob = ParsePublicKeyBlob c blob' \/ colliding (c_digest c SHA256).
Proof.
  intros c padded x SP H TX cfg cfg' sid sid' peer peer' dom dom' ops ops' F F' U U' d l user blob d' l' user' blob' I KL I' KL' E.
  destruct (C92_line cfg c padded x sid peer dom ops F U SP H TX d l user blob I KL) as (k & t & _ & _ & _ & _ & K & OK & _).
  destruct (C92_line cfg' c padded x sid' peer' dom' ops' F' U' SP H TX d' l' user' blob' I' KL') as (k' & t' & _ & _ & _ & _ & K' & OK' & _).
  rewrite !TX in E. unfold KeyText in E. rewrite K, K' in E. rewrite K, K'.
  assert (G : GetFingerprint c padded k = GetFingerprint c padded k').
  { pose proof (fingerprint_ok c padded k H OK) as FP. pose proof (fingerprint_ok c padded k' H OK') as FP'.
    destruct FP as (b & u & _ & _ & FP). destruct FP' as (b' & u' & _ & _ & FP'). rewrite FP, FP' in E |- *.
    destruct k, k'; cbn [GetType] in E; try (apply app_inv_head in E; apply app_inv_head in E; exact E); vm_compute in E; discriminate. }
  destruct (C92_identifies c padded k k' H OK OK' G) as [-> |C]; [left; reflexivity|right; exact C].
Qed.
Print Assumptions C92_same_key.

(** Lines which are the same are about the same user and the same key. *)
Theorem C92_same_line :
  forall c padded x, small_points c -> hash32 (c_digest c SHA256) -> (forall blob, tx_key x blob = KeyText c padded blob) ->
  forall cfg cfg' session_id session_id' peer peer' domain domain' ops ops', Forall gop_ok ops -> Forall gop_ok ops' ->
  uses_keys cfg c -> uses_keys cfg' c ->
  forall d l user blob d' l' user' blob',
  In (d, l) (au_lines (grun cfg x session_id peer domain ops)) -> key_line l user blob ->
  In (d', l') (au_lines (grun cfg' x session_id' peer' domain' ops')) -> key_line l' user' blob' ->
  format x l = format x l' ->
  user = user' /\ (ParsePublicKeyBlob c blob = ParsePublicKeyBlob c blob' \/ colliding (c_digest c SHA256)).
Proof.
  intros c padded x SP H TX cfg cfg' sid sid' peer peer' dom dom' ops ops' F F' U U' d l user blob d' l' user' blob' I KL I' KL' E.
  assert (X : quote x user ++ bs ": " ++ tx_key x blob = quote x user' ++ bs ": " ++ tx_key x blob').
  { destruct KL as [-> | ->]; destruct KL' as [-> | ->]; cbn [format] in E; try (apply app_inv_head in E; exact E);
      exfalso; vm_compute in E; discriminate. }
  assert (NB : forall u, valid_name u -> bytes_ok u).
  { intros u (_ & _ & V). eapply Forall_impl; [|exact V]. intros z [Z|[Z|[Z|Z]]]; try lia. cbn [In] in Z. lia. }
  assert (A : accepted_user l = [user]) by (destruct KL as [-> | ->]; reflexivity).
  assert (A' : accepted_user l' = [user']) by (destruct KL' as [-> | ->]; reflexivity).
  destruct (told_supported cfg x sid peer dom ops d l user F I A) as (_ & _ & _ & V & _).
  destruct (told_supported cfg' x sid' peer' dom' ops' d' l' user' F' I' A') as (_ & _ & _ & V' & _).
  apply quote_inj in X as [-> X]; [|apply NB; assumption|apply NB; assumption]. split; [reflexivity|].
  apply app_inv_head in X.
  exact (C92_same_key c padded x SP H TX cfg cfg' sid sid' peer peer' dom dom' ops ops' F F' U U' d l user' blob d' l' user' blob' I KL I' KL' X).
Qed.
Print Assumptions C92_same_line.

(** The text of a key is in one line, as C89 supposes. *)
Theorem C92_one_line :
  forall c padded blob, small_points c -> hash32 (c_digest c SHA256) -> bytes_ok blob -> one_line (KeyText c padded blob).
Proof.
  intros c padded blob SP H OK. unfold KeyText. destruct (ParsePublicKeyBlob c blob) as [k|] eqn:K; [|intros []].
  pose proof (parsed_ok c blob k SP OK K) as OKK. destruct (fingerprint_text _ _ _ _ H (fingerprint_ok c padded k H OKK)) as [_ FT].
  apply one_line_app; [destruct k; apply one_line_b; reflexivity|]. apply one_line_app; [apply one_line_b; reflexivity|].
  intro I. rewrite Forall_forall in FT. specialize (FT 10 I). lia.
Qed.
Print Assumptions C92_one_line.

(** ** Entries

    The full statement: a fingerprint tells which of the authorized blobs was
    used, as "ssh-keygen -l" of this blob would, unless the two collide. *)
Definition C92_full_statement : Prop :=
  forall c padded x, small_points c -> hash32 (c_digest c SHA256) -> (forall blob, tx_key x blob = KeyText c padded blob) ->
  forall cfg cfg' session_id session_id' peer peer' domain domain' ops ops', Forall gop_ok ops -> Forall gop_ok ops' ->
  uses_keys cfg c -> uses_keys cfg' c ->
  forall d l user blob d' l' user' blob',
  In (d, l) (au_lines (grun cfg x session_id peer domain ops)) -> key_line l user blob ->
  In (d', l') (au_lines (grun cfg' x session_id' peer' domain' ops')) -> key_line l' user' blob' ->
  tx_key x blob = tx_key x blob' -> blob = blob' \/ c_digest c SHA256 blob = c_digest c SHA256 blob'.

(** A toy: the hash is the length, a signature begins with the public key. *)
Definition toy_keys : crypto := {| c_openssl := false; c_libmd := false;
  c_ed_sign := fun secret m => secret; c_ed_verify := fun p m s => bytes_eqb (take 32 s) p;
  c_digest := fun _ m => len m mod 256 :: repeat 0 31;
  c_rsa_public_ok := fun _ _ => false; c_rsa_ok := fun _ => false; c_ec_public := fun _ => None; c_ec := fun _ _ => None;
  c_sign := fun _ _ _ => None; c_verify := fun _ _ _ _ => None;
  c_d2i := fun _ => None; c_i2d := fun _ => []; c_base64 := fun b => Some b |}.
Definition toy_public : bytes := repeat 9 32.
Definition toy_blob : bytes := enc [FString (bs "ssh-ed25519"); FString toy_public].
(** two entries: with restrictions, and without *)
Definition toy_config : config :=
  let c := demo_config true in
  {| cf_translation_server := true; cf_authorized_host_keys := [];
     cf_global_keys := [(toy_blob, demo_options); (toy_blob ++ [1], ko_default)];
     cf_accept_client_address := true; cf_exec_reject_stderr := false; cf_verbose_errors := false;
     cf_proxy_to := cf_proxy_to c; cf_openssl := false; cf_base64 := cf_base64 c;
     cf_parse_key := fun blob => match ParsePublicKeyBlob toy_keys blob with Some _ => true | None => false end;
     cf_verify := fun blob message signature =>
       match ParsePublicKeyBlob toy_keys blob with Some k => Verify toy_keys k message signature | None => None end;
     cf_parse_address := cf_parse_address c |}.
Definition toy_texts : texts :=
  {| tx_printable := fun _ => false; tx_prefix := fun d => d ++ bs ": "; tx_key := KeyText toy_keys false |}.
Definition toy_ops (blob : bytes) : list gop :=
  map (fun op => GOp op false) (demo_start ++ demo_attempt (enc (key_request (bs "alice") 1 (bs "ssh-ed25519") blob ++
    [FString (enc [FString (bs "ssh-ed25519"); FString (toy_public ++ repeat 0 32)])]))).
Definition toy_run (blob : bytes) : audit := grun toy_config toy_texts demo_session_id [] (bs "192.0.2.1") (toy_ops blob).

Lemma toy_hash32 : hash32 (c_digest toy_keys SHA256).
Proof.
  intro m. cbn [c_digest toy_keys]. split; [reflexivity|]. constructor; [apply N.mod_lt; discriminate|].
  apply Forall_forall. intros z I. apply repeat_spec in I. now subst z.
Qed.
Lemma toy_uses : uses_keys toy_config toy_keys.
Proof. split; reflexivity. Qed.
Lemma toy_points : small_points toy_keys.
Proof. discriminate. Qed.

Lemma gops_ok : forall l : list gop,
  forallb (fun op => match op with GOp (OPacket m p _) _ => forallb (fun b => b <? 256) p | GOp _ _ => true | _ => true end) l = true ->
  Forall gop_ok l.
Proof.
  intros l H. apply Forall_forall. intros op I. rewrite forallb_forall in H. specialize (H op I).
  destruct op as [op f| | |]; try exact Logic.I. destruct op; try exact Logic.I. cbn in *.
  apply Forall_forall. intros b B. apply N.ltb_lt. rewrite forallb_forall in H. now apply H.
Qed.

Example C92_demo :
  Forall gop_ok (toy_ops toy_blob) /\ Forall gop_ok (toy_ops (toy_blob ++ [1])) /\
  records (log_text toy_texts (au_lines (toy_run toy_blob))) =
    [bs "192.0.2.1: Userauth ""alice"" service=""ssh-connection"" method=""publickey""";
     bs "192.0.2.1: Accepted publickey for ""alice"": ssh-ed25519 SHA256:MwAAAAAAAAAAAAAAAAAAAAAAAAAAAAAAAAAAAAAAAAA"] /\
  au_lines (toy_run (toy_blob ++ [1])) =
    [(bs "192.0.2.1", LUserauth (bs "alice") CONNECTION PUBLICKEY);
     (bs "192.0.2.1", LAcceptedKey (bs "alice") (toy_blob ++ [1]))] /\
  ac_options (sv_account (au_server (toy_run toy_blob))) = demo_options /\
  ac_options (sv_account (au_server (toy_run (toy_blob ++ [1])))) = ko_default /\
  records (log_text toy_texts (au_lines (toy_run (toy_blob ++ [1])))) = records (log_text toy_texts (au_lines (toy_run toy_blob))).
Proof.
  split; [apply gops_ok; vm_compute; reflexivity|]. split; [apply gops_ok; vm_compute; reflexivity|].
  repeat split; vm_compute; reflexivity.
Qed.

Lemma in_second : forall (A : Type) (l : list A) a b, l = [a; b] -> In b l.
Proof. intros A l a b ->. right. left. reflexivity. Qed.
Lemma toy_line : au_lines (grun toy_config toy_texts demo_session_id [] (bs "192.0.2.1") (toy_ops toy_blob)) =
  [(bs "192.0.2.1", LUserauth (bs "alice") CONNECTION PUBLICKEY); (bs "192.0.2.1", LAcceptedKey (bs "alice") toy_blob)].
Proof. vm_compute. reflexivity. Qed.
Lemma toy_line' : au_lines (grun toy_config toy_texts demo_session_id [] (bs "192.0.2.1") (toy_ops (toy_blob ++ [1]))) =
  [(bs "192.0.2.1", LUserauth (bs "alice") CONNECTION PUBLICKEY); (bs "192.0.2.1", LAcceptedKey (bs "alice") (toy_blob ++ [1]))].
Proof. vm_compute. reflexivity. Qed.
Definition toy_in := in_second _ _ _ _ toy_line.
Definition toy_in' := in_second _ _ _ _ toy_line'.
Lemma toy_same : tx_key toy_texts toy_blob = tx_key toy_texts (toy_blob ++ [1]).
Proof. vm_compute. reflexivity. Qed.
Lemma toy_differ : toy_blob <> toy_blob ++ [1].
Proof. intro X. apply (f_equal len) in X. rewrite len_app in X. revert X. generalize (len toy_blob). intros n X. change (len [1]) with 1 in X. lia. Qed.
Lemma toy_hash : c_digest toy_keys SHA256 toy_blob <> c_digest toy_keys SHA256 (toy_blob ++ [1]).
Proof. intro X. vm_compute in X. discriminate. Qed.
Lemma toy_text : forall blob, tx_key toy_texts blob = KeyText toy_keys false blob.
Proof. reflexivity. Qed.

Theorem C92_refuted : ~ C92_full_statement.
Proof.
  intro H. destruct C92_demo as (F & F' & _).
  destruct (H toy_keys false toy_texts toy_points toy_hash32 toy_text toy_config toy_config demo_session_id demo_session_id
    [] [] (bs "192.0.2.1") (bs "192.0.2.1") (toy_ops toy_blob) (toy_ops (toy_blob ++ [1])) F F' toy_uses toy_uses
    _ _ (bs "alice") toy_blob _ _ (bs "alice") (toy_blob ++ [1]) toy_in (or_introl eq_refl) toy_in' (or_introl eq_refl) toy_same) as [X|X].
  - exact (toy_differ X).
  - exact (toy_hash X).
Qed.
Print Assumptions C92_refuted.
