(** * C31: signatures are bound to session and request

    Spec/AuthSpec.v: [signed_data] is what RFC 4252 says must be signed. *)

From Coq Require Import NArith List Bool Lia String.
From Verif.Base Require Import Bytes.
From Verif.Spec Require Import WireSpec KeySpec AuthSpec SessionSpec AuthDemo.
From Verif.Model Require Import Wire Packets StringList KeyOptions Auth AuthClient Session Server.
From Verif.Proofs Require Import WireFacts KeyFacts AuthFacts ServerFacts AuthClientFacts.
From Verif.Props Require Import C30.
Import ListNotations.
Open Scope N_scope.

(** ** What is signed determines session and request *)

Theorem C31_injective :
  forall session_id session_id' r r',
  len session_id < pow32 -> len session_id' < pow32 ->
  Forall field_ok (request_fields r) -> Forall field_ok (request_fields r') ->
  signed_data session_id (request_fields r) = signed_data session_id' (request_fields r') ->
  session_id = session_id' /\ r = r'.
Proof.
  intros sid sid' r r' L L' F F' H. unfold signed_data in H.
  apply enc_string_inj in H as [-> H]; [|assumption..]. split; [reflexivity|].
  apply enc_byte_inj in H as [_ H].
  destruct r as [u f a b|u a b h c], r' as [u' f' a' b'|u' a' b' h' c'];
    cbn [request_fields] in *; unfold key_request, host_request in *;
    repeat match goal with X : Forall _ (_ :: _) |- _ => inversion X; clear X; subst end; cbn [field_ok] in *;
    repeat match type of H with
    | enc (FString _ :: _) = enc (FString _ :: _) => apply enc_string_inj in H as [? H]; [|assumption..]
    | enc (FByte _ :: _) = enc (FByte _ :: _) => apply enc_byte_inj in H as [? H]
    end; try congruence.
  all: exfalso; match goal with X : _ = _ |- _ => vm_compute in X; discriminate X end.
Qed.
Print Assumptions C31_injective.

(** ** No replay

    [signed_by blob session_id r]: the owner of the secret key for [blob] has
    signed the request [r] in the session [session_id].  Suppose signatures
    cannot be forged.  Then a client logged in by a key signature had this
    request, for this user, in this session, signed by the owner of the key;
    signatures made in other sessions, or for other users, other methods or
    other keys do not help. *)
Theorem C31_no_replay :
  forall cfg session_id peer_address ops op user (signed_by : bytes -> bytes -> signed_request -> Prop),
  Forall op_ok ops -> Forall op_small ops -> len session_id < pow32 ->
  (forall blob message signature, cf_verify cfg blob message signature = Some true ->
     exists session_id' r, len session_id' < pow32 /\ Forall field_ok (request_fields r) /\
       signed_by blob session_id' r /\ message = signed_data session_id' (request_fields r)) ->
  let s := vrun cfg session_id peer_address ops in
  let s' := vstep cfg session_id op s in
  forall events, sv_log s' = sv_log s ++ events -> In (VAuthenticated user) events ->
  exists w payload, op = OAuth w /\ sv_busy s = Checking payload /\
   ((exists r signature, payload = enc (request_fields r ++ [FString signature]) /\
      request_user r = user /\ signed_by (request_key r) session_id r) \/
    proves cfg session_id w (ac_log (sv_account s')) payload user CPassword \/
    proves cfg session_id w (ac_log (sv_account s')) payload user CWaived).
Proof.
  intros cfg sid peer ops op user signed_by F SM LS UF s s' events L I.
  destruct (C30_proof cfg sid peer ops op user F events L I) as (w & payload & c & O & B & R & V & P).
  exists w, payload. split; [exact O|]. split; [exact B|].
  assert (SP : len payload < pow32 /\ bytes_ok payload).
  { destruct R as (env & R). rewrite Forall_forall in SM, F. split; [exact (SM _ R)|exact (F _ R)]. }
  destruct SP as [SP OKP].
  destruct P as [u flag alg blob sg src o NZ SD LI PK VF|u alg blob h cu sg src o SD LI PK VF|u pw r T NE X Y|u m rest r NI SD NP].
  - left. exists (KeyRequest u flag alg blob), sg. split; [reflexivity|]. split; [reflexivity|].
    destruct (UF _ _ _ VF) as (sid' & r & L1 & F1 & SB & E).
    change (key_request u flag alg blob) with (request_fields (KeyRequest u flag alg blob)) in E.
    apply C31_injective in E as [-> <-]; auto.
    cbn [request_fields]. unfold key_request in *. unfold enc in SP, OKP. cbn [map List.concat enc_field app] in SP, OKP.
    unfold string_enc in SP. rewrite !len_app, !len_be32, len_cons, !len_app, !len_be32 in SP.
    unfold bytes_ok in OKP. rewrite !Forall_app in OKP. destruct OKP as (_ & _ & _ & X). apply Forall_inv in X.
    repeat (apply Forall_cons; [cbn [field_ok]; first [lia | exact X]|]). apply Forall_nil.
  - left. exists (HostRequest u alg blob h cu), sg. split; [reflexivity|]. split; [reflexivity|].
    destruct (UF _ _ _ VF) as (sid' & r & L1 & F1 & SB & E).
    change (host_request u alg blob h cu) with (request_fields (HostRequest u alg blob h cu)) in E.
    apply C31_injective in E as [-> <-]; auto.
    cbn [request_fields]. unfold host_request in *. unfold enc in SP. cbn [map List.concat enc_field app] in SP.
    unfold string_enc in SP. rewrite !len_app, !len_be32 in SP.
    repeat (apply Forall_cons; [cbn [field_ok]; lia|]). apply Forall_nil.
  - right. left. now apply (P_password _ _ _ _ _ _ r).
  - right. right. eapply P_waived; eassumption.
Qed.
Print Assumptions C31_no_replay.

(** ** What our client sends

    If the request could be built, the packet is a request with a signature
    of exactly the bytes above (five bytes of header are filled in later). *)
Theorem C31_client_publickey :
  forall header session_id user key algorithm packet, len header = 5 ->
  UserAuthRequestPublicKey header session_id user key algorithm = Some packet ->
  let r := KeyRequest user 1 algorithm (sk_blob key) in
  exists signature,
    sk_sign key (signed_data session_id (request_fields r)) algorithm = Some signature /\
    packet = header ++ [50] ++ enc (request_fields r ++ [FString signature]).
Proof. intros header sid user key alg packet J H. exact (UserAuthRequestPublicKey_inv _ _ _ _ _ _ J H). Qed.
Print Assumptions C31_client_publickey.

Theorem C31_client_hostbased :
  forall header session_id user key algorithm client_host client_user packet, len header = 5 ->
  UserAuthRequestHostbased header session_id user key algorithm client_host client_user = Some packet ->
  let r := HostRequest user algorithm (sk_blob key) client_host client_user in
  exists signature,
    sk_sign key (signed_data session_id (request_fields r)) algorithm = Some signature /\
    packet = header ++ [50] ++ enc (request_fields r ++ [FString signature]).
Proof. intros header sid user key alg h c packet J H. exact (UserAuthRequestHostbased_inv _ _ _ _ _ _ _ _ J H). Qed.
Print Assumptions C31_client_hostbased.

(** The server accepts this as a proof, if the key is one of its host keys and
    signatures made with the secret key verify with the public key. *)
Theorem C31_client_server :
  forall cfg w log header session_id user key algorithm client_host client_user packet src o, len header = 5 ->
  (forall message signature, sk_sign key message algorithm = Some signature ->
     cf_verify cfg (sk_blob key) message signature = Some true) ->
  said cfg log user src -> In (sk_blob key, o) (cf_authorized_host_keys cfg) -> cf_parse_key cfg (sk_blob key) = true ->
  UserAuthRequestHostbased header session_id user key algorithm client_host client_user = Some packet ->
  proves cfg session_id w log (drop 6 packet) user (CHost (sk_blob key) o).
Proof.
  intros cfg w log header sid user key alg h c packet src o J VF SD I PK H.
  destruct (C31_client_hostbased _ _ _ _ _ _ _ _ J H) as (sg & SG & ->). cbn [request_fields] in *.
  rewrite app_assoc. replace 6 with (len (header ++ [50])) by (rewrite len_app, J; reflexivity). rewrite drop_len.
  eapply P_host; eauto.
Qed.
Print Assumptions C31_client_server.

(** Concrete cases: a signature made in another session, for another user or
    by another method fails; our client's request succeeds. *)
Definition demo_secret : secret_key := {| sk_blob := bs "HOST"; sk_sign := fun m _ => Some (toy_sign (bs "HOST") m) |}.

Definition demo_replayed (session_id user signed_user key : bytes) : bytes :=
  enc (key_request user 1 (bs "ssh-ed25519") key ++
       [FString (toy_sign key (signed_data session_id (key_request signed_user 1 (bs "ssh-ed25519") key)))]).

Example C31_demo :
  map (demo_authenticated true)
    [demo_replayed demo_session_id (bs "alice") (bs "alice") (bs "KEY");
     demo_replayed (bs "another") (bs "alice") (bs "alice") (bs "KEY");
     demo_replayed demo_session_id (bs "alice") (bs "far") (bs "KEY")] = [true; false; false] /\
  match UserAuthRequestHostbased [0; 0; 0; 0; 0] demo_session_id (bs "alice") demo_secret (bs "ssh-ed25519") (bs "localhost") (bs "unknown") with
  | Some packet => demo_authenticated true (drop 6 packet)
  | None => false
  end = true /\
  UserAuthRequestPublicKey [0; 0; 0; 0; 0] demo_session_id (bs "alice") demo_secret (bs "ssh-ed25519") <> None.
Proof. split; [|split]; [vm_compute; reflexivity..|vm_compute; discriminate]. Qed.

(** The toy scheme cannot be forged by anybody who does not sign: the
    hypothesis of [C31_no_replay] can be met. *)
Example C31_demo_unforgeable :
  let cfg := demo_config true in
  let signed_by blob sid r := r = KeyRequest (bs "alice") 1 (bs "ssh-ed25519") blob /\ sid = demo_session_id in
  let honest := {| cf_translation_server := true; cf_authorized_host_keys := []; cf_global_keys := cf_global_keys cfg;
    cf_accept_client_address := false; cf_exec_reject_stderr := false; cf_verbose_errors := false;
    cf_proxy_to := cf_proxy_to cfg; cf_openssl := true; cf_base64 := cf_base64 cfg; cf_parse_key := cf_parse_key cfg;
    cf_verify := fun blob m sg => Some (bytes_eqb sg [1] && bytes_eqb blob (bs "KEY") &&
      bytes_eqb m (signed_data demo_session_id (request_fields (KeyRequest (bs "alice") 1 (bs "ssh-ed25519") (bs "KEY")))));
    cf_parse_address := cf_parse_address cfg |} in
  (forall blob message signature, cf_verify honest blob message signature = Some true ->
     exists session_id' r, len session_id' < pow32 /\ Forall field_ok (request_fields r) /\
       signed_by blob session_id' r /\ message = signed_data session_id' (request_fields r)) /\
  ac_authenticated (sv_account (vrun honest demo_session_id (bs "192.0.2.1") (demo_start ++ demo_attempt
    (enc (key_request (bs "alice") 1 (bs "ssh-ed25519") (bs "KEY") ++ [FString [1]]))))) = true.
Proof.
  cbv zeta. split; [|vm_compute; reflexivity]. intros blob m sg H. cbn [cf_verify] in H.
  assert (X : bytes_eqb sg [1] && bytes_eqb blob (bs "KEY") &&
      bytes_eqb m (signed_data demo_session_id (request_fields (KeyRequest (bs "alice") 1 (bs "ssh-ed25519") (bs "KEY")))) = true) by congruence.
  apply andb_true_iff in X as [X M]. apply andb_true_iff in X as [_ X].
  apply bytes_eqb_eq in X. apply bytes_eqb_eq in M. subst blob.
  exists demo_session_id, (KeyRequest (bs "alice") 1 (bs "ssh-ed25519") (bs "KEY")).
  split; [vm_compute; reflexivity|]. split; [|split; [split; reflexivity|exact M]].
  cbn [request_fields]. unfold key_request. repeat (apply Forall_cons; [vm_compute; reflexivity|]). apply Forall_nil.
Qed.
