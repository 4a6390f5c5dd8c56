(** * C67: signatures made with a key verify with it, and only valid ones do *)

From Coq Require Import NArith List Bool Lia String.
From Verif.Base Require Import Bytes.
From Verif.Spec Require Import WireSpec NamesSpec KeyFormatSpec.
From Verif.Model Require Import Wire Bignum StringList Keys.
From Verif.Model Require KexMachine.
From Verif.Proofs Require Import NamesFacts WireFacts BignumFacts KeyFormatFacts.
From Verif.Props Require Import C66.
Import ListNotations.
Open Scope N_scope.

Local Arguments bs : simpl never.

(** A signature consists of the name of the algorithm, which is one of the
    key, and the raw signature. *)
Theorem C67_format :
  forall c k message algorithm sig, signs_well c k -> Sign c [] k message algorithm = Some sig ->
  algorithm_of (public_of k) algorithm /\ exists raw, sig = enc [FString algorithm; FString raw].
Proof.
  intros c k m alg sig SW S. destruct (Sign_layout c [] k m alg sig) as (raw & E & _ & _ & A & _);
    [discriminate|intros pu se H; exact (proj1 (sw_ed c k SW pu se m H))|exact S|]. eauto.
Qed.
Print Assumptions C67_format.

(** Whoever has the public key can verify it. *)
Theorem C67_verifies :
  forall c k message algorithm sig, signs_well c k -> Sign c [] k message algorithm = Some sig ->
  Verify c (public_of k) message sig = Some true.
Proof. exact Sign_verifies. Qed.
Print Assumptions C67_verifies.

(** A signature is accepted only if it names an algorithm of the key and the
    primitive says that it is valid for exactly this message, with the hash
    function of this algorithm. *)
Theorem C67_sound :
  forall c k message sig, bytes_ok sig -> Verify c k message sig = Some true ->
  exists algorithm raw rest, sig = enc [FString algorithm; FString raw] ++ rest /\
    algorithm_of k algorithm /\ raw_valid c k algorithm message raw.
Proof. exact Verify_inv. Qed.
Print Assumptions C67_sound.

(** A key offers exactly the algorithms of its kind. *)
Theorem C67_algorithms :
  forall k names algorithm, name_list (GetAlgorithms k) names ->
  In algorithm names <-> algorithm_of k algorithm.
Proof.
  intros k names algorithm N. rewrite (name_list_unique _ _ N).
  destruct k; unfold GetAlgorithms; cbn [algorithm_of].
  - change (split 44 SSH_ED25519) with [bs "ssh-ed25519"]. cbn [In]. intuition congruence.
  - change (split 44 (bs "rsa-sha2-256,rsa-sha2-512,ssh-rsa")) with [bs "rsa-sha2-256"; bs "rsa-sha2-512"; bs "ssh-rsa"].
    cbn [In]. intuition congruence.
  - change (split 44 ECDSA_P256) with [bs "ecdsa-sha2-nistp256"]. cbn [In]. intuition congruence.
Qed.
Print Assumptions C67_algorithms.

Example C67_algorithms_demo : forall e n,
  name_list (GetAlgorithms (PubRSA e n)) [bs "rsa-sha2-256"; bs "rsa-sha2-512"; bs "ssh-rsa"].
Proof.
  intros e n. split; [discriminate|]. split; [|vm_compute; reflexivity].
  repeat constructor; vm_compute; intros X; repeat (destruct X as [X|X]; [discriminate X|]); exact X.
Qed.

(** The server announces (RFC 8308, "server-sig-algs") exactly the algorithms
    of the keys which it knows. *)
Theorem C67_announced :
  forall s, exists list names,
  KexMachine.SendExtInfo s = KexMachine.Ret (KexMachine.SendPacket
    (enc [FByte 7; FU32 2; FString (bs "server-sig-algs"); FString list; FString (bs "agent-forward"); FString (bs "0")]) s) /\
  name_list list names /\
  forall algorithm, In algorithm names <-> exists k, algorithm_of k algorithm.
Proof.
  intro s. exists (bs "ssh-ed25519,ecdsa-sha2-nistp256,rsa-sha2-256,rsa-sha2-512,ssh-rsa").
  exists [bs "ssh-ed25519"; bs "ecdsa-sha2-nistp256"; bs "rsa-sha2-256"; bs "rsa-sha2-512"; bs "ssh-rsa"].
  split; [vm_compute; reflexivity|]. split.
  - split; [discriminate|]. split; [|vm_compute; reflexivity].
    repeat constructor; vm_compute; intros X; repeat (destruct X as [X|X]; [discriminate X|]); exact X.
  - intro a. cbn [In]. split.
    + intros [<-|[<-|[<-|[<-|[<-|[]]]]]]; [exists (PubEd25519 [])|exists (PubEC [])|exists (PubRSA 3 33)..];
        cbn [algorithm_of]; auto.
    + intros ([pu|e n|q] & A); cbn [algorithm_of] in A; intuition.
Qed.
Print Assumptions C67_announced.

(** Every algorithm which a key offers can be used, unless the primitive
    fails. *)
Definition C67_full_statement : Prop :=
  forall c k message algorithm, In algorithm (split 44 (GetAlgorithms (public_of k))) -> fits c k message algorithm ->
  Sign c [] k message algorithm <> None.

(** It is false: without libmd, RSA keys still offer ssh-rsa. *)
Definition no_libmd : crypto := {| c_openssl := true; c_libmd := false;
  c_ed_sign := fun secret m => secret; c_ed_verify := fun p m s => true; c_digest := fun _ m => [];
  c_rsa_public_ok := fun _ _ => true; c_rsa_ok := fun _ => true; c_ec_public := @Some bytes; c_ec := fun q _ => Some q;
  c_sign := fun _ _ _ => Some []; c_verify := fun _ _ _ _ => Some true; c_d2i := fun _ => None; c_i2d := fun _ => []; c_base64 := fun _ => None |}.
Definition small_rsa : rsa_pair :=
  {| rsa_n := 33; rsa_e := 3; rsa_d := 7; rsa_iqmp := 2; rsa_p := 3; rsa_q := 11; rsa_dmp := 1; rsa_dmq := 7 |}.
Theorem C67_refuted : ~ C67_full_statement.
Proof.
  intro H. apply (H no_libmd (SecRSA small_rsa) [] (bs "ssh-rsa")).
  - vm_compute. auto.
  - intros h _. exists []. split; [reflexivity|discriminate].
  - reflexivity.
Qed.
Print Assumptions C67_refuted.

(** With libmd it is true. *)
Theorem C67_offered_partial :
  forall c k message algorithm, c_libmd c = true ->
  In algorithm (split 44 (GetAlgorithms (public_of k))) -> fits c k message algorithm ->
  Sign c [] k message algorithm <> None.
Proof.
  intros c k m alg MD I F. apply Sign_some; [exact MD| |exact F].
  destruct k as [pu se|k|q d]; vm_compute in I |- *; intuition congruence.
Qed.
Print Assumptions C67_offered_partial.

Lemma toy_signs : forall q d, signs_well toy_crypto (SecEC q d).
Proof.
  intros q d. constructor.
  - discriminate.
  - intros h dg raw H. injection H as <-. reflexivity.
  - intros raw sig H. destruct raw as [|r [|s [|t raw]]]; try discriminate. injection H as <-. reflexivity.
Qed.
Example C67_demo :
  signs_well toy_crypto (SecEC [4; 1; 2] 77) /\
  Sign toy_crypto [] (SecEC [4; 1; 2] 77) (bs "hello") (bs "ecdsa-sha2-nistp256") =
    Some (enc [FString (bs "ecdsa-sha2-nistp256"); FString (enc [FString [5]; FString [7]])]).
Proof. split; [apply toy_signs|vm_compute; reflexivity]. Qed.
