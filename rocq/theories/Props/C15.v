(** * C15: the exchange hash binds the whole handshake *)

From Coq Require Import NArith List Bool Lia String.
From Verif.Base Require Import Bytes.
From Verif.Spec Require Import WireSpec PacketSpec NamesSpec KexSpec.
From Verif.Model Require Import Wire Frame Packets StringList Negotiate KexKeys KexMachine.
From Verif.Proofs Require Import WireFacts PacketFacts NamesFacts KexKeysFacts KexFacts KexFrame KexStrict KexLog KexAuth KexToy.
Import ListNotations.
Open Scope N_scope.

(** no component has 4 GiB or more *)
Definition small (h : handshake) : Prop :=
  len (V_C h) < 2 ^ 32 /\ len (V_S h) < 2 ^ 32 /\ len (I_C h) < 2 ^ 32 /\ len (I_S h) < 2 ^ 32 /\
  len (K_S h) < 2 ^ 32 /\ len (Q_C h) < 2 ^ 32 /\ len (Q_S h) < 2 ^ 32.

(** Both sides hash the handshake in the order of RFC 5656 section 4 ... *)
Theorem C15_hash_input :
  forall client_version server_version client_kexinit server_kexinit host_key client_key server_key secret,
  KexHashInput client_version server_version client_kexinit server_kexinit host_key client_key server_key secret =
  hash_input {| V_C := client_version; V_S := server_version;
                I_C := 20 :: client_kexinit; I_S := 20 :: server_kexinit; K_S := host_key;
                Q_C := client_key; Q_S := server_key; K := secret |}.
Proof. exact KexHashInput_spec. Qed.
Print Assumptions C15_hash_input.

(** ... and this encoding is unambiguous. *)
Theorem C15_injective : forall a b, small a -> small b -> hash_input a = hash_input b -> a = b.
Proof.
  intros [a1 a2 a3 a4 a5 a6 a7 a8] [b1 b2 b3 b4 b5 b6 b7 b8] (A1 & A2 & A3 & A4 & A5 & A6 & A7)
    (B1 & B2 & B3 & B4 & B5 & B6 & B7). unfold hash_input.
  cbn [V_C V_S I_C I_S K_S Q_C Q_S K] in *. intro H.
  apply string_enc_inj in H as [-> H]; [|assumption|assumption].
  apply string_enc_inj in H as [-> H]; [|assumption|assumption].
  apply string_enc_inj in H as [-> H]; [|assumption|assumption].
  apply string_enc_inj in H as [-> H]; [|assumption|assumption].
  apply string_enc_inj in H as [-> H]; [|assumption|assumption].
  apply string_enc_inj in H as [-> H]; [|assumption|assumption].
  apply string_enc_inj in H as [-> H]; [|assumption|assumption].
  congruence.
Qed.
Print Assumptions C15_injective.

(** So a change of any value changes the input of the hash function; for the
    values passed to CalcKexHash(). *)
Theorem C15_any_change_is_hashed :
  forall vc vs ic is ks qc qs k vc' vs' ic' is' ks' qc' qs' k',
  (forall x, In x [vc; vs; ks; qc; qs; vc'; vs'; ks'; qc'; qs'] -> len x < 2 ^ 32) ->
  (forall x, In x [ic; is; ic'; is'] -> len x + 1 < 2 ^ 32) ->
  KexHashInput vc vs ic is ks qc qs k = KexHashInput vc' vs' ic' is' ks' qc' qs' k' ->
  vc = vc' /\ vs = vs' /\ ic = ic' /\ is = is' /\ ks = ks' /\ qc = qc' /\ qs = qs' /\ k = k'.
Proof.
  intros vc vs ic is ks qc qs k vc' vs' ic' is' ks' qc' qs' k' H1 H2 H. rewrite !KexHashInput_spec in H.
  apply C15_injective in H.
  - injection H as -> -> -> -> -> -> -> ->. repeat split.
  - unfold small. cbn [V_C V_S I_C I_S K_S Q_C Q_S K]. rewrite !len_cons, !(N.add_comm 1).
    repeat split; first [apply H1|apply H2]; cbn [In]; tauto.
  - unfold small. cbn [V_C V_S I_C I_S K_S Q_C Q_S K]. rewrite !len_cons, !(N.add_comm 1).
    repeat split; first [apply H1|apply H2]; cbn [In]; tauto.
Qed.
Print Assumptions C15_any_change_is_hashed.

(** Witness: moving a byte between neighbouring values is noticed, although
    plain concatenation would not notice. *)
Example C15_witness :
  let a := {| V_C := [1; 2]; V_S := [3]; I_C := [20; 1]; I_S := [20]; K_S := [5]; Q_C := [6]; Q_S := [7]; K := [0; 0; 0; 1; 8] |} in
  let b := {| V_C := [1]; V_S := [2; 3]; I_C := [20; 1]; I_S := [20]; K_S := [5]; Q_C := [6]; Q_S := [7]; K := [0; 0; 0; 1; 8] |} in
  small a /\ small b /\ V_C a ++ V_S a = V_C b ++ V_S b /\ hash_input a <> hash_input b.
Proof. repeat split. vm_compute. discriminate. Qed.
