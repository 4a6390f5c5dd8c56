(** * C54: a server signs the hash of exactly this exchange before it uses the keys *)

From Coq Require Import NArith List Bool Lia String.
From Verif.Base Require Import Bytes.
From Verif.Spec Require Import WireSpec PacketSpec NamesSpec KexSpec.
From Verif.Model Require Import Wire Frame Packets StringList Negotiate KexKeys KexMachine.
From Verif.Proofs Require Import WireFacts PacketFacts NamesFacts KexKeysFacts KexFacts KexFrame KexStrict KexLog KexAuth KexToy.
Import ListNotations.
Open Scope N_scope.

(** In every run as server, before NEWKEYS is sent and before new ciphers are
    put into use, a reply was sent with a signature, made with the host key
    contained in the same reply, of the hash of exactly this exchange. *)
Theorem C54_signed_before_use :
  forall E, (forall x, len (e_digest E x) = 32) ->
  forall u ops s, kruns E SERVER u ops s -> Forall op_ok ops ->
  forall pre e post, k_log s = pre ++ e :: post ->
  (exists p, e = ETx (21 :: p)) \/ (exists k, e = ESecret k) \/
  (exists c, e = EOutCipher c) \/ (exists c, e = EInCipher c) ->
  exists x h sig, history SERVER pre = Some (XRun x) /\
    exchanged SERVER (e_version E) x h sig /\ server_signed E h sig.
Proof.
  intros E H32 u ops s H Ho pre e post HL He.
  destruct (kruns_Fin E SERVER H32 u ops s H Ho) as ((G & _) & _).
  destruct (G pre e post HL) as (ph & Hh & Ge).
  assert (G' : good_log E SERVER (k_session_id s) pre) by (rewrite HL in G; eapply good_pre; exact G).
  assert (S : exists ph', xstep SERVER ph e = Some ph').
  { assert (F : exists f, history SERVER (k_log s) = Some f).
    { destruct (kruns_Fin E SERVER H32 u ops s H Ho) as (_ & F). destruct (k_status s).
      - destruct F as (x & (Hx & _) & _). eauto.
      - eauto.
      - destruct F as (f & F & _). eauto. }
    destruct F as (f & F). rewrite HL in F. destruct (history_pre SERVER _ _ _ _ F) as (p1 & p2 & Hp1 & Hp2).
    rewrite Hh in Hp1. injection Hp1 as <-. eauto. }
  destruct He as [(p & ->)|[(k & ->)|[(c & ->)|(c & ->)]]].
  - destruct S as (ph' & S). destruct ph as [x| |]; [|discriminate|discriminate].
    cbn [xstep] in S. unfold must in S. destruct (is_some (x_secret x)) eqn:Es; [|discriminate].
    destruct (secret_known E SERVER _ _ G' x Hh) as (K1 & _). destruct K1 as (h & sig & X1 & _ & _ & X2).
    { destruct (x_secret x); [discriminate|discriminate]. }
    exists x, h, sig. auto.
  - destruct Ge as (x & h & sig & -> & X1 & _ & _ & X2). exists x, h, sig. auto.
  - destruct Ge as (x & h & sig & -> & _ & _ & X2 & _).
    destruct (secret_known E SERVER _ _ G' x Hh) as (K1 & _). destruct K1 as (h' & sig' & X1 & _ & _ & X3); [congruence|].
    exists x, h', sig'. auto.
  - destruct Ge as (x & h & sig & -> & _ & _ & X2 & _).
    destruct (secret_known E SERVER _ _ G' x Hh) as (K1 & _). destruct K1 as (h' & sig' & X1 & _ & _ & X3); [congruence|].
    exists x, h', sig'. auto.
Qed.
Print Assumptions C54_signed_before_use.

(** The client's view: it accepts exactly this signature if the signature
    scheme is complete (what the key signs, its public key verifies), so a
    reply which arrives unchanged is not rejected because of its
    signature. *)
Theorem C54_client_would_verify :
  forall E h sig, server_signed E h sig ->
  (forall key H alg sg, e_sign E key H alg = Some sg -> e_verify_signature E (e_blob E key) H sg = Some true) ->
  e_verify_signature E (K_S h) (e_digest E (hash_input h)) sig = Some true.
Proof. intros E h sig (key & alg & -> & H) C. eapply C. exact H. Qed.
Print Assumptions C54_client_would_verify.

(** Witness: the reply which the server sent in a complete exchange contains
    the blob of its key and a signature made with it; then it has sent
    NEWKEYS. *)
Example C54_witness :
  match krun SERVER server_ops with
  | Some s => forallb op_okb server_ops = true /\ k_status s = Running /\ In (ETx (31 :: string_enc (e_blob toy 7) ++ string_enc [9; 5; 6] ++ string_enc (7 :: k_session_id s))) (k_log s) /\ In (ETx [21]) (k_log s)
  | None => False
  end.
Proof. vm_compute. intuition. Qed.
