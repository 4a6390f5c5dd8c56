(** * C16: a client connection never proceeds with an unverified server *)

From Coq Require Import NArith List Bool Lia String.
From Verif.Base Require Import Bytes.
From Verif.Spec Require Import WireSpec PacketSpec NamesSpec KexSpec.
From Verif.Model Require Import Wire Frame Packets StringList Negotiate KexKeys KexMachine.
From Verif.Proofs Require Import WireFacts PacketFacts NamesFacts KexKeysFacts KexFacts KexFrame KexStrict KexLog KexAuth KexToy.
Import ListNotations.
Open Scope N_scope.

(** In every run as client, before anything that uses the new keys (keys
    derived, NEWKEYS sent, ciphers put into use), the server's host key was
    accepted by the verifier and its signature of the hash of exactly this
    exchange was verified. *)
Theorem C16_verified_before_use :
  forall E, (forall x, len (e_digest E x) = 32) ->
  forall u ops s, kruns E CLIENT u ops s -> Forall op_ok ops ->
  forall pre e post, k_log s = pre ++ e :: post ->
  (exists p, e = ETx (21 :: p)) \/ (exists k, e = ESecret k) \/
  (exists c, e = EOutCipher c) \/ (exists c, e = EInCipher c) ->
  exists x h sig, history CLIENT pre = Some (XRun x) /\
    exchanged CLIENT (e_version E) x h sig /\ server_verified E h sig.
Proof.
  intros E H32 u ops s H Ho pre e post HL He.
  destruct (kruns_Fin E CLIENT H32 u ops s H Ho) as ((G & _) & _).
  destruct (G pre e post HL) as (ph & Hh & Ge).
  assert (G' : good_log E CLIENT (k_session_id s) pre) by (rewrite HL in G; eapply good_pre; exact G).
  assert (S : exists ph', xstep CLIENT ph e = Some ph').
  { assert (F : exists f, history CLIENT (k_log s) = Some f).
    { destruct (kruns_Fin E CLIENT H32 u ops s H Ho) as (_ & F). destruct (k_status s).
      - destruct F as (x & (Hx & _) & _). eauto.
      - eauto.
      - destruct F as (f & F & _). eauto. }
    destruct F as (f & F). rewrite HL in F. destruct (history_pre CLIENT _ _ _ _ F) as (p1 & p2 & Hp1 & Hp2).
    rewrite Hh in Hp1. injection Hp1 as <-. eauto. }
  destruct He as [(p & ->)|[(k & ->)|[(c & ->)|(c & ->)]]].
  - destruct S as (ph' & S). destruct ph as [x| |]; [|discriminate|discriminate].
    cbn [xstep] in S. unfold must in S. destruct (is_some (x_secret x)) eqn:Es; [|discriminate].
    destruct (secret_known E CLIENT _ _ G' x Hh) as (K1 & _). destruct K1 as (h & sig & X1 & _ & _ & X2).
    { destruct (x_secret x); [discriminate|discriminate]. }
    exists x, h, sig. auto.
  - destruct Ge as (x & h & sig & -> & X1 & _ & _ & X2). exists x, h, sig. auto.
  - destruct Ge as (x & h & sig & -> & _ & _ & X2 & _).
    destruct (secret_known E CLIENT _ _ G' x Hh) as (K1 & _). destruct K1 as (h' & sig' & X1 & _ & _ & X3); [congruence|].
    exists x, h', sig'. auto.
  - destruct Ge as (x & h & sig & -> & _ & _ & X2 & _).
    destruct (secret_known E CLIENT _ _ G' x Hh) as (K1 & _). destruct K1 as (h' & sig' & X1 & _ & _ & X3); [congruence|].
    exists x, h', sig'. auto.
Qed.
Print Assumptions C16_verified_before_use.

(** Otherwise the connection ends: if it is still running after the server's
    reply has arrived, the server was verified. *)
Theorem C16_else_disconnected :
  forall E, (forall x, len (e_digest E x) = 32) ->
  forall u ops s x, kruns E CLIENT u ops s -> Forall op_ok ops -> k_status s = Running ->
  history CLIENT (k_log s) = Some (XRun x) -> x_reply x <> None ->
  exists h sig, exchanged CLIENT (e_version E) x h sig /\ server_verified E h sig.
Proof.
  intros E H32 u ops s x H Ho Hr Hx Hrep.
  destruct (kruns_Fin E CLIENT H32 u ops s H Ho) as ((G & _) & F). rewrite Hr in F.
  destruct F as (x' & (Hh & _ & _) & R). rewrite Hx in Hh. injection Hh as <-.
  destruct (secret_known E CLIENT _ _ G x Hx) as (K1 & _). destruct K1 as (h & sig & X1 & _ & _ & X2).
  - pose proof (r_sec _ _ _ _ R) as Q1. pose proof (r_kex _ _ _ _ R) as Q. unfold kex_rel in Q.
    destruct (k_kex s) as [[alg sec]|].
    + destruct Q as (_ & _ & _ & Q & _). congruence.
    + rewrite <- Q in Q1. destruct (kexinit_received (k_flags s)) eqn:Er.
      * destruct (x_secret x); [discriminate|discriminate].
      * destruct (r_idle _ _ _ _ R Er) as [_ Q2]. congruence.
  - exists h, sig. auto.
Qed.
Print Assumptions C16_else_disconnected.

(** The encryption of the connection in either direction implies a verified
    server. *)
Theorem C16_encrypted_means_verified :
  forall E, (forall x, len (e_digest E x) = 32) ->
  forall u ops s, kruns E CLIENT u ops s -> Forall op_ok ops ->
  k_out_encrypted s = true \/ k_in_encrypted s = true ->
  exists pre post x h sig, k_log s = pre ++ post /\ history CLIENT pre = Some (XRun x) /\
    exchanged CLIENT (e_version E) x h sig /\ server_verified E h sig.
Proof.
  intros E H32 u ops s H Ho He. destruct (kruns_flags E CLIENT u ops s H) as (F1 & F2 & _).
  assert (X : exists e pre post, k_log s = pre ++ e :: post /\ ((exists c, e = EOutCipher c) \/ exists c, e = EInCipher c)).
  { destruct He as [He|He].
    - rewrite F1 in He. apply existsb_exists in He as (e & Hin & He). apply in_split in Hin as (pre & post & Hl).
      exists e, pre, post. split; [exact Hl|]. destruct e; try discriminate. left. eauto.
    - rewrite F2 in He. apply existsb_exists in He as (e & Hin & He). apply in_split in Hin as (pre & post & Hl).
      exists e, pre, post. split; [exact Hl|]. destruct e; try discriminate. right. eauto. }
  destruct X as (e & pre & post & Hl & Hc).
  destruct (C16_verified_before_use E H32 u ops s H Ho pre e post Hl) as (x & h & sig & X1 & X2 & X3); [tauto|].
  exists pre, (e :: post), x, h, sig. auto.
Qed.
Print Assumptions C16_encrypted_means_verified.

(** Witness: a client run which becomes encrypted; the same with a damaged
    signature is disconnected without NEWKEYS. *)
Example C16_witness : exists s, kruns toy CLIENT false client_ops s /\ Forall op_ok client_ops /\
  k_status s = Running /\ k_out_encrypted s = true /\ k_in_encrypted s = true.
Proof.
  destruct (krun CLIENT client_ops) as [s|] eqn:E; [|vm_compute in E; discriminate].
  exists s. split; [now apply krun_runs|]. split; [okops|].
  vm_compute in E. injection E as <-. repeat split.
Qed.

Definition bad_reply : bytes :=
  match server_packets with
  | _ :: r :: _ => removelast r ++ [0]
  | _ => []
  end.

Example C16_witness_bad :
  match krun CLIENT [OpVersion (bs "SSH-2.0-toy") (rnd 3); cpkt (hd [] server_packets); cpkt bad_reply] with
  | Some s => k_status s = Dead /\ k_out_encrypted s = false /\ map (hd 0) (sent (k_log s)) = [20; 30; 1]
  | None => False
  end.
Proof. vm_compute. repeat split. Qed.
