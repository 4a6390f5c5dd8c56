(** * C14: client and server derive matching directional keys *)

From Coq Require Import NArith List Bool Lia String.
From Verif.Base Require Import Bytes.
From Verif.Spec Require Import WireSpec PacketSpec NamesSpec KexSpec.
From Verif.Model Require Import Wire Frame Packets StringList Negotiate KexKeys KexMachine.
From Verif.Proofs Require Import WireFacts PacketFacts NamesFacts KexKeysFacts KexFacts KexFrame KexStrict KexLog KexAuth KexToy.
Import ListNotations.
Open Scope N_scope.

(** The keys of each direction are those of RFC 4253 section 7.2 with the
    letters of this direction, 64 bytes each, for any hash function with
    32 bytes. *)
Theorem C14_rfc4253_keys :
  forall HASH, (forall x, len (HASH x) = 32) ->
  forall sid h k role initial, h <> [] -> initial = (len sid =? 0) ->
  exists keys, DeriveKeys HASH sid h k role initial = Some (if initial then h else sid, keys) /\
  forall d, let key := match d with INCOMING => nk_incoming keys | OUTGOING => nk_outgoing keys end in
    let sid' := if initial then h else sid in
    let '(l_iv, l_key, l_mac) := letters (flow_of role d) in
    derived_key HASH k h sid' l_iv (enc_iv key) /\ len (enc_iv key) = 64 /\
    derived_key HASH k h sid' l_key (enc_key key) /\ len (enc_key key) = 64 /\
    derived_key HASH k h sid' l_mac (mac_key key) /\ len (mac_key key) = 64.
Proof.
  intros HASH H32 sid h k role initial Hh ->. rewrite (DeriveKeys_ok HASH H32) by assumption. cbv zeta.
  eexists. split; [reflexivity|]. intro d. destruct d; cbn [nk_incoming nk_outgoing]; unfold dir_keys;
    destruct (letters _) as [[a b] c]; cbn [enc_iv enc_key mac_key]; rewrite !(len_key2 HASH H32);
    repeat split; apply derived_all.
Qed.
Print Assumptions C14_rfc4253_keys.

(** Client and server, from the same values. *)
Theorem C14_both_sides_match :
  forall HASH, (forall x, len (HASH x) = 32) ->
  forall sid h k initial sid_c keys_c sid_s keys_s,
  DeriveKeys HASH sid h k CLIENT initial = Some (sid_c, keys_c) ->
  DeriveKeys HASH sid h k SERVER initial = Some (sid_s, keys_s) ->
  sid_c = sid_s /\ nk_outgoing keys_c = nk_incoming keys_s /\ nk_incoming keys_c = nk_outgoing keys_s.
Proof.
  intros HASH H32 sid h k initial a b c d H1 H2. unfold DeriveKeys in *.
  destruct (if initial then _ else _) as [sid'|]; [|discriminate]. cbn [obind] in *.
  destruct (derive_all HASH _ h k sid') as [keys|]; [|discriminate]. cbn [obind] in *.
  injection H1 as <- <-. injection H2 as <- <-. repeat split.
Qed.
Print Assumptions C14_both_sides_match.

(** In every run: the cipher put into use for a direction has the key, IV
    and MAC key which were derived for this direction from this exchange
    and the session id, in the sizes the algorithm needs. *)
Theorem C14_ciphers_use_them :
  forall E role, (forall x, len (e_digest E x) = 32) ->
  forall u ops s, kruns E role u ops s -> Forall op_ok ops ->
  forall d pre c post,
  k_log s = pre ++ (match d with OUTGOING => EOutCipher c | INCOMING => EInCipher c end) :: post ->
  exists x h sig, history role pre = Some (XRun x) /\ exchanged role (e_version E) x h sig /\
    x_secret x = Some (K h) /\
    derived_cipher (e_digest E) (flow_of role d) h (k_session_id s) c.
Proof.
  intros E role H32 u ops s H Ho d pre c post HL.
  destruct (kruns_Fin E role H32 u ops s H Ho) as ((G & _) & _).
  destruct (G pre _ post HL) as (ph & Hh & Ge). destruct d; cbn [good_event] in Ge;
    destruct Ge as (x & h & sig & -> & _ & X1 & X2 & _ & X3); exists x, h, sig; auto.
Qed.
Print Assumptions C14_ciphers_use_them.

(** Witness: in a complete exchange between a client and a server, what one
    uses for sending the other uses for receiving; the two directions
    differ. *)
Example C14_witness : exists c s, kruns toy CLIENT false client_ops c /\ kruns toy SERVER false server_ops s /\
  Forall op_ok client_ops /\ Forall op_ok server_ops /\
  nk_outgoing (k_new_keys c) = nk_incoming (k_new_keys s) /\
  nk_incoming (k_new_keys c) = nk_outgoing (k_new_keys s) /\
  nk_incoming (k_new_keys c) <> nk_outgoing (k_new_keys c) /\
  len (enc_key (nk_outgoing (k_new_keys c))) = 64 /\
  k_out_encrypted c = true.
Proof.
  destruct (krun CLIENT client_ops) as [c|] eqn:E1; [|vm_compute in E1; discriminate].
  destruct (krun SERVER server_ops) as [s|] eqn:E2; [|vm_compute in E2; discriminate].
  exists c, s. split; [now apply krun_runs|]. split; [now apply krun_runs|]. split; [okops|]. split; [okops|].
  vm_compute in E1. vm_compute in E2. injection E1 as <-. injection E2 as <-.
  repeat split; discriminate.
Qed.
