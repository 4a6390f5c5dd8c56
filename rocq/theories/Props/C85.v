(** * C85: the encrypted packets have the standard format

    [sealed_all] (Spec/CipherFormat.v) is the format of the standards.
    [encrypt_all P c n ps l c'] and [decrypt_all P d n l ps d']
    (Proofs/CipherFacts.v): the cipher object encrypts the packets [ps] one
    after another to [l], or decrypts [l] to [ps], from sequence number [n]
    on.  [P] are the cryptographic primitives. *)

From Coq Require Import NArith List Bool Lia String.
From Verif.Base Require Import Bytes.
From Verif.Model Require Import Negotiate Ciphers.
From Verif.Spec Require Import NamesSpec CipherFormat.
From Verif.Proofs Require Import NamesFacts CipherFacts CipherMade CipherFormatFacts.
From Verif.Props Require C58 C59.
Import ListNotations.
Open Scope N_scope.
Local Arguments bs : simpl never.

(** Whatever names were negotiated: the method is the first known one of the
    list, and what gets sent is what the standard says for this method, for
    any number of packets of any contents. *)
Theorem C85_sent :
  forall P cipher_names mac_names ciphers macs key iv mac_key c,
  name_list cipher_names ciphers -> name_list mac_names macs ->
  MakeCipher cipher_names mac_names key iv mac_key true = Some (Some c) ->
  exists name m size, In (name, (m, size)) methods /\ first_common ciphers (map fst methods) name /\
    (m = AesCtrHmac -> In (bs "hmac-sha2-256") macs) /\
    forall n ps l c', encrypt_all P (new_running c) n ps l c' ->
      l = sealed_all P m size key iv mac_key n 0 0 ps.
Proof.
  intros P ca ma cs ms key iv mk c N1 N2 H. rewrite (name_list_unique _ _ N1), (name_list_unique _ _ N2).
  destruct (ready_made _ _ _ _ _ _ H) as (alg & m & size & A1 & A2 & A3 & R).
  exists alg, m, size. split; [exact A1|]. split; [exact A2|]. split; [exact A3|].
  intros n ps l c' E. exact (ready_all P m size key iv mk ps n 0 0 _ _ _ R E).
Qed.
Print Assumptions C85_sent.

(** Packets which a peer has made this way are accepted, and decrypted to
    what the peer has sent; and packets which are padded for this method
    are never refused by the sending side. *)
Theorem C85_received :
  forall P, tags_ok P -> forall cipher_names mac_names ciphers macs key iv mac_key d,
  name_list cipher_names ciphers -> name_list mac_names macs ->
  MakeCipher cipher_names mac_names key iv mac_key false = Some (Some d) ->
  exists name m size, In (name, (m, size)) methods /\ first_common ciphers (map fst methods) name /\
    forall n ps, Forall (padded m) ps ->
      (exists d', decrypt_all P (new_running d) n (sealed_all P m size key iv mac_key n 0 0 ps) ps d') /\
      forall c, MakeCipher cipher_names mac_names key iv mac_key true = Some (Some c) ->
        exists c', encrypt_all P (new_running c) n ps (sealed_all P m size key iv mac_key n 0 0 ps) c'.
Proof.
  intros P T ca ma cs ms key iv mk d N1 N2 H. rewrite (name_list_unique _ _ N1).
  assert (X : exists c, MakeCipher ca ma key iv mk true = Some (Some c)).
  { unfold MakeCipher in *. destruct (MakeEncryptionCipher_loop (StringList.split 44 ca) key iv false) as [[d0|]|] eqn:E; try discriminate.
    destruct (enc_loop _ _ _ _ _ E) as [_ O]. rewrite (O true). change (c_auth_size (other_end d0 true)) with (c_auth_size d0).
    destruct (c_auth_size d0 =? 0); [|eexists; reflexivity].
    destruct (mac_loop _ _ _ _ H) as (k & _ & _ & _ & _ & _ & O2). specialize (O2 true). eexists. exact O2. }
  destruct X as (c & Hc).
  destruct (ready_made _ _ _ _ _ _ Hc) as (alg & m & size & A1 & A2 & A3 & R).
  exists alg, m, size. split; [exact A1|]. split; [exact A2|]. intros n ps Hp.
  destruct (ready_encrypts P m size key iv mk ps n 0 0 _ R Hp) as (l & c' & E).
  assert (El := ready_all P m size key iv mk ps n 0 0 _ _ _ R E). subst l.
  split; [|intros c2 Hc2; assert (c2 = c) by congruence; subst c2; exists c'; exact E].
  destruct (made_cipher _ _ _ _ _ _ Hc) as (_ & _ & d2 & H2 & M). assert (d2 = d) by congruence. subst d2.
  assert (H4 : Forall (fun p => 4 <= len p) ps).
  { apply Forall_impl with (2 := Hp). intros p Q. destruct m; cbn [padded] in Q; lia. }
  destruct (all_inverse P T ps _ _ n _ _ M H4 E) as (d' & D & _). exists d'. exact D.
Qed.
Print Assumptions C85_received.

(** The keys which the key exchange derives (64 bytes each) are enough for
    every method. *)
Theorem C85_made :
  forall cipher_names mac_names ciphers macs key iv mac_key name m size do_encrypt,
  name_list cipher_names ciphers -> name_list mac_names macs ->
  In (name, (m, size)) methods -> first_common ciphers (map fst methods) name ->
  (m = AesCtrHmac -> In (bs "hmac-sha2-256") macs) ->
  len key = 64 -> len iv = 64 -> len mac_key = 64 ->
  exists c, MakeCipher cipher_names mac_names key iv mac_key do_encrypt = Some (Some c).
Proof.
  intros ca ma cs ms key iv mk name m size e N1 N2 A1 A2 A3 L1 L2 L3.
  rewrite (name_list_unique _ _ N1) in A2. rewrite (name_list_unique _ _ N2) in A3.
  apply (makes ca ma key iv mk e name m size A1 A2 A3 L1); lia.
Qed.
Print Assumptions C85_made.

(** Witnesses: all three kinds, two packets each, with the list of names that
    this program offers. *)
Definition p1 : bytes := be32 28 ++ repeat 4 28.
Definition p2 : bytes := be32 12 ++ repeat 5 28.
Definition g1 : bytes := be32 16 ++ repeat 4 16.
Definition key : bytes := repeat 1 32 ++ repeat 2 32.
Definition iv : bytes := repeat 255 12 ++ repeat 9 52.
Example C85_demo :
  name_list all_encryption_algorithms (map fst methods) /\
  Forall (padded ChaChaPoly) [g1; g1] /\ Forall (padded AesGcm) [g1; g1] /\ Forall (padded AesCtrHmac) [p1; p2] /\
  (exists c l c', MakeCipher all_encryption_algorithms all_mac_algorithms key iv key true = Some (Some c) /\
     encrypt_all C58.toy (new_running c) 5 [g1; g1] l c' /\ l = sealed_all C58.toy ChaChaPoly 64 key iv key 5 0 0 [g1; g1]) /\
  (exists c l c', MakeCipher (bs "aes256-gcm@openssh.com,aes128-ctr") [] key iv key true = Some (Some c) /\
     encrypt_all C58.toy (new_running c) 5 [g1; g1] l c' /\ l = sealed_all C58.toy AesGcm 32 key iv key 5 0 0 [g1; g1] /\
     nth 0 l [] <> nth 1 l []) /\
  (exists c l c', MakeCipher (bs "3des-cbc,aes192-ctr") (bs "hmac-sha2-256") key iv key true = Some (Some c) /\
     encrypt_all C58.toy (new_running c) 5 [p1; p2] l c' /\ l = sealed_all C58.toy AesCtrHmac 24 key iv key 5 0 0 [p1; p2]).
Proof.
  split.
  { split; [discriminate|]. split; [|vm_compute; reflexivity].
    repeat constructor; vm_compute; intros X; repeat (destruct X as [X|X]; [discriminate X|]); exact X. }
  split; [repeat constructor; discriminate|]. split; [repeat constructor; discriminate|]. split; [repeat constructor; discriminate|].
  split; [|split].
  - do 3 eexists. split; [vm_compute; reflexivity|]. split; [|vm_compute; reflexivity].
    econstructor; [vm_compute; reflexivity|]. econstructor; [vm_compute; reflexivity|constructor].
  - do 3 eexists. split; [vm_compute; reflexivity|]. split; [|split; [vm_compute; reflexivity|]].
    { econstructor; [vm_compute; reflexivity|]. econstructor; [vm_compute; reflexivity|constructor]. }
    vm_compute. discriminate.
  - do 3 eexists. split; [vm_compute; reflexivity|]. split; [|vm_compute; reflexivity].
    econstructor; [vm_compute; reflexivity|]. econstructor; [vm_compute; reflexivity|constructor].
Qed.
