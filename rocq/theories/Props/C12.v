(** * C12: no unauthenticated cipher is ever installed

    [kruns E role u ops s] (Model/KexMachine.v): [s] is reached by a new
    connection after the events [ops].  [k_log s] is what the connection has
    done, in order.  [history role pre = Some (XRun x)] (Spec/KexSpec.v): [x]
    says which packets of the current key exchange occur in [pre].  [op_ok]
    restricts the rest of the program, not the peer. *)

From Coq Require Import NArith List Bool Lia String.
From Verif.Base Require Import Bytes.
From Verif.Spec Require Import WireSpec PacketSpec NamesSpec KexSpec.
From Verif.Model Require Import Wire Frame Packets StringList Negotiate KexKeys KexMachine.
From Verif.Proofs Require Import WireFacts PacketFacts NamesFacts KexKeysFacts KexFacts KexFrame KexStrict KexLog KexAuth KexToy.
Import ListNotations.
Open Scope N_scope.

(** What is put into use was negotiated from both KEXINIT packets of this
    exchange, and authenticates each packet. *)
Theorem C12_cipher_is_negotiated :
  forall E role, (forall x, len (e_digest E x) = 32) ->
  forall u ops s, kruns E role u ops s -> Forall op_ok ops ->
  forall d pre c post,
  k_log s = pre ++ (match d with OUTGOING => EOutCipher c | INCOMING => EInCipher c end) :: post ->
  exists x, history role pre = Some (XRun x) /\ negotiated_cipher role d x c.
Proof.
  intros E role H32 u ops s H Ho d pre c post HL.
  destruct (kruns_Fin E role H32 u ops s H Ho) as ((G & _) & _).
  destruct (G pre _ post HL) as (ph & Hh & Ge). destruct d; cbn [good_event] in Ge;
    destruct Ge as (x & h & sig & -> & _ & _ & _ & Hc & _); exists x; auto.
Qed.
Print Assumptions C12_cipher_is_negotiated.

(** A connection which is encrypted in a direction has put a cipher into use
    in this direction. *)
Theorem C12_encrypted_by_cipher :
  forall E role u ops s, kruns E role u ops s ->
  (k_out_encrypted s = true <-> exists c, In (EOutCipher c) (k_log s)) /\
  (k_in_encrypted s = true <-> exists c, In (EInCipher c) (k_log s)).
Proof.
  intros E role u ops s H. destruct (kruns_flags E role u ops s H) as (-> & -> & _).
  rewrite !existsb_exists. split; split.
  - intros (e & Hin & He). destruct e; try discriminate. eauto.
  - intros (c & Hin). exists (EOutCipher c). auto.
  - intros (e & Hin & He). destruct e; try discriminate. eauto.
  - intros (c & Hin). exists (EInCipher c). auto.
Qed.
Print Assumptions C12_encrypted_by_cipher.

(** If there is no suitable combination, the exchange fails: a connection
    which survives the key exchange reply has one for sending, and one which
    survives NEWKEYS has one for receiving. *)
Theorem C12_no_combination_fails :
  forall E role, (forall x, len (e_digest E x) = 32) ->
  forall u ops s x, kruns E role u ops s -> Forall op_ok ops -> k_status s = Running ->
  history role (k_log s) = Some (XRun x) -> x_reply x <> None ->
  exists c, negotiated_cipher role OUTGOING x c.
Proof.
  intros E role H32 u ops s x H Ho Hr Hx Hrep.
  destruct (kruns_Fin E role H32 u ops s H Ho) as ((G & _) & F). rewrite Hr in F.
  destruct F as (x' & (Hh & _ & _) & R). rewrite Hx in Hh. injection Hh as <-.
  destruct (secret_known E role _ _ G x Hx) as (_ & K2 & _). apply K2.
  rewrite (r_out _ _ _ _ R). pose proof (r_kex _ _ _ _ R) as Q. unfold kex_rel in Q.
  destruct (k_kex s) as [[alg sec]|].
  - destruct Q as (_ & _ & _ & Q & _). congruence.
  - rewrite <- Q. destruct (kexinit_received (k_flags s)) eqn:Er; [reflexivity|].
    destruct (r_idle _ _ _ _ R Er) as [_ Q2]. congruence.
Qed.
Print Assumptions C12_no_combination_fails.

Theorem C12_no_incoming_combination_fails :
  forall E role, (forall x, len (e_digest E x) = 32) ->
  forall u ops s x p seq r h s', kruns E role u ops s -> Forall op_ok ops ->
  op_ok (OpPacket (21 :: p) seq r h) ->
  history role (k_log s) = Some (XRun x) ->
  kstep E role (OpPacket (21 :: p) seq r h) s = Some s' -> k_status s' = Running ->
  exists c, negotiated_cipher role INCOMING x c /\ In (EInCipher c) (k_log s').
Proof.
  intros E role H32 u ops s x p seq r h s' H Ho Hop Hx Hs Hr.
  pose proof (kruns_snoc _ _ _ _ _ _ _ H Hs) as H'.
  destruct (kruns_Fin E role H32 u _ s' H' ltac:(apply Forall_app; split; [exact Ho|apply Forall_cons; [exact Hop|apply Forall_nil]])) as ((G & _) & _).
  assert (X : exists c post, k_log s' = (k_log s ++ [ERx (21 :: p)]) ++ EInCipher c :: post).
  { unfold kstep in Hs. destruct (k_status s); try discriminate. destruct (k_version_exchanged s); [|discriminate].
    injection Hs as <-. destruct (finish_running _ Hr) as (t & Ht & ->). unfold HandleRawPacket in Ht.
    destruct (HandlePacket E role 21 p seq r h s) as [t'|[] t'] eqn:EH; try discriminate. injection Ht as ->.
    assert (Q : forall t0, k_log t0 = k_log s -> go E role 21 p seq r h t0 = Ret t ->
      exists c post, k_log t = (k_log s ++ [ERx (21 :: p)]) ++ EInCipher c :: post).
    { intros t0 Hl Hg. unfold go in Hg. rewrite andb_false_r in Hg. unfold HandleCore in Hg. cbn [N.eqb Pos.eqb orb] in Hg.
      change (HandleNewKeys role (emit (ERx (21 :: p)) t0) = Ret t) in Hg. unfold HandleNewKeys in Hg. cbv zeta in Hg.
      destruct (_ || _ || _ || _); [discriminate|]. destruct (len _ =? 0); [discriminate|].
      destruct (KexState_MakeCipher _ _ _ _) as [[c|]|]; try discriminate. assert (Hg' := f_equal (fun r => match r with Ret t => k_log t | Throw _ t => k_log t end) Hg). cbv beta iota in Hg'. clear Hg.
      exists c. rewrite <- Hg'; clear Hg'. unfold ResetIfComplete.
      destruct (IsComplete _); destruct (_ && _); cbn [emit set_in_encrypted set_timer set_flags upd_self upd k_log];
        rewrite Hl; eexists; rewrite <- ?app_assoc; reflexivity. }
    rewrite HandlePacket_go in EH.
    destruct (negb _); [|now apply (Q s)].
    destruct (negb _); [apply (Q (set_first false s)); [reflexivity|exact EH]|].
    destruct (k_ignore_next s); [apply (Q (set_ignore_next false s)); [reflexivity|exact EH]|].
    destruct (_ && _); [discriminate|now apply (Q s)]. }
  destruct X as (c & post & HL). destruct (G _ _ _ HL) as (ph & Hh & Ge). cbn [good_event] in Ge.
  destruct Ge as (y & hh & sig & -> & _ & _ & _ & Hc & _). exists c. split.
  - rewrite history_snoc, Hx in Hh. cbn [xstep] in Hh. unfold expect in Hh.
    destruct (x_out x && negb (x_rx21 x)); [|discriminate]. injection Hh as <-. exact Hc.
  - rewrite HL. apply in_or_app. right. now left.
Qed.
Print Assumptions C12_no_incoming_combination_fails.

(** Witness: complete exchanges of both roles which put ciphers into use. *)
Example C12_witness : exists s, kruns toy SERVER false rekey_ops s /\ Forall op_ok rekey_ops /\
  k_status s = Running /\ k_out_encrypted s = true /\ k_in_encrypted s = true.
Proof.
  destruct (krun SERVER rekey_ops) as [s|] eqn:E; [|vm_compute in E; discriminate].
  exists s. split; [now apply krun_runs|]. split; [okops|].
  vm_compute in E. injection E as <-. repeat split.
Qed.

(** A peer which only offers an unauthenticated combination (aes128-ctr
    with an unknown MAC) is disconnected. *)
Definition weak_kexinit : bytes :=
  20 :: repeat 3 16 ++ string_enc (bs "curve25519-sha256") ++ string_enc (bs "ssh-ed25519")
     ++ string_enc (bs "aes128-ctr") ++ string_enc (bs "aes128-ctr")
     ++ string_enc (bs "none") ++ string_enc (bs "none") ++ string_enc (bs "none") ++ string_enc (bs "none")
     ++ string_enc [] ++ string_enc [] ++ [0] ++ be32 0.

Example C12_witness_weak :
  option_map (fun s => (k_status s, k_out_encrypted s))
    (krun SERVER [OpVersion (bs "SSH-2.0-x") (rnd 5); pkt weak_kexinit; pkt client_init]) = Some (Dead, false).
Proof. vm_compute. reflexivity. Qed.
