(** * C104: a client's guess is skipped if and only if it was wrong

    A client may send the first message of a key exchange before it knows
    which algorithms will be negotiated (RFC 4253 section 7,
    first_kex_packet_follows).  [kexinit_layout] (Spec/PacketSpec.v) is the
    layout of KEXINIT, [name_list] and [first_common] (Spec/NamesSpec.v) the
    rule of the negotiation. *)

From Coq Require Import NArith List Bool Lia String.
From Verif.Base Require Import Bytes.
From Verif.Spec Require Import WireSpec PacketSpec NamesSpec KexSpec.
From Verif.Model Require Import Wire Frame Packets StringList Negotiate KexKeys KexMachine.
From Verif.Proofs Require Import WireFacts PacketFacts NamesFacts KexKeysFacts KexFacts KexFrame KexStrict KexLog KexAuth KexToy.
From Verif.Props Require Import C18.
Import ListNotations.
Open Scope N_scope.

(** the message was dropped: nothing else changed and the connection goes on *)
Definition skipped (m : bytes) (s s' : kstate) : Prop :=
  k_log s' = k_log s ++ [EIgnored m] /\ k_status s' = Running /\ k_flags s' = k_flags s /\ k_kex s' = k_kex s.

(** the message was looked at *)
Definition used (m : bytes) (s s' : kstate) : Prop :=
  exists consequences, k_log s' = k_log s ++ ERx m :: consequences.

(** [p] is a KEXINIT whose lists start with [k1] and [h1]; the negotiation
    makes [k] and [h] of them; [guessed]: the client has sent a guess *)
Definition negotiated (E : kenv) (p : bytes) (k1 h1 k h : bytes) (guessed : bool) : Prop :=
  exists kex host ec es mc ms kt ht ours key,
    kexinit_layout p kex host ec es mc ms guessed /\
    name_list kex (k1 :: kt) /\ name_list host (h1 :: ht) /\ name_list all_server_kex_algorithms ours /\
    first_common (k1 :: kt) ours k /\ e_choose E host = Some (key, h).

(** what follows when the server has accepted a KEXINIT in [s']: the next
    message of the key exchange *)
Definition guess_treated (E : kenv) (k1 h1 k h : bytes) (guessed : bool) (s' : kstate) : Prop :=
  forall m q seq r a s'', 30 <= m < 50 -> kstep E SERVER (OpPacket (m :: q) seq r a) s' = Some s'' ->
    if guessed && negb (bytes_eqb k1 k && bytes_eqb h1 h) then skipped (m :: q) s' s'' else used (m :: q) s' s''.

Definition C104_full_statement : Prop :=
  forall E u ops s, kruns E SERVER u ops s -> Forall op_ok ops ->
  forall p seq r a s', op_ok (OpPacket (20 :: p) seq r a) ->
  kstep E SERVER (OpPacket (20 :: p) seq r a) s = Some s' -> k_status s' = Running ->
  exists k1 h1 k h guessed, negotiated E p k1 h1 k h guessed /\ guess_treated E k1 h1 k h guessed s'.

(** ** Facts *)

Lemma accepted_kexinit : forall E p r s t, HandleKexInit E SERVER p r s = Ret t ->
  exists pk alg key h, ParseKexInit p = Some pk /\
    MakeKex (FindCommonAlgorithm (ki_kex_algorithms pk) all_server_kex_algorithms) = Some alg /\
    e_choose E (ki_server_host_key_algorithms pk) = Some (key, h) /\
    k_ignore_next t = (ki_first_kex_packet_follows pk &&
      (negb (bytes_eqb (FirstStringListItem (ki_kex_algorithms pk)) (FindCommonAlgorithm (ki_kex_algorithms pk) all_server_kex_algorithms))
       || negb (bytes_eqb (FirstStringListItem (ki_server_host_key_algorithms pk)) h))) /\
    kexinit_received (k_flags t) = true /\ k_in_encrypted t = k_in_encrypted s /\
    k_version_exchanged t = k_version_exchanged s /\ k_status t = k_status s.
Proof.
  intros E p r s t H. unfold HandleKexInit in H. cbv zeta in H. cbn [is_server] in H.
  match type of H with (if ?b then _ else _) = _ => destruct b; [discriminate|] end.
  destruct (ParseKexInit p) as [pk|] eqn:P; [|discriminate].
  destruct (MakeKex _) as [alg|] eqn:M in H; [|discriminate].
  match type of H with (if ?b then _ else _) = _ => destruct b; [discriminate|] end.
  destruct (e_choose E _) as [[key h]|] eqn:C in H; [|discriminate].
  exists pk, alg, key, h. split; [reflexivity|]. split; [exact M|]. split; [exact C|].
  match type of H with context [if k_strict ?x then emit EOutReset (emit EInReset ?x) else ?x] => set (s1 := x) in H end.
  assert (S1 : kexinit_received (k_flags s1) = true /\ k_in_encrypted s1 = k_in_encrypted s /\
               k_version_exchanged s1 = k_version_exchanged s /\ k_status s1 = k_status s).
  { unfold s1. match goal with |- context [if ?b then _ else _] => destruct b end; repeat split. }
  clearbody s1. destruct S1 as (A & B & C1 & D).
  set (s2 := if k_strict s1 then emit EOutReset (emit EInReset s1) else s1) in H.
  assert (S2 : k_flags s2 = k_flags s1 /\ k_in_encrypted s2 = k_in_encrypted s1 /\
               k_version_exchanged s2 = k_version_exchanged s1 /\ k_status s2 = k_status s1).
  { unfold s2. destruct (k_strict s1); repeat split. }
  clearbody s2. destruct S2 as (A2 & B2 & C2 & D2).
  cbn [k_flags set_host_key upd_self upd] in H.
  destruct (kexinit_sent (k_flags s2)).
  - cbn [bind] in H. injection H as <-. split; [reflexivity|].
    cbn [set_ignore_next set_host_key upd_self upd k_flags k_in_encrypted k_version_exchanged k_status].
    now rewrite A2, B2, C2, D2.
  - unfold SendKexInit in H. cbv zeta in H. unfold check in H.
    match type of H with context [if ?b then Ret _ else Throw XAssert _] => destruct b end; [|discriminate].
    cbn [bind] in H. destruct (SerializeKex E SERVER (rnd_cookie r)) as [body|]; [|discriminate].
    cbn [bind] in H. injection H as <-. split; [reflexivity|]. unfold SendPacket.
    cbn [set_ignore_next set_host_key set_timer emit set_flags set_my_kexinit upd_self upd k_flags k_in_encrypted k_version_exchanged k_status kexinit_received].
    now rewrite A2, B2, C2, D2.
Qed.

Lemma go_kexinit : forall E p seq r a s t, go E SERVER 20 p seq r a s = Ret t ->
  HandleKexInit E SERVER p r (emit (ERx (20 :: p)) s) = Ret t.
Proof.
  intros E p seq r a s t H. unfold go in H. cbv zeta in H.
  change (core_message 20) with true in H. cbn [negb] in H. rewrite andb_false_r in H. exact H.
Qed.

Lemma finish_log : forall r, exists l, k_log (finish r) = k_log (match r with Ret s | Throw _ s => s end) ++ l.
Proof.
  intros [s|e s]; [exists []; cbn [finish]; now rewrite app_nil_r|].
  destruct e; cbn [finish]; try (exists []; cbn; now rewrite app_nil_r); try (eexists; reflexivity).
  unfold DoDisconnect. destruct (k_status s); try (exists []; now rewrite app_nil_r). eexists; reflexivity.
Qed.

Lemma used_finish : forall m s r, (match r with Ret t | Throw _ t => exists l, k_log t = k_log s ++ ERx m :: l end) -> used m s (finish r).
Proof.
  intros m s r H. destruct (finish_log r) as (l & L). unfold used. rewrite L.
  destruct r as [t|e t]; destruct H as (l0 & ->); exists (l0 ++ l); now rewrite <- app_assoc.
Qed.

Lemma go_used : forall E m q seq r a s, match go E SERVER m q seq r a s with Ret t | Throw _ t => exists l, k_log t = k_log s ++ ERx (m :: q) :: l end.
Proof.
  intros E m q seq r a s. pose proof (go_G E SERVER m q seq r a s) as G.
  destruct (go E SERVER m q seq r a s) as [t|e t]; destruct G as ((l & L & _) & _); exists l; rewrite L;
    cbn [emit upd_self upd k_log]; now rewrite <- app_assoc.
Qed.

Lemma first_item : forall s n t, name_list s (n :: t) -> FirstStringListItem s = n.
Proof. intros s n t H. unfold FirstStringListItem. now rewrite <- (name_list_unique _ _ H). Qed.

Lemma some_first : forall s, exists n t, name_list s (n :: t).
Proof.
  intros s. pose proof (name_list_split s) as H. destruct (split 44 s) as [|n t] eqn:Q; [destruct H as (H & _); congruence|]. eauto.
Qed.

(** ** Theorems *)

(** In the first key exchange, which is not encrypted. *)
Theorem C104_first_partial :
  forall E u ops s, kruns E SERVER u ops s -> Forall op_ok ops -> k_in_encrypted s = false ->
  forall p seq r a s', op_ok (OpPacket (20 :: p) seq r a) ->
  kstep E SERVER (OpPacket (20 :: p) seq r a) s = Some s' -> k_status s' = Running ->
  exists k1 h1 k h guessed, negotiated E p k1 h1 k h guessed /\ guess_treated E k1 h1 k h guessed s'.
Proof.
  intros E u ops s H Ho Hi p seq r a s' Hop Hs Hr.
  assert (X : exists s0, HandleKexInit E SERVER p r s0 = Ret s' /\ k_in_encrypted s0 = false /\ k_version_exchanged s0 = true).
  { unfold kstep in Hs. destruct (k_status s); try discriminate. destruct (k_version_exchanged s) eqn:V; [|discriminate].
    injection Hs as <-. destruct (finish_running _ Hr) as (t & Ht & ->). unfold HandleRawPacket in Ht.
    destruct (HandlePacket E SERVER 20 p seq r a s) as [t'|[] t'] eqn:EH; try discriminate. injection Ht as ->.
    rewrite HandlePacket_go, Hi in EH. cbn [negb] in EH.
    destruct (negb (kexinit_received (k_flags s))).
    { exists (emit (ERx (20 :: p)) s). split; [exact (go_kexinit _ _ _ _ _ _ _ EH)|]. split; [exact Hi|exact V]. }
    destruct (k_ignore_next s).
    { cbv zeta in EH. change (IsKex 20) with false in EH. cbn iota in EH.
      exists (emit (ERx (20 :: p)) (set_ignore_next false s)). split; [exact (go_kexinit _ _ _ _ _ _ _ EH)|]. split; [exact Hi|exact V]. }
    destruct (k_strict s && negb (IsAllowedKexMessage SERVER 20)); [discriminate|].
    exists (emit (ERx (20 :: p)) s). split; [exact (go_kexinit _ _ _ _ _ _ _ EH)|]. split; [exact Hi|exact V]. }
  destruct X as (s0 & K & I0 & V0).
  destruct (accepted_kexinit E p r s0 s' K) as (pk & alg & key & h & P & M & C & Ig & Kr & Ie & Ve & _).
  rewrite I0 in Ie. rewrite V0 in Ve.
  destruct pk as [kex host ec es mc ms guessed].
  cbn [ki_kex_algorithms ki_server_host_key_algorithms ki_first_kex_packet_follows] in *.
  assert (Hb : bytes_ok p) by (destruct Hop as (Hb & _); inversion Hb; assumption).
  apply (ParseKexInit_exact _ _ _ _ _ _ _ _ Hb) in P.
  destruct (some_first kex) as (k1 & kt & NK). destruct (some_first host) as (h1 & ht & NH).
  rewrite (first_item _ _ _ NK), (first_item _ _ _ NH) in Ig.
  destruct (FindCommon_spec kex all_server_kex_algorithms _ _ NK (name_list_split _)) as [(k & F & Q)|(_ & Q)];
    [|rewrite Q in M; vm_compute in M; discriminate].
  rewrite Q in Ig. exists k1, h1, k, h, guessed. split.
  - exists kex, host, ec, es, mc, ms, kt, ht, (split 44 all_server_kex_algorithms), key.
    repeat (split; [assumption|]). split; [apply name_list_split|]. split; assumption.
  - intros m q seq' r' a' s'' Hm Hs'. rewrite negb_andb, <- Ig. unfold kstep in Hs'. rewrite Hr, Ve in Hs'. injection Hs' as <-.
    assert (Km : IsKex m = true).
    { unfold IsKex. destruct Hm as (L & U). apply N.leb_le in L. apply N.ltb_lt in U. now rewrite L, U. }
    unfold HandleRawPacket. pose proof (HandlePacket_go E SERVER m q seq' r' a' s') as G.
    rewrite Ie, Kr in G. cbn [negb] in G. cbv zeta in G. rewrite Km in G.
    destruct (k_ignore_next s').
    + rewrite G. cbn [finish]. split; [reflexivity|]. split; [exact Hr|]. split; reflexivity.
    + apply used_finish. destruct (k_strict s' && negb (IsAllowedKexMessage SERVER m)).
      * rewrite G. exists []. reflexivity.
      * pose proof (go_used E m q seq' r' a' s') as U. rewrite <- G in U.
        destruct (HandlePacket E SERVER m q seq' r' a' s') as [t|[] t]; exact U.
Qed.
Print Assumptions C104_first_partial.

(** When keys are exchanged again, on an encrypted connection, nothing is ever
    skipped: a wrong guess is processed as if it were meant. *)
Theorem C104_again_used :
  forall E u ops s, kruns E SERVER u ops s -> k_in_encrypted s = true ->
  forall m q seq r a s', kstep E SERVER (OpPacket (m :: q) seq r a) s = Some s' -> used (m :: q) s s'.
Proof.
  intros E u ops s H Hi m q seq r a s' Hs. unfold kstep in Hs. destruct (k_status s); try discriminate.
  destruct (k_version_exchanged s); [|discriminate]. injection Hs as <-. apply used_finish. unfold HandleRawPacket.
  pose proof (HandlePacket_go E SERVER m q seq r a s) as G. rewrite Hi in G. cbn [negb] in G.
  pose proof (go_used E m q seq r a s) as U. rewrite <- G in U.
  destruct (HandlePacket E SERVER m q seq r a s) as [t|[] t]; exact U.
Qed.
Print Assumptions C104_again_used.

Definition again_ops : list kop := server_ops ++ [OpAuthenticated].

Theorem C104_refuted : ~ C104_full_statement.
Proof.
  intros H.
  destruct (krun SERVER again_ops) as [s|] eqn:E1; [|vm_compute in E1; discriminate].
  assert (I : k_in_encrypted s = true) by (clear H; vm_compute in E1; injection E1 as <-; reflexivity).
  destruct (kstep toy SERVER (pkt guess_kexinit) s) as [s'|] eqn:E2; [|clear H; vm_compute in E1; injection E1 as <-; vm_compute in E2; discriminate].
  assert (R : k_status s' = Running /\ k_in_encrypted s' = true /\ exists s'', kstep toy SERVER (pkt [30; 0]) s' = Some s'').
  { clear H. vm_compute in E1. injection E1 as <-. vm_compute in E2. injection E2 as <-. repeat split. eexists. vm_compute. reflexivity. }
  destruct R as (R & I' & s'' & E3).
  pose proof (krun_runs _ _ _ E1) as K1.
  assert (K2 : kruns toy SERVER false (again_ops ++ [pkt guess_kexinit]) s') by (eapply kruns_snoc; eassumption).
  assert (O : op_ok (pkt guess_kexinit)) by (assert (F : Forall op_ok [pkt guess_kexinit]) by okops; now inversion F).
  destruct (H toy false again_ops s K1 ltac:(okops) (tl guess_kexinit) _ _ _ s' O E2 R) as (k1 & h1 & k & h & g & N & T).
  specialize (T 30 [0] _ _ _ s'' ltac:(lia) E3).
  destruct (C104_again_used toy false _ s' K2 I' 30 [0] _ _ _ s'' E3) as (l & U).
  assert (B : g && negb (bytes_eqb k1 k && bytes_eqb h1 h) = true).
  { clear - N O. destruct N as (kex & host & ec & es & mc & ms & kt & ht & ours & key & L & NK & _ & NO & F & _).
    assert (Hb : bytes_ok (tl guess_kexinit)) by (destruct O as (Hb & _); inversion Hb; assumption).
    apply (ParseKexInit_exact _ _ _ _ _ _ _ _ Hb) in L.
    assert (Q : ParseKexInit (tl guess_kexinit) = Some {| ki_kex_algorithms := bs "ecdh-sha2-nistp521,curve25519-sha256,kex-strict-c-v00@openssh.com";
      ki_server_host_key_algorithms := bs "ssh-ed25519"; ki_encryption_ctos := bs "aes256-ctr"; ki_encryption_stoc := bs "aes256-ctr";
      ki_mac_ctos := bs "hmac-sha2-256"; ki_mac_stoc := bs "hmac-sha2-256"; ki_first_kex_packet_follows := true |}) by (vm_compute; reflexivity).
    rewrite Q in L. injection L as Lk _ _ _ _ _ <-. rewrite <- Lk in NK.
    apply name_list_unique in NK. apply name_list_unique in NO.
    assert (K : k1 = bs "ecdh-sha2-nistp521") by (vm_compute in NK; injection NK as -> _; reflexivity).
    destruct F as (b & a & _ & Hin & _). cbn [andb]. destruct (bytes_eqb k1 k) eqn:Z; [|reflexivity].
    apply bytes_eqb_eq in Z. subst k. exfalso. rewrite NO, K in Hin. vm_compute in Hin. intuition discriminate. }
  rewrite B in T. destruct T as (T & _). rewrite U in T. apply app_inv_head in T. discriminate.
Qed.
Print Assumptions C104_refuted.

(** ** Examples *)

(** a KEXINIT with a guess whose preferred algorithms are these *)
Definition guessing (kex host : string) : bytes :=
  20 :: repeat 3 16 ++ string_enc (bs kex) ++ string_enc (bs host)
     ++ string_enc (bs "aes256-ctr") ++ string_enc (bs "aes256-ctr")
     ++ string_enc (bs "hmac-sha2-256") ++ string_enc (bs "hmac-sha2-256")
     ++ string_enc (bs "none") ++ string_enc (bs "none")
     ++ string_enc [] ++ string_enc [] ++ [1] ++ be32 0.

Definition last_event (ops : list kop) : option (bool * kstatus) :=
  option_map (fun s => (existsb (fun e => match e with EIgnored _ => true | _ => false end) (k_log s), k_status s)) (krun SERVER ops).

(** a wrong guess is dropped, a right one taken *)
Example C104_wrong :
  last_event [OpVersion (bs "SSH-2.0-toy") (rnd 5); pkt (guessing "ecdh-sha2-nistp521,curve25519-sha256" "ssh-ed25519"); pkt [30; 0]] = Some (true, Running).
Proof. vm_compute. reflexivity. Qed.
Example C104_right :
  last_event [OpVersion (bs "SSH-2.0-toy") (rnd 5); pkt (guessing "curve25519-sha256" "ssh-ed25519"); pkt client_init] = Some (false, Running).
Proof. vm_compute. reflexivity. Qed.
