(** * C102: strict key exchange cannot be switched off by somebody in between

    Spec/LoginSpec.v: [endpoint] (one end of a connection, with all it has
    seen), [first_exchange], [collision].  Spec/KexSpec.v: [initial log] is what
    happened before the peer's packets were encrypted, [strictly_initial role p
    log]: KEXINIT (20 :: p) was the very first packet, only key exchange messages
    followed, and the sequence numbers were asked to restart with each cipher.

    Somebody in between may remove the marker for strict key exchange from the
    KEXINIT packets and insert other packets; but then the two ends do not get
    the same session id. *)

From Coq Require Import NArith List Bool Lia String.
From Verif.Base Require Import Bytes.
From Verif.Spec Require Import WireSpec PacketSpec NamesSpec KexSpec LoginSpec.
From Verif.Model Require Import Wire Frame Packets StringList Negotiate KexKeys KexMachine.
From Verif.Proofs Require Import WireFacts PacketFacts NamesFacts KexKeysFacts KexFacts KexFrame KexStrict KexLog KexAuth KexToy LoginFacts MarkerFacts.
From Verif.Props Require Import C13 C15 C18 C91.
Import ListNotations.
Open Scope N_scope.

(** Every KEXINIT packet which lukko sends announces strict key exchange and
    no guess. *)
Theorem C102_always_announced : forall E s role, endpoint E role s ->
  forall p, In (ETx (20 :: p)) (k_log s) ->
  announced_strict (match role with CLIENT => SERVER | SERVER => CLIENT end) p false.
Proof.
  intros E s role (u & ops & R & O) p I. pose proof (kruns_Tx E role u ops s R O) as F.
  rewrite Forall_forall in F. specialize (F _ I p eq_refl). destruct role; [now apply marker_server|now apply marker_client].
Qed.
Print Assumptions C102_always_announced.

(** A client and a server with the same session id: both have received the
    KEXINIT packet which the other one has sent, nothing was inserted before the
    keys were used, and the sequence numbers restart; or there is a collision of
    the hash function. *)
Theorem C102_both_strict :
  forall HASH, (forall x, len (HASH x) = 32) ->
  forall EC c ES s,
  endpoint EC CLIENT c -> e_digest EC = HASH -> modest EC c ->
  endpoint ES SERVER s -> e_digest ES = HASH -> modest ES s ->
  k_session_id s <> [] -> k_session_id c = k_session_id s ->
  (exists pc ps,
     In (ETx (20 :: pc)) (k_log c) /\ In (ETx (20 :: ps)) (k_log s) /\
     (k_status s = Running -> strictly_initial SERVER pc (k_log s)) /\
     (k_status c = Running -> strictly_initial CLIENT ps (k_log c))) \/
  (exists xc hc gc xs hs gs, first_exchange EC CLIENT c xc hc gc /\ first_exchange ES SERVER s xs hs gs /\
     collision HASH (hash_input hc) (hash_input hs)).
Proof.
  intros HASH H32 EC c ES s Sc Dc Mc Ss Ds Ms NE EQ.
  assert (Hc : forall x, len (e_digest EC x) = 32) by (rewrite Dc; exact H32).
  assert (Hs : forall x, len (e_digest ES x) = 32) by (rewrite Ds; exact H32).
  destruct (C91_same_session HASH H32 EC c ES s Sc Dc Mc Ss Ds Ms NE EQ)
    as (xc & hc & gc & xs & hs & gs & Fc & _ & Fs & _ & [<-|Co]); [left|right; exists xc, hc, gc, xs, hs, gs; auto].
  destruct (first_kexinit EC CLIENT c Hc Sc _ _ _ Fc) as (Rc & pc & Ec & Tc).
  destruct (first_kexinit ES SERVER s Hs Ss _ _ _ Fs) as (Rs & ps & Es & Ts).
  rewrite Es in Rc. rewrite Ec in Rs. exists pc, ps. split; [exact Tc|]. split; [exact Ts|].
  pose proof Sc as (uc & oc & Kc & Oc). pose proof Ss as (us & os & Ks & Os).
  split; intro St.
  - apply (C18_strict_partial ES SERVER us os s Ks Os St pc false Rs); [|now left]. exact (C102_always_announced EC c CLIENT Sc pc Tc).
  - apply (C18_strict_partial EC CLIENT uc oc c Kc Oc St ps false Rc); [|now left]. exact (C102_always_announced ES s SERVER Ss ps Ts).
Qed.
Print Assumptions C102_both_strict.

(** The same from the point of view of a client: if signatures by the keys
    which it accepts are only made by lukko servers with these keys, each for
    its own exchange, then the client's connection is strict. *)
Theorem C102_client :
  forall HASH, (forall x, len (HASH x) = 32) ->
  forall EC c, endpoint EC CLIENT c -> e_digest EC = HASH -> modest EC c -> k_session_id c <> [] ->
  (forall accept blob hash signature, e_verify_host_key EC = Some accept -> accept blob = true ->
     e_verify_signature EC blob hash signature = Some true ->
     exists ES s, endpoint ES SERVER s /\ e_digest ES = HASH /\ modest ES s /\ k_session_id s = hash) ->
  (forall ES s xc hc gc xs hs gs, endpoint ES SERVER s -> first_exchange EC CLIENT c xc hc gc -> first_exchange ES SERVER s xs hs gs ->
     ~ collision HASH (hash_input hc) (hash_input hs)) ->
  k_status c = Running ->
  exists ps, strictly_initial CLIENT ps (k_log c).
Proof.
  intros HASH H32 EC c Sc Dc Mc NE UF NC St.
  assert (Hc : forall x, len (e_digest EC x) = 32) by (rewrite Dc; exact H32).
  destruct (first_of EC CLIENT c Hc Sc NE) as (xc & hc & gc & Fc & Ic).
  pose proof Fc as (pc & tc & Lc & Nc & Hxc & Xc). pose proof Sc as (uc & oc & Rc & Oc).
  destruct (kruns_Fin EC CLIENT Hc uc oc c Rc Oc) as ((G & _) & _).
  destruct (G _ _ _ Lc) as (ph & Hh & (z & h' & g' & -> & X' & EK & _ & (acc & A1 & A2 & A3))).
  rewrite Hxc in Hh. injection Hh as <-.
  pose proof (exchanged_little _ _ _ _ _ _ _ _ Mc Lc Hxc X') as S1. pose proof (exchanged_little _ _ _ _ _ _ _ _ Mc Lc Hxc Xc) as S2.
  destruct (exchanged_unique _ _ _ _ _ _ _ S1 S2 X' Xc EK) as [-> ->].
  destruct (UF acc _ _ _ A1 A2 A3) as (ES & s & Ss & Ds & Ms & Is). rewrite <- Ic in Is.
  destruct (C102_both_strict HASH H32 EC c ES s Sc Dc Mc Ss Ds Ms) as [(p & ps & _ & _ & _ & Z)|(x1 & h1 & g1 & x2 & h2 & g2 & F1 & F2 & Co)].
  - rewrite Is. exact NE.
  - symmetry. exact Is.
  - exists ps. exact (Z St).
  - exfalso. exact (NC _ _ _ _ _ _ _ _ Ss F1 F2 Co).
Qed.
Print Assumptions C102_client.

(** ** Examples *)

Definition is_in_reset (e : kevent) : bool := match e with EInReset => true | _ => false end.
Definition is_out_reset (e : kevent) : bool := match e with EOutReset => true | _ => false end.
Lemma in_reset_in : forall l, existsb is_in_reset l = true -> In EInReset l.
Proof. intros l H. apply existsb_exists in H as (e & I & X). destruct e; try discriminate X. exact I. Qed.
Lemma in_reset_out : forall l, existsb is_out_reset l = true -> In EOutReset l.
Proof. intros l H. apply existsb_exists in H as (e & I & X). destruct e; try discriminate X. exact I. Qed.
Lemma no_reset_in : forall l, existsb is_in_reset l = false -> ~ In EInReset l.
Proof. intros l H I. rewrite <- not_true_iff_false in H. apply H, existsb_exists. exists EInReset. now split. Qed.

(** A client and a server of Proofs/KexToy.v meet the hypotheses. *)
Example C102_demo :
  endpoint toy CLIENT demo_client /\ endpoint toy SERVER demo_server /\ modest toy demo_client /\ modest toy demo_server /\
  k_session_id demo_server <> [] /\ k_session_id demo_client = k_session_id demo_server /\
  k_status demo_client = Running /\ k_status demo_server = Running /\
  strictly_initial SERVER (tl client_kexinit) (k_log demo_server).
Proof.
  destruct demo_ends as (A & B & C & D & F & G). split; [exact A|]. split; [exact B|]. split; [exact C|]. split; [exact D|]. split; [exact F|]. split; [exact G|].
  split; [vm_compute; reflexivity|]. split; [vm_compute; reflexivity|].
  exists [client_init; [21]]. split; [vm_compute; reflexivity|]. split.
  - constructor; [do 2 eexists; split; [reflexivity|right; reflexivity]|]. constructor; [do 2 eexists; split; [reflexivity|left; reflexivity]|]. constructor.
  - split; [apply in_reset_in|apply in_reset_out]; vm_compute; reflexivity.
Qed.

(** Somebody in between removes the marker and inserts IGNORE: the server's
    connection is not strict, and it has another session id. *)
Definition stripped : bytes :=
  20 :: repeat 3 16 ++ string_enc (bs "curve25519-sha256") ++ string_enc (bs "ssh-ed25519")
     ++ string_enc (bs "aes256-ctr") ++ string_enc (bs "aes256-ctr")
     ++ string_enc (bs "hmac-sha2-256") ++ string_enc (bs "hmac-sha2-256")
     ++ string_enc (bs "none") ++ string_enc (bs "none") ++ string_enc [] ++ string_enc [] ++ [0] ++ be32 0.
Definition stripped_server : kstate :=
  end_of SERVER [OpVersion (bs "SSH-2.0-toy") (rnd 5); pkt [2; 0; 0; 0; 0]; pkt stripped; pkt client_init; pkt [21]].

Example C102_demo_stripped :
  k_status stripped_server = Running /\ k_in_encrypted stripped_server = true /\ ~ In EInReset (k_log stripped_server) /\
  received (initial (k_log stripped_server)) = [[2; 0; 0; 0; 0]; stripped; client_init; [21]] /\
  k_session_id stripped_server <> k_session_id demo_client.
Proof.
  split; [vm_compute; reflexivity|]. split; [vm_compute; reflexivity|]. split; [|split; [vm_compute; reflexivity|vm_compute; discriminate]].
  apply no_reset_in. vm_compute. reflexivity.
Qed.
