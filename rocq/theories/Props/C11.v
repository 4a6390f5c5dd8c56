(** * C11: algorithm negotiation follows RFC 4253 and both sides agree *)

From Coq Require Import NArith List Bool Lia String.
From Verif.Base Require Import Bytes.
From Verif.Spec Require Import WireSpec PacketSpec NamesSpec KexSpec.
From Verif.Model Require Import Wire Frame Packets StringList Negotiate KexKeys KexMachine.
From Verif.Proofs Require Import WireFacts PacketFacts NamesFacts KexKeysFacts KexFacts KexFrame KexStrict KexLog KexAuth KexToy.
Import ListNotations.
Open Scope N_scope.

(** The result is the first name on the client's list which is also on the
    server's list; it is empty if there is none. *)
Theorem C11_first_common : forall client server client_names server_names,
  name_list client client_names -> name_list server server_names ->
  (forall chosen, first_common client_names server_names chosen ->
     FindCommonAlgorithm client server = chosen) /\
  (none_common client_names server_names -> FindCommonAlgorithm client server = []) /\
  (FindCommonAlgorithm client server <> [] ->
     first_common client_names server_names (FindCommonAlgorithm client server)).
Proof.
  intros c s cn sn Hc Hs. pose proof (FindCommon_spec c s cn sn Hc Hs) as F.
  split; [|split].
  - intros r (b & a & E1 & Hin & Hb). destruct F as [(r' & (b' & a' & E2 & Hin' & Hb') & ->)|(Hn & _)].
    + clear Hc. revert b' E2 Hb'. subst cn. induction b as [|n b IH]; intros [|n' b'] E2 Hb'; cbn [app] in E2.
      * congruence.
      * injection E2 as -> E2. destruct (Hb' n' (or_introl eq_refl)). assumption.
      * injection E2 as -> E2. destruct (Hb r' (or_introl eq_refl)). assumption.
      * injection E2 as -> E2. apply IH with (b' := b'); [|assumption|].
        -- intros m Hm. apply Hb. now right.
        -- intros m Hm. apply Hb'. now right.
    + destruct (Hn r); [|assumption]. subst cn. apply in_or_app. right. now left.
  - intro Hn. destruct F as [(r & (b & a & E1 & Hin & _) & _)|(_ & F)]; [|exact F].
    destruct (Hn r); [|assumption]. subst cn. apply in_or_app. right. now left.
  - intro Hne. destruct F as [(r & Hf & ->)|(_ & F)]; [exact Hf|congruence].
Qed.
Print Assumptions C11_first_common.

(** Each role prefers the client's list and uses the peer's list of the
    right direction. *)
Theorem C11_per_direction : forall role d mine ctos stoc,
  FindNegotiatedAlgorithm role d mine ctos stoc =
  let peers := per_flow (flow_of role d) ctos stoc in
  match role with
  | CLIENT => FindCommonAlgorithm mine peers
  | SERVER => FindCommonAlgorithm peers mine
  end.
Proof. intros [] [] mine ctos stoc; reflexivity. Qed.
Print Assumptions C11_per_direction.

(** A client and a server which have sent each other these lists agree, for
    both directions. *)
Theorem C11_agreement : forall client_ctos client_stoc server_ctos server_stoc,
  FindNegotiatedAlgorithm CLIENT OUTGOING client_ctos server_ctos server_stoc =
  FindNegotiatedAlgorithm SERVER INCOMING server_ctos client_ctos client_stoc /\
  FindNegotiatedAlgorithm CLIENT INCOMING client_stoc server_ctos server_stoc =
  FindNegotiatedAlgorithm SERVER OUTGOING server_stoc client_ctos client_stoc.
Proof. intros. split; reflexivity. Qed.
Print Assumptions C11_agreement.

(** The key exchange method: what each side constructs after both have sent
    their lists is the first common name; a client of this program and a
    server of this program always find one. *)
Theorem C11_kex_method : forall l names alg, name_list l names ->
  MakeKex (FindCommonAlgorithm l all_server_kex_algorithms) = Some alg ->
  exists chosen, In chosen names /\
    (exists mine, name_list all_server_kex_algorithms mine /\ first_common names mine chosen) /\
    (alg = Curve25519 /\ chosen = bs "curve25519-sha256" \/
     alg = NistP256 /\ chosen = bs "ecdh-sha2-nistp256").
Proof.
  intros l names alg Hl H.
  destruct (FindCommon_spec l all_server_kex_algorithms names _ Hl (name_list_split _)) as [(r & Hf & E)|(_ & E)];
    rewrite E in H; [|vm_compute in H; discriminate].
  exists r. assert (Hin : In r names) by (destruct Hf as (b & a & -> & _); apply in_or_app; right; now left).
  split; [exact Hin|]. split; [exists (split 44 all_server_kex_algorithms); split; [apply name_list_split|exact Hf]|].
  unfold MakeKex in H. destruct Hl as (_ & Hc & _). rewrite Forall_forall in Hc. specialize (Hc r Hin).
  pose proof (split_single r Hc) as S1. change COMMA with 44 in S1. rewrite S1 in H. cbn [MakeKex_loop] in H.
  destruct (bytes_eqb r (bs "curve25519-sha256")) eqn:E1.
  - apply bytes_eqb_eq in E1. left. split; [congruence|exact E1].
  - destruct (bytes_eqb r (bs "ecdh-sha2-nistp256")) eqn:E2; [|discriminate].
    apply bytes_eqb_eq in E2. right. split; [congruence|exact E2].
Qed.
Print Assumptions C11_kex_method.

(** Witness: the client's preference wins; the empty result. *)
Example C11_witness :
  FindCommonAlgorithm (bs "x,aes256-ctr,aes128-ctr") (bs "aes128-ctr,aes256-ctr") = bs "aes256-ctr" /\
  FindCommonAlgorithm (bs "x,y") (bs "aes128-ctr,aes256-ctr") = [] /\
  name_list (bs "x,aes256-ctr,aes128-ctr") [bs "x"; bs "aes256-ctr"; bs "aes128-ctr"] /\
  FindNegotiatedAlgorithm SERVER INCOMING (bs "a,b") (bs "b,a") (bs "a") = bs "b" /\
  MakeKex (FindCommonAlgorithm all_client_kex_algorithms all_server_kex_algorithms) = Some Curve25519.
Proof.
  repeat split; try (vm_compute; reflexivity); try discriminate.
  repeat constructor; vm_compute; intuition discriminate.
Qed.
