(** * C13: the session identifier never changes *)

From Coq Require Import NArith List Bool Lia String.
From Verif.Base Require Import Bytes.
From Verif.Spec Require Import WireSpec PacketSpec NamesSpec KexSpec.
From Verif.Model Require Import Wire Frame Packets StringList Negotiate KexKeys KexMachine.
From Verif.Proofs Require Import WireFacts PacketFacts NamesFacts KexKeysFacts KexFacts KexFrame KexStrict KexLog KexAuth KexToy.
Import ListNotations.
Open Scope N_scope.

(** It is empty before keys were derived for the first time; then it is the
    exchange hash of the first exchange, computed from what was exchanged. *)
Theorem C13_first_exchange_hash :
  forall E role, (forall x, len (e_digest E x) = 32) ->
  forall u ops s, kruns E role u ops s -> Forall op_ok ops ->
  (k_session_id s = [] /\ forall k, ~ In (ESecret k) (k_log s)) \/
  (exists pre k post x h sig, k_log s = pre ++ ESecret k :: post /\
     (forall k', ~ In (ESecret k') pre) /\ history role pre = Some (XRun x) /\
     exchanged role (e_version E) x h sig /\ K h = k /\
     k_session_id s = e_digest E (hash_input h)).
Proof.
  intros E role H32 u ops s H Ho. destruct (kruns_Fin E role H32 u ops s H Ho) as ((_ & [S|(_ & S)]) & _); auto.
Qed.
Print Assumptions C13_first_exchange_hash.

(** Once there is one, no continuation of the run changes it. *)
Theorem C13_constant :
  forall E role u ops more s s',
  kruns E role u ops s -> kruns E role u (ops ++ more) s' ->
  k_session_id s <> [] -> k_session_id s' = k_session_id s.
Proof.
  intros E role u ops more s s' H1 H2 Hn. destruct (kruns_split E role u more ops s' H2) as (t & Ht & St).
  rewrite (kruns_det E role u ops s t H1 Ht) in *. auto.
Qed.
Print Assumptions C13_constant.

(** Witness: the second exchange of this run has other keys but the same
    session id. *)
Example C13_witness : exists s s',
  kruns toy SERVER false server_ops s /\ kruns toy SERVER false rekey_ops s' /\
  Forall op_ok rekey_ops /\ k_session_id s <> [] /\ k_session_id s' = k_session_id s /\
  k_new_keys s' <> k_new_keys s.
Proof.
  destruct (krun SERVER server_ops) as [s|] eqn:E1; [|vm_compute in E1; discriminate].
  destruct (krun SERVER rekey_ops) as [s'|] eqn:E2; [|vm_compute in E2; discriminate].
  exists s, s'. split; [now apply krun_runs|]. split; [now apply krun_runs|]. split; [okops|].
  vm_compute in E1. vm_compute in E2. injection E1 as <-. injection E2 as <-.
  repeat split; discriminate.
Qed.
