(** C49: the version exchange. *)

From Coq Require Import NArith List Bool Lia String.
From Verif.Base Require Import Bytes.
From Verif.Model Require Import Version.
From Verif.Spec Require Import VersionSpec.
From Verif.Proofs Require Import VersionFacts.
Import ListNotations.
Open Scope N_scope.

Definition received (chunks : list (bytes * N)) : bytes := List.concat (map fst chunks).

(** If a version is accepted, then it is the first line, which starts with
    "SSH-", without its line terminator; everything after the line terminator
    goes to the packet parser, in order; a client then sends its KEXINIT. *)
Theorem C49_version : forall client chunks,
  let v := vx_run chunks (new_vx client) in
  x_exchanged v = true ->
  x_disposed v = false /\
  exists line rest, first_line (received chunks) line rest /\ is_ssh line /\ version_of line (x_peer_version v) /\
    x_fed v ++ x_buffer v = rest /\ x_kexinits v = (if client then 1 else 0).
Proof.
  intros client chunks v He. destruct (vx_ok_run client chunks [] _ (vx_ok_new client)) as (_ & Ha & Hd).
  fold v in Ha, Hd. destruct (x_disposed v).
  - destruct (Hd eq_refl) as [X _]; congruence.
  - split; [reflexivity|]. specialize (Ha eq_refl). rewrite He in Ha. exact Ha.
Qed.

(** Nothing is given to the packet parser before. *)
Theorem C49_nothing_before : forall client chunks,
  let v := vx_run chunks (new_vx client) in
  x_exchanged v = false -> x_fed v = [] /\ x_kexinits v = 0.
Proof.
  intros client chunks v He. destruct (vx_ok_run client chunks [] _ (vx_ok_new client)) as (_ & Ha & Hd).
  fold v in Ha, Hd. destruct (x_disposed v).
  - destruct (Hd eq_refl) as (_ & X & Y & _); auto.
  - specialize (Ha eq_refl). rewrite He in Ha. destruct Ha as (_ & _ & _ & X & Y); auto.
Qed.

(** The outcome depends only on what is received, not on how it is cut into
    chunks. *)
Definition C49_short_lines : Prop := forall client chunks,
  let v := vx_run chunks (new_vx client) in
  let stream := received chunks in
  (forall line rest, first_line stream line rest -> len line < 255 -> is_ssh line -> x_exchanged v = true) /\
  (forall line rest, first_line stream line rest -> len line < 255 -> ~ is_ssh line -> x_disposed v = true) /\
  (~ In LF stream -> 255 <= len stream -> x_disposed v = true) /\
  (~ In LF stream -> len stream < 255 -> x_exchanged v = false /\ x_disposed v = false).
Definition C49_long_lines : Prop := forall client chunks line rest,
  first_line (received chunks) line rest -> 255 <= len line ->
  x_disposed (vx_run chunks (new_vx client)) = true.
Definition C49_full_statement : Prop := C49_short_lines /\ C49_long_lines.

(** A longer line is accepted if its end is received together with the
    rest. *)
Theorem C49_refuted : ~ C49_full_statement.
Proof.
  intros [_ H].
  set (line := bs "SSH-" ++ List.repeat 65 300).
  assert (Hn : ~ In LF line).
  { unfold line; intros X; apply in_app_or in X as [X|X].
    - vm_compute in X. repeat (destruct X as [X|X]; [discriminate|]). destruct X.
    - apply repeat_spec in X; discriminate. }
  specialize (H false [(line ++ [LF], 0)] line []).
  assert (E : x_disposed (vx_run [(line ++ [LF], 0)] (new_vx false)) = true).
  { apply H; [|vm_compute; discriminate]. split; [|exact Hn].
    unfold received; cbn [map fst List.concat]. rewrite app_nil_r; reflexivity. }
  vm_compute in E; discriminate.
Qed.

(** For lines of less than 255 bytes (the RFC allows no others) the outcome
    does not depend on the chunks.  Missing from the full statement: lines
    which are longer and which are terminated. *)
Theorem C49_short_partial : C49_short_lines.
Proof.
  intros client chunks v stream. destruct (vx_ok_run client chunks [] _ (vx_ok_new client)) as (_ & Ha & Hd).
  fold v in Ha, Hd. change ([] ++ List.concat (map fst chunks)) with stream in Ha, Hd.
  assert (Hin : forall line rest, first_line stream line rest -> In LF stream).
  { intros line rest [E _]; rewrite E; apply in_or_app; right; left; reflexivity. }
  split; [|split; [|split]].
  - intros line rest Hf Hl Hs. destruct (x_disposed v).
    + exfalso. destruct (Hd eq_refl) as (_ & _ & _ & [[_ X]|(l & r & X & Y)]).
      * destruct (X line rest Hf); [lia|contradiction].
      * destruct (first_line_unique _ _ _ _ _ Hf X) as [-> _]; contradiction.
    + specialize (Ha eq_refl). destruct (x_exchanged v); [reflexivity|].
      exfalso; destruct Ha as (_ & X & _); apply X; eauto.
  - intros line rest Hf Hl Hs. destruct (x_disposed v); [reflexivity|].
    exfalso. specialize (Ha eq_refl). destruct (x_exchanged v).
    + destruct Ha as (l & r & X & Y & _). destruct (first_line_unique _ _ _ _ _ Hf X) as [-> _]; contradiction.
    + destruct Ha as (_ & X & _); apply X; eauto.
  - intros Hn Hl. destruct (x_disposed v); [reflexivity|]. exfalso. specialize (Ha eq_refl).
    destruct (x_exchanged v).
    + destruct Ha as (l & r & X & _); apply Hn; eauto.
    + destruct Ha as (_ & _ & X & _); lia.
  - intros Hn Hl. destruct (x_disposed v).
    + exfalso. destruct (Hd eq_refl) as (_ & _ & _ & [[X _]|(l & r & X & _)]); [lia|apply Hn; eauto].
    + specialize (Ha eq_refl). destruct (x_exchanged v); [|auto].
      exfalso; destruct Ha as (l & r & X & _); apply Hn; eauto.
Qed.

(** ** A concrete case: two versions in three chunks; the last chunk holds the
    start of the first packet. *)
Definition C49_demo_chunks : list (bytes * N) :=
  [(bs "SSH-2.0-Op", 0); (bs "enSSH_9.2" ++ [13], 0); ([10; 0; 0], 1); ([1; 2], 4)].

Example C49_demo :
  let v := vx_run C49_demo_chunks (new_vx true) in
  x_exchanged v = true /\ x_peer_version v = bs "SSH-2.0-OpenSSH_9.2" /\ x_fed v = [0; 0; 1; 2] /\ x_kexinits v = 1 /\
  x_disposed (vx_run [(bs "HTTP/1", 0); ([10], 0)] (new_vx true)) = true /\
  x_disposed (vx_run [(List.repeat 65 255, 0)] (new_vx true)) = true.
Proof. vm_compute; repeat split. Qed.

Print Assumptions C49_version.
Print Assumptions C49_nothing_before.
Print Assumptions C49_refuted.
Print Assumptions C49_short_partial.
