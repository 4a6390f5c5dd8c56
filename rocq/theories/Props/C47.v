(** C47: pseudo-terminal modes are decoded exactly. *)

From Coq Require Import NArith List Bool Lia.
From Verif.Base Require Import Bytes.
From Verif.Model Require Import Terminal.
From Verif.Spec Require Import TerminalSpec.
From Verif.Proofs Require Import TerminalFacts.
Import ListNotations.
Open Scope N_scope.

(** Every byte string is a list of modes followed by something that ends it,
    in exactly one way. *)
Theorem C47_split : forall raw, bytes_ok raw ->
  exists modes rest, split_modes raw modes rest /\
    forall modes' rest', split_modes raw modes' rest' -> modes' = modes /\ rest' = rest.
Proof.
  intros raw Hok; destruct (split_exists raw Hok) as (modes & rest & Hs). exists modes, rest; split; [exact Hs|].
  intros modes' rest' (E' & H' & He'). destruct Hs as (E & H & He).
  apply split_unique; auto. congruence.
Qed.

(** Each control character, each flag and each speed has the value of the
    last mode which sets it; the others are unchanged. *)
Theorem C47_decode : forall raw modes rest tio,
  split_modes raw modes rest ->
  let result := ParseTerminalModes tio raw in
  (forall i, c_cc result i =
     match last_for (is_char i) modes with Some arg => arg mod 256 | None => c_cc tio i end) /\
  (forall b, N.testbit (c_iflag result) b =
     match last_for (is_bit Input b) modes with Some arg => negb (arg =? 0) | None => N.testbit (c_iflag tio) b end) /\
  (forall b, N.testbit (c_oflag result) b =
     match last_for (is_bit Output b) modes with Some arg => negb (arg =? 0) | None => N.testbit (c_oflag tio) b end) /\
  (forall b, N.testbit (c_cflag result) b =
     match last_for (is_bit Control b) modes with Some arg => negb (arg =? 0) | None => N.testbit (c_cflag tio) b end) /\
  (forall b, N.testbit (c_lflag result) b =
     match last_for (is_bit Local b) modes with Some arg => negb (arg =? 0) | None => N.testbit (c_lflag tio) b end) /\
  c_ispeed result = match last_for is_ispeed modes with Some arg => speed arg | None => c_ispeed tio end /\
  c_ospeed result = match last_for is_ospeed modes with Some arg => speed arg | None => c_ospeed tio end.
Proof.
  intros raw modes rest tio (-> & H & He) result; unfold result; rewrite parse_modes by assumption.
  assert (Hbit : forall w b, N.testbit (flag_word w (apply_all modes tio)) b =
     match last_for (is_bit w b) modes with Some arg => negb (arg =? 0) | None => N.testbit (flag_word w tio) b end).
  { intros w b. apply (apply_all_last bool (fun t => N.testbit (flag_word w t) b) (is_bit w b) (fun arg => negb (arg =? 0)));
      [|exact H]. intros; apply effect_bit. }
  split.
  { intros i. apply (apply_all_last N (fun t => c_cc t i) (is_char i) (fun arg => arg mod 256)); [|exact H].
    intros; apply effect_char. }
  split; [exact (Hbit Input)|]. split; [exact (Hbit Output)|]. split; [exact (Hbit Control)|].
  split; [exact (Hbit Local)|]. split.
  - apply (apply_all_last N c_ispeed is_ispeed speed); [|exact H]. intros; apply effect_ispeed.
  - apply (apply_all_last N c_ospeed is_ospeed speed); [|exact H]. intros; apply effect_ospeed.
Qed.

(** ** A concrete case: ^C becomes ^D, an unknown mode, echo off and on, 38400
    baud; what follows the end marker is ignored. *)
Definition C47_tio := mk_tio 0 5 191 35387 (fun _ => 3) 15 15.
Definition C47_raw : bytes :=
  [1; 0; 0; 0; 4;  42; 0; 0; 0; 1;  53; 0; 0; 0; 0;  128; 0; 0; 150; 0;  72; 0; 0; 0; 0;  0;  53; 0; 0; 0; 1].

Example C47_demo :
  split_modes C47_raw [(1, 4); (42, 1); (53, 0); (128, 38400); (72, 0)] [0; 53; 0; 0; 0; 1] /\
  let t := ParseTerminalModes C47_tio C47_raw in
  c_cc t 0 = 4 /\ c_cc t 1 = 3 /\ c_iflag t = 0 /\ c_oflag t = 1 /\ c_cflag t = 191 /\ c_lflag t = 35379 /\
  c_ispeed t = 15.
Proof.
  split.
  - split; [reflexivity|]. split; [repeat constructor; cbn; lia|]. right; exists 0; eexists; split; [reflexivity|auto].
  - vm_compute; repeat split.
Qed.

Print Assumptions C47_split.
Print Assumptions C47_decode.
