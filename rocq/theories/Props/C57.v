(** C57: control characters a client has disabled stay disabled.  In the
    encoding of RFC 4254 section 8, the argument 255 of a control character
    stands for "none"; on Linux, a disabled control character has the value 0
    (_POSIX_VDISABLE).  The code copies the argument, so a disabled control
    character becomes the byte 255. *)

From Coq Require Import NArith List Bool Lia.
From Verif.Base Require Import Bytes.
From Verif.Model Require Import Terminal.
From Verif.Spec Require Import TerminalSpec.
From Verif.Proofs Require Import TerminalFacts.
From Verif.Props Require Import C47.
Import ListNotations.
Open Scope N_scope.

(** What a terminal's control character should be. *)
Definition rfc_char (arg : N) : N := if arg =? 255 then 0 else arg.

Definition C57_full_statement : Prop :=
  forall raw modes rest tio i arg,
    split_modes raw modes rest -> last_for (is_char i) modes = Some arg -> arg < 256 ->
    c_cc (ParseTerminalModes tio raw) i = rfc_char arg.

(** A client which has no interrupt character gets one: byte 255. *)
Theorem C57_refuted : ~ C57_full_statement.
Proof.
  intros H. specialize (H [1; 0; 0; 0; 255; 0] [(1, 255)] [0] C47_tio 0 255).
  assert (E : c_cc (ParseTerminalModes C47_tio [1; 0; 0; 0; 255; 0]) 0 = rfc_char 255).
  { apply H; [|reflexivity|reflexivity]. split; [reflexivity|].
    split; [repeat constructor; cbn; lia|]. left; cbn; lia. }
  vm_compute in E; discriminate.
Qed.

(** All other characters are set as the client wants it.  Missing from the
    full statement: the argument 255. *)
Theorem C57_enabled_partial : forall raw modes rest tio i arg,
  split_modes raw modes rest -> last_for (is_char i) modes = Some arg -> arg < 255 ->
  c_cc (ParseTerminalModes tio raw) i = rfc_char arg.
Proof.
  intros raw modes rest tio i arg Hs Hl Ha. destruct (C47_decode raw modes rest tio Hs) as [H _].
  rewrite H, Hl. unfold rfc_char. destruct (N.eqb_spec arg 255); [lia|]. apply N.mod_small; lia.
Qed.

Example C57_demo :
  split_modes [1; 0; 0; 0; 255; 1; 0; 0; 0; 7] [(1, 255); (1, 7)] [] /\
  last_for (is_char 0) [(1, 255); (1, 7)] = Some 7 /\
  c_cc (ParseTerminalModes C47_tio [1; 0; 0; 0; 255; 1; 0; 0; 0; 7]) 0 = 7.
Proof.
  repeat split. 1: repeat constructor; cbn; lia. left; cbn; lia.
Qed.

Print Assumptions C57_refuted.
Print Assumptions C57_enabled_partial.
