(** Framing arithmetic. *)

From Coq Require Import NArith List Bool Lia.
From Verif.Base Require Import Bytes.
From Verif.Model Require Import Wire Frame.
From Verif.Spec Require Import FrameSpec.
From Verif.Proofs Require Import WireFacts.
Import ListNotations.
Open Scope N_scope.

Lemma land_pow2 : forall x b, b = 8 \/ b = 16 -> N.land x (b - 1) = x mod b.
Proof.
  intros x b [->| ->].
  - change (8 - 1) with (N.ones 3). now rewrite N.land_ones.
  - change (16 - 1) with (N.ones 4). now rewrite N.land_ones.
Qed.

Lemma Padding_correct : forall size b, b = 8 \/ b = 16 ->
  (size + Padding size b) mod b = 0 /\ 16 <= size + Padding size b /\
  4 <= Padding size b /\ Padding size b <= 19.
Proof.
  intros size b Hb. unfold Padding, MIN_PACKET_SIZE, MIN_PADDING.
  rewrite land_pow2 by assumption.
  change (16 - 4) with 12.
  destruct (size <=? 12) eqn:E; rewrite ?N.leb_le, ?N.leb_gt in E.
  - replace (size + (16 - size)) with 16 by lia.
    assert (16 mod b = 0) by (destruct Hb; subst; reflexivity).
    repeat split; try assumption; try lia.
    (* padding is at most 16 - size, a packet has at least 2 bytes, but even 0 is fine *)
  - assert (b <> 0) by (destruct Hb; subst; discriminate).
    pose proof (N.mod_lt (size + 4 - 1) b H) as Hlt.
    pose proof (N.div_mod (size + 4 - 1) b H) as Hdm.
    set (q := (size + 4 - 1) / b) in *. set (r := (size + 4 - 1) mod b) in *.
    replace (size + (4 + (b - 1) - r)) with ((q + 1) * b) by nia.
    rewrite N.mod_mul by assumption.
    destruct Hb; subst b; repeat split; lia.
Qed.

Lemma Padding_small_block : forall size b, b = 8 \/ b = 16 -> Padding size b <= 19.
Proof. intros size b Hb. now apply Padding_correct. Qed.

Section Finish.
  Variable rnd : N -> bytes.
  Hypothesis rnd_len : forall n, len (rnd n) = n.

  Lemma FinishPacket_spec : forall junk message block (wh : bool),
    len junk = 5 -> block = 8 \/ block = 16 ->
    let s := junk ++ message in
    let p := Padding (len s - (if wh then 4 else 0)) block in
    len s <= BUFFER_SIZE ->
    FinishPacket rnd s block wh =
      if len s + p <=? BUFFER_SIZE
      then Some (be32 (1 + len message + p) ++ [p] ++ message ++ rnd p)
      else None.
  Proof.
    intros junk message block wh Hj Hb s p Hs. unfold FinishPacket, Pad.
    change HEADER_SIZE with 4. fold p.
    destruct (len s + p <=? BUFFER_SIZE) eqn:E; rewrite ?N.leb_le, ?N.leb_gt in E.
    - rewrite WriteN_Some by (rewrite rnd_len; assumption). cbn [obind].
      rewrite put_u32_be32. rewrite len_app, rnd_len.
      assert (Hp : p < 256).
      { pose proof (Padding_small_block (len s - (if wh then 4 else 0)) block Hb) as X.
        unfold p. lia. }
      rewrite (N.mod_small p 256) by assumption.
      replace (len s + p - 4) with (1 + len message + p)
        by (unfold s; rewrite len_app, Hj; lia).
      f_equal. f_equal. f_equal. unfold s. rewrite <- app_assoc.
      rewrite <- Hj, drop_len. reflexivity.
    - rewrite WriteN_None by (rewrite ?rnd_len; assumption). reflexivity.
  Qed.
End Finish.

Lemma framed_unframe : forall message padding frame,
  1 + len message + len padding < pow32 -> framed message padding frame ->
  unframe frame = Some message.
Proof.
  intros message padding frame Hlt ->. unfold be32. cbn [app].
  unfold unframe. rewrite un_be32_be32 by assumption.
  rewrite len_app.
  replace (1 + len message + len padding =? 1 + (len message + len padding)) with true
    by (symmetry; apply N.eqb_eq; lia).
  replace (len padding <=? len message + len padding) with true
    by (symmetry; apply N.leb_le; lia).
  cbn [andb]. replace (len message + len padding - len padding) with (len message) by lia.
  now rewrite take_len.
Qed.
