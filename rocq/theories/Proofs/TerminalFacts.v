(** Facts about the decoder for terminal modes. *)

From Coq Require Import NArith List Bool Lia Wf_nat.
From Verif.Base Require Import Bytes.
From Verif.Model Require Import Terminal.
From Verif.Spec Require Import TerminalSpec.
Import ListNotations.
Open Scope N_scope.

Definition mask_of (bits : list N) : N := fold_right (fun b m => N.lor (2 ^ b) m) 0 bits.

Lemma mask_of_bit : forall bits b, N.testbit (mask_of bits) b = existsb (N.eqb b) bits.
Proof.
  induction bits as [|x bits IH]; intros b; [apply N.bits_0|].
  unfold mask_of in *; cbn [fold_right existsb]. rewrite N.lor_spec, IH, N.pow2_bits_eqb, N.eqb_sym. reflexivity.
Qed.

Lemma ApplyBit_bit : forall x bits arg b,
  N.testbit (ApplyBit x (mask_of bits) arg) b =
    if existsb (N.eqb b) bits then negb (arg =? 0) else N.testbit x b.
Proof.
  intros x bits arg b; unfold ApplyBit; rewrite <- mask_of_bit. destruct (arg =? 0).
  - rewrite N.ldiff_spec. destruct (N.testbit (mask_of bits) b); destruct (N.testbit x b); reflexivity.
  - rewrite N.lor_spec. destruct (N.testbit (mask_of bits) b); destruct (N.testbit x b); reflexivity.
Qed.

Definition flag_word (w : word) (t : termios) : N :=
  match w with Input => c_iflag t | Output => c_oflag t | Control => c_cflag t | Local => c_lflag t end.

Definition effect (t : target) (arg : N) (tio : termios) : termios :=
  match t with
  | Char i => with_cc tio i arg
  | Flag Input bits => with_iflag tio (mask_of bits) arg
  | Flag Output bits => with_oflag tio (mask_of bits) arg
  | Flag Control bits => with_cflag tio (mask_of bits) arg
  | Flag Local bits => with_lflag tio (mask_of bits) arg
  | InputSpeed => cfsetispeed tio (BaudToSpeed arg)
  | OutputSpeed => cfsetospeed tio (BaudToSpeed arg)
  end.

Fixpoint upto (n : nat) : list N := match n with O => [] | S k => N.of_nat k :: upto k end.
Lemma upto_in : forall n x, x < N.of_nat n -> In x (upto n).
Proof.
  induction n as [|n IH]; intros x H; [lia|]. cbn [upto]. destruct (N.eq_dec x (N.of_nat n)) as [->|E].
  - left; reflexivity.
  - right; apply IH; lia.
Qed.

Lemma ApplyMode_effect : forall op arg tio, op < 160 ->
  ApplyMode op arg tio = match meaning op with Some t => effect t arg tio | None => tio end.
Proof.
  intros op arg tio H. assert (Hin : In op (upto 160)) by (apply upto_in; exact H). clear H.
  vm_compute in Hin. repeat (destruct Hin as [<-|Hin]; [reflexivity|]). destruct Hin.
Qed.

Lemma BaudToSpeed_speed : forall baud, BaudToSpeed baud = speed baud.
Proof.
  intros [|p]; [reflexivity|].
  do 18 (try (destruct p as [p|p|]; try reflexivity)).
Qed.

(** ** One mode *)
Lemma effect_char : forall t arg tio i,
  c_cc (effect t arg tio) i = if is_char i t then arg mod 256 else c_cc tio i.
Proof. intros [j|[| | |] bits| |] arg tio i; reflexivity. Qed.

Lemma effect_bit : forall t arg tio w b,
  N.testbit (flag_word w (effect t arg tio)) b =
    if is_bit w b t then negb (arg =? 0) else N.testbit (flag_word w tio) b.
Proof.
  intros [j|v bits| |] arg tio w b; try (destruct w; reflexivity).
  destruct w, v; cbn [is_bit word_eqb andb effect flag_word with_iflag with_oflag with_cflag with_lflag mk_tio
    c_iflag c_oflag c_cflag c_lflag]; try reflexivity; apply ApplyBit_bit.
Qed.

Lemma effect_ispeed : forall t arg tio,
  c_ispeed (effect t arg tio) = if is_ispeed t then speed arg else c_ispeed tio.
Proof. intros [j|[| | |] bits| |] arg tio; try reflexivity. apply BaudToSpeed_speed. Qed.
Lemma effect_ospeed : forall t arg tio,
  c_ospeed (effect t arg tio) = if is_ospeed t then speed arg else c_ospeed tio.
Proof. intros [j|[| | |] bits| |] arg tio; try reflexivity. apply BaudToSpeed_speed. Qed.

(** ** All modes *)
Definition apply_all (modes : list mode) (tio : termios) : termios :=
  fold_left (fun t m => ApplyMode (fst m) (snd m) t) modes tio.

Lemma apply_all_last : forall (A : Type) (obs : termios -> A) (wanted : target -> bool) (val : N -> A),
  (forall t arg tio, obs (effect t arg tio) = if wanted t then val arg else obs tio) ->
  forall modes tio, Forall mode_ok modes ->
  obs (apply_all modes tio) = match last_for wanted modes with Some arg => val arg | None => obs tio end.
Proof.
  intros A obs wanted val Hobs.
  induction modes as [|[op arg] modes IH]; intros tio H; [reflexivity|].
  inversion H as [|? ? (H1 & H2 & H3) H4]; subst. cbn [fst snd] in *.
  unfold apply_all in *; cbn [fold_left last_for fst snd]. rewrite IH by exact H4.
  destruct (last_for wanted modes); [reflexivity|]. rewrite ApplyMode_effect by exact H2.
  destruct (meaning op) as [t|]; [|reflexivity]. rewrite Hobs. destruct (wanted t); reflexivity.
Qed.

Lemma ending_parse : forall rest tio, ending rest -> ParseTerminalModes tio rest = tio.
Proof.
  intros rest tio [H|(op & more & -> & H)].
  - do 5 (destruct rest as [|? rest]; [reflexivity|]). exfalso; rewrite !len_cons in H; lia.
  - do 4 (destruct more as [|? more]; [reflexivity|]). cbn [ParseTerminalModes].
    destruct H as [->|H]; [reflexivity|]. rewrite (proj2 (N.leb_le _ _) H), orb_true_r. reflexivity.
Qed.

Lemma parse_modes : forall modes rest tio, Forall mode_ok modes -> ending rest ->
  ParseTerminalModes tio (List.concat (map encode_mode modes) ++ rest) = apply_all modes tio.
Proof.
  induction modes as [|[op arg] modes IH]; intros rest tio H He; [apply ending_parse; exact He|].
  inversion H as [|? ? (H1 & H2 & H3) H4]; subst. cbn [fst snd] in *.
  cbn [map List.concat]. unfold encode_mode at 1; cbn [fst snd]. rewrite <- app_assoc. cbn [app].
  unfold be32; cbn [app ParseTerminalModes].
  destruct (N.eqb_spec op 0); [lia|]. destruct (N.leb_spec 160 op); [lia|]. cbn [orb].
  rewrite IH by assumption. unfold apply_all; cbn [fold_left fst snd].
  pose proof (un_be32_be32 arg H3) as E; unfold be32 in E; cbn in E.
  rewrite E. reflexivity.
Qed.

Lemma split_exists : forall raw, bytes_ok raw -> exists modes rest, split_modes raw modes rest.
Proof.
  intros raw; remember (List.length raw) as n eqn:En; revert raw En.
  induction n as [n IH] using lt_wf_ind; intros raw En Hok.
  destruct raw as [|op [|a [|b [|c [|d rest]]]]];
    try (exists [], []; split; [reflexivity|split; [constructor|left; cbn; lia]]);
    try (match goal with |- exists modes rest, split_modes ?r _ _ =>
           exists [], r; split; [reflexivity|split; [constructor|left; cbn; lia]] end).
  destruct (N.eq_dec op 0) as [E|E].
  { eexists [], _; split; [reflexivity|split; [constructor|right; exists op; eexists; split; [reflexivity|auto]]]. }
  destruct (N.le_gt_cases 160 op) as [Hge|Hlt].
  { eexists [], _; split; [reflexivity|split; [constructor|right; exists op; eexists; split; [reflexivity|auto]]]. }
  unfold bytes_ok in Hok. inversion Hok as [|? ? Ho K1]; subst. inversion K1 as [|? ? Ha K2]; subst.
  inversion K2 as [|? ? Hb K3]; subst. inversion K3 as [|? ? Hc K4]; subst. inversion K4 as [|? ? Hd K5]; subst.
  destruct (IH (List.length rest) ltac:(cbn; lia) rest eq_refl K5) as (modes & r & E1 & E2 & E3).
  exists ((op, un_be32 a b c d) :: modes), r. split; [|split; [|exact E3]].
  - cbn [map List.concat]. unfold encode_mode at 1; cbn [fst snd].
    rewrite (be32_un_be32 a b c d) by assumption. cbn [app]. rewrite E1; reflexivity.
  - constructor; [|exact E2]. split; [cbn; lia|split; [exact Hlt|cbn [snd]; apply un_be32_lt; assumption]].
Qed.

Lemma split_unique : forall m1 m2 r1 r2,
  Forall mode_ok m1 -> Forall mode_ok m2 -> ending r1 -> ending r2 ->
  List.concat (map encode_mode m1) ++ r1 = List.concat (map encode_mode m2) ++ r2 -> m1 = m2 /\ r1 = r2.
Proof.
  induction m1 as [|[o1 a1] m1 IH]; intros [|[o2 a2] m2] r1 r2 H1 H2 E1 E2 E.
  - auto.
  - exfalso. cbn [map List.concat app] in E. inversion H2 as [|? ? (K1 & K2 & K3) _]; subst. cbn [fst snd] in *.
    destruct E1 as [E1|(op & more & Er & Ho)].
    + unfold encode_mode, be32 in E1; cbn [fst snd app] in E1. rewrite !len_cons in E1; lia.
    + unfold encode_mode in Er; cbn [fst snd app] in Er. assert (o2 = op) by congruence; lia.
  - exfalso. cbn [map List.concat app] in E. inversion H1 as [|? ? (K1 & K2 & K3) _]; subst. cbn [fst snd] in *.
    destruct E2 as [E2|(op & more & Er & Ho)].
    + unfold encode_mode, be32 in E2; cbn [fst snd app] in E2. rewrite !len_cons in E2; lia.
    + unfold encode_mode in Er; cbn [fst snd app] in Er. assert (o1 = op) by congruence; lia.
  - inversion H1 as [|? ? (K1 & K2 & K3) K4]; subst. inversion H2 as [|? ? (L1 & L2 & L3) L4]; subst.
    cbn [fst snd] in *. cbn [map List.concat] in E. unfold encode_mode in E at 1 3; cbn [fst snd] in E.
    rewrite <- !app_assoc in E; cbn [app] in E.
    assert (Eo : o1 = o2) by congruence. assert (Et : be32 a1 ++ List.concat (map encode_mode m1) ++ r1 =
      be32 a2 ++ List.concat (map encode_mode m2) ++ r2) by congruence.
    apply app_inj_len in Et as [Ea Et]; [|rewrite !len_be32; reflexivity].
    apply be32_inj in Ea; [|assumption|assumption].
    destruct (IH m2 r1 r2 K4 L4 E1 E2 Et) as [-> ->]. subst; auto.
Qed.
