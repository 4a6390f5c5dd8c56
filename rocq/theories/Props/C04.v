(** * C04: the plaintext packet stream is reassembled independently of
    chunking

    The [Feed] steps of a run are the chunks; [Read] steps may happen
    anywhere in between. *)

From Coq Require Import NArith List Bool Lia.
From Verif.Base Require Import Bytes.
From Verif.Model Require Import Input.
From Verif.Spec Require Import InputSpec FrameSpec.
From Verif.Proofs Require Import InputFacts.
From Verif.Props Require Import C05.
Import ListNotations.
Open Scope N_scope.

(** a well-formed packet that is not NEWKEYS *)
Definition packet_ok (message frame : bytes) : Prop :=
  exists padding, framed message padding frame /\
    message <> [] /\ len padding < 256 /\ 1 + len message + len padding <= 35000 /\
    hd 0 message <> 21.

(** the messages with their sequence numbers *)
Fixpoint numbered {C} (n : N) (l : list bytes) : list (revent C) :=
  match l with
  | [] => []
  | m :: l => Message n m :: numbered ((n + 1) mod 2 ^ 64) l
  end.

Section C04.
Variable C : Type.
Variable auth_size : C -> N.
Variable dec_header : C -> N -> bytes -> option (C * bytes).
Variable dec_payload : C -> N -> bytes -> option (C * bytes).
Notation decode := (decode C auth_size dec_header dec_payload).
Notation reads_all := (reads_all C auth_size dec_header dec_payload).

Lemma decode_frame : forall n message frame rest, packet_ok message frame ->
  decode None n (frame ++ rest) = Got C message None rest.
Proof.
  intros n message frame rest (padding & F & Hm & Hp & Hl & _). unfold framed in F.
  assert (Lm : 1 <= len message).
  { destruct message; [contradiction|]. rewrite len_cons. lia. }
  set (k := 1 + len message + len padding) in *.
  assert (Hk : k < pow32) by (unfold pow32; lia).
  set (body := [len padding] ++ message ++ padding).
  assert (Hb : len body = k) by (unfold body, k; rewrite !len_app; change (len [len padding]) with 1; lia).
  assert (EF : frame ++ rest = be32 k ++ (body ++ rest)).
  { rewrite F. unfold body. now rewrite !app_assoc. }
  rewrite EF. unfold InputSpec.decode.
  assert (L4 : len (be32 k) = 4) by reflexivity.
  assert (X : len (be32 k ++ body ++ rest) <? 4 = false) by (apply N.ltb_ge; rewrite len_app; lia). rewrite X.
  rewrite be32_at_app by lia.
  assert (EB : be32_at (be32 k) = k) by (unfold be32_at, be32; now apply un_be32_be32).
  rewrite EB.
  assert (A : acceptable k = true).
  { unfold acceptable. apply andb_true_iff. split; apply N.leb_le; lia. }
  rewrite A. cbn [negb].
  assert (Y : len (be32 k ++ body ++ rest) <? 4 + k = false) by (apply N.ltb_ge; rewrite !len_app; lia).
  rewrite Y. rewrite (drop_app_ge _ 4) by lia. rewrite L4. change (4 - 4) with 0. rewrite drop_0.
  rewrite <- Hb at 1. rewrite take_len.
  rewrite drop_app_ge by lia. rewrite L4. replace (4 + k - 4) with (len body) by lia. rewrite drop_len.
  unfold body at 1. cbn [app unpad]. rewrite len_app.
  assert (Z : len padding + 1 <=? len message + len padding = true) by (apply N.leb_le; lia). rewrite Z.
  replace (len message + len padding - len padding) with (len message) by lia.
  now rewrite take_len.
Qed.

Lemma numbered_snoc : forall l n m, exists k,
  @numbered C n (l ++ [m]) = numbered n l ++ [Message k m].
Proof.
  induction l as [|x l IH]; intros n m; cbn [app numbered]; [exists n; reflexivity|].
  destruct (IH ((n + 1) mod 2 ^ 64) m) as [k E]. exists k. now rewrite E.
Qed.

(** where a sequential reader can be *)
Lemma reads_frames : forall messages frames, Forall2 packet_ok messages frames ->
  forall stream tail, stream ++ tail = concat frames ->
  forall n trace r,
  reads_all {| r_cipher := None; r_seq := n; r_rest := stream; r_waiting := false |} trace r ->
  exists l1 l2, messages = l1 ++ l2 /\ trace = numbered n l1 /\
    r_cipher C r = None /\ r_waiting C r = false /\
    exists f2, Forall2 packet_ok l2 f2 /\ r_rest C r ++ tail = concat f2.
Proof.
  intros messages frames HF. induction HF as [|m f ms fs P HF IH]; intros stream tail HS n trace r H.
  - exists [], []. apply app_eq_nil in HS as [-> ->].
    destruct trace as [|e trace].
    + apply reads_all_nil in H. subst r. repeat split. exists []. split; [constructor|reflexivity].
    + apply reads_all_cons in H as (r1 & H1 & _). exfalso. inversion H1; subst; discriminate.
  - destruct trace as [|e trace].
    + apply reads_all_nil in H. subst r. exists [], (m :: ms). repeat split.
      exists (f :: fs). split; [now constructor|exact HS].
    + apply reads_all_cons in H as (r1 & H1 & H2).
      inversion H1 as [r0 m0 c0 rest0 W D E|r0 c0 re W E]; [|subst r0; discriminate].
      subst. cbn [r_cipher r_seq r_rest] in *.
      pose proof (decode_more C auth_size dec_header dec_payload None n stream tail) as M.
      rewrite D in M. rewrite HS in M. cbn [concat] in M. rewrite (decode_frame n m f _ P) in M.
      injection M as <- <- EQ. symmetry in EQ.
      assert (N21 : hd 0 m =? 21 = false).
      { destruct P as (? & _ & _ & _ & _ & P). now apply N.eqb_neq. }
      rewrite N21 in H2.
      destruct (IH rest0 tail EQ _ _ _ H2) as (l1 & l2 & -> & -> & R).
      exists (m :: l1), l2. split; [reflexivity|]. split; [reflexivity|exact R].
Qed.

Lemma numbered_no_cipher : forall l n c b, ~ In (Cipher c b) (@numbered C n l).
Proof.
  induction l as [|m l IH]; intros n c b H; [exact H|]. destruct H as [H|H]; [discriminate|]. now apply IH in H.
Qed.

Lemma encrypted_cipher : forall ops s stream trace,
  iruns C auth_size dec_header dec_payload ops s stream trace ->
  i_encrypted C s = true -> exists c b, In (Cipher c b) trace.
Proof.
  intros ops s stream trace H. induction H as [|ops s stream trace o s' e H IH E]; [discriminate|].
  intro Een.
  assert (K : i_encrypted C s = true \/ exists c b, In (Cipher c b) (map (seen C) e)).
  { destruct (i_encrypted C s) eqn:E0; [now left|right].
    unfold istep in E. destruct o; try (destruct (i_closed C s); [discriminate|]).
    - unfold do_Feed in E. rewrite E0 in E. destruct (i_cur C s); [discriminate|].
      destruct (negb _); [discriminate|]. injection E as <- <-. discriminate.
    - unfold do_Read in E. rewrite E0 in E. destruct (i_cur C s); [discriminate|].
      destruct (negb _); [discriminate|]. destruct (i_waiting C s) eqn:Ew; [discriminate|].
      unfold read_body, close in E.
      repeat match type of E with (if ?b then _ else _) = _ => destruct b end;
        injection E as <- <-; cbn in Een; congruence.
    - unfold do_SetCipher in E. destruct (i_cur C s); [|discriminate].
      repeat match type of E with (if ?b then _ else _) = _ => destruct b; [discriminate|] end.
      destruct (add_job (i_job C s) (i_again C s)) as [j g]. injection E as <- <-.
      cbn [map seen]. do 2 eexists. left. reflexivity.
    - unfold do_AutoResetSeq in E. injection E as <- <-. cbn in Een. congruence.
    - unfold do_Consume in E. destruct (i_cur C s); [|discriminate].
      destruct (_ && _); [discriminate|]. destruct (i_consumed_encrypted C s); [destruct (i_list C s); [discriminate|]|];
        injection E as <- <-; cbn in Een; congruence.
    - unfold do_RunBegin in E. destruct (i_job C s); try discriminate.
      destruct (_ || _); injection E as <- <-; cbn in Een; congruence.
    - unfold do_RunLoop in E. destruct (i_job C s) as [| |l nk [|]|]; try discriminate.
      destruct (i_cipher C s); [|discriminate].
      assert (PAY : forall n c, run_payload C auth_size dec_payload s l n c = IOk C s' e -> False).
      { clear E. intros n c0 E. unfold run_payload, run_stop, run_error in E.
        destruct (_ <? _); [injection E as <- <-; cbn in Een; congruence|].
        destruct (dec_payload _ _ _) as [[c1 rr]|]; [|injection E as <- <-; cbn in Een; congruence].
        destruct (negb _); [discriminate|]. destruct (_ <? _); injection E as <- <-; cbn in Een; congruence. }
      exfalso. destruct (i_packet_length C s =? 0); [|now apply PAY in E].
      unfold run_stop, run_error in E.
      destruct (_ <? _); [injection E as <- <-; cbn in Een; congruence|].
      destruct (dec_header _ _ _) as [[c1 h]|]; [|injection E as <- <-; cbn in Een; congruence].
      destruct (length_ok _); [now apply PAY in E|]. injection E as <- <-; cbn in Een; congruence.
    - unfold do_RunEnd in E. destruct (i_job C s) as [| |l nk [|]|]; try discriminate.
      destruct (i_waiting C s); [discriminate|]. injection E as <- <-; cbn in Een; congruence.
    - unfold do_Wakeup in E. destruct (i_job C s); try discriminate.
      injection E as <- <-; cbn in Een; congruence. }
  destruct K as [K|(c & b & K)].
  - destruct (IH K) as (c & b & X). exists c, b. apply in_or_app. now left.
  - exists c, b. apply in_or_app. now right.
Qed.

End C04.

(** The connection sees exactly the messages, in order and with consecutive
    sequence numbers, as far as it has read; and the connection is not
    closed. *)
Theorem C04_messages_in_order :
  forall (C : Type) auth_size dec_header dec_payload, contract auth_size dec_payload ->
  forall messages frames, Forall2 packet_ok messages frames ->
  forall ops s stream trace not_yet_received,
  iruns C auth_size dec_header dec_payload ops s stream trace ->
  stream ++ not_yet_received = concat frames ->
  (exists seen unseen, messages = seen ++ unseen /\ trace = numbered 0 seen) /\
  i_closed C s = false.
Proof.
  intros C a dh dp K messages frames HF ops s stream trace tail H HS.
  assert (I0 := H). apply inv_runs in I0; [|exact K]. destruct I0 as (r & R & HRel).
  destruct (reads_frames C a dh dp messages frames HF stream tail HS 0 trace r R)
    as (l1 & l2 & -> & -> & _).
  split; [eauto|].
  destruct (i_closed C s) eqn:Ec; [|reflexivity]. exfalso.
  destruct (C05_fails_only_on_bad_packet C a dh dp K _ _ _ _ H Ec) as (lost & r' & _ & R' & D).
  destruct (reads_frames C a dh dp (l1 ++ l2) frames HF stream tail HS 0 _ r' R')
    as (l3 & l4 & _ & _ & Rc & _ & f2 & F2 & E2).
  pose proof (decode_more C a dh dp (r_cipher C r') (r_seq C r') (r_rest C r') tail) as M.
  rewrite D, E2, Rc in M. destruct F2 as [|m f ms fs P F2]; [discriminate|].
  cbn [concat] in M. rewrite (decode_frame C a dh dp _ m f _ P) in M. discriminate.
Qed.
Print Assumptions C04_messages_in_order.

(** Once everything has been received and ReadPacket() returns nothing,
    all messages have been seen. *)
Theorem C04_all_messages :
  forall (C : Type) auth_size dec_header dec_payload, contract auth_size dec_payload ->
  forall messages frames, Forall2 packet_ok messages frames ->
  forall ops s trace s',
  iruns C auth_size dec_header dec_payload ops s (concat frames) trace ->
  istep C auth_size dec_header dec_payload s (Read C) = IOk C s' [] ->
  trace = numbered 0 messages.
Proof.
  intros C a dh dp K messages frames HF ops s trace s' H E.
  assert (HS : concat frames ++ [] = concat frames) by apply app_nil_r.
  destruct (C04_messages_in_order C a dh dp K messages frames HF ops s _ trace [] H HS) as [_ Hc].
  assert (Hs : i_closed C s' = false).
  { pose proof (iruns_snoc _ _ _ _ _ _ _ _ _ _ _ H E) as HX. cbn [map fed] in HX. rewrite !app_nil_r in HX.
    now destruct (C04_messages_in_order C a dh dp K messages frames HF _ _ _ _ [] HX HS). }
  assert (I0 := H). apply inv_runs in I0; [|exact K].
  assert (Cu : i_cur C s = None).
  { unfold istep in E. rewrite Hc in E. unfold do_Read in E. destruct (i_cur C s); [discriminate|reflexivity]. }
  destruct (Read_cases _ _ _ _ _ _ _ I0 Hc Cu) as (r & R1 & Rw & s1 & e & E1 & O).
  rewrite E in E1. injection E1 as <- <-.
  destruct O as [(n & m & O & _)|[(_ & O & _)|(_ & _ & O)]]; [discriminate|congruence|].
  destruct (reads_frames C a dh dp messages frames HF _ [] HS 0 trace r R1)
    as (l1 & l2 & -> & -> & Rc & _ & f2 & F2 & E2).
  destruct l2 as [|m l2]; [now rewrite app_nil_r|]. exfalso.
  (* before encryption, the worker is idle *)
  assert (J : i_job C s = IInitial).
  { destruct I0 as (r' & R' & HRel). destruct HRel as [_ Hm _].
    destruct (i_encrypted C s) eqn:Een; [|now destruct Hm]. exfalso.
    destruct (encrypted_cipher _ _ _ _ _ _ _ _ H Een) as (c & b & X). revert X. apply numbered_no_cipher. }
  specialize (O J). inversion F2 as [|? f ? fs P F3]; subst.
  rewrite app_nil_r in E2. rewrite E2, Rc in O. cbn [concat] in O.
  rewrite (decode_frame C a dh dp _ m f _ P) in O. discriminate.
Qed.
Print Assumptions C04_all_messages.

(** ** Witness: two packets in five chunks, with reads in between *)
Definition frame1 : bytes := be32 8 ++ [4] ++ [90; 1; 2] ++ [9;9;9;9].
Definition frame2 : bytes := be32 3 ++ [1] ++ [91] ++ [9].

Example C04_witness :
  Forall2 packet_ok [[90; 1; 2]; [91]] [frame1; frame2] /\
  exists s, iruns N toy_auth toy_header toy_payload
    [Feed N [0;0]; Read N; Feed N [0]; Feed N [8;4;90;1]; Read N; Feed N [2;9;9;9;9;0;0;0]; Read N; Consume N;
     Read N; Feed N [3;1;91;9]; Read N; Consume N] s (concat [frame1; frame2])
    (numbered 0 [[90; 1; 2]; [91]]) /\
    exists s', istep N toy_auth toy_header toy_payload s (Read N) = IOk N s' [].
Proof.
  split.
  - constructor; [|constructor; [|constructor]].
    + exists [9;9;9;9]. repeat split; vm_compute; discriminate.
    + exists [9]. repeat split; vm_compute; discriminate.
  - eexists. split.
    + match goal with |- iruns _ _ _ _ ?l _ _ _ => change l with ([] ++ l) end.
      eapply iexec_runs; [constructor|]. vm_compute. reflexivity.
    + eexists. vm_compute. reflexivity.
Qed.
