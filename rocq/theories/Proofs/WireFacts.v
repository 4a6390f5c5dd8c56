(** Lemmas about the serializer and deserializer model. *)

From Coq Require Import NArith List Bool Lia.
From Verif.Base Require Import Bytes.
From Verif.Model Require Import Wire WireSchema.
From Verif.Spec Require Import WireSpec.
Import ListNotations.
Open Scope N_scope.

Lemma put_u32_be32 : forall n, put_u32 n = be32 n.
Proof.
  intro n. unfold put_u32, be32. rewrite !N.shiftr_div_pow2. reflexivity.
Qed.

Lemma WriteN_spec : forall s src,
  WriteN s src = if len s + len src <=? BUFFER_SIZE then Some (s ++ src)
                 else if len src =? 0 then Some s else None.
Proof.
  intros s src. unfold WriteN.
  destruct (BUFFER_SIZE - len s <? len src) eqn:E1;
    destruct (len s + len src <=? BUFFER_SIZE) eqn:E2;
    rewrite ?N.ltb_lt, ?N.ltb_ge, ?N.leb_le, ?N.leb_gt in *; try reflexivity; try lia;
    destruct (len src =? 0) eqn:E3; rewrite ?N.eqb_eq, ?N.eqb_neq in *; try lia; try reflexivity.
  apply len_0 in E3. subst. now rewrite app_nil_r.
Qed.

Lemma WriteN_Some : forall s src, len s + len src <= BUFFER_SIZE ->
  WriteN s src = Some (s ++ src).
Proof.
  intros. rewrite WriteN_spec. apply N.leb_le in H. now rewrite H.
Qed.

Lemma WriteN_inv : forall s src s', len s <= BUFFER_SIZE -> WriteN s src = Some s' ->
  s' = s ++ src /\ len s' <= BUFFER_SIZE.
Proof.
  intros s src s' Hs H. unfold WriteN in H.
  destruct (BUFFER_SIZE - len s <? len src) eqn:E; [discriminate|].
  injection H as <-. apply N.ltb_ge in E. rewrite len_app. split; [reflexivity|lia].
Qed.

Lemma WriteN_None : forall s src, len s <= BUFFER_SIZE ->
  BUFFER_SIZE < len s + len src -> WriteN s src = None.
Proof.
  intros s src Hs H. unfold WriteN.
  replace (BUFFER_SIZE - len s <? len src) with true; [reflexivity|].
  symmetry. apply N.ltb_lt. lia.
Qed.

Lemma WriteString_spec : forall s src, len s <= BUFFER_SIZE ->
  WriteString s src =
    if len s + len (string_enc src) <=? BUFFER_SIZE then Some (s ++ string_enc src) else None.
Proof.
  intros s src Hs. unfold WriteString, WriteU32, string_enc. rewrite put_u32_be32.
  rewrite len_app, len_be32.
  destruct (len s + (4 + len src) <=? BUFFER_SIZE) eqn:E;
    rewrite ?N.leb_le, ?N.leb_gt in E.
  - rewrite WriteN_Some by (rewrite len_be32; lia). simpl obind.
    rewrite WriteN_Some by (rewrite len_app, len_be32; lia).
    now rewrite app_assoc.
  - destruct (N.le_gt_cases (len s + 4) BUFFER_SIZE).
    + rewrite WriteN_Some by (rewrite len_be32; lia). simpl obind.
      apply WriteN_None; rewrite len_app, len_be32; lia.
    + rewrite WriteN_None; [reflexivity|assumption|rewrite len_be32; lia].
Qed.


Lemma write_field_spec : forall s f, len s <= BUFFER_SIZE ->
  match f with FByte b => b < 256 | _ => True end ->
  write_field s f =
    if len s + len (enc_field f) <=? BUFFER_SIZE then Some (s ++ enc_field f) else None.
Proof.
  intros s f Hs Hf.
  assert (W : forall x, WriteN s x = if len s + len x <=? BUFFER_SIZE then Some (s ++ x) else None).
  { intro x. destruct (len s + len x <=? BUFFER_SIZE) eqn:E; rewrite ?N.leb_le, ?N.leb_gt in E.
    - now apply WriteN_Some.
    - now apply WriteN_None. }
  destruct f as [b|b|n|x|x]; cbn [write_field enc_field].
  - unfold WriteU8. rewrite N.mod_small by assumption. apply W.
  - unfold WriteBool, WriteU8, bool_enc. destruct b; apply W.
  - unfold WriteU32. rewrite put_u32_be32. apply W.
  - now apply WriteString_spec.
  - apply W.
Qed.

(** ** Reading *)

Lemma ReadN_app : forall x rest, ReadN (len x) (x ++ rest) = Some (x, rest).
Proof.
  intros. unfold ReadN. rewrite len_app.
  replace (len x + len rest <? len x) with false.
  - now rewrite take_len, drop_len.
  - symmetry. apply N.ltb_ge. lia.
Qed.

Lemma ReadN_inv : forall n src x rest, ReadN n src = Some (x, rest) ->
  src = x ++ rest /\ len x = n.
Proof.
  intros n src x rest H. unfold ReadN in H.
  destruct (len src <? n) eqn:E; [discriminate|]. injection H as <- <-.
  apply N.ltb_ge in E. rewrite take_drop. split; [reflexivity|]. now apply len_take.
Qed.

Lemma ReadU32_be32 : forall n rest, n < pow32 -> ReadU32 (be32 n ++ rest) = Some (n, rest).
Proof.
  intros n rest H. unfold be32. simpl app. unfold ReadU32.
  now rewrite un_be32_be32.
Qed.

Lemma ReadU32_inv : forall src n rest, bytes_ok src -> ReadU32 src = Some (n, rest) ->
  src = be32 n ++ rest /\ n < pow32 /\ bytes_ok rest.
Proof.
  intros src n rest Hok H. unfold ReadU32 in H.
  destruct src as [|a [|b [|c [|d r]]]]; try discriminate.
  injection H as <- <-.
  inversion Hok as [|? ? Ha H1]; subst. inversion H1 as [|? ? Hb H2]; subst.
  inversion H2 as [|? ? Hc H3]; subst. inversion H3 as [|? ? Hd H4]; subst.
  rewrite be32_un_be32 by assumption. split; [reflexivity|].
  split; [now apply un_be32_lt|assumption].
Qed.

Lemma ReadString_enc : forall x rest, len x < pow32 ->
  ReadString (string_enc x ++ rest) = Some (x, rest).
Proof.
  intros x rest H. unfold ReadString, ReadLengthEncoded, string_enc.
  rewrite <- app_assoc, ReadU32_be32 by assumption. simpl obind. apply ReadN_app.
Qed.

Lemma ReadString_inv : forall src x rest, bytes_ok src -> ReadString src = Some (x, rest) ->
  src = string_enc x ++ rest /\ len x < pow32 /\ bytes_ok rest /\ bytes_ok x.
Proof.
  intros src x rest Hok H. unfold ReadString, ReadLengthEncoded in H.
  destruct (ReadU32 src) as [[n r]|] eqn:E; [|discriminate]. simpl obind in H.
  apply ReadU32_inv in E as (E & Hn & Hr); [|assumption].
  apply ReadN_inv in H as [H1 H2]. subst. unfold string_enc.
  rewrite <- app_assoc. apply bytes_ok_app in Hr as [? ?]. auto.
Qed.

Lemma ReadBool_inv : forall src b rest, bytes_ok src -> ReadBool src = Some (b, rest) ->
  exists x, src = x :: rest /\ b = negb (x =? 0) /\ x < 256 /\ bytes_ok rest.
Proof.
  intros src b rest Hok H. destruct src as [|x r]; [discriminate|].
  simpl in H. injection H as <- <-. exists x. inversion Hok; subst. auto.
Qed.

Lemma ReadN_inv_ok : forall n src x rest, bytes_ok src -> ReadN n src = Some (x, rest) ->
  src = x ++ rest /\ len x = n /\ bytes_ok rest /\ bytes_ok x.
Proof.
  intros n src x rest Hok H. apply ReadN_inv in H as [H1 H2]. subst.
  apply bytes_ok_app in Hok as [? ?]. auto.
Qed.


Lemma read_field_enc : forall f rest, field_ok f ->
  read_field (type_of f) (enc_field f ++ rest) = Some (f, rest).
Proof.
  intros f rest H. destruct f as [b|b|n|x|x]; cbn [read_field enc_field type_of].
  - reflexivity.
  - destruct b; reflexivity.
  - now rewrite ReadU32_be32.
  - now rewrite ReadString_enc.
  - now rewrite ReadN_app.
Qed.

Lemma len_enc_cons : forall f fs, len (enc (f :: fs)) = len (enc_field f) + len (enc fs).
Proof. intros. unfold enc. simpl. apply len_app. Qed.



Lemma write_fields_spec : forall fs s, len s <= BUFFER_SIZE -> Forall field_ok fs ->
  write_fields s fs =
    if len s + len (enc fs) <=? BUFFER_SIZE then Some (s ++ enc fs) else None.
Proof.
  induction fs as [|f fs IH]; intros s Hs Hfs.
  - simpl. unfold enc. simpl. rewrite app_nil_r, len_nil, N.add_0_r.
    apply N.leb_le in Hs. now rewrite Hs.
  - inversion Hfs as [|? ? Hf Hfs']; subst. simpl write_fields.
    rewrite write_field_spec; [|assumption|destruct f; simpl in Hf; auto].
    rewrite len_enc_cons.
    destruct (len s + len (enc_field f) <=? BUFFER_SIZE) eqn:E1; simpl obind;
      rewrite ?N.leb_le, ?N.leb_gt in E1.
    + rewrite IH; [|rewrite len_app; lia|assumption].
      rewrite len_app, N.add_assoc. unfold enc. simpl. now rewrite app_assoc.
    + destruct (len s + (len (enc_field f) + len (enc fs)) <=? BUFFER_SIZE) eqn:E2; [|reflexivity].
      apply N.leb_le in E2. lia.
Qed.

Lemma read_fields_enc : forall fs rest, Forall field_ok fs ->
  read_fields (map type_of fs) (enc fs ++ rest) = Some (fs, rest).
Proof.
  induction fs as [|f fs IH]; intros rest H.
  - reflexivity.
  - inversion H as [|? ? Hf Hfs]; subst. unfold enc. cbn [map concat read_fields]. rewrite <- app_assoc.
    rewrite read_field_enc by assumption. simpl obind.
    fold (enc fs). rewrite IH by assumption. reflexivity.
Qed.
