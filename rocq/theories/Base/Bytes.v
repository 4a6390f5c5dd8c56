(** Byte strings and big-endian numbers.

    A byte is an [N]; functions of the model never look at the range of a
    byte, the predicate [bytes_ok] is used in theorems where it matters. *)

From Coq Require Import NArith ZArith List Bool Lia String Ascii.
Import ListNotations.
Open Scope N_scope.

Definition bytes := list N.

Definition bytes_ok (l : bytes) : Prop := Forall (fun b => b < 256) l.

(** Length as a binary number (std::size_t of a span). *)
Definition len {A} (l : list A) : N := N.of_nat (List.length l).

Fixpoint bytes_eqb (a b : bytes) : bool :=
  match a, b with
  | [], [] => true
  | x :: a', y :: b' => (x =? y) && bytes_eqb a' b'
  | _, _ => false
  end.

(** A string literal as bytes. *)
Definition bs (s : string) : bytes := map N_of_ascii (list_ascii_of_string s).

(** The four big-endian bytes of a 32 bit number; each byte is truncated
    to 8 bits like an assignment to [uint8_t]. *)
Definition be32 (n : N) : bytes :=
  [ (n / 16777216) mod 256; (n / 65536) mod 256; (n / 256) mod 256; n mod 256 ].

Definition un_be32 (a b c d : N) : N :=
  a * 16777216 + b * 65536 + c * 256 + d.

Definition pow32 : N := 4294967296.
Definition pow64 : N := 18446744073709551616.

Definition take {A} (n : N) (l : list A) : list A := firstn (N.to_nat n) l.
Definition drop {A} (n : N) (l : list A) : list A := skipn (N.to_nat n) l.

(** ** Facts *)

Lemma bytes_eqb_eq : forall a b, bytes_eqb a b = true <-> a = b.
Proof.
  induction a as [|x a IH]; destruct b as [|y b]; simpl; split; intro H;
    try reflexivity; try discriminate.
  - apply andb_true_iff in H as [H1 H2]. apply N.eqb_eq in H1.
    apply IH in H2. congruence.
  - injection H as -> ->. rewrite N.eqb_refl. simpl. now apply IH.
Qed.

Lemma bytes_eqb_refl : forall a, bytes_eqb a a = true.
Proof. intro a. now apply bytes_eqb_eq. Qed.

Lemma bytes_eqb_neq : forall a b, bytes_eqb a b = false <-> a <> b.
Proof.
  intros a b. destruct (bytes_eqb a b) eqn:E; split; intro H; try discriminate; try reflexivity.
  - apply bytes_eqb_eq in E. contradiction.
  - intro E'. apply bytes_eqb_eq in E'. congruence.
Qed.

Definition bytes_eq_dec : forall a b : bytes, {a = b} + {a <> b} :=
  list_eq_dec N.eq_dec.

Lemma bytes_eqb_sym : forall a b, bytes_eqb a b = bytes_eqb b a.
Proof.
  intros a b. destruct (bytes_eqb a b) eqn:E.
  - apply bytes_eqb_eq in E. subst. now rewrite bytes_eqb_refl.
  - symmetry. apply bytes_eqb_neq. apply bytes_eqb_neq in E. congruence.
Qed.

Lemma len_nil : forall A, len (@nil A) = 0.
Proof. reflexivity. Qed.

Lemma len_cons : forall A (x : A) l, len (x :: l) = 1 + len l.
Proof. intros. unfold len. simpl List.length. lia. Qed.

Lemma len_app : forall A (a b : list A), len (a ++ b) = len a + len b.
Proof. intros. unfold len. rewrite app_length. lia. Qed.

Lemma len_map : forall A B (f : A -> B) l, len (map f l) = len l.
Proof. intros. unfold len. now rewrite map_length. Qed.

Lemma len_0 : forall A (l : list A), len l = 0 -> l = [].
Proof. intros A [|x l] H; [reflexivity|]. rewrite len_cons in H. lia. Qed.

Lemma len_be32 : forall n, len (be32 n) = 4.
Proof. reflexivity. Qed.

Lemma be32_ok : forall n, bytes_ok (be32 n).
Proof.
  intro n. unfold be32, bytes_ok. repeat constructor; apply N.mod_lt; discriminate.
Qed.

Lemma bytes_ok_app : forall a b, bytes_ok (a ++ b) <-> bytes_ok a /\ bytes_ok b.
Proof. intros. apply Forall_app. Qed.

Lemma un_be32_be32 : forall n, n < pow32 ->
  un_be32 ((n / 16777216) mod 256) ((n / 65536) mod 256) ((n / 256) mod 256) (n mod 256) = n.
Proof.
  intros n H. unfold un_be32, pow32 in *.
  assert (E1 : n = 256 * (n / 256) + n mod 256) by (apply N.div_mod; lia).
  assert (E2 : n / 256 = 256 * (n / 256 / 256) + (n / 256) mod 256) by (apply N.div_mod; lia).
  assert (E3 : n / 256 / 256 = 256 * (n / 256 / 256 / 256) + (n / 256 / 256) mod 256) by (apply N.div_mod; lia).
  rewrite !N.div_div in * by lia.
  change (256 * 256) with 65536 in *. change (65536 * 256) with 16777216 in *.
  change (256 * 65536) with 16777216 in *.
  assert (n / 16777216 < 256) by (apply N.div_lt_upper_bound; lia).
  rewrite (N.mod_small (n / 16777216) 256) by assumption.
  lia.
Qed.

Lemma un_be32_lt : forall a b c d, a < 256 -> b < 256 -> c < 256 -> d < 256 ->
  un_be32 a b c d < pow32.
Proof. intros. unfold un_be32, pow32. lia. Qed.

Lemma be32_un_be32 : forall a b c d, a < 256 -> b < 256 -> c < 256 -> d < 256 ->
  be32 (un_be32 a b c d) = [a; b; c; d].
Proof.
  intros a b c d Ha Hb Hc Hd. unfold be32, un_be32.
  assert (E1 : (a * 16777216 + b * 65536 + c * 256 + d) / 16777216 = a).
  { symmetry. apply (N.div_unique _ _ _ (b * 65536 + c * 256 + d)); lia. }
  assert (E2 : (a * 16777216 + b * 65536 + c * 256 + d) / 65536 = a * 256 + b).
  { symmetry. apply (N.div_unique _ _ _ (c * 256 + d)); lia. }
  assert (E3 : (a * 16777216 + b * 65536 + c * 256 + d) / 256 = a * 65536 + b * 256 + c).
  { symmetry. apply (N.div_unique _ _ _ d); lia. }
  rewrite E1, E2, E3.
  assert (M0 : a mod 256 = a) by (apply N.mod_small; lia).
  assert (M1 : (a * 256 + b) mod 256 = b).
  { symmetry. apply (N.mod_unique _ _ a); lia. }
  assert (M2 : (a * 65536 + b * 256 + c) mod 256 = c).
  { symmetry. apply (N.mod_unique _ _ (a * 256 + b)); lia. }
  assert (M3 : (a * 16777216 + b * 65536 + c * 256 + d) mod 256 = d).
  { symmetry. apply (N.mod_unique _ _ (a * 65536 + b * 256 + c)); lia. }
  now rewrite M0, M1, M2, M3.
Qed.

Lemma be32_inj : forall m n, m < pow32 -> n < pow32 -> be32 m = be32 n -> m = n.
Proof.
  intros m n Hm Hn H. rewrite <- (un_be32_be32 m Hm), <- (un_be32_be32 n Hn).
  unfold be32 in H. injection H as -> -> -> ->. reflexivity.
Qed.

Lemma take_len : forall A (l r : list A), take (len l) (l ++ r) = l.
Proof.
  intros. unfold take, len. rewrite Nnat.Nat2N.id, firstn_app, firstn_all, PeanoNat.Nat.sub_diag.
  simpl. apply app_nil_r.
Qed.

Lemma drop_len : forall A (l r : list A), drop (len l) (l ++ r) = r.
Proof.
  intros. unfold drop, len. rewrite Nnat.Nat2N.id, skipn_app, skipn_all, PeanoNat.Nat.sub_diag.
  reflexivity.
Qed.

Lemma take_drop : forall A n (l : list A), take n l ++ drop n l = l.
Proof. intros. apply firstn_skipn. Qed.

Lemma len_take : forall A n (l : list A), n <= len l -> len (take n l) = n.
Proof.
  intros A n l H. unfold len, take in *. rewrite firstn_length_le; lia.
Qed.

Lemma len_drop : forall A n (l : list A), len (drop n l) = len l - n.
Proof.
  intros A n l. unfold len, drop. rewrite skipn_length. lia.
Qed.

Lemma take_app_le : forall A n (l r : list A), n <= len l -> take n (l ++ r) = take n l.
Proof.
  intros A n l r H. unfold take, len in *. rewrite firstn_app.
  replace (N.to_nat n - Datatypes.length l)%nat with 0%nat by lia.
  simpl. apply app_nil_r.
Qed.

Lemma drop_app_le : forall A n (l r : list A), n <= len l -> drop n (l ++ r) = drop n l ++ r.
Proof.
  intros A n l r H. unfold drop, len in *. rewrite skipn_app.
  replace (N.to_nat n - Datatypes.length l)%nat with 0%nat by lia.
  reflexivity.
Qed.

Lemma take_all : forall A (l : list A), take (len l) l = l.
Proof. intros. rewrite <- (app_nil_r l) at 2. apply take_len. Qed.

Lemma drop_all : forall A (l : list A), drop (len l) l = [].
Proof. intros. rewrite <- (app_nil_r l) at 2. apply drop_len. Qed.

Lemma take_0 : forall A (l : list A), take 0 l = [].
Proof. reflexivity. Qed.

Lemma drop_0 : forall A (l : list A), drop 0 l = l.
Proof. reflexivity. Qed.

Lemma bytes_ok_take : forall n l, bytes_ok l -> bytes_ok (take n l).
Proof.
  intros n l H. rewrite <- (take_drop _ n l) in H. apply bytes_ok_app in H. tauto.
Qed.

Lemma bytes_ok_drop : forall n l, bytes_ok l -> bytes_ok (drop n l).
Proof.
  intros n l H. rewrite <- (take_drop _ n l) in H. apply bytes_ok_app in H. tauto.
Qed.

Lemma bs_ok : forall s, bytes_ok (bs s).
Proof.
  intro s. unfold bs, bytes_ok. apply Forall_forall. intros x Hx.
  apply in_map_iff in Hx as (a & <- & _). apply N_ascii_bounded.
Qed.

Lemma app_inj_len : forall A (a b c d : list A), len a = len b -> a ++ c = b ++ d -> a = b /\ c = d.
Proof.
  intros A a. induction a as [|x a IH]; intros [|y b] c d HL H;
    try (rewrite len_cons in HL; rewrite len_nil in HL; lia);
    try (rewrite len_nil in HL; rewrite len_cons in HL; lia).
  - split; auto.
  - rewrite !len_cons in HL. simpl in H. injection H as -> H.
    destruct (IH b c d) as [-> ->]; try lia; auto.
Qed.

Lemma rev_inj : forall A (a b : list A), rev a = rev b -> a = b.
Proof. intros A a b H. rewrite <- (rev_involutive a), H. apply rev_involutive. Qed.

(** like [injection], but does not simplify the terms *)
Lemma Some_inj : forall A (x y : A), Some x = Some y -> x = y.
Proof. intros A x y H. now injection H. Qed.

Lemma skipn_skipn' : forall A n m (l : list A), skipn n (skipn m l) = skipn (m + n) l.
Proof.
  intros A n m. induction m as [|m IH]; intro l; [reflexivity|].
  destruct l as [|x l]; simpl; [now rewrite skipn_nil|apply IH].
Qed.

Lemma drop_drop : forall A n m (l : list A), drop n (drop m l) = drop (m + n) l.
Proof. intros. unfold drop. rewrite skipn_skipn'. f_equal. lia. Qed.

Lemma drop_app_ge : forall A n (l r : list A), len l <= n -> drop n (l ++ r) = drop (n - len l) r.
Proof.
  intros A n l r H. unfold drop. rewrite skipn_app.
  rewrite skipn_all2 by (unfold len in H; lia). simpl. f_equal. unfold len. lia.
Qed.

Lemma take_app_ge : forall A n (l r : list A), len l <= n -> take n (l ++ r) = l ++ take (n - len l) r.
Proof.
  intros A n l r H. unfold take. rewrite firstn_app.
  rewrite firstn_all2 by (unfold len in H; lia). f_equal. f_equal. unfold len. lia.
Qed.

Lemma drop_ge : forall A n (l : list A), len l <= n -> drop n l = [].
Proof. intros A n l H. unfold drop. apply skipn_all2. unfold len in H. lia. Qed.

Lemma take_ge : forall A n (l : list A), len l <= n -> take n l = l.
Proof. intros A n l H. unfold take. apply firstn_all2. unfold len in H. lia. Qed.
