(** Facts about the list of host keys. *)

From Coq Require Import NArith List Bool Lia.
From Verif.Base Require Import Bytes.
From Verif.Spec Require Import NamesSpec.
From Verif.Model Require Import StringList KeyList.
From Verif.Proofs Require Import NamesFacts.
Import ListNotations.
Open Scope N_scope.

Lemma find_algorithm_cons : forall a b k m,
  find_algorithm a ((b, k) :: m) = if bytes_eqb b a then Some k else find_algorithm a m.
Proof. intros a b k m; unfold find_algorithm; cbn [find fst]. destruct (bytes_eqb b a); reflexivity. Qed.

(** [names] are the algorithms which were added so far. *)
Definition kl_ok (names : list bytes) (l : key_list) : Prop :=
  kl_algorithms l = join names /\ NoDup names /\ Forall (fun n => n <> [] /\ ~ In COMMA n) names /\
  forall a, find_algorithm a (kl_map l) = None <-> ~ In a names.

Lemma join_nonempty : forall names, Forall (fun n => n <> [] /\ ~ In COMMA n) names -> join names = [] -> names = [].
Proof.
  intros [|n [|m l]] H E; [reflexivity| |].
  - cbn [join] in E; inversion H as [|? ? [X _] _]; congruence.
  - rewrite join_cons in E by discriminate. destruct n; discriminate.
Qed.

Lemma join_snoc : forall names n, names <> [] -> join (names ++ [n]) = join names ++ [COMMA] ++ n.
Proof.
  induction names as [|m l IH]; intros n H; [congruence|]. destruct l as [|m' l].
  - reflexivity.
  - rewrite join_cons by discriminate. cbn [app]. rewrite (join_cons m (m' :: l ++ [n])) by discriminate.
    rewrite <- app_assoc. f_equal. cbn [app]. f_equal. apply IH; discriminate.
Qed.

Lemma add_algorithm_ok : forall key l a names, kl_ok names l -> a <> [] -> ~ In COMMA a ->
  kl_ok (if in_dec bytes_eq_dec a names then names else names ++ [a]) (add_algorithm key l a) /\
  (forall b k, find_algorithm b (kl_map l) = Some k -> find_algorithm b (kl_map (add_algorithm key l a)) = Some k) /\
  (find_algorithm a (kl_map l) = None -> find_algorithm a (kl_map (add_algorithm key l a)) = Some key) /\
  (forall b, b <> a -> find_algorithm b (kl_map (add_algorithm key l a)) = find_algorithm b (kl_map l)).
Proof.
  intros key l a names (H1 & H2 & H3 & H4) Ha Hc. unfold add_algorithm.
  destruct (find_algorithm a (kl_map l)) as [k|] eqn:Ef.
  - split; [|split; [auto|split; [congruence|auto]]].
    destruct (in_dec bytes_eq_dec a names) as [Hin|Hni]; [repeat split; auto; apply H4|].
    exfalso; apply H4 in Hni; congruence.
  - assert (Hni : ~ In a names) by (apply H4; exact Ef).
    destruct (in_dec bytes_eq_dec a names) as [Hin|_]; [contradiction|].
    split; [|split; [|split]].
    + split; [|split; [|split]].
      * cbn [kl_algorithms mk_kl]. rewrite H1. destruct names as [|n names].
        -- reflexivity.
        -- rewrite join_snoc by discriminate. destruct (join (n :: names)) eqn:Ej; [|reflexivity].
           apply join_nonempty in Ej; [discriminate|exact H3].
      * clear - H2 Hni. induction names as [|x l IH]; cbn [app]; [constructor; [auto|constructor]|].
        inversion H2; subst; constructor.
        -- intros X; apply in_app_or in X as [X|[->|[]]]; [auto|apply Hni; left; reflexivity].
        -- apply IH; [assumption|]. intros X; apply Hni; right; exact X.
      * apply Forall_app; split; [exact H3|]. constructor; [auto|constructor].
      * intros b; cbn [kl_map mk_kl]. rewrite find_algorithm_cons. rewrite in_app_iff.
        destruct (bytes_eqb a b) eqn:E.
        -- apply bytes_eqb_eq in E; subst. split; [discriminate|]. intros X; exfalso; apply X; right; left; reflexivity.
        -- apply bytes_eqb_neq in E. rewrite H4. split; [intros X [Y|[Y|[]]]; [auto|congruence]|].
           intros X Y; apply X; left; exact Y.
    + intros b k Hb; cbn [kl_map mk_kl]. rewrite find_algorithm_cons.
      destruct (bytes_eqb a b) eqn:E; [|exact Hb]. apply bytes_eqb_eq in E; subst; congruence.
    + intros _; cbn [kl_map mk_kl]. rewrite find_algorithm_cons, bytes_eqb_refl. reflexivity.
    + intros b Hb; cbn [kl_map mk_kl]. rewrite find_algorithm_cons.
      destruct (bytes_eqb a b) eqn:E; [|reflexivity]. apply bytes_eqb_eq in E; congruence.
Qed.

Lemma add_algorithms_ok : forall key algs l names, kl_ok names l -> Forall (fun n => n <> [] /\ ~ In COMMA n) algs ->
  let l' := fold_left (add_algorithm key) algs l in
  exists names', kl_ok names' l' /\ (forall a, In a names' <-> In a names \/ In a algs) /\
  (forall a, find_algorithm a (kl_map l') =
     match find_algorithm a (kl_map l) with
     | Some k => Some k
     | None => if in_dec bytes_eq_dec a algs then Some key else None
     end).
Proof.
  intros key; induction algs as [|x algs IH]; intros l names H Hf l'.
  - exists names; split; [exact H|]. split; [intros a; cbn; tauto|].
    intros a; unfold l'; cbn [fold_left]. destruct (find_algorithm a (kl_map l)); reflexivity.
  - inversion Hf as [|? ? [Hx1 Hx2] Hf']; subst.
    destruct (add_algorithm_ok key l x names H Hx1 Hx2) as (K1 & K2 & K3 & K4).
    destruct (IH _ _ K1 Hf') as (names' & L1 & L2 & L3). exists names'; split; [exact L1|]. split.
    + intros a; rewrite L2. destruct (in_dec bytes_eq_dec x names) as [Hin|Hni].
      * cbn [In]. split; [tauto|]. intros [X|[->|X]]; auto.
      * rewrite in_app_iff. cbn [In]. tauto.
    + intros a. unfold l'; cbn [fold_left]. rewrite L3.
      destruct (bytes_eq_dec a x) as [->|Hne].
      * destruct (find_algorithm x (kl_map l)) as [k|] eqn:E.
        -- rewrite (K2 x k E); reflexivity.
        -- rewrite (K3 eq_refl). destruct (in_dec bytes_eq_dec x (x :: algs)) as [_|Hn]; [reflexivity|].
           exfalso; apply Hn; left; reflexivity.
      * rewrite (K4 a Hne). destruct (find_algorithm a (kl_map l)); [reflexivity|].
        destruct (in_dec bytes_eq_dec a algs) as [Hi|Hi];
          destruct (in_dec bytes_eq_dec a (x :: algs)) as [Hj|Hj]; try reflexivity.
        -- exfalso; apply Hj; right; exact Hi.
        -- exfalso; destruct Hj as [Hj|Hj]; [congruence|auto].
Qed.

Definition names_of (k : secret_key) : list bytes := split 44 (sk_algorithms k).
Definition key_ok (k : secret_key) : Prop := Forall (fun n => n <> []) (names_of k).

Lemma key_ok_names : forall k, key_ok k -> Forall (fun n => n <> [] /\ ~ In COMMA n) (names_of k).
Proof.
  intros k H. pose proof (split_no_comma (sk_algorithms k)) as Hc. unfold key_ok, names_of in *.
  rewrite Forall_forall in *. intros n Hn; split; auto.
Qed.

Definition first_with (a : bytes) (keys : list secret_key) : option secret_key :=
  find (fun k => if in_dec bytes_eq_dec a (names_of k) then true else false) keys.

Lemma load_ok : forall keys, Forall key_ok keys ->
  exists names, kl_ok names (load keys) /\
    (forall a, In a names <-> exists k, In k keys /\ In a (names_of k)) /\
    (forall a, find_algorithm a (kl_map (load keys)) = first_with a keys).
Proof.
  induction keys as [|k keys IH] using rev_ind; intros H.
  - exists []; split; [|split].
    + split; [reflexivity|]. split; [constructor|]. split; [constructor|]. intros a; split; [intros _ []|reflexivity].
    + intros a; split; [intros []|intros (k & [] & _)].
    + reflexivity.
  - apply Forall_app in H as [Hk1 Hk2]. inversion Hk2 as [|? ? Hk _]; subst.
    destruct (IH Hk1) as (names & K1 & K2 & K3). unfold load in *. rewrite fold_left_app; cbn [fold_left].
    set (l := fold_left (fun l k => Add k l) keys empty_keys) in *.
    assert (K1' : kl_ok names (mk_kl (k :: kl_keys l) (kl_map l) (kl_algorithms l))) by exact K1.
    destruct (add_algorithms_ok k (names_of k) _ names K1' (key_ok_names k Hk)) as (names' & L1 & L2 & L3).
    exists names'. fold (names_of k) in L1, L3. split; [exact L1|]. split.
    + intros a; rewrite L2, K2. split.
      * intros [(k' & X & Y)|X]; [exists k'; split; [apply in_or_app; left; exact X|exact Y]|].
        exists k; split; [apply in_or_app; right; left; reflexivity|exact X].
      * intros (k' & X & Y). apply in_app_or in X as [X|[<-|[]]]; [left; exists k'; auto|right; exact Y].
    + intros a. unfold Add; fold (names_of k). rewrite L3. cbn [kl_map mk_kl]. rewrite K3. unfold first_with.
      clear. induction keys as [|q keys IH]; cbn [app find].
      * destruct (in_dec bytes_eq_dec a (names_of k)); reflexivity.
      * destruct (in_dec bytes_eq_dec a (names_of q)); [reflexivity|exact IH].
Qed.
