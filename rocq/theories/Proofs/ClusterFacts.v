(** Facts about clusters (for C75). *)

From Coq Require Import NArith List Bool Lia Permutation.
From Verif.Base Require Import Bytes.
From Verif.Spec Require Import ClusterSpec.
From Verif.Model Require Import Cluster.
Import ListNotations.
Open Scope N_scope.

(** ** Announcements *)

Lemma announced_snoc : forall ops o key v,
  announced (ops ++ [o]) key v <-> o = CNew key v \/ (announced ops key v /\ o <> CRemove key /\ forall w, o <> CNew key w).
Proof.
  intros ops o key v. split.
  - intros (pre & post & E & H). destruct post as [|p post] using rev_ind.
    + left. apply app_inj_tail in E. now destruct E.
    + clear IHpost. right. rewrite app_comm_cons, app_assoc in E. apply app_inj_tail in E. destruct E as (E & <-). split.
      * exists pre, post. split; [exact E|]. intros q Q. apply H, in_or_app. now left.
      * apply H, in_or_app. right. now left.
  - intros [->|((pre & post & E & H) & N)].
    + exists ops, []. split; [reflexivity|intros q []].
    + exists pre, (post ++ [o]). split; [rewrite E; now rewrite <- app_assoc|]. intros q Q. apply in_app_or in Q.
      destruct Q as [Q|[<-|[]]]; [now apply H|exact N].
Qed.

(** ** Sorting *)

Lemma remove_one_perm : forall x b b', remove_one x b = Some b' -> Permutation (x :: b') b.
Proof.
  intros x b. induction b as [|y t IH]; intros b' E; [discriminate|]. cbn in E. destruct (N.eqb_spec x y) as [<-|N].
  - injection E as <-. apply Permutation_refl.
  - destruct (remove_one x t) as [r|]; [|discriminate]. injection E as <-.
    eapply Permutation_trans; [apply perm_swap|]. apply perm_skip. now apply IH.
Qed.
Lemma is_permutation_sound : forall a b, is_permutation a b = true -> Permutation a b.
Proof.
  intros a. induction a as [|x t IH]; intros b E; cbn in E; [destruct b; [constructor|discriminate]|].
  destruct (remove_one x b) as [b'|] eqn:R; [|discriminate].
  eapply Permutation_trans; [apply perm_skip, IH, E|now apply remove_one_perm].
Qed.
Lemma insert_perm : forall f x l, Permutation (x :: l) (insert f x l).
Proof.
  intros f x l. induction l as [|y t IH]; [apply Permutation_refl|]. cbn. destruct (_ <=? _); [apply Permutation_refl|].
  eapply Permutation_trans; [apply perm_swap|now apply perm_skip].
Qed.
Lemma isort_perm : forall f l, Permutation l (fold_right (insert f) [] l).
Proof.
  intros f l. induction l as [|x t IH]; [constructor|]. cbn. eapply Permutation_trans; [apply perm_skip, IH|apply insert_perm].
Qed.
(** the first element is a least one *)
Definition head_least (f : N -> N) (l : list N) : Prop :=
  match l with [] => True | x :: t => forall y, In y t -> f x <= f y end.
Lemma sorted_head : forall f l, is_sorted f l = true -> head_least f l.
Proof.
  intros f l. induction l as [|x t IH]; intros E; [exact Logic.I|]. intros y Y. destruct t as [|z t]; [destruct Y|].
  cbn [is_sorted] in E. apply andb_prop in E. destruct E as (E1 & E2). apply N.leb_le in E1. destruct Y as [<-|Y]; [exact E1|].
  specialize (IH E2 y Y). lia.
Qed.
Lemma insert_head : forall f x l, head_least f l -> head_least f (insert f x l).
Proof.
  intros f x l. destruct l as [|y t]; intros H; [intros z []|]. cbn [insert]. destruct (N.leb_spec (f x) (f y)) as [L|L].
  - intros z [<-|Z]; [exact L|]. specialize (H z Z). lia.
  - intros z Z. apply (Permutation_in z (Permutation_sym (insert_perm f x t))) in Z. destruct Z as [<-|Z]; [lia|now apply H].
Qed.
Lemma std_sort_spec : forall f order l, Permutation l (std_sort f order l) /\ head_least f (std_sort f order l).
Proof.
  intros f order l. unfold std_sort. destruct (is_permutation order l && is_sorted f order) eqn:E.
  - apply andb_prop in E. destruct E as (E1 & E2). split; [now apply Permutation_sym, is_permutation_sound|now apply sorted_head].
  - split; [apply isort_perm|]. clear E. induction l as [|x t IH]; [exact Logic.I|]. cbn. now apply insert_head.
Qed.

Lemma NoDup_app_single : forall (A : Type) (l : list A) x, NoDup l -> ~ In x l -> NoDup (l ++ [x]).
Proof.
  intros A l x N I. apply (Permutation_NoDup (Permutation_app_comm [x] l)). now constructor.
Qed.

(** ** The cluster *)

Definition ids (m : list (N * bytes * member)) : list N := map (fun n => fst (fst n)) m.
Definition keys (m : list (N * bytes * member)) : list bytes := map (fun n => snd (fst n)) m.

Record Good (ops : list cop) (c : cluster) : Prop := {
  g_ids : NoDup (ids (cc_map c));
  g_keys : NoDup (keys (cc_map c));
  g_next : forall id, In id (ids (cc_map c)) -> id < cc_next c;
  g_announced : forall key v, (exists id, In (id, key, v) (cc_map c)) <-> announced ops key v;
  g_list : cc_dirty c = false -> Permutation (cc_list c) (ids (cc_map c))
}.

Lemma find_key_some : forall key m n, find_key key m = Some n -> In n m /\ snd (fst n) = key.
Proof.
  intros key m n E. apply find_some in E. destruct E as (I & E). split; [exact I|]. now apply bytes_eqb_eq.
Qed.
Lemma find_key_none : forall key m, find_key key m = None -> forall id v, ~ In (id, key, v) m.
Proof.
  intros key m E id v I. apply (find_none _ _ E) in I. cbn in I. assert (bytes_eqb key key = true) by now apply bytes_eqb_eq. congruence.
Qed.
Lemma deref_in : forall m id v, NoDup (ids m) -> (deref m id = Some v <-> exists key, In (id, key, v) m).
Proof.
  intros m id v. unfold deref. induction m as [|[[i k] w] t IH]; intros N; [split; [discriminate|intros (k & [])]|].
  inversion N as [|? ? N1 N2]; subst. cbn [find fst]. destruct (N.eqb_spec i id) as [->|D].
  - cbn [option_map snd]. split.
    + intros E. injection E as <-. exists k. now left.
    + intros (k' & [E|I]); [injection E as _ ->; reflexivity|]. destruct N1. apply (in_map (fun n => fst (fst n))) in I. exact I.
  - rewrite (IH N2). split; intros (k' & I); exists k'; [now right|]. destruct I as [E|I]; [|exact I]. congruence.
Qed.
Lemma ids_update : forall key v m, ids (map (fun n : N * bytes * member => if bytes_eqb (snd (fst n)) key then (fst n, v) else n) m) = ids m.
Proof. intros key v m. unfold ids. rewrite map_map. apply map_ext. intros [[i k] w]. cbn. now destruct (bytes_eqb k key). Qed.
Lemma keys_update : forall key v m, keys (map (fun n : N * bytes * member => if bytes_eqb (snd (fst n)) key then (fst n, v) else n) m) = keys m.
Proof. intros key v m. unfold keys. rewrite map_map. apply map_ext. intros [[i k] w]. cbn. now destruct (bytes_eqb k key). Qed.
Lemma nodup_filter_map : forall (A B : Type) (f : A -> B) p l, NoDup (map f l) -> NoDup (map f (filter p l)).
Proof.
  intros A B f p l. induction l as [|x t IH]; intros N; [exact N|]. inversion N as [|? ? N1 N2]; subst. cbn. destruct (p x); [|now apply IH].
  cbn. constructor; [|now apply IH]. intros I. apply N1. apply in_map_iff in I. destruct I as (y & E & I). apply filter_In in I.
  apply in_map_iff. exists y. tauto.
Qed.

Section Pick.
Variable rank : N -> bytes -> member -> N.

Lemma deref_all : forall m l, NoDup (ids m) -> (forall id, In id l -> In id (ids m)) ->
  forallb (fun id => match deref m id with Some _ => true | None => false end) l = true.
Proof.
  intros m l N H. apply forallb_forall. intros id I. specialize (H id I). apply in_map_iff in H. destruct H as ([[i k] v] & E & I').
  cbn in E. subst i. assert (D : deref m id = Some v) by (apply deref_in; [exact N|now exists k]). now rewrite D.
Qed.

(** what a pick does *)
Lemma Pick_good : forall ops c arch sticky order, Good ops c ->
  (cc_map c = [] /\ Pick rank arch sticky order c = (NoMember, {| cc_map := cc_map c; cc_list := []; cc_dirty := false; cc_next := cc_next c |})) \/
  (exists id v l, Pick rank arch sticky order c = (Picked id v, {| cc_map := cc_map c; cc_list := id :: l; cc_dirty := false; cc_next := cc_next c |}) /\
    deref (cc_map c) id = Some v /\ Permutation (id :: l) (ids (cc_map c)) /\
    forall key id' w, In (id', key, w) (cc_map c) -> rank arch sticky v <= rank arch sticky w).
Proof.
  intros ops c arch sticky order G. unfold Pick.
  assert (P : Permutation (if cc_dirty c then ids (cc_map c) else cc_list c) (ids (cc_map c))).
  { destruct (cc_dirty c) eqn:D; [apply Permutation_refl|now apply (g_list _ _ G)]. }
  change (map (fun n : N * bytes * member => fst (fst n)) (cc_map c)) with (ids (cc_map c)).
  set (l := if cc_dirty c then ids (cc_map c) else cc_list c) in *. clearbody l. destruct l as [|x t].
  - left. apply Permutation_nil in P. split; [now destruct (cc_map c)|reflexivity].
  - right. rewrite deref_all; [|apply (g_ids _ _ G)|intros id I; exact (Permutation_in _ P I)]. cbv zeta. cbn [cc_map].
    destruct (std_sort_spec (score rank arch sticky (cc_map c)) order (x :: t)) as (S1 & S2).
    destruct (std_sort _ _ _) as [|id l]; [apply Permutation_sym, Permutation_nil in S1; discriminate|].
    assert (P' : Permutation (id :: l) (ids (cc_map c))) by (eapply Permutation_trans; [apply Permutation_sym, S1|exact P]).
    assert (I : In id (ids (cc_map c))) by (apply (Permutation_in _ P'); now left).
    apply in_map_iff in I. destruct I as ([[i k] v] & E & I). cbn in E. subst i.
    assert (D : deref (cc_map c) id = Some v) by (apply deref_in; [apply (g_ids _ _ G)|now exists k]). rewrite D.
    exists id, v, l. split; [reflexivity|]. split; [exact D|]. split; [exact P'|].
    intros key id' w J.
    assert (D' : deref (cc_map c) id' = Some w) by (apply deref_in; [apply (g_ids _ _ G)|now exists key]).
    assert (I' : In id' (id :: l)).
    { apply (Permutation_in _ (Permutation_sym P')). apply (in_map (fun n => fst (fst n))) in J. exact J. }
    destruct I' as [<-|I']; [rewrite D in D'; injection D' as ->; lia|].
    specialize (S2 id' I'). unfold score in S2. now rewrite D, D' in S2.
Qed.

Lemma announced_pick : forall ops arch sticky order key v, announced (ops ++ [CPick arch sticky order]) key v <-> announced ops key v.
Proof.
  intros. rewrite announced_snoc. split; [intros [E|(H & _)]; [discriminate|exact H]|]. intros H. right. split; [exact H|]. split; discriminate.
Qed.

Lemma good_step : forall ops c o, Good ops c -> Good (ops ++ [o]) (cstep rank c o).
Proof.
  intros ops c o G. destruct o as [key v|key|arch sticky order]; cbn [cstep].
  - unfold OnAvahiNewObject. destruct (find_key key (cc_map c)) as [n|] eqn:F.
    + apply find_key_some in F. destruct F as (F1 & F2). destruct n as [[i k] w0]. cbn in F2. subst k.
      constructor; cbn [cc_map cc_list cc_dirty cc_next].
      * rewrite ids_update. apply (g_ids _ _ G).
      * rewrite keys_update. apply (g_keys _ _ G).
      * rewrite ids_update. apply (g_next _ _ G).
      * intros k w. rewrite announced_snoc, <- (g_announced _ _ G). split.
        -- intros (id & I). apply in_map_iff in I. destruct I as ([[i' k'] w'] & E & I). cbn in E.
           destruct (bytes_eqb k' key) eqn:B; injection E as -> -> ->.
           ++ apply bytes_eqb_eq in B. subst k. now left.
           ++ right. split; [now exists id|]. split; [discriminate|]. intros w'' E. injection E as -> _.
              assert (bytes_eqb k k = true) by now apply bytes_eqb_eq. congruence.
        -- intros [E|((id & I) & _ & N)].
           ++ injection E as -> ->. exists i. apply in_map_iff. exists (i, k, w0). split; [|exact F1]. cbn.
              assert (B : bytes_eqb k k = true) by now apply bytes_eqb_eq. now rewrite B.
           ++ exists id. apply in_map_iff. exists (id, k, w). split; [|exact I]. cbn. destruct (bytes_eqb k key) eqn:B; [|reflexivity].
              apply bytes_eqb_eq in B. subst k. destruct (N v eq_refl).
      * discriminate.
    + constructor; cbn [cc_map cc_list cc_dirty cc_next].
      * unfold ids. rewrite map_app. cbn. apply NoDup_app_single; [apply (g_ids _ _ G)|]. intros I. apply (g_next _ _ G) in I. lia.
      * unfold keys. rewrite map_app. cbn. apply NoDup_app_single; [apply (g_keys _ _ G)|]. intros I. apply in_map_iff in I.
        destruct I as ([[i k] w] & E & I). cbn in E. subst k. exact (find_key_none _ _ F _ _ I).
      * intros id. unfold ids. rewrite map_app. intros I. apply in_app_or in I. destruct I as [I|[<-|[]]]; [apply (g_next _ _ G) in I; lia|cbn; lia].
      * intros k w. rewrite announced_snoc, <- (g_announced _ _ G). split.
        -- intros (id & I). apply in_app_or in I. destruct I as [I|[E|[]]]; [|injection E as _ -> ->; now left].
           right. split; [now exists id|]. split; [discriminate|]. intros w' E. injection E as -> _. exact (find_key_none _ _ F _ _ I).
        -- intros [E|((id & I) & _)]; [injection E as -> ->; exists (cc_next c); apply in_or_app; right; now left|].
           exists id. apply in_or_app. now left.
      * discriminate.
  - unfold OnAvahiRemoveObject. destruct (find_key key (cc_map c)) as [n|] eqn:F.
    + constructor; cbn [cc_map cc_list cc_dirty cc_next].
      * apply nodup_filter_map, (g_ids _ _ G).
      * apply nodup_filter_map, (g_keys _ _ G).
      * intros id I. apply (g_next _ _ G). apply in_map_iff in I. destruct I as (x & E & I). apply filter_In in I. apply in_map_iff. exists x. tauto.
      * intros k w. rewrite announced_snoc, <- (g_announced _ _ G). split.
        -- intros (id & I). apply filter_In in I. destruct I as (I & B). right. split; [now exists id|]. split; [|discriminate].
           intros E. injection E as ->. cbn in B. assert (X : bytes_eqb k k = true) by now apply bytes_eqb_eq. rewrite X in B. discriminate.
        -- intros [E|((id & I) & N & _)]; [discriminate|]. exists id. apply filter_In. split; [exact I|]. cbn.
           destruct (bytes_eqb k key) eqn:B; [|reflexivity]. apply bytes_eqb_eq in B. subst k. now destruct N.
      * discriminate.
    + constructor; try apply G. intros k w. rewrite announced_snoc, <- (g_announced _ _ G). split.
      * intros (id & I). right. split; [now exists id|]. split; [|discriminate]. intros E. injection E as ->. exact (find_key_none _ _ F _ _ I).
      * intros [E|(H & _)]; [discriminate|exact H].
  - destruct (Pick_good ops c arch sticky order G) as [(M & ->)|(id & v & l & -> & D & P & L)]; cbn [snd].
    + constructor; cbn [cc_map cc_list cc_dirty cc_next]; try apply G.
      * intros k w. rewrite announced_pick. apply (g_announced _ _ G).
      * intros _. rewrite M. constructor.
    + constructor; cbn [cc_map cc_list cc_dirty cc_next]; try apply G.
      * intros k w. rewrite announced_pick. apply (g_announced _ _ G).
      * intros _. exact P.
Qed.

Lemma good_run : forall ops, Good ops (crun rank ops).
Proof.
  intros ops. induction ops as [|o t IH] using rev_ind.
  - constructor; cbn; try constructor; try (intros id []).
    + intros (id & []).
    + intros (pre & post & E & _). destruct pre; discriminate.
  - unfold crun. rewrite fold_left_app. cbn [fold_left]. now apply good_step.
Qed.
End Pick.
