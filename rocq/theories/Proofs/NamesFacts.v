(** Lemmas about name-lists and negotiation. *)

From Coq Require Import NArith List Bool Lia String.
From Verif.Base Require Import Bytes.
From Verif.Spec Require Import NamesSpec.
From Verif.Model Require Import StringList Negotiate.
Import ListNotations.
Open Scope N_scope.

Lemma split_not_nil : forall sep s, split sep s <> [].
Proof.
  intros sep s. induction s as [|b r IH]; cbn [split]; [discriminate|].
  destruct (b =? sep); [discriminate|]. destruct (split sep r); discriminate.
Qed.

Lemma split_no_comma : forall s, Forall (fun n => ~ In COMMA n) (split COMMA s).
Proof.
  induction s as [|b r IH]; cbn [split].
  - repeat constructor. intros [].
  - destruct (b =? COMMA) eqn:E.
    + constructor; [intros []|exact IH].
    + destruct (split COMMA r) as [|p l] eqn:Es; [now apply split_not_nil in Es|].
      inversion IH; subst. constructor; [|assumption].
      intros [Hb|Hin]; [|contradiction].
      rewrite Hb, N.eqb_refl in E. discriminate.
Qed.

Lemma join_cons : forall n l, l <> [] -> join (n :: l) = n ++ [COMMA] ++ join l.
Proof. intros n [|m l] H; [contradiction|reflexivity]. Qed.

Lemma join_split : forall s, join (split COMMA s) = s.
Proof.
  induction s as [|b r IH]; cbn [split]; [reflexivity|].
  destruct (b =? COMMA) eqn:E.
  - apply N.eqb_eq in E. subst. rewrite join_cons by apply split_not_nil. cbn [app]. now rewrite IH.
  - destruct (split COMMA r) as [|p l] eqn:Es; [now apply split_not_nil in Es|].
    destruct l as [|q l]; [cbn in *; now rewrite IH|].
    rewrite join_cons by discriminate. rewrite join_cons in IH by discriminate.
    rewrite <- app_comm_cons. now rewrite IH.
Qed.

Lemma name_list_split : forall s, name_list s (split 44 s).
Proof.
  intro s. split; [apply split_not_nil|]. split; [apply split_no_comma|apply join_split].
Qed.

Lemma split_app_comma : forall n r, ~ In COMMA n -> split COMMA (n ++ [COMMA] ++ r) = n :: split COMMA r.
Proof.
  induction n as [|b n IH]; intros r H.
  - cbn [app split]. now rewrite N.eqb_refl.
  - cbn [app split]. destruct (b =? COMMA) eqn:E.
    + apply N.eqb_eq in E. subst. destruct H. now left.
    + cbn [app] in IH. rewrite IH; [reflexivity|]. intro Hin. apply H. now right.
Qed.

Lemma split_single : forall n, ~ In COMMA n -> split COMMA n = [n].
Proof.
  induction n as [|b n IH]; intros H; [reflexivity|].
  cbn [split]. destruct (b =? COMMA) eqn:E.
  - apply N.eqb_eq in E. subst. destruct H. now left.
  - rewrite IH; [reflexivity|]. intro Hin. apply H. now right.
Qed.

(** a name-list has exactly one reading *)
Lemma name_list_unique : forall s names, name_list s names -> names = split 44 s.
Proof.
  intros s names (Hn & Hc & <-). induction names as [|n l IH]; [contradiction|].
  inversion Hc; subst. destruct l as [|m l].
  - cbn [join]. symmetry. now apply split_single.
  - rewrite join_cons by discriminate. change 44 with COMMA. rewrite split_app_comma by assumption.
    f_equal. apply IH; [discriminate|assumption].
Qed.

Lemma contains_iff : forall s names n, name_list s names ->
  StringListContains s n = true <-> In n names.
Proof.
  intros s names n H. rewrite (name_list_unique _ _ H). unfold StringListContains.
  rewrite existsb_exists. split.
  - intros (x & Hin & Hx). apply bytes_eqb_eq in Hx. now subst.
  - intro Hin. exists n. split; [assumption|apply bytes_eqb_refl].
Qed.

Lemma find_first : forall A (f : A -> bool) l r, find f l = Some r ->
  exists a b, l = a ++ r :: b /\ f r = true /\ forall x, In x a -> f x = false.
Proof.
  intros A f l r. induction l as [|x l IH]; cbn [find]; [discriminate|].
  destruct (f x) eqn:E.
  - intro H. injection H as <-. exists [], l. repeat split; [assumption|intros y []].
  - intro H. destruct (IH H) as (a & b & -> & Hr & Ha). exists (x :: a), b.
    repeat split; [assumption|]. intros y [<-|Hy]; [assumption|auto].
Qed.

Lemma FindCommon_spec : forall c s cn sn, name_list c cn -> name_list s sn ->
  (exists r, first_common cn sn r /\ FindCommonAlgorithm c s = r) \/
  (none_common cn sn /\ FindCommonAlgorithm c s = []).
Proof.
  intros c s cn sn Hc Hs. unfold FindCommonAlgorithm. rewrite <- (name_list_unique _ _ Hc).
  destruct (find (StringListContains s) cn) as [r|] eqn:E.
  - left. exists r. split; [|reflexivity]. apply find_first in E as (a & b & -> & Hr & Ha).
    exists a, b. split; [reflexivity|]. split; [now apply (contains_iff _ _ _ Hs)|].
    intros n Hn Hin. apply (contains_iff _ _ _ Hs) in Hin. rewrite (Ha n Hn) in Hin. discriminate.
  - right. split; [|reflexivity]. intros n Hn Hin. apply (contains_iff _ _ _ Hs) in Hin.
    rewrite (find_none _ _ E n Hn) in Hin. discriminate.
Qed.

Lemma FindCommon_nonempty : forall c s r, FindCommonAlgorithm c s = r -> r <> [] ->
  first_common (split 44 c) (split 44 s) r.
Proof.
  intros c s r H Hr.
  destruct (FindCommon_spec c s _ _ (name_list_split c) (name_list_split s)) as [(r' & Hf & E)|(_ & E)];
    congruence.
Qed.
