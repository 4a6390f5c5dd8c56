(** C50: the choice of the host key. *)

From Coq Require Import NArith List Bool Lia String.
From Verif.Base Require Import Bytes.
From Verif.Spec Require Import NamesSpec.
From Verif.Model Require Import StringList KeyList.
From Verif.Proofs Require Import NamesFacts KeyListFacts.
Import ListNotations.
Open Scope N_scope.

(** A key supports the algorithms whose names are in its list. *)
Definition supports (k : secret_key) (a : bytes) : Prop :=
  exists names, name_list (sk_algorithms k) names /\ In a names.

(** The lists of all key classes consist of non-empty names. *)
Definition proper (k : secret_key) : Prop := forall a, supports k a -> a <> [].

(** The choice: the first algorithm of the peer's list for which there is a
    key, and the first key which supports it. *)
Definition chosen (keys : list secret_key) (wanted : list bytes) (k : secret_key) (a : bytes) : Prop :=
  (exists before after, wanted = before ++ a :: after /\
     forall b, In b before -> forall k', In k' keys -> ~ supports k' b) /\
  (exists earlier later, keys = earlier ++ k :: later /\ forall k', In k' earlier -> ~ supports k' a) /\
  supports k a.

Lemma supports_iff : forall k a, supports k a <-> In a (names_of k).
Proof.
  intros k a; unfold supports, names_of; split.
  - intros (names & H & Hin). rewrite (name_list_unique _ _ H) in Hin. exact Hin.
  - intros H; exists (split 44 (sk_algorithms k)); split; [apply name_list_split|exact H].
Qed.

Lemma proper_ok : forall keys, Forall proper keys -> Forall key_ok keys.
Proof.
  intros keys H; eapply Forall_impl; [|exact H]. intros k Hk; unfold key_ok.
  rewrite Forall_forall; intros n Hn; apply (Hk n), supports_iff, Hn.
Qed.

Theorem C50_choice : forall keys peer wanted,
  Forall proper keys -> name_list peer wanted ->
  match Choose (load keys) peer with
  | Some (k, a) => chosen keys wanted k a
  | None => forall a k, In a wanted -> In k keys -> ~ supports k a
  end.
Proof.
  intros keys peer wanted Hp Hn. destruct (load_ok keys (proper_ok _ Hp)) as (names & K1 & K2 & K3).
  unfold Choose. rewrite <- (name_list_unique _ _ Hn). clear Hn.
  assert (Hnone : forall a, find_algorithm a (kl_map (load keys)) = None -> forall k, In k keys -> ~ supports k a).
  { intros a Hf k Hk Hs. rewrite K3 in Hf. unfold first_with in Hf. apply (find_none _ _ Hf) in Hk.
    apply supports_iff in Hs. destruct (in_dec bytes_eq_dec a (names_of k)); [discriminate|contradiction]. }
  assert (Hempty : forall k, In k keys -> ~ supports k []).
  { intros k Hk Hs. rewrite Forall_forall in Hp. exact (Hp k Hk [] Hs eq_refl). }
  assert (H : forall w, match choose_from (load keys) w with
     | Some (k, a) => chosen keys w k a
     | None => forall a k, In a w -> In k keys -> ~ supports k a end).
  { induction w as [|a w IH]; cbn [choose_from]; [intros a k []|].
    assert (Hskip : (forall k, In k keys -> ~ supports k a) -> match choose_from (load keys) w with
       | Some (k, b) => chosen keys (a :: w) k b
       | None => forall b k, In b (a :: w) -> In k keys -> ~ supports k b end).
    { intros Ha. destruct (choose_from (load keys) w) as [[k b]|].
      - destruct IH as ((before & after & E & Hb) & Hrest). split; [|exact Hrest].
        exists (a :: before), after; split; [rewrite E; reflexivity|].
        intros c [<-|Hc]; [exact Ha|apply Hb; exact Hc].
      - intros b k [<-|Hb] Hk; [apply Ha; exact Hk|apply IH; assumption]. }
    destruct a as [|x a]; [apply Hskip; exact Hempty|].
    destruct (find_algorithm (x :: a) (kl_map (load keys))) as [k|] eqn:Ef; [|apply Hskip; apply Hnone; exact Ef].
    split; [exists [], w; split; [reflexivity|intros b []]|].
    rewrite K3 in Ef. unfold first_with in Ef. destruct (find_first _ _ _ _ Ef) as (earlier & later & E & Hk & He).
    cbn beta in Hk, He. split.
    - exists earlier, later; split; [exact E|]. intros k' Hk' Hs. apply supports_iff in Hs. specialize (He k' Hk').
      destruct (in_dec bytes_eq_dec (x :: a) (names_of k')); [discriminate|contradiction].
    - apply supports_iff. destruct (in_dec bytes_eq_dec (x :: a) (names_of k)); [assumption|discriminate]. }
  apply H.
Qed.

(** The advertised list has each supported algorithm exactly once, and no
    other. *)
Theorem C50_advertised : forall keys, Forall proper keys -> keys <> [] ->
  exists names, name_list (kl_algorithms (load keys)) names /\ NoDup names /\
    forall a, In a names <-> exists k, In k keys /\ supports k a.
Proof.
  intros keys Hp Hne. destruct (load_ok keys (proper_ok _ Hp)) as (names & (K1 & K2 & K3 & _) & K4 & _).
  assert (Hiff : forall a, In a names <-> exists k, In k keys /\ supports k a).
  { intros a; rewrite K4. split; intros (k & X & Y); exists k; split; auto; apply supports_iff; exact Y. }
  exists names; split; [|split; [exact K2|exact Hiff]].
  split; [|split; [|symmetry; exact K1]].
  - destruct keys as [|k keys]; [congruence|]. destruct (names_of k) as [|a l] eqn:En.
    { exfalso; apply (split_not_nil 44 (sk_algorithms k)); exact En. }
    assert (Hin : In a names) by (apply K4; exists k; split; [left; reflexivity|rewrite En; left; reflexivity]).
    intros E; rewrite E in Hin; destruct Hin.
  - eapply Forall_impl; [|exact K3]. cbn; tauto.
Qed.

(** The advertised and the chosen algorithms fit together: whatever the peer
    picks from the advertised list is available. *)
Theorem C50_available : forall keys names a, Forall proper keys ->
  name_list (kl_algorithms (load keys)) names -> keys <> [] -> In a names ->
  exists k, Choose (load keys) a = Some (k, a) /\ In k keys /\ supports k a.
Proof.
  intros keys names a Hp Hn Hne Hin.
  destruct (C50_advertised keys Hp Hne) as (names' & Hn' & _ & Hiff).
  assert (names = names') by (rewrite (name_list_unique _ _ Hn), (name_list_unique _ _ Hn'); reflexivity). subst names'.
  destruct (proj1 (Hiff a) Hin) as (k & Hk & Hs).
  assert (Hw : name_list a [a]).
  { split; [discriminate|]. split; [|reflexivity]. constructor; [|constructor].
    destruct Hn as (_ & Hc & _). rewrite Forall_forall in Hc; apply Hc; exact Hin. }
  pose proof (C50_choice keys a [a] Hp Hw) as H. destruct (Choose (load keys) a) as [[k' b]|].
  - destruct H as ((before & after & E & _) & (earlier & later & Ek & _) & Hs').
    assert (b = a).
    { destruct before as [|y before]; cbn [app] in E; [congruence|]. destruct before; discriminate. }
    subst b. exists k'; split; [reflexivity|]. split; [rewrite Ek; apply in_or_app; right; left; reflexivity|exact Hs'].
  - exfalso; apply (H a k); [left; reflexivity|exact Hk|exact Hs].
Qed.

(** ** A concrete case: an RSA key, a second one and an Ed25519 key. *)
Definition C50_keys : list secret_key :=
  [ {| sk_id := 1; sk_algorithms := bs "rsa-sha2-256,rsa-sha2-512,ssh-rsa" |}
  ; {| sk_id := 2; sk_algorithms := bs "rsa-sha2-256,rsa-sha2-512,ssh-rsa" |}
  ; {| sk_id := 3; sk_algorithms := bs "ssh-ed25519" |} ].

Example C50_demo :
  Forall proper C50_keys /\
  kl_algorithms (load C50_keys) = bs "rsa-sha2-256,rsa-sha2-512,ssh-rsa,ssh-ed25519" /\
  option_map (fun r => (sk_id (fst r), snd r))
    (Choose (load C50_keys) (bs "ecdsa-sha2-nistp256,,ssh-ed25519,rsa-sha2-512")) = Some (3, bs "ssh-ed25519") /\
  option_map (fun r => (sk_id (fst r), snd r)) (Choose (load C50_keys) (bs "rsa-sha2-512")) = Some (1, bs "rsa-sha2-512") /\
  Choose (load C50_keys) (bs "ssh-dss") = None.
Proof.
  split; [|vm_compute; repeat split].
  assert (H : forall k, existsb (fun n => match n with [] => true | _ => false end) (names_of k) = false -> proper k).
  { intros k H a Ha. apply supports_iff in Ha. intros ->.
    assert (X : existsb (fun n => match n with [] => true | _ => false end) (names_of k) = true)
      by (apply existsb_exists; exists []; auto). congruence. }
  unfold C50_keys; repeat constructor; apply H; vm_compute; reflexivity.
Qed.

Print Assumptions C50_choice.
Print Assumptions C50_advertised.
Print Assumptions C50_available.
