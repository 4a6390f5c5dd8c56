(** Facts about the confinement of processes. *)

From Coq Require Import NArith List Bool String Ascii Lia Decimal DecimalN DecimalString DecimalFacts.
From Verif.Base Require Import Bytes.
From Verif.Model Require Import Auth Environ Cgroup.
From Verif.Spec Require Import CgroupSpec.
Import ListNotations.
Open Scope N_scope.

Lemma bs_inj : forall a b, bs a = bs b -> a = b.
Proof.
  unfold bs. induction a as [|c a IH]; intros [|d b] H; cbn [list_ascii_of_string map] in H; try discriminate; [reflexivity|].
  injection H as C H. f_equal; [|now apply IH].
  rewrite <- (ascii_N_embedding c), <- (ascii_N_embedding d). now rewrite C.
Qed.

Lemma to_uint_nonnil : forall n, N.to_uint n <> Nil.
Proof. intros n H. apply (unorm_nonnil (N.to_uint n)). rewrite <- DecimalN.Unsigned.to_of, DecimalN.Unsigned.of_to. exact H. Qed.

Lemma decimal_inj : forall n m, decimal n = decimal m -> n = m.
Proof.
  intros n m H. apply bs_inj in H. apply DecimalN.Unsigned.to_uint_inj.
  assert (A := NilZero.usu _ (to_uint_nonnil n)). rewrite H, (NilZero.usu _ (to_uint_nonnil m)) in A. congruence.
Qed.

Lemma session_inj : forall n m, bs "session-" ++ decimal n = bs "session-" ++ decimal m -> n = m.
Proof. intros n m H. now apply decimal_inj, (app_inv_head (bs "session-")). Qed.

(** does this process get a number? *)
Definition numbers (opts : options_of) (x : launch) : bool :=
  match la_kind x, la_identity x with
  | (Program | FileHelper), AsOptions eo =>
      match co_cgroup (opts eo), co_cgroup_session (opts eo) with Some _, None => true | _, _ => false end
  | _, _ => false
  end.

(** how many processes have got one *)
Fixpoint numbered (opts : options_of) (l : list launch) : N :=
  match l with
  | [] => 0
  | x :: r => (if numbers opts x then 1 else 0) + numbered opts r
  end.

Lemma numbered_app : forall opts l r, numbered opts (l ++ r) = numbered opts l + numbered opts r.
Proof. induction l as [|x l IH]; intros r; [reflexivity|]. change ((x :: l) ++ r) with (x :: l ++ r). cbn [numbered]. rewrite IH. lia. Qed.

Lemma numbered_le : forall opts l, numbered opts l <= N.of_nat (List.length l).
Proof. induction l as [|x l IH]; cbn [numbered List.length]; [lia|]. destruct (numbers opts x); lia. Qed.

Lemma lstep_counter : forall opts n x, fst (lstep opts n x) = if numbers opts x then increment n else n.
Proof.
  intros opts n x. unfold lstep, numbers, PrepareIdentity, PrepareOptions.
  destruct (la_kind x), (la_identity x) as [eo|pw]; try reflexivity; destruct (co_cgroup (opts eo)), (co_cgroup_session (opts eo)); reflexivity.
Qed.

Lemma increment_mod : forall n k, (increment n + k) mod 2 ^ 32 = (n + (1 + k)) mod 2 ^ 32.
Proof. intros n k. unfold increment. rewrite N.add_mod_idemp_l by discriminate. f_equal. lia. Qed.

(** The counter before a process *)
Lemma lrun_nth : forall opts l n i x, n < 2 ^ 32 -> nth_error l i = Some x ->
  nth_error (lrun opts n l) i = Some (snd (lstep opts ((n + numbered opts (firstn i l)) mod 2 ^ 32) x)).
Proof.
  induction l as [|y l IH]; intros n i x N E; [destruct i; discriminate|]. cbn [lrun].
  destruct (lstep opts n y) as [n' o] eqn:L. assert (C := lstep_counter opts n y). rewrite L in C. cbn [fst] in C.
  destruct i as [|i]; cbn [nth_error firstn numbered] in *.
  - injection E as <-. rewrite N.add_0_r, N.mod_small by assumption. now rewrite L.
  - assert (N' : n' < 2 ^ 32).
    { subst n'. destruct (numbers opts y); [|assumption]. unfold increment. now apply N.mod_lt. }
    rewrite (IH _ _ _ N' E). f_equal. f_equal. f_equal. subst n'. destruct (numbers opts y); [apply increment_mod|f_equal; lia].
Qed.

Lemma processes_nth : forall opts l i x o, process opts l i x o ->
  o = snd (lstep opts (numbered opts (firstn i l) mod 2 ^ 32) x).
Proof.
  intros opts l i x o [E P]. unfold processes in P. rewrite (lrun_nth opts l 0 i x) in P by (try reflexivity; assumption).
  rewrite N.add_0_l in P. now injection P as <-.
Qed.

Lemma process_exists : forall opts l i x, nth_error l i = Some x -> exists o, process opts l i x o.
Proof. intros opts l i x E. eexists. split; [exact E|]. unfold processes. apply lrun_nth; [reflexivity|exact E]. Qed.

(** The name of a session *)
Lemma name : forall opts l i x o group, process opts l i x o -> own x -> grouped opts x group -> chosen opts x None ->
  in_group group (bs "session-" ++ decimal ((numbered opts (firstn i l) + 1) mod 2 ^ 32)) o /\ numbers opts x = true.
Proof.
  intros opts l i x o group P O (eo & I & G) (eo' & I' & C). assert (eo' = eo) by congruence. subst eo'.
  rewrite (processes_nth _ _ _ _ _ P). set (n := numbered opts (firstn i l)). clearbody n.
  assert (E : lstep opts (n mod 2 ^ 32) x = PrepareOptions (n mod 2 ^ 32) (opts eo)).
  { unfold lstep, PrepareIdentity. rewrite I. destruct O as [-> | ->]; reflexivity. }
  rewrite E. unfold PrepareOptions, in_group. rewrite G, C. cbn [snd with_session co_cgroup co_cgroup_session]. rewrite G.
  unfold increment. rewrite N.add_mod_idemp_l by discriminate. split; [now split|].
  unfold numbers. rewrite I, G, C. destruct O as [-> | ->]; reflexivity.
Qed.

Lemma firstn_split : forall (A : Type) (l : list A) i j x, (i < j)%nat -> nth_error l i = Some x ->
  exists m, firstn j l = firstn i l ++ x :: m /\ (List.length m <= j - i - 1)%nat.
Proof.
  induction l as [|y l IH]; intros i j x L E; [destruct i; discriminate|]. destruct j as [|j]; [lia|].
  destruct i as [|i]; cbn [nth_error firstn] in *.
  - injection E as <-. exists (firstn j l). split; [reflexivity|]. rewrite firstn_length. lia.
  - destruct (IH i j x) as (m & -> & M); [lia|assumption|]. exists m. split; [reflexivity|]. lia.
Qed.
