(** * C100: the confinement of a user's processes *)

From Coq Require Import NArith List Bool String Lia.
From Verif.Base Require Import Bytes.
From Verif.Model Require Import Auth Environ Cgroup.
From Verif.Spec Require Import CgroupSpec.
From Verif.Proofs Require Import CgroupFacts.
Import ListNotations.
Open Scope N_scope.

Local Arguments bs : simpl never.

(** The full statement: whenever the administrator has configured a resource
    group and lukko chooses the names of the sessions, each process has a group
    of its own. *)
Definition C100_full_statement : Prop := forall opts l i j x y o o' group group',
  i <> j -> process opts l i x o -> process opts l j y o' ->
  grouped opts x group -> chosen opts x None -> grouped opts y group' -> chosen opts y None ->
  (exists s, in_group group s o) /\ (exists s, in_group group' s o') /\ ~ together o o'.

(** It holds for the user's programs and for the helper which opens files, for
    any two of them between which fewer than 2^32 processes were started; no
    matter which connections and which users they belong to. *)
Theorem C100_sessions_partial : forall opts l i j x y o o' group group',
  (i < j)%nat -> N.of_nat (j - i) < 2 ^ 32 -> process opts l i x o -> process opts l j y o' -> own x -> own y ->
  grouped opts x group -> chosen opts x None -> grouped opts y group' -> chosen opts y None ->
  exists s s', in_group group s o /\ in_group group' s' o' /\ s <> s' /\ ~ together o o'.
Proof.
  intros opts l i j x y o o' group group' L D P Q Ox Oy G C G' C'.
  destruct (name _ _ _ _ _ _ P Ox G C) as [I Nx]. destruct (name _ _ _ _ _ _ Q Oy G' C') as [J _].
  destruct (firstn_split _ l i j x L (proj1 P)) as (m & E & M). rewrite E, numbered_app in J. cbn [numbered] in J. rewrite Nx in J.
  assert (B := numbered_le opts m). set (n := numbered opts (firstn i l)) in *. set (k := numbered opts m) in *. clearbody n k.
  assert (X : bs "session-" ++ decimal ((n + 1) mod 2 ^ 32) <> bs "session-" ++ decimal ((n + (1 + k) + 1) mod 2 ^ 32)).
  { intro H. apply session_inj in H. assert (K : 1 + k < 2 ^ 32) by lia. clear - H K.
    replace (n + (1 + k) + 1) with ((n + 1) + (1 + k)) in H by lia. set (a := n + 1) in *. clearbody a.
    rewrite <- (N.add_mod_idemp_l a) in H by discriminate. assert (A : a mod 2 ^ 32 < 2 ^ 32) by now apply N.mod_lt.
    set (r := a mod 2 ^ 32) in *. clearbody r. destruct (N.lt_ge_cases (r + (1 + k)) (2 ^ 32)) as [S|S].
    - rewrite N.mod_small in H by assumption. lia.
    - replace (r + (1 + k)) with ((r + (1 + k) - 2 ^ 32) + 1 * 2 ^ 32) in H by lia.
      rewrite N.mod_add in H by discriminate. rewrite N.mod_small in H by lia. lia. }
  eexists _, _. split; [exact I|]. split; [exact J|]. split; [exact X|].
  intros (g & s & [_ S1] & [_ S2]). destruct I as [_ I], J as [_ J]. congruence.
Qed.
Print Assumptions C100_sessions_partial.

(** Apart from the name of the session, the user's programs and the helper
    which opens files run exactly with the options of the translation server,
    or with the ids from the password database. *)
Theorem C100_options : forall opts l i x o, process opts l i x o -> own x ->
  match la_identity x with
  | AsOptions eo =>
      let w := opts eo in
      co_uid_gid o = co_uid_gid w /\ co_ns o = co_ns w /\ co_cgroup o = co_cgroup w /\ co_limits o = co_limits w /\
      co_forbid_multicast o = co_forbid_multicast w /\ co_forbid_bind o = co_forbid_bind w /\
      (co_cgroup w = None \/ co_cgroup_session w <> None -> co_cgroup_session o = co_cgroup_session w)
  | AsPasswd pw => co_uid_gid o = (Some (pw_uid pw), Some (pw_gid pw)) /\ co_cgroup o = None
  end.
Proof.
  intros opts l i x o P O. rewrite (processes_nth _ _ _ _ _ P). set (n := _ mod 2 ^ 32). clearbody n.
  assert (E : lstep opts n x = PrepareIdentity opts n (la_identity x)) by (unfold lstep; destruct O as [-> | ->]; reflexivity).
  rewrite E. destruct (la_identity x) as [eo|pw]; cbn [PrepareIdentity snd]; [|split; reflexivity]. cbv zeta. unfold PrepareOptions.
  destruct (co_cgroup (opts eo)) as [g|] eqn:G, (co_cgroup_session (opts eo)) as [s|] eqn:S; cbn; rewrite ?G, ?S;
    repeat split; try reflexivity. intros [H|H]; [discriminate|congruence].
Qed.
Print Assumptions C100_options.

(** A process of one user never gets the group of another user's. *)
Theorem C100_others : forall opts l i x o group, process opts l i x o -> (exists s, in_group group s o) -> grouped opts x group.
Proof.
  intros opts l i x o group P (s & G & _). rewrite (processes_nth _ _ _ _ _ P) in G. set (n := _ mod 2 ^ 32) in G. clearbody n.
  unfold lstep, PrepareNetworkHelper, PrepareIdentity, PrepareOptions in G.
  destruct (la_kind x), (la_identity x) as [eo|pw] eqn:I; cbn [snd co_cgroup no_options] in G; try discriminate; exists eo; split; try exact I;
    destruct (co_cgroup (opts eo)) eqn:E, (co_cgroup_session (opts eo)); cbn [snd with_session co_cgroup] in G; congruence.
Qed.
Print Assumptions C100_others.

(** The helpers which connect to a host or listen for the user have the user's
    ids, namespaces (but for three of them) and prohibitions, *)
Theorem C100_network_partial : forall opts l i x o eo, process opts l i x o -> ~ own x -> la_identity x = AsOptions eo ->
  co_uid_gid o = co_uid_gid (opts eo) /\ ns_other (co_ns o) = ns_other (co_ns (opts eo)) /\
  co_forbid_multicast o = co_forbid_multicast (opts eo) /\ co_forbid_bind o = co_forbid_bind (opts eo).
Proof.
  intros opts l i x o eo P O I. rewrite (processes_nth _ _ _ _ _ P). set (n := _ mod 2 ^ 32). clearbody n. unfold own in O.
  unfold lstep, PrepareNetworkHelper. rewrite I. destruct (la_kind x); try tauto; cbn; repeat split.
Qed.
Print Assumptions C100_network_partial.

(** ... but neither the user's group nor the user's limits. *)
Theorem C100_network_outside :
  forall opts l i x o, process opts l i x o -> ~ own x -> (forall group session, ~ in_group group session o) /\ co_limits o = 0.
Proof.
  intros opts l i x o P O. rewrite (processes_nth _ _ _ _ _ P). set (n := _ mod 2 ^ 32). clearbody n. unfold own in O.
  unfold lstep, PrepareNetworkHelper, in_group. destruct (la_kind x), (la_identity x); try tauto; cbn; (split; [|reflexivity]); intros g s [H _]; discriminate.
Qed.
Print Assumptions C100_network_outside.

(** ** Where the full statement fails *)

Definition user_options : child_options := {|
  co_uid_gid := (Some 1000, Some 1000); co_ns := {| ns_pid := true; ns_cgroup := true; ns_ipc := true; ns_other := 7 |};
  co_cgroup := Some (bs "user"); co_cgroup_session := None; co_limits := 5; co_forbid_multicast := true; co_forbid_bind := false |}.
Definition user_execute : execute_options := {|
  eo_execute := None; eo_uid := Some 1000; eo_gid := Some 1000; eo_home := None; eo_shell := None; eo_enable_network := true; eo_id := 0 |}.
Definition user_launch (k : kind) : launch := {| la_kind := k; la_identity := AsOptions user_execute |}.

Lemma numbered_repeat : forall n, numbered (fun _ => user_options) (repeat (user_launch Program) n) = N.of_nat n.
Proof. induction n as [|n IH]; [reflexivity|]. cbn [repeat numbered]. rewrite IH. cbn [numbers user_launch la_kind la_identity user_options co_cgroup co_cgroup_session]. lia. Qed.

Lemma nth_repeat_some : forall (A : Type) (x : A) n i, (i < n)%nat -> nth_error (repeat x n) i = Some x.
Proof. induction n as [|n IH]; intros [|i] L; try lia; [reflexivity|]. cbn. apply IH. lia. Qed.

Lemma firstn_repeat : forall (A : Type) (x : A) n i, (i <= n)%nat -> firstn i (repeat x n) = repeat x i.
Proof. induction n as [|n IH]; intros [|i] L; try lia; try reflexivity. cbn. rewrite IH by lia. reflexivity. Qed.

(** After 2^32 programs, the numbers start again, even if the first program is
    still running: the two programs are in the same group. *)
Theorem C100_refuted : ~ C100_full_statement.
Proof.
  intro H. set (opts := fun _ : execute_options => user_options). set (x := user_launch Program).
  assert (Big : exists n : nat, N.of_nat n = 2 ^ 32) by (exists (N.to_nat (2 ^ 32)); apply N2Nat.id). destruct Big as [n B].
  assert (Pos : (0 < n)%nat) by (destruct n; [discriminate B|lia]).
  set (l := repeat x (S n)).
  assert (E0 : nth_error l 0 = Some x) by (apply nth_repeat_some; lia).
  assert (E1 : nth_error l n = Some x) by (apply nth_repeat_some; lia).
  destruct (process_exists opts l 0 x E0) as [o P]. destruct (process_exists opts l n x E1) as [o' Q].
  assert (G : grouped opts x (bs "user")) by (exists user_execute; split; reflexivity).
  assert (C : chosen opts x None) by (exists user_execute; split; reflexivity).
  assert (O : own x) by (left; reflexivity).
  destruct (H opts l 0%nat n x x o o' (bs "user") (bs "user")) as (_ & _ & T); try assumption; [lia|]. apply T.
  destruct (name _ _ _ _ _ _ P O G C) as [I _]. destruct (name _ _ _ _ _ _ Q O G C) as [J _].
  unfold l in I, J. rewrite firstn_repeat in I by lia. rewrite firstn_repeat in J by lia. unfold opts, x in I, J. rewrite numbered_repeat in I, J.
  rewrite B in J. exists (bs "user"), (bs "session-" ++ decimal 1). split; [exact I|exact J].
Qed.
Print Assumptions C100_refuted.

(** A name chosen by the administrator may be one which lukko chooses for
    another program. *)
Theorem C100_chosen_refuted : exists opts x y, own x /\ own y /\
  grouped opts x (bs "user") /\ chosen opts x None /\ grouped opts y (bs "user") /\ chosen opts y (Some (bs "session-1")) /\
  exists o o', process opts [x; y] 0 x o /\ process opts [x; y] 1 y o' /\ together o o'.
Proof.
  set (other := {| eo_execute := None; eo_uid := None; eo_gid := None; eo_home := None; eo_shell := None; eo_enable_network := true; eo_id := 1 |}).
  exists (fun eo => if eo_id eo =? 0 then user_options else with_session (bs "session-1") user_options), (user_launch Program),
    {| la_kind := Program; la_identity := AsOptions other |}.
  split; [left; reflexivity|]. split; [left; reflexivity|]. split; [exists user_execute; split; reflexivity|]. split; [exists user_execute; split; reflexivity|].
  split; [exists other; split; reflexivity|]. split; [exists other; split; reflexivity|].
  eexists _, _. split; [split; reflexivity|]. split; [split; reflexivity|]. exists (bs "user"), (bs "session-1"). split; split; reflexivity.
Qed.
Print Assumptions C100_chosen_refuted.

(** ** Examples *)

(** A shell, the helper for its files, a connection and a second shell: three
    sessions, and the helper for connections in none *)
Example C100_demo :
  let opts := fun _ : execute_options => user_options in
  let l := map user_launch [Program; FileHelper; ConnectHelper; Program] in
  map co_cgroup_session (processes opts l) = [Some (bs "session-1"); Some (bs "session-2"); None; Some (bs "session-3")] /\
  map co_cgroup (processes opts l) = [Some (bs "user"); Some (bs "user"); None; Some (bs "user")] /\
  own (user_launch Program) /\ grouped opts (user_launch Program) (bs "user") /\ chosen opts (user_launch Program) None.
Proof.
  split; [reflexivity|]. split; [reflexivity|]. split; [left; reflexivity|]. split; exists user_execute; split; reflexivity.
Qed.

(** A user of the password database *)
Example C100_demo_passwd :
  let pw := {| pw_uid := 5; pw_gid := 6; pw_dir := []; pw_shell := [] |} in
  map co_uid_gid (processes (fun _ => user_options) [{| la_kind := Program; la_identity := AsPasswd pw |}]) = [(Some 5, Some 6)].
Proof. reflexivity. Qed.
