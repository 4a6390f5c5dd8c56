(** * C75: logins are sent to the right member of a cluster *)

From Coq Require Import NArith List Bool Lia Permutation String.
From Verif.Base Require Import Bytes.
From Verif.Spec Require Import ClusterSpec.
From Verif.Model Require Import Wire Cluster KeyList KeyOptions Auth.
From Verif.Proofs Require Import ClusterFacts AuthFacts.
Import ListNotations.
Open Scope N_scope.

(** Whatever has been announced, removed and picked before: the result of a
    pick is a first choice among the members which are announced now; there is
    none only if nothing is announced; no removed member is touched. *)
Theorem C75_first_choice : forall rank ops arch sticky order,
  match fst (Pick rank arch sticky order (crun rank ops)) with
  | NoMember => forall key v, ~ announced ops key v
  | Picked _ v => first_choice (rank arch sticky) ops v
  | BadIterator => False
  end.
Proof.
  intros rank ops arch sticky order. pose proof (good_run rank ops) as G.
  destruct (Pick_good rank ops _ arch sticky order G) as [(M & ->)|(id & v & l & -> & D & P & L)]; cbn [fst].
  - intros key v A. apply (g_announced _ _ G) in A. destruct A as (id & I). rewrite M in I. exact I.
  - split.
    + apply (deref_in _ _ _ (g_ids _ _ G)) in D. destruct D as (key & I). exists key. apply (g_announced _ _ G). now exists id.
    + intros key w A. apply (g_announced _ _ G) in A. destruct A as (id' & I). exact (L key id' w I).
Qed.
Print Assumptions C75_first_choice.

Lemma picks_first : forall rank arch sticky order ops,
  match picks rank arch sticky order ops with
  | Some v => first_choice (rank arch sticky) ops v
  | None => forall key v, ~ announced ops key v
  end.
Proof.
  intros rank arch sticky order ops. unfold picks. pose proof (C75_first_choice rank ops arch sticky order) as H.
  destruct (fst _); [exact H|exact H|destruct H].
Qed.

(** So the choice depends on the members only and not on the order in which
    they were found, on earlier logins or on the sorting algorithm (unless two
    members are equally good).  Two servers with the same members choose the same. *)
Theorem C75_sticky : forall rank arch sticky order1 order2 ops1 ops2,
  same_members ops1 ops2 -> no_ties (rank arch sticky) ops1 ->
  picks rank arch sticky order1 ops1 = picks rank arch sticky order2 ops2.
Proof.
  intros rank arch sticky order1 order2 ops1 ops2 S N.
  pose proof (picks_first rank arch sticky order1 ops1) as A. pose proof (picks_first rank arch sticky order2 ops2) as B.
  destruct (picks _ _ _ order1 _) as [v|]; destruct (picks _ _ _ order2 _) as [w|]; [| | |reflexivity].
  - destruct A as ((k & A1) & A2). destruct B as ((k' & B1) & B2). f_equal. apply (N k v k' w A1); [now apply S|].
    specialize (A2 k' w (proj2 (S _ _) B1)). specialize (B2 k v (proj1 (S _ _) A1)). lia.
  - destruct A as ((k & A1) & _). destruct (B k v). now apply S.
  - destruct B as ((k & B1) & _). destruct (A k w). now apply S.
Qed.
Print Assumptions C75_sticky.

(** When a member which was not chosen goes away, nothing changes; when a new
    member appears, logins stay where they were or go to the new one. *)
Theorem C75_remove : forall rank arch sticky order1 order2 ops key v,
  no_ties (rank arch sticky) ops ->
  picks rank arch sticky order1 ops = Some v -> ~ announced ops key v ->
  picks rank arch sticky order2 (ops ++ [CRemove key]) = Some v.
Proof.
  intros rank arch sticky order1 order2 ops key v N P NK.
  pose proof (picks_first rank arch sticky order1 ops) as A. rewrite P in A. destruct A as ((k & A1) & A2).
  assert (A1' : announced (ops ++ [CRemove key]) k v).
  { apply announced_snoc. right. split; [exact A1|]. split; [|discriminate]. intros E. injection E as ->. exact (NK A1). }
  pose proof (picks_first rank arch sticky order2 (ops ++ [CRemove key])) as B. destruct (picks _ _ _ order2 _) as [w|]; [|destruct (B k v A1')].
  destruct B as ((k' & B1) & B2). apply announced_snoc in B1. destruct B1 as [B1|(B1 & _)]; [discriminate|].
  f_equal. symmetry. apply (N k v k' w A1 B1). specialize (A2 k' w B1). specialize (B2 k v A1'). lia.
Qed.
Print Assumptions C75_remove.

Theorem C75_add : forall rank arch sticky order1 order2 ops key v w,
  no_ties (rank arch sticky) ops -> (forall u, ~ announced ops key u) ->
  picks rank arch sticky order1 ops = Some v ->
  picks rank arch sticky order2 (ops ++ [CNew key w]) = Some v \/ picks rank arch sticky order2 (ops ++ [CNew key w]) = Some w.
Proof.
  intros rank arch sticky order1 order2 ops key v w N NK P.
  pose proof (picks_first rank arch sticky order1 ops) as A. rewrite P in A. destruct A as ((k & A1) & A2).
  assert (A1' : announced (ops ++ [CNew key w]) k v).
  { apply announced_snoc. right. split; [exact A1|]. split; [discriminate|]. intros u E. injection E as -> _. exact (NK _ A1). }
  pose proof (picks_first rank arch sticky order2 (ops ++ [CNew key w])) as B. destruct (picks _ _ _ order2 _) as [u|]; [|destruct (B k v A1')].
  destruct B as ((k' & B1) & B2). apply announced_snoc in B1. destruct B1 as [B1|(B1 & _)]; [injection B1 as _ ->; now right|].
  left. f_equal. symmetry. apply (N k v k' u A1 B1). specialize (A2 k' u B1). specialize (B2 k v A1'). lia.
Qed.
Print Assumptions C75_add.

(** Where a login is handled *)
Theorem C75_target : forall rank skip arch sticky order ops,
  GetProxyTo rank skip arch sticky order ToNobody = Here /\
  (forall address, GetProxyTo rank skip arch sticky order (ToHost address) = To (RHost address)) /\
  match GetProxyTo rank skip arch sticky order (ToCluster (crun rank ops)) with
  | Undefined => False
  | EmptyCluster => forall key v, ~ announced ops key v
  | Here => skip = true /\ exists v, first_choice (rank arch sticky) ops v /\ mb_our_own v = true
  | To r => exists v, first_choice (rank arch sticky) ops v /\ (skip = true -> mb_our_own v = false) /\
      read_address r (crun rank ops) = Some (mb_address v)
  end.
Proof.
  intros rank skip arch sticky order ops. split; [reflexivity|]. split; [reflexivity|].
  pose proof (C75_first_choice rank ops arch sticky order) as F. pose proof (good_run rank ops) as G.
  unfold GetProxyTo. destruct (Pick_good rank ops _ arch sticky order G) as [(M & E)|(id & v & l & E & D & P & L)]; rewrite E in *; cbn [fst] in *; [exact F|].
  destruct skip; cbn [andb]; [destruct (mb_our_own v) eqn:O|].
  - split; [reflexivity|]. exists v. now split.
  - exists v. split; [exact F|]. split; [auto|]. cbn [read_address]. now rewrite D.
  - exists v. split; [exact F|]. split; [discriminate|]. cbn [read_address]. now rewrite D.
Qed.
Print Assumptions C75_target.

(** The choice is made with the site of the login record, or with the user name
    if there is none, and with the architecture of the login record. *)
Theorem C75_login : forall cfg w session_id payload a b p,
  OnUserAuthRequest cfg w session_id payload a = (b, Accepted p) ->
  if cf_translation_server cfg
  then exists r, ac_translation b = Some (ac_username b, r) /\
    p = cf_proxy_to cfg (tr_arch r) (match tr_site r with Some site => site | None => ac_username b end)
  else p = cf_proxy_to cfg 0 (ac_username b).
Proof.
  assert (PK : forall cfg w sid payload user d methods arch sticky a b p,
    AuthPublicKey cfg w sid payload user d methods arch sticky a = (b, Accepted p) ->
    p = cf_proxy_to cfg arch sticky /\ ac_username b = user /\ ac_translation b = ac_translation a).
  { intros cfg w sid payload user d methods arch sticky a b p E. unfold AuthPublicKey in E.
    destruct (ReadBool d) as [[ws d1]|]; [|discriminate]. destruct (ReadString d1) as [[alg d2]|]; [|discriminate].
    destruct (ReadLengthEncoded d2) as [[blob d3]|]; [|discriminate].
    pose proof (IsAcceptedPublicKey_sbo cfg w blob a) as S. destruct (IsAcceptedPublicKey cfg w blob a) as [a' [|]]; [|discriminate]. cbn [fst] in S.
    destruct (negb (cf_parse_key cfg blob)); [discriminate|]. destruct (negb ws); [destruct (ExpectEnd d3); discriminate|]. cbv zeta in E.
    destruct (ReadLengthEncoded d3) as [[sig d4]|]; [|discriminate]. destruct (ExpectEnd d4); [|discriminate].
    destruct (VerifyRequest _ _ _ _ _); [|discriminate]. unfold Login in E. injection E as <- <-. split; [reflexivity|]. split; [reflexivity|].
    cbn. unfold same_but_options in S. intuition congruence. }
  assert (HB : forall cfg sid payload user d methods arch sticky a b p,
    AuthHostbased cfg sid payload user d methods arch sticky a = (b, Accepted p) ->
    p = cf_proxy_to cfg arch sticky /\ ac_username b = user /\ ac_translation b = ac_translation a).
  { intros cfg sid payload user d methods arch sticky a b p E. unfold AuthHostbased in E.
    destruct (ReadString d) as [[x1 d1]|]; [|discriminate]. destruct (ReadLengthEncoded d1) as [[x2 d2]|]; [|discriminate].
    destruct (ReadString d2) as [[x3 d3]|]; [|discriminate]. destruct (ReadString d3) as [[x4 d4]|]; [|discriminate]. cbv zeta in E.
    destruct (ReadLengthEncoded d4) as [[x5 d5]|]; [|discriminate]. destruct (ExpectEnd d5); [|discriminate].
    assert (S : same_but_options a (fst (IsAcceptedHostPublicKey cfg x2 a))).
    { unfold IsAcceptedHostPublicKey. destruct (Find _ _); [apply sbo_options|apply sbo_refl]. }
    destruct (IsAcceptedHostPublicKey cfg x2 a) as [a' [|]]; [|discriminate]. cbn [fst] in S.
    destruct (negb (cf_parse_key cfg x2)); [discriminate|]. destruct (VerifyRequest _ _ _ _ _); [|discriminate].
    unfold Login in E. injection E as <- <-. split; [reflexivity|]. split; [reflexivity|].
    assert (T : ac_translation a' = ac_translation a) by (unfold same_but_options in S; intuition congruence).
    destruct (cf_accept_client_address cfg); [|exact T]. destruct (Split x4 64) as [name address].
    destruct (negb (is_nil name) && negb (is_nil address)); [|exact T]. destruct (cf_parse_address cfg (c_str address)); exact T. }
  assert (ME : forall cfg w sid payload user method d methods pa arch sticky a b p,
    AuthMethod cfg w sid payload user method d methods pa arch sticky a = (b, Accepted p) ->
    p = cf_proxy_to cfg arch sticky /\ ac_username b = user /\ ac_translation b = ac_translation a).
  { intros cfg w sid payload user method d methods pa arch sticky a b p E. unfold AuthMethod in E.
    destruct (bytes_eqb method (bs "publickey")); [exact (PK _ _ _ _ _ _ _ _ _ _ _ _ E)|].
    destruct (bytes_eqb method (bs "hostbased")); [exact (HB _ _ _ _ _ _ _ _ _ _ _ E)|].
    destruct pa; [|discriminate]. unfold Login in E. injection E as <- <-. repeat split. }
  intros cfg w sid payload a b p E. unfold OnUserAuthRequest in E.
  destruct (ReadString payload) as [[user d1]|]; [|discriminate]. destruct (ReadString d1) as [[service d2]|]; [|discriminate].
  destruct (ReadString d2) as [[method d3]|]; [|discriminate]. destruct (negb (bytes_eqb service _)); [discriminate|].
  destruct (negb (IsValidUsername user)); [discriminate|]. destruct (cf_translation_server cfg).
  - assert (TR : forall password d, 
      match LazyTranslate w user password a with
      | (a, None) => (a, Die)
      | (a, Some r) =>
          if negb (tr_status_ok r) then (a, Failure [])
          else
            let '(a, password_accepted) := ApplyResponse r password a in
            if negb (CheckTranslateResponse r) then (a, Die)
            else
              AuthMethod cfg w sid payload user method d (AuthMethods (match cf_authorized_host_keys cfg with [] => false | _ => true end) true)
                password_accepted (tr_arch r) (match tr_site r with Some site => site | None => user end) a
      end = (b, Accepted p) ->
      exists r, ac_translation b = Some (ac_username b, r) /\ p = cf_proxy_to cfg (tr_arch r) (match tr_site r with Some site => site | None => ac_username b end)).
    { intros password d Q. destruct (LazyTranslate w user password a) as [a1 [r|]] eqn:LT; [|discriminate].
      assert (T1 : ac_translation a1 = Some (user, r)).
      { exact (proj1 (LazyTranslate_spec _ _ _ _ _ _ LT)). }
      destruct (negb (tr_status_ok r)); [discriminate|]. destruct (ApplyResponse r password a1) as [a2 ok] eqn:AP.
      assert (T2 : ac_translation a2 = ac_translation a1).
      { exact (proj1 (ApplyResponse_spec _ _ _ _ _ AP)). }
      destruct (negb (CheckTranslateResponse r)); [discriminate|]. apply ME in Q. destruct Q as (Q1 & Q2 & Q3).
      exists r. rewrite Q3, T2, T1, Q2. split; [reflexivity|exact Q1]. }
    unfold AuthTranslation in E. cbv zeta in E. destruct (bytes_eqb method (bs "password")) eqn:MP.
    + destruct (ReadBool d3) as [[cp d4]|]; [|discriminate]. destruct (ReadString d4) as [[pw d5]|]; [|discriminate]. destruct (ExpectEnd d5); [|discriminate].
      destruct cp; [discriminate|]. destruct (is_nil pw); [discriminate|]. exact (TR pw d5 E).
    + exact (TR [] d3 E).
  - cbv zeta in E. destruct (w_getpwnam w user) as [pw|]; [|discriminate]. apply ME in E. destruct E as (E1 & E2 & _). now rewrite E2.
Qed.
Print Assumptions C75_login.

(** ** What does not hold *)

(** If two members are equally good, the choice may change from login to
    login. *)
Definition C75_ties_full_statement : Prop := forall rank arch sticky order1 order2 ops,
  picks rank arch sticky order1 ops = picks rank arch sticky order2 ops.
Definition node_a : member := {| mb_address := bs "10.0.0.1:22"; mb_txt := []; mb_our_own := false |}.
Definition node_b : member := {| mb_address := bs "10.0.0.2:22"; mb_txt := []; mb_our_own := false |}.
Theorem C75_ties_refuted : ~ C75_ties_full_statement.
Proof.
  intros H. specialize (H (fun _ _ _ => 7) 0 (bs "joe") [0; 1] [1; 0] [CNew (bs "a") node_a; CNew (bs "b") node_b]).
  vm_compute in H. discriminate.
Qed.
Print Assumptions C75_ties_refuted.

(** The address which is read after the server has waited for the connection to
    the target is not always the one which was chosen: the member may have been
    removed or changed meanwhile. *)
Definition C75_reference_full_statement : Prop := forall rank skip arch sticky order ops later r address,
  GetProxyTo rank skip arch sticky order (ToCluster (crun rank ops)) = To r -> read_address r (crun rank ops) = Some address ->
  read_address r (crun rank (ops ++ CPick arch sticky order :: later)) = Some address.
Theorem C75_reference_refuted : ~ C75_reference_full_statement.
Proof.
  intros H. specialize (H (fun _ _ _ => 7) false 0 (bs "joe") [] [CNew (bs "a") node_a] [CRemove (bs "a")] (RMember 0 (bs "10.0.0.1:22")) (bs "10.0.0.1:22") eq_refl eq_refl).
  vm_compute in H. discriminate.
Qed.
Print Assumptions C75_reference_refuted.

(** Members which come and go; the chosen one is removed at the end. *)
Definition demo_rank (arch : N) (sticky : bytes) (v : member) : N := (len sticky + last (mb_address v) 0 + N.of_nat (List.length (mb_txt v))) mod 5.
Definition node_c : member := {| mb_address := bs "10.0.0.3"; mb_txt := bs "x"; mb_our_own := true |}.
Example C75_demo :
  let ops := [CNew (bs "a") node_a; CNew (bs "b") node_b; CPick 0 (bs "joe") []; CRemove (bs "a"); CNew (bs "c") node_c; CPick 0 (bs "ann") []; CNew (bs "a") node_a] in
  map (fun n => picks demo_rank 0 (bs "joe") [] (firstn n ops)) [0; 1; 2; 3; 4; 5; 6; 7]%nat =
    [None; Some node_a; Some node_a; Some node_a; Some node_b; Some node_c; Some node_c; Some node_c] /\
  GetProxyTo demo_rank true 0 (bs "joe") [] (ToCluster (crun demo_rank ops)) = Here.
Proof. split; vm_compute; reflexivity. Qed.
