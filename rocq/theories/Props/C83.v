(** * C83: the tarpit limits the guessing of passwords *)

From Coq Require Import NArith ZArith List Bool Lia String.
From Verif.Base Require Import Bytes.
From Verif.Spec Require Import TarpitSpec MetricsSpec AuthDemo.
From Verif.Model Require Import Wire StringList KeyOptions Auth Session Server Accounting Tarpit Metrics.
From Verif.Proofs Require Import MetricsFacts TarpitFacts.
Import ListNotations.
Open Scope N_scope.

Local Arguments bs : simpl never.

(** The full claim: for every configuration with a tarpit, the number of
    passwords which a client address can have refused is limited by the
    time. *)
Definition C83_full_statement : Prop := forall c, tarpit c = true ->
  exists limit : N -> N, forall a ops, tp_wrong (trun c a ops) <= limit (tp_now (trun c a ops)).

(** With a limit on connections it holds: one refused password for each nine
    seconds, a one-off amount, and one for each minute and connection. *)
Theorem C83_guesses_partial : forall c a ops, tarpit c = true -> 0 < max_connections c ->
  let s := trun c a ops in
  tp_wrong s <= (10000 + tp_now s) / 9000 + 600 + max_connections c + max_connections c * tp_now s / 60000.
Proof.
  intros c a ops T M s. destruct (ti_bounded _ _ (tinv_run c a ops T M)) as (paid & rising & flying & waited & B1 & B2 & B3 & B4). fold s in B1, B2, B4.
  assert (P : paid <= (10000 + tp_now s) / 9000) by (apply N.div_le_lower_bound; lia).
  assert (W : waited <= max_connections c * tp_now s / 60000).
  { destruct B4 as [(_ & _ & _ & ->)|(_ & _ & B5)]; [apply N.le_0_l|]. apply N.div_le_lower_bound; lia. }
  assert (F : flying <= max_connections c) by (destruct B4 as [(_ & _ & -> & _)|(_ & B5 & _)]; lia).
  lia.
Qed.
Print Assumptions C83_guesses_partial.

(** Without such a limit it does not: in two minutes, any number. *)
Theorem C83_refuted : ~ C83_full_statement.
Proof.
  intro H. set (c := {| max_connections := 0; tarpit := true |}). destruct (H c eq_refl) as [limit L].
  destruct (run_many c 0 (N.to_nat (limit 120000 + 1)) eq_refl eq_refl) as [N W].
  specialize (L 0 (many (N.to_nat (limit 120000 + 1)))). rewrite N, W in L. unfold count in L. rewrite N2Nat.id in L. lia.
Qed.
Print Assumptions C83_refuted.

(** A modest client is never delayed. *)
Theorem C83_modest : forall c a ops, modest ops ->
  let s := trun c a ops in pc_delay (tp_client s) = 0 /\ Forall (fun r => rq_wait r = 0) (tp_requests s).
Proof. exact modest_run. Qed.
Print Assumptions C83_modest.

(** A greedy client is delayed: whatever it has done or not done before, more
    connections in some period than ten and one for each second are too
    many. *)
Theorem C83_greedy : forall c a before period, tarpit c = true -> knocking (period ++ [TAccept]) ->
  10000 + ticks (period ++ [TAccept]) < costs (period ++ [TAccept]) ->
  0 < pc_delay (tp_client (trun c a (before ++ period ++ [TAccept]))).
Proof.
  intros c a before period T K H. apply Forall_app in K as [K _]. rewrite ticks_app, costs_app in H.
  change (ticks [TAccept]) with 0 in H. change (costs [TAccept]) with 1000 in H.
  unfold trun. rewrite !fold_left_app. fold (trun c a before). cbn [fold_left].
  assert (L := knocking_level c period (trun c a before) K (level_burst c a before)).
  set (s := fold_left (tstep c) period (trun c a before)) in *. clearbody s. unfold BURST in L. cbn [tstep]. cbv zeta.
  assert (O : (tp_level s - Z.of_N 1000 <? 0)%Z = true) by (apply Z.ltb_lt; lia).
  assert (D : 0 < pc_delay (tp_client (spend c 1000 s))).
  { unfold spend. cbn [tp_client mk_tp]. rewrite O. unfold UpdateTokenBucket. rewrite T. cbn [negb].
    destruct (N.ltb_spec (pc_delay (tp_client s)) 60000); cbn [pc_delay mk_pc]; lia. }
  destruct (Check c _); exact D.
Qed.
Print Assumptions C83_greedy.

(** A new connection waits: as long as the delay at its arrival has not
    passed, none of its requests is considered. *)
Theorem C83_held : forall c a before after,
  let s := trun c a before in
  let s1 := tstep c s TAccept in
  let s2 := fold_left (tstep c) after s1 in
  tp_next s1 = tp_next s + 1 ->
  find_request (tp_next s) s2 <> None -> tp_now s + pc_delay (tp_client s1) <= tp_now s2.
Proof.
  intros c a before after s s1 s2 A F. destruct (known_run c a before) as [R P]. fold s in R, P.
  set (t := tp_now s + pc_delay (tp_client s1)).
  assert (H : held (tp_next s) t s1).
  { subst t s1. cbn [tstep] in *. cbv zeta in *. destruct (Check c _); [|cbn in A; lia].
    repeat split; cbn.
    - lia.
    - rewrite N.eqb_refl. reflexivity.
    - eapply Forall_impl; [|exact R]. cbn. lia.
    - eapply Forall_impl; [|exact R]. cbn. lia. }
  assert (H2 : held (tp_next s) t s2).
  { subst s2. clear -H. revert H. generalize s1. induction after as [|o l IH]; intros x H; [exact H|]. apply IH, held_step, H. }
  destruct H2 as (_ & _ & H3 & H4). destruct (find_request (tp_next s) s2) as [r|] eqn:E; [|congruence].
  apply found_in in E as [E1 E2]. assert (X := proj1 (Forall_forall _ _) H3 r E1 E2). assert (Y := proj1 (Forall_forall _ _) H4 r E1). cbv beta in X, Y. eapply N.le_trans; [exact X|exact Y].
Qed.
Print Assumptions C83_held.

(** The price of a refused password is as assumed here: a request which is
    counted as a failed password has cost nine tokens or more. *)
Theorem C83_price : forall cfg w sid payload a,
  let notes := snd (NUserAuthRequest cfg w sid payload a) in
  0 < N.of_nat (value PasswordFailed notes) -> 9000 <= spent notes.
Proof.
  intros cfg w sid payload a notes. unfold notes, NUserAuthRequest.
  destruct (ReadString payload) as [[user d]|]; [|cbn; lia]. destruct (ReadString d) as [[service d1]|]; [|cbn; lia].
  destruct (ReadString d1) as [[method d2]|]; [|cbn; lia].
  destruct (negb (bytes_eqb service (bs "ssh-connection"))); [cbn; lia|]. destruct (negb (IsValidUsername user)); [cbn; lia|].
  assert (NM : forall method d methods pa arch sticky b, value PasswordFailed (snd (NMethod cfg w sid payload user method d methods pa arch sticky b)) = 0%nat).
  { clear. intros. unfold NMethod. destruct (bytes_eqb method (bs "publickey")).
    - unfold NPublicKey.
      repeat match goal with
      | |- context [match ReadBool ?d with _ => _ end] => destruct (ReadBool d) as [[? ?]|]
      | |- context [match ReadString ?d with _ => _ end] => destruct (ReadString d) as [[? ?]|]
      | |- context [match ReadLengthEncoded ?d with _ => _ end] => destruct (ReadLengthEncoded d) as [[? ?]|]
      | |- context [match ExpectEnd ?d with _ => _ end] => destruct (ExpectEnd d)
      | |- context [match IsAcceptedPublicKey ?a ?b ?c ?d with _ => _ end] => destruct (IsAcceptedPublicKey a b c d) as [? []]
      | |- context [if ?b then _ else _] => destruct b
      end; reflexivity.
    - destruct (bytes_eqb method (bs "hostbased")).
      + unfold NHostbased.
        repeat match goal with
        | |- context [match ReadString ?d with _ => _ end] => destruct (ReadString d) as [[? ?]|]
        | |- context [match ReadLengthEncoded ?d with _ => _ end] => destruct (ReadLengthEncoded d) as [[? ?]|]
        | |- context [match ExpectEnd ?d with _ => _ end] => destruct (ExpectEnd d)
        | |- context [match IsAcceptedHostPublicKey ?a ?b ?c with _ => _ end] => destruct (IsAcceptedHostPublicKey a b c) as [? []]
        | |- context [if negb (cf_parse_key ?a ?b) then _ else _] => destruct (cf_parse_key a b)
        | |- context [if VerifyRequest ?a ?b ?c ?d ?e then _ else _] => destruct (VerifyRequest a b c d e)
        end; reflexivity.
      + destruct pa; [reflexivity|]. destruct (bytes_eqb method (bs "none")); reflexivity. }
  destruct (cf_translation_server cfg).
  - unfold NTranslation. cbv zeta.
    assert (T : forall password d0, is_nil password = negb (bytes_eqb method (bs "password")) ->
      let x := match LazyTranslate w user password a with
      | (a, None) => ((a, Die), [Count TranslationErrors; Spend 2000])
      | (a, Some r) =>
          if negb (tr_status_ok r) then
            ((a, Failure []), [Spend 8000; Count (if is_nil password then UnknownFailed else PasswordFailed)])
          else
            let '(a, password_accepted) := ApplyResponse r password a in
            if negb (CheckTranslateResponse r) then ((a, Die), [Count TranslationErrors; Spend 2000])
            else
              also (if password_accepted then [Count PasswordAccepted] else [])
                (NMethod cfg w sid payload user method d0
                   (AuthMethods (match cf_authorized_host_keys cfg with [] => false | _ => true end) true) password_accepted (tr_arch r)
                   (match tr_site r with Some site => site | None => user end) a)
      end in
      (0 < value PasswordFailed (snd x))%nat -> is_nil password = false /\ 8000 <= spent (snd x)).
    { intros password d0 N. destruct (LazyTranslate w user password a) as [b [r|]]; [|cbn; lia].
      destruct (tr_status_ok r); cbn [negb].
      2: { destruct (is_nil password); cbn; [lia|]. intros _. split; [reflexivity|lia]. }
      destruct (ApplyResponse r password b) as [b' pa]. destruct (CheckTranslateResponse r); cbn [negb]; [|cbn; lia].
      cbv zeta. unfold also. cbn [snd]. rewrite value_app, NM. destruct pa; cbn; lia. }
    destruct (bytes_eqb method (bs "password")) eqn:W.
    + destruct (ReadBool d2) as [[change d3]|]; [|cbn; lia]. destruct (ReadString d3) as [[password d4]|]; [|cbn; lia].
      destruct (ExpectEnd d4); [|cbn; lia]. destruct change; [cbn; lia|]. specialize (T password d4).
      destruct (is_nil password); [cbn; lia|]. specialize (T eq_refl). cbv zeta in T. unfold also at 1 3. cbn [snd app].
      intro P. match type of P with 0 < N.of_nat ?v => assert (P0 : (0 < v)%nat) by lia end.
      destruct (T P0) as [_ T']. match goal with |- 9000 <= spent (Spend 1000 :: ?l) => change (9000 <= 1000 + spent l) end.
      change (8000 <= spent (snd (match LazyTranslate w user password a with
      | (a, None) => ((a, Die), [Count TranslationErrors; Spend 2000])
      | (a, Some r) =>
          if negb (tr_status_ok r) then
            ((a, Failure []), [Spend 8000; Count PasswordFailed])
          else
            let '(a, password_accepted) := ApplyResponse r password a in
            if negb (CheckTranslateResponse r) then ((a, Die), [Count TranslationErrors; Spend 2000])
            else
              also (if password_accepted then [Count PasswordAccepted] else [])
                (NMethod cfg w sid payload user method d4
                   (AuthMethods (match cf_authorized_host_keys cfg with [] => false | _ => true end) true) password_accepted (tr_arch r)
                   (match tr_site r with Some site => site | None => user end) a)
      end))) in T'. lia.
    + intro P. destruct (T [] d2 eq_refl) as [X _]; [lia|discriminate].
  - cbv zeta. destruct (w_getpwnam w user) as [p|]; [|cbn; lia]. rewrite NM. cbn. lia.
Qed.
Print Assumptions C83_price.

(** ** Examples *)

Definition demo_limits : acfg := {| max_connections := 2; tarpit := true |}.
Definition guess (id : N) : list top := [TRequest id; TPassword id; TWrong id].

(** The first guess is free; with the second one the bucket is overdrawn by
    nine tokens, and the next request waits. *)
Example C83_example :
  let s := trun demo_limits 0 (TAccept :: guess 0 ++ guess 0 ++ guess 0) in
  tp_wrong s = 2 /\ tp_level s = (-9000)%Z /\ pc_delay (tp_client s) = 200 /\ map rq_wait (tp_requests s) = [200].
Proof. vm_compute. auto. Qed.

(** It is answered after its time. *)
Example C83_waits :
  let s := trun demo_limits 0 (TAccept :: guess 0 ++ guess 0 ++ guess 0 ++ repeat TTick 200 ++ [TPassword 0; TWrong 0]) in
  tp_wrong s = 3.
Proof. vm_compute. reflexivity. Qed.

(** A modest client: a connection and a wrong password *)
Definition modest_ops : list top := TAccept :: guess 0.
Example C83_modest_example : modest modest_ops /\ tp_wrong (trun demo_limits 0 modest_ops) = 1.
Proof.
  split; [|vm_compute; reflexivity]. intros p w q E.
  assert (C : costs modest_ops = costs p + costs w + costs q) by (rewrite E, !costs_app; lia).
  assert (V : costs modest_ops = 10000) by reflexivity. lia.
Qed.

(** The price of a wrong password *)
Example C83_price_example :
  let notes := snd (NUserAuthRequest (demo_config true) demo_world demo_session_id
    (demo_password_request (bs "alice") (bs "wrong")) (sv_account (demo_run true []))) in
  value PasswordFailed notes = 1%nat /\ spent notes = 9000.
Proof. vm_compute. auto. Qed.

(** Eleven connections at once, after a long time *)
Example C83_greedy_example :
  knocking (repeat TAccept 10 ++ [TAccept]) /\
  10000 + ticks (repeat TAccept 10 ++ [TAccept]) < costs (repeat TAccept 10 ++ [TAccept]).
Proof. split; [|reflexivity]. apply Forall_forall. intros op H. right. cbn in H. repeat (destruct H as [<-|H]; [reflexivity|]). destruct H. Qed.

(** The last of them may send its request after its time, and not before. *)
Example C83_held_example :
  let c := {| max_connections := 20; tarpit := true |} in
  let s := trun c 0 (repeat TAccept 10) in
  let s1 := tstep c s TAccept in
  tp_next s1 = tp_next s + 1 /\ pc_delay (tp_client s1) = 100 /\
  find_request 10 (fold_left (tstep c) (repeat TTick 99 ++ [TRequest 10]) s1) = None /\
  find_request 10 (fold_left (tstep c) (repeat TTick 100 ++ [TRequest 10]) s1) <> None.
Proof. vm_compute. repeat split; discriminate. Qed.
