(** * C37: forwarded key options only restrict *)

From Coq Require Import NArith List Bool Lia String.
From Verif.Base Require Import Bytes.
From Verif.Spec Require Import WireSpec PacketSpec KeySpec AuthSpec SessionSpec AuthDemo.
From Verif.Model Require Import Wire Packets StringList KeyOptions Auth Session Server.
From Verif.Proofs Require Import WireFacts PacketFacts KeyFacts AuthFacts ServerFacts SessionFacts RestrictFacts StepFacts AuthClientFacts.
Import ListNotations.
Open Scope N_scope.

From Coq Require Import Permutation.

Local Arguments bs : simpl never.

(** [c] is the combination of the restrictions [a] and [b]: both of them, and
    nothing else. *)
Definition combines (c a b : key_options) : Prop :=
  at_least c a /\ at_least c b /\ forall d, at_least d a -> at_least d b -> at_least d c.

(** There is at most one. *)
Lemma at_least_antisym : forall a b, at_least a b -> at_least b a -> a = b.
Proof.
  intros [ac ap at_ ah] [bc bp bt bh] (A1 & A2 & A3 & A4) (B1 & B2 & B3 & B4). cbn in *. f_equal.
  - destruct bc; [|now apply A1]. destruct ac; [reflexivity|]. symmetry. now apply B1.
  - destruct ap, bp; auto. symmetry. auto.
  - destruct at_, bt; auto. symmetry. auto.
  - destruct ah, bh; auto. symmetry. auto.
Qed.

(** The data of an options request. *)
Definition options_data (data : bytes) (l : list item) : Prop :=
  data = options_payload l /\ Forall (fun i => len (fst i) < pow32 /\ len (snd i) < pow32) l /\ Forall acceptable l.

(** Restrict() combines; a conflict of forced commands, and nothing else, is
    refused, and then nothing changes. *)
Theorem C37_restrict :
  forall current new,
  (conflict current new /\ Restrict current new = (current, false)) \/
  (~ conflict current new /\ exists result, Restrict current new = (result, true) /\ combines result current new).
Proof.
  intros a b. destruct (conflict_dec a b) as [C|C]; [left|right]; (split; [exact C|]); [now apply Restrict_conflict|].
  eexists. split; [now apply Restrict_ok|]. split; [|split].
  - unfold at_least. cbn. split; [|split; [|split]]; try (intros ->; reflexivity). intro H. apply is_nil_false in H. now rewrite H.
  - unfold at_least. cbn. split; [|split; [|split]]; try (intros ->; apply orb_true_r).
    intro H. destruct (is_nil (ko_command a)) eqn:N; [reflexivity|]. apply is_nil_false in N.
    destruct (bytes_eq_dec (ko_command a) (ko_command b)) as [E|E]; [exact E|]. exfalso. apply C. now split.
  - intros d (A1 & A2 & A3 & A4) (B1 & B2 & B3 & B4). unfold at_least. cbn. split; [|split; [|split]];
      try (intro H; apply orb_true_iff in H as [H|H]; auto). destruct (is_nil (ko_command a)); auto.
Qed.
Print Assumptions C37_restrict.

(** Any sequence of requests: the result has all restrictions of the start; if
    there is no conflict (if there is anything which has all restrictions)
    then the result is the combination of all, in any order, however
    often they are applied. *)
Definition restrict_all (current : key_options) (requests : list key_options) : key_options :=
  fold_left (fun o x => fst (Restrict o x)) requests current.

Lemma restrict_all_least : forall l a, at_least (restrict_all a l) a.
Proof.
  induction l as [|x l IH]; intro a; [apply at_least_refl|]. cbn.
  eapply at_least_trans; [apply IH|apply Restrict_at_least].
Qed.

Lemma bounded_no_conflict : forall d a b, at_least d a -> at_least d b -> ~ conflict a b.
Proof. intros d a b (A & _) (B & _) (X & Y & Z). apply Z. rewrite <- (A X), (B Y). reflexivity. Qed.

Theorem C37_sequence :
  forall current requests bound,
  at_least bound current -> Forall (at_least bound) requests ->
  let result := restrict_all current requests in
  at_least result current /\ Forall (at_least result) requests /\
  (forall other, at_least other current -> Forall (at_least other) requests -> at_least other result) /\
  (forall again, Forall (fun x => In x requests) again -> restrict_all result again = result) /\
  (forall reordered, Permutation requests reordered -> restrict_all current reordered = result).
Proof.
  assert (BASE : forall requests current bound, at_least bound current -> Forall (at_least bound) requests ->
    let result := restrict_all current requests in
    at_least result current /\ Forall (at_least result) requests /\
    (forall other, at_least other current -> Forall (at_least other) requests -> at_least other result)).
  { induction requests as [|x l IH]; intros a d A F; cbv zeta.
    { split; [apply at_least_refl|]. split; [constructor|]. auto. }
    inversion F as [|? ? FX FL]; subst.
    destruct (C37_restrict a x) as [[C _]|(NC & r & R & (R1 & R2 & R3))]; [destruct (bounded_no_conflict d a x A FX C)|].
    change (restrict_all a (x :: l)) with (restrict_all (fst (Restrict a x)) l). rewrite R. cbn [fst].
    destruct (IH r d (R3 d A FX) FL) as (I1 & I2 & I3). split; [eapply at_least_trans; eauto|].
    split; [constructor; [eapply at_least_trans; eauto|exact I2]|].
    intros other OA OF. inversion OF; subst. auto. }
  intros a l d A F result. destruct (BASE l a d A F) as (B1 & B2 & B3). fold result in B1, B2, B3.
  split; [exact B1|]. split; [exact B2|]. split; [exact B3|]. split.
  - intros again AG. assert (FR : Forall (at_least result) again).
    { rewrite Forall_forall in AG, B2 |- *. intros x X. apply B2, AG, X. }
    destruct (BASE again result result (at_least_refl _) FR) as (C1 & _ & C3).
    apply at_least_antisym; [exact C1|]. apply C3; [apply at_least_refl|exact FR].
  - intros l' P. assert (F' : Forall (at_least d) l').
    { rewrite Forall_forall in F |- *. intros x X. apply F. eapply Permutation_in; [symmetry; exact P|exact X]. }
    destruct (BASE l' a d A F') as (C1 & C2 & C3). apply at_least_antisym.
    + apply B3; [exact C1|]. rewrite Forall_forall in C2 |- *. intros x X. apply C2. eapply Permutation_in; [exact P|exact X].
    + apply C3; [exact B1|]. rewrite Forall_forall in B2 |- *. intros x X. apply B2. eapply Permutation_in; [symmetry; exact P|exact X].
Qed.
Print Assumptions C37_sequence.

(** What the server does with an options request: it is honoured only if the
    client has logged in with a host key. *)
Theorem C37_request :
  forall cfg session_id peer_address ops op events data, Forall op_ok (ops ++ [op]) ->
  let s := vrun cfg session_id peer_address ops in
  let s' := vrun cfg session_id peer_address (ops ++ [op]) in
  sv_log s' = sv_log s ++ events -> In (VGlobal AUTHORIZED_KEY_OPTIONS_REQUEST data) events ->
  let current := ac_options (sv_account s) in
  let result := ac_options (sv_account s') in
  exists before w payload user c src,
    login_request cfg session_id peer_address ops before w payload user c src /\
    match c with
    | CHost _ _ =>
        (forall l, options_data data l -> ~ conflict current (denote l) ->
           combines result current (denote l) /\ events = [VGlobal AUTHORIZED_KEY_OPTIONS_REQUEST data; VGlobalAnswer true]) /\
        (forall l, options_data data l -> conflict current (denote l) ->
           result = current /\ events = [VGlobal AUTHORIZED_KEY_OPTIONS_REQUEST data; VGlobalAnswer false]) /\
        ((forall l, ~ options_data data l) ->
           result = current /\ events = [VGlobal AUTHORIZED_KEY_OPTIONS_REQUEST data; VDead])
    | _ => result = current /\ events = [VGlobal AUTHORIZED_KEY_OPTIONS_REQUEST data; VGlobalAnswer false]
    end.
Proof.
  intros cfg sid peer ops op events data F s s' L I current result.
  apply Forall_app in F as [F FO]. inversion FO as [|? ? OK _]; subst.
  pose proof (vrun_good cfg sid peer ops F) as G. fold s in G. unfold result, s' in *. rewrite vrun_snoc in *. fold s in L |- *.
  destruct (global_step cfg sid op s events _ _ G L I) as (payload & env & g & -> & P & N & D & CH & AU & E).
  destruct (login_origin cfg sid peer ops F AU) as (before & w & pl & user & c & src & after & LO).
  exists before, w, pl, user, c, src. split; [eapply login_request_of; eauto|].
  assert (F' := F). rewrite (lo_ops _ _ _ _ _ _ _ _ _ _ _ LO) in F'.
  pose proof (lo_login _ _ _ _ _ _ _ _ _ _ _ LO) as LG.
  destruct (options_later _ _ _ _ _ _ F' (lg_auth _ _ _ _ _ _ _ _ LG)) as (_ & _ & X3 & _).
  rewrite <- (lo_ops _ _ _ _ _ _ _ _ _ _ _ LO) in X3. fold s in X3. rewrite (logged_hostbased _ _ _ _ _ _ _ _ _ _ _ F LO) in X3.
  rewrite E in L |- *. unfold HandleGlobalRequest in L |- *. cbv zeta in L |- *.
  change (bytes_eqb AUTHORIZED_KEY_OPTIONS_REQUEST (bs "tcpip-forward")) with false in *. cbn match in *.
  change (bytes_eqb AUTHORIZED_KEY_OPTIONS_REQUEST (bs "cancel-tcpip-forward")) with false in *. cbn match in *.
  change (bytes_eqb AUTHORIZED_KEY_OPTIONS_REQUEST (bs "no-more-sessions@openssh.com")) with false in *. cbn match in *.
  rewrite bytes_eqb_refl in *. rewrite X3 in *.
  assert (NOT : forall b t, sv_log t = (sv_log s ++ [VGlobal AUTHORIZED_KEY_OPTIONS_REQUEST data]) ++ [b] ->
    sv_log t = sv_log s ++ events -> events = [VGlobal AUTHORIZED_KEY_OPTIONS_REQUEST data; b]).
  { intros b t A B. rewrite A, <- app_assoc in B. apply app_inv_head in B. now rewrite <- B. }
  destruct c as [bl o|bl o| |]; cbn [negb] in *.
  1,3,4: (split; [reflexivity|]; eapply NOT; [|exact L]; reflexivity).
  assert (BD : bytes_ok data).
  { cbn in OK. destruct g as [gn gw gd]. apply ParseGlobalRequest_exact in P as (x & _ & _ & PX); [|exact OK]. cbn in D. subst gd.
    rewrite PX in OK. rewrite !enc_cons in OK. cbn [enc_field] in OK.
    apply bytes_ok_app in OK as [_ OK]. apply bytes_ok_app in OK as [_ OK]. apply bytes_ok_app in OK as [OK _]. exact OK. }
  assert (DS : forall o, DeserializeAuthorizedKeyOptions data = Some o <-> exists l, options_data data l /\ o = denote l).
  { intro o'. unfold DeserializeAuthorizedKeyOptions. rewrite deserialize_sets by (auto; lia). unfold options_data. split.
    - intros (l & El & Fl & S). apply sets_iff in S as [A ->]. exists l. auto.
    - intros (l & (El & Fl & A) & ->). exists l. split; [exact El|]. split; [exact Fl|]. now apply sets_iff. }
  destruct (DeserializeAuthorizedKeyOptions data) as [o'|] eqn:DE.
  - destruct (proj1 (DS o') eq_refl) as (l0 & OD & ->).
    assert (SAME : forall l, options_data data l -> denote l = denote l0).
    { intros l H. assert (X : Some (denote l0) = Some (denote l)) by (apply DS; eauto). congruence. }
    destruct (C37_restrict current (denote l0)) as [(C & R)|(C & r & R & RC)]; unfold current in R, C |- *; rewrite R in *.
    + split; [|split].
      * intros l H X. rewrite (SAME l H) in X. contradiction.
      * intros l H _. split; [reflexivity|]. eapply NOT; [|exact L]; reflexivity.
      * intro X. exfalso. exact (X l0 OD).
    + split; [|split].
      * intros l H _. rewrite (SAME l H). split; [exact RC|]. eapply NOT; [|exact L]; reflexivity.
      * intros l H X. rewrite (SAME l H) in X. contradiction.
      * intro X. exfalso. exact (X l0 OD).
  - assert (NO : forall l, ~ options_data data l).
    { intros l H. assert (X : @None key_options = Some (denote l)) by (apply DS; eauto). discriminate. }
    split; [intros l H; destruct (NO l H)|]. split; [intros l H; destruct (NO l H)|]. intros _. split; [reflexivity|].
    eapply NOT; [|exact L]; reflexivity.
Qed.
Print Assumptions C37_request.

(** Nothing else changes the restrictions of an authenticated connection, and
    nothing ever lifts one. *)
Theorem C37_only_requests :
  forall cfg session_id peer_address ops op, Forall op_ok (ops ++ [op]) ->
  let s := vrun cfg session_id peer_address ops in
  let s' := vrun cfg session_id peer_address (ops ++ [op]) in
  ac_authenticated (sv_account s) = true -> ac_options (sv_account s') <> ac_options (sv_account s) ->
  exists payload env want data l, op = OPacket MSG_GLOBAL_REQUEST payload env /\
    global_request_layout payload AUTHORIZED_KEY_OPTIONS_REQUEST want data /\ options_data data l /\
    combines (ac_options (sv_account s')) (ac_options (sv_account s)) (denote l) /\
  exists before w lp user blob o src,
    login_request cfg session_id peer_address ops before w lp user (CHost blob o) src.
Proof.
  intros cfg sid peer ops op F s s' AU NE. apply Forall_app in F as [F FO]. inversion FO as [|? ? OK _]; subst.
  pose proof (vrun_good cfg sid peer ops F) as G. fold s in G. unfold s' in *. rewrite vrun_snoc in *. fold s in NE |- *.
  destruct (options_step cfg sid op s G AU) as [X|(payload & env & g & o & -> & P & N & D & HB & X)]; [rewrite X in NE; congruence|].
  destruct g as [gn gw gd]. cbn in N, D, OK. subst gn. apply ParseGlobalRequest_exact in P as P'; [|exact OK].
  assert (BD : bytes_ok gd).
  { destruct P' as (x & _ & _ & PX).
    rewrite PX in OK. rewrite !enc_cons in OK. cbn [enc_field] in OK.
    apply bytes_ok_app in OK as [_ OK]. apply bytes_ok_app in OK as [_ OK]. apply bytes_ok_app in OK as [OK _]. exact OK. }
  unfold DeserializeAuthorizedKeyOptions in D. apply deserialize_sets in D as (l & El & Fl & S); [|auto|lia].
  apply sets_iff in S as [A ->].
  exists payload, env, gw, gd, l. split; [reflexivity|]. split; [exact P'|]. split; [now split|]. rewrite X in NE |- *. cbn in NE |- *.
  split.
  { destruct (C37_restrict (ac_options (sv_account s)) (denote l)) as [(C & R)|(C & r & R & RC)]; rewrite R in *; cbn in *; [congruence|exact RC]. }
  destruct (login_origin cfg sid peer ops F AU) as (before & w & pl & user & c & src & after & LO).
  assert (F' := F). rewrite (lo_ops _ _ _ _ _ _ _ _ _ _ _ LO) in F'.
  pose proof (lo_login _ _ _ _ _ _ _ _ _ _ _ LO) as LG.
  destruct (options_later _ _ _ _ _ _ F' (lg_auth _ _ _ _ _ _ _ _ LG)) as (_ & _ & X3 & _).
  rewrite <- (lo_ops _ _ _ _ _ _ _ _ _ _ _ LO) in X3. fold s in X3. rewrite (logged_hostbased _ _ _ _ _ _ _ _ _ _ _ F LO) in X3.
  rewrite HB in X3. destruct c as [bl o|bl o| |]; try discriminate.
  exists before, w, pl, user, bl, o, src. eapply login_request_of; eauto.
Qed.
Print Assumptions C37_only_requests.

Theorem C37_never_lifted :
  forall cfg session_id peer_address ops more, Forall op_ok (ops ++ more) ->
  ac_authenticated (sv_account (vrun cfg session_id peer_address ops)) = true ->
  at_least (ac_options (sv_account (vrun cfg session_id peer_address (ops ++ more))))
    (ac_options (sv_account (vrun cfg session_id peer_address ops))).
Proof.
  intros cfg sid peer ops more. induction more as [|op t IH] using rev_ind; intros F A; [rewrite app_nil_r; apply at_least_refl|].
  rewrite app_assoc in *. apply Forall_app in F as [F _]. rewrite vrun_snoc.
  eapply at_least_trans; [|exact (IH F A)]. apply options_after; [now apply vrun_good|].
  destruct (fixed_later cfg sid peer ops t F A) as (o & ->). exact A.
Qed.
Print Assumptions C37_never_lifted.

(** A proxy's options: accepted, extended, then a different command refused;
    a user with a password: refused. *)
Definition demo_options_request (l : list item) : vop := demo_global AUTHORIZED_KEY_OPTIONS_REQUEST (options_payload l).

Example C37_demo :
  let run l := demo_run true (demo_attempt (demo_host_request (bs "alice")) ++ l) in
  let r1 := demo_options_request [(bs "no-pty", [])] in
  let r2 := demo_options_request [(bs "command", bs "backup")] in
  let r3 := demo_options_request [(bs "command", bs "/bin/sh"); (bs "no-port-forwarding", [])] in
  ac_options (sv_account (run [r1; r2])) =
    {| ko_command := bs "backup"; ko_no_port_forwarding := false; ko_no_pty := true; ko_home_read_only := false |} /\
  ac_options (sv_account (run [r2; r1; r3; r1])) = ac_options (sv_account (run [r1; r2])) /\
  ac_options (sv_account (run [r3])) =
    {| ko_command := bs "/bin/sh"; ko_no_port_forwarding := true; ko_no_pty := false; ko_home_read_only := false |} /\
  sv_alive (run [r1; r2; r3]) = true /\
  let user := demo_run true (demo_attempt (demo_password_request (bs "alice") (bs "secret")) ++ [r1]) in
  ac_options (sv_account user) = ko_default /\ In (VGlobalAnswer false) (sv_log user).
Proof. vm_compute. repeat split; auto 20. Qed.
