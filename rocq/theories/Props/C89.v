(** C89: the log of a connection tells what happened: a line "Accepted ...
    for user" for every login and no other, with the key which was verified;
    one line about the end; and nobody else writes lines.

    The last part does not hold: what a client says in its DISCONNECT message
    is logged as it is, newlines included.  And a user who needs no password
    is logged as one whose password was accepted. *)

From Coq Require Import NArith PeanoNat List Bool Lia String.
From Verif.Base Require Import Bytes.
From Verif.Spec Require Import WireSpec PacketSpec AuthSpec AuditSpec AuthDemo.
From Verif.Model Require Import Wire Packets KeyOptions Auth Session Server AuditLog.
From Verif.Proofs Require Import WireFacts PacketFacts AuthFacts ServerFacts AuditFacts.
Import ListNotations.
Open Scope N_scope.

Local Arguments bs : simpl never.

(** ** Logins *)

(** The users in the lines "Accepted ... for ..." are those who were logged in,
    in this order. *)
Theorem C89_login :
  forall cfg x session_id peer_address domain ops, Forall gop_ok ops ->
  let s := grun cfg x session_id peer_address domain ops in
  flat_map accepted_user (map snd (au_lines s)) = logins (sv_log (au_server s)).
Proof. intros cfg x sid peer dom ops F s. exact (ok_acc _ _ _ (grun_ok cfg x sid peer dom ops F)). Qed.
Print Assumptions C89_login.

(** Such a line, and the line "Failed password for user", is the result of a
    request which supports it. *)
Theorem C89_supported :
  forall cfg x session_id peer_address domain ops op, Forall gop_ok ops ->
  let s := grun cfg x session_id peer_address domain ops in
  forall added d l, au_lines (gstep cfg x session_id op s) = au_lines s ++ added -> In (d, l) added ->
  (forall user, In user (accepted_user l) -> exists w payload fault,
     op = GOp (OAuth w) fault /\ sv_busy (au_server s) = Checking payload /\ supports cfg session_id w payload l) /\
  (forall user, l = LFailedPassword user -> exists w payload fault password r,
     op = GOp (OAuth w) fault /\ sv_busy (au_server s) = Checking payload /\
     payload = enc (password_request user password) /\ password <> [] /\
     w_translate w user password = Some r /\ tr_status_ok r = false).
Proof.
  intros cfg x sid peer dom ops op F s added d l E I. pose proof (ok_good _ _ _ (grun_ok cfg x sid peer dom ops F)) as G. fold s in G.
  destruct (gstep_tells cfg x sid op s) as [[tail [S [NT _]]]].
  assert (IL : In l (step_lines cfg sid op s ++ tail)).
  { assert (X : map snd (au_lines (gstep cfg x sid op s)) = map snd (au_lines s) ++ (step_lines cfg sid op s ++ tail)).
    { change (au_lines (gstep cfg x sid op s)) with (snd (seen (gstep cfg x sid op s))). rewrite S. apply talk_lines. }
    rewrite E, map_app in X. apply app_inv_head in X. rewrite <- X. change l with (snd (d, l)). now apply in_map. }
  assert (DEC : (accepted_user l <> [] \/ exists u, l = LFailedPassword u) \/ ~ (accepted_user l <> [] \/ exists u, l = LFailedPassword u)).
  { destruct l; cbn [accepted_user]; try (left; left; discriminate); try (left; right; eauto; fail);
      right; intros [Z|[u Z]]; congruence. }
  destruct DEC as [AF|NAF].
  2:{ split; intros user H; exfalso; apply NAF; [left; intro Z; rewrite Z in H; destruct H|right; eauto]. }
  assert (IS : In l (step_lines cfg sid op s)).
  { apply in_app_or in IL as [IL|IL]; [exact IL|]. exfalso. rewrite Forall_forall in NT. specialize (NT l IL). destruct l; cbn in *; try discriminate; destruct AF as [AF|[u AF]]; congruence. }
  unfold step_lines in IS. destruct (au_gone s); [destruct IS|]. destruct op as [op fault| | |]; try destruct IS.
  destruct (checking_dec op (au_server s)) as [(w & payload & -> & AL & B)|N].
  - destruct (checking_facts cfg (au_server s) payload G AL B) as [OK _]. unfold op_lines in IS. rewrite AL, B in IS. split.
    + intros user H. exists w, payload, fault. split; [reflexivity|]. split; [exact B|].
      pose proof (request_lines cfg w sid payload (sv_account (au_server s)) OK) as AG. unfold agree in AG.
      destruct (snd (OnUserAuthRequest cfg w sid payload (sv_account (au_server s)))).
      1-3: destruct AG as [Q _]; rewrite Forall_forall in Q; destruct (Q l IS) as [Z _]; rewrite Z in H; destruct H.
      destruct AG as (pre & l' & EQ & Q & _ & _ & SP). rewrite EQ in IS. apply in_app_or in IS as [IS|[<-|[]]]; [|exact SP].
      rewrite Forall_forall in Q. destruct (Q l IS) as [Z _]. rewrite Z in H. destruct H.
    + intros user ->. pose proof (request_failed cfg w sid payload (sv_account (au_server s)) OK) as RF. rewrite Forall_forall in RF.
      destruct (RF _ IS) as (password & r & R). exists w, payload, fault, password, r. tauto.
  - exfalso. unfold op_lines in IS. destruct (sv_alive (au_server s)) eqn:AL; [|destruct IS].
    destruct op as [|msg p0 env|w|ok| | | | | | | | | |]; try (destruct IS).
    + destruct (sv_busy (au_server s)) eqn:B; try (destruct IS). exact (N w payload eq_refl eq_refl eq_refl).
    + destruct ok; [|destruct IS]. destruct (sv_busy (au_server s)); [destruct IS|destruct IS|].
      destruct IS as [<-|[]]. destruct AF as [AF|[u AF]]; [now apply AF|discriminate].
Qed.
Print Assumptions C89_supported.

(** ** Whose line it is *)

(** After a login, every line is marked with the user name. *)
Theorem C89_attribution :
  forall cfg x session_id peer_address domain ops, Forall gop_ok ops ->
  forall before d l user after,
  au_lines (grun cfg x session_id peer_address domain ops) = before ++ (d, l) :: after -> accepted_user l = [user] ->
  Forall (fun e => fst e = d ++ bs " user=" ++ quote x user) after.
Proof.
  intros cfg x sid peer dom ops F before d l user after E A.
  exact (proj1 (ok_att _ _ _ (grun_ok cfg x sid peer dom ops F) before d l user after E A)).
Qed.
Print Assumptions C89_attribution.

(** ** The end *)

(** There is never more than one line about the end of the connection; there
    is one if the connection has ended. *)
Theorem C89_end :
  forall cfg x session_id peer_address domain ops, Forall gop_ok ops ->
  let s := grun cfg x session_id peer_address domain ops in
  (List.length (ends (au_lines s)) <= 1)%nat /\
  (au_gone s = true \/ sv_alive (au_server s) = false -> List.length (ends (au_lines s)) = 1%nat).
Proof.
  intros cfg x sid peer dom ops F s. pose proof (ok_ends _ _ _ (grun_ok cfg x sid peer dom ops F)) as E. fold s in E. rewrite E. split.
  - unfold told. destruct (au_flag s && negb (au_gone s)); lia.
  - intros [G|D]; [unfold told; rewrite G; now rewrite andb_false_r|]. exact (grun_dead cfg x sid peer dom ops D).
Qed.
Print Assumptions C89_end.

(** It gives the reason. *)
Theorem C89_reason :
  forall cfg x session_id peer_address domain ops, Forall gop_ok ops ->
  let s := grun cfg x session_id peer_address domain ops in
  ends (au_lines s) = [] ->
  ends (au_lines (gstep cfg x session_id GTerminate s)) = [LTerminating] /\
  (forall fault, sv_timeout (au_server s) = true -> ends (au_lines (gstep cfg x session_id (GOp OTimeout fault) s)) = [LTimeout]) /\
  (forall reason description language env fault,
     bytes_ok description -> bytes_ok language -> reason < pow32 -> len description < pow32 -> len language < pow32 ->
     ends (au_lines (gstep cfg x session_id
       (GOp (OPacket MSG_DISCONNECT (enc [FU32 reason; FString description; FString language]) env) fault) s)) =
     [LClientDisconnected description]) /\
  (forall fault, ends (au_lines (gstep cfg x session_id (GOp OClose fault) s)) = [LDisconnected]).
Proof.
  intros cfg x sid peer dom ops F s E. pose proof (grun_ok cfg x sid peer dom ops F) as OK. fold s in OK.
  assert (T : told s = 0%nat) by (rewrite <- (ok_ends _ _ _ OK), E; reflexivity).
  assert (FG : au_flag s = true /\ au_gone s = false).
  { unfold told in T. destruct (au_flag s); [|discriminate]. destruct (au_gone s); [discriminate|auto]. }
  destruct FG as [FL GO].
  assert (AL : sv_alive (au_server s) = true).
  { destruct (sv_alive (au_server s)) eqn:AL; [reflexivity|]. pose proof (grun_dead cfg x sid peer dom ops AL) as Z. fold s in Z. congruence. }
  assert (SN : forall l m, ends (l ++ m) = ends l ++ ends m) by (intros l m; unfold ends; now rewrite map_app, filter_app).
  split; [|split; [|split]].
  - unfold gstep. rewrite GO. unfold end_line. rewrite FL. cbn [with_server say au_lines]. rewrite SN, E. reflexivity.
  - intros fault TO. unfold gstep. rewrite GO. cbv zeta. unfold op_lines, vstep. rewrite AL, TO. cbn [negb andb fold_left die mk_server sv_alive].
    unfold ended, end_line. cbn [with_server au_flag]. rewrite FL. cbn [say au_lines]. rewrite SN. cbn [with_server au_lines]. rewrite E. reflexivity.
  - intros reason desc lang env fault B1 B2 L1 L2 L3.
    pose proof (disconnect_parsed reason desc lang L1 L2 L3) as PD.
    set (payload := enc [FU32 reason; FString desc; FString lang]) in *.
    assert (DIE : vstep cfg sid (OPacket MSG_DISCONNECT payload env) (au_server s) = die (au_server s)).
    { unfold vstep. rewrite AL. cbn [negb]. unfold Packet. cbv zeta.
      change (MSG_DISCONNECT =? MSG_DISCONNECT) with true. change (ShouldProxy MSG_DISCONNECT) with false.
      change (MSG_DISCONNECT =? MSG_GLOBAL_REQUEST) with false. change (MSG_DISCONNECT =? MSG_CHANNEL_OPEN) with false.
      change (MSG_DISCONNECT =? MSG_CHANNEL_REQUEST) with false. cbv iota.
      assert (PR : forall t : server, (if sv_proxy t && false then emit [VForward (MSG_DISCONNECT :: payload)] t else die t) = die t)
        by (intro t; now rewrite andb_false_r).
      assert (CH : forall t : server, (if sv_channels t && ac_authenticated (sv_account t)
        then if sv_proxy t && false then emit [VForward (MSG_DISCONNECT :: payload)] t else die t
        else if sv_proxy t && false then emit [VForward (MSG_DISCONNECT :: payload)] t else die t) = die t)
        by (intro t; rewrite PR; destruct (_ && _); reflexivity).
      destruct (sv_user_auth (au_server s)); [|apply CH].
      unfold UserAuthPacket. change (IsAllowedWhileOccupied MSG_DISCONNECT) with true. rewrite andb_false_r.
      change (MSG_DISCONNECT =? MSG_SERVICE_REQUEST) with false. change (MSG_DISCONNECT =? MSG_USERAUTH_REQUEST) with false. cbv iota.
      apply CH. }
    unfold gstep. rewrite GO. cbv zeta. unfold op_lines. rewrite DIE, AL. cbn [negb andb fold_left die mk_server sv_alive].
    unfold ended. change (MSG_DISCONNECT =? MSG_DISCONNECT) with true. cbv iota. rewrite PD. unfold end_line. cbn [with_server au_flag].
    rewrite FL. unfold destroy. cbn [disconnect_description au_flag au_lines say]. rewrite SN. cbn [with_server au_lines]. rewrite E. reflexivity.
  - intros fault. unfold gstep. rewrite GO. cbv zeta. unfold op_lines, vstep. rewrite AL. cbn [negb andb fold_left die mk_server sv_alive].
    unfold ended, destroy. destruct fault; cbn [say with_server au_flag]; rewrite FL; cbn [say with_server au_lines]; rewrite ?SN;
      cbn [with_server au_lines]; rewrite ?SN, E; reflexivity.
Qed.
Print Assumptions C89_reason.

(** "Accepted client address" gives the address which was vouched for by a
    signature of an authorized host, and from there on every line is marked
    with it. *)
Theorem C89_address :
  forall cfg x session_id peer_address domain ops op, Forall gop_ok ops ->
  let s := grun cfg x session_id peer_address domain ops in
  forall added d address, au_lines (gstep cfg x session_id op s) = au_lines s ++ added -> In (d, LAddress address) added ->
  exists w payload fault, op = GOp (OAuth w) fault /\ sv_busy (au_server s) = Checking payload /\
    claims_address cfg session_id payload address.
Proof.
  intros cfg x sid peer dom ops op F s added d address E I. pose proof (ok_good _ _ _ (grun_ok cfg x sid peer dom ops F)) as G. fold s in G.
  destruct (gstep_tells cfg x sid op s) as [[tail [S [NT _]]]].
  assert (IL : In (LAddress address) (step_lines cfg sid op s ++ tail)).
  { assert (X : map snd (au_lines (gstep cfg x sid op s)) = map snd (au_lines s) ++ (step_lines cfg sid op s ++ tail)).
    { change (au_lines (gstep cfg x sid op s)) with (snd (seen (gstep cfg x sid op s))). rewrite S. apply talk_lines. }
    rewrite E, map_app in X. apply app_inv_head in X. rewrite <- X. change (LAddress address) with (snd (d, LAddress address)). now apply in_map. }
  apply in_app_or in IL as [IS|IL].
  2:{ exfalso. rewrite Forall_forall in NT. specialize (NT _ IL). discriminate NT. }
  unfold step_lines in IS. destruct (au_gone s); [destruct IS|]. destruct op as [op fault| | |]; try destruct IS.
  destruct (checking_dec op (au_server s)) as [(w & payload & -> & AL & B)|N].
  - destruct (checking_facts cfg (au_server s) payload G AL B) as [OK _]. unfold op_lines in IS. rewrite AL, B in IS.
    pose proof (request_told cfg w sid payload (sv_account (au_server s)) OK) as RT. rewrite Forall_forall in RT.
    exists w, payload, fault. split; [reflexivity|]. split; [exact B|]. exact (RT _ IS).
  - exfalso. unfold op_lines in IS. destruct (sv_alive (au_server s)) eqn:AL; [|destruct IS].
    destruct op as [|msg p0 env|w|ok| | | | | | | | | |]; try (destruct IS).
    + destruct (sv_busy (au_server s)) eqn:B; try (destruct IS). exact (N w payload eq_refl eq_refl eq_refl).
    + destruct ok; [|destruct IS]. destruct (sv_busy (au_server s)); [destruct IS|destruct IS|].
      destruct IS as [Z|[]]. discriminate Z.
Qed.
Print Assumptions C89_address.

Theorem C89_address_marks :
  forall cfg x session_id peer_address domain ops before d address after,
  au_lines (grun cfg x session_id peer_address domain ops) = before ++ (d, LAddress address) :: after ->
  (forall other, ~ In (LAddress other) (map snd after)) ->
  Forall (fun e => exists user, fst e = address ++ user) after.
Proof.
  intros cfg x sid peer dom ops before d address after E N.
  destruct (grun_talk cfg x sid peer dom ops) as (ls & T). apply (f_equal snd) in T. cbn [seen snd] in T. rewrite E in T.
  destruct (talk_cut _ _ _ _ _ _ _ (eq_sym T)) as (l1 & l2 & -> & ->). cbn [next_domain] in *.
  apply talk_prefix; [exists []; now rewrite app_nil_r|]. apply Forall_forall. intros l I.
  destruct l; try exact Logic.I. exfalso. apply (N address0). rewrite talk_lines. exact I.
Qed.
Print Assumptions C89_address_marks.

(** ** What a quoted text is

    User names, services, methods and addresses are written in a way which
    does not allow control characters and which can be read back. *)
Theorem C89_quoted :
  forall x s, bytes_ok s ->
  Forall (visible x) (quote x s) /\
  forall s' rest rest', bytes_ok s' -> quote x s ++ rest = quote x s' ++ rest' -> s = s' /\ rest = rest'.
Proof. intros x s B. split; [now apply quote_visible|]. intros s' r r' B'. now apply quote_inj. Qed.
Print Assumptions C89_quoted.

(** Two lines about two users are different. *)
Theorem C89_users_differ :
  forall x u u' b b', bytes_ok u -> bytes_ok u' -> u <> u' ->
  format x (LAcceptedKey u b) <> format x (LAcceptedKey u' b') /\
  format x (LAcceptedHost u b) <> format x (LAcceptedHost u' b') /\
  format x (LAcceptedPassword u) <> format x (LAcceptedPassword u') /\
  format x (LRejected u) <> format x (LRejected u') /\
  format x (LFailedPassword u) <> format x (LFailedPassword u').
Proof.
  intros x u u' b b' B B' N. cbn [format]. repeat split; intro E; apply app_inv_head in E;
    rewrite <- (app_nil_r (quote x u)), <- (app_nil_r (quote x u')), <- ?app_assoc in E;
    apply quote_inj in E as [E _]; auto.
Qed.
Print Assumptions C89_users_differ.

(** ** Who writes lines *)

(** Every line of the text is one of the messages. *)
Definition C89_full_statement : Prop :=
  forall cfg x session_id peer_address domain ops, texts_ok x -> one_line domain -> Forall gop_ok ops ->
  let s := grun cfg x session_id peer_address domain ops in
  forall r, In r (records (log_text x (au_lines s))) -> exists e, In e (au_lines s) /\ r = record_of x e.

(** If no text which is logged as it was received contains a newline, there is
    one line for each message, in the same order. *)
Theorem C89_lines_partial :
  forall cfg x session_id peer_address domain ops, texts_ok x -> one_line domain ->
  let s := grun cfg x session_id peer_address domain ops in
  Forall (fun e => one_line (raw_text (snd e))) (au_lines s) ->
  records (log_text x (au_lines s)) = map (record_of x) (au_lines s).
Proof.
  intros cfg x sid peer dom ops T D s R. apply records_text; [exact T|]. destruct (grun_domains cfg x sid peer dom ops D R) as [_ F]. fold s in F.
  rewrite Forall_forall in *. auto.
Qed.
Print Assumptions C89_lines_partial.

(** A client who has not logged in adds any line it likes with one packet. *)
Theorem C89_forged_refuted :
  forall cfg x session_id peer_address domain forged, texts_ok x -> one_line domain ->
  one_line forged -> bytes_ok forged -> forged <> [] -> (List.length forged <= 2000)%nat ->
  exists op, gop_ok op /\
  let s := grun cfg x session_id peer_address domain [op] in
  logins (sv_log (au_server s)) = [] /\ au_lines s = [(domain, LClientDisconnected (10 :: forged))] /\
  In forged (records (log_text x (au_lines s))).
Proof.
  intros cfg x sid peer dom forged T D O B N L.
  assert (LF : len (10 :: forged) < pow32).
  { unfold len. cbn [List.length]. apply N.le_lt_trans with 2001; [lia|reflexivity]. }
  assert (PD := disconnect_parsed 11 (10 :: forged) [] eq_refl LF eq_refl).
  assert (BO : bytes_ok (enc [FU32 11; FString (10 :: forged); FString []])).
  { apply disconnect_bytes; [constructor; [reflexivity|exact B]|constructor]. }
  exists (GOp (OPacket MSG_DISCONNECT (enc [FU32 11; FString (10 :: forged); FString []]) demo_env) false).
  split; [exact BO|].
  set (op := GOp _ false). cbv zeta. unfold grun. cbn [fold_left].
  assert (E : au_lines (gstep cfg x sid op (new_audit peer dom)) = [(dom, LClientDisconnected (10 :: forged))]).
  { unfold op. set (payload := enc _) in *. unfold gstep. cbn [new_audit au_gone au_server]. cbv zeta.
    change (vstep cfg sid (OPacket MSG_DISCONNECT payload demo_env) (new_server peer)) with (die (new_server peer)).
    change (sv_alive (new_server peer) && negb (sv_alive (die (new_server peer)))) with true. cbv iota.
    change (op_lines cfg sid (OPacket MSG_DISCONNECT payload demo_env) (new_server peer)) with (@nil line). cbn [fold_left].
    unfold ended. change (MSG_DISCONNECT =? MSG_DISCONNECT) with true. cbv iota. rewrite PD. reflexivity. }
  split.
  { destruct (gstep_server cfg x sid op (new_audit peer dom)) as (o & _ & [-> | ->] & EQ); [reflexivity|]. unfold op in EQ. subst o. reflexivity. }
  split; [exact E|]. rewrite E. unfold log_text. cbn [flat_map]. rewrite app_nil_r. unfold written. cbn [fst snd format].
  rewrite firstn_all2.
  2:{ rewrite app_length. change (List.length (bs "Client disconnected: ")) with 21%nat. cbn [List.length]. unfold LINE_MAX.
      apply Nat.le_trans with 2030%nat; [lia|]. apply Nat.leb_le. reflexivity. }
  rewrite <- !app_assoc. cbn [List.app]. rewrite app_assoc.
  rewrite records_line.
  - right. rewrite records_line by assumption. now left.
  - apply one_line_app; [apply T; exact D|apply one_line_b; reflexivity].
  - intro Z. apply app_eq_nil in Z as [_ Z]. discriminate.
Qed.
Print Assumptions C89_forged_refuted.

Definition plain_texts : texts := {| tx_printable := fun _ => false; tx_prefix := fun d => d ++ bs ": "; tx_key := fun _ => bs "ssh-ed25519 SHA256:..." |}.
Lemma plain_texts_ok : texts_ok plain_texts.
Proof. split; [intros d O; apply one_line_app; [exact O|]|intros blob]; apply one_line_b; reflexivity. Qed.

Theorem C89_refuted : ~ C89_full_statement.
Proof.
  intro H. destruct (C89_forged_refuted (demo_config true) plain_texts demo_session_id [] (bs "192.0.2.1")
    (bs "192.0.2.7: Accepted password for ""root""")) as (op & OK & _ & L & I).
  - apply plain_texts_ok.
  - apply one_line_b. reflexivity.
  - apply one_line_b. reflexivity.
  - repeat (constructor; [reflexivity|]). constructor.
  - discriminate.
  - apply Nat.leb_le. reflexivity.
  - destruct (H (demo_config true) plain_texts demo_session_id [] (bs "192.0.2.1") [op] plain_texts_ok) with (3 := I) as (e & IE & E).
    + apply one_line_b. reflexivity.
    + constructor; [exact OK|constructor].
    + rewrite L in IE. destruct IE as [<-|[]].
      assert (X : hd 0 (skipn 9 (bs "192.0.2.7: Accepted password for ""root""")) = hd 0 (skipn 9 (bs "192.0.2.1: Client"))).
      { rewrite E. reflexivity. }
      discriminate.
Qed.
Print Assumptions C89_refuted.

(** ** What "password" means *)

(** "Accepted password for user" is written for a request with a password. *)
Definition C89_password_full_statement : Prop :=
  forall cfg x session_id peer_address domain ops w fault payload user d added, Forall gop_ok ops ->
  let s := grun cfg x session_id peer_address domain ops in
  sv_busy (au_server s) = Checking payload ->
  au_lines (gstep cfg x session_id (GOp (OAuth w) fault) s) = au_lines s ++ added -> In (d, LAcceptedPassword user) added ->
  exists password, payload = enc (password_request user password).

Definition demo_ops (payload : bytes) : list gop := map (fun op => GOp op false) (demo_start ++ [OPacket MSG_USERAUTH_REQUEST payload demo_env]).

(** carol sends "none". *)
Theorem C89_password_refuted : ~ C89_password_full_statement.
Proof.
  intro H. set (dom := bs "192.0.2.1").
  assert (E : exists d added, au_lines (gstep (demo_config true) plain_texts demo_session_id (GOp (OAuth demo_world) false)
      (grun (demo_config true) plain_texts demo_session_id [] dom (demo_ops (demo_none_request (bs "carol"))))) =
    au_lines (grun (demo_config true) plain_texts demo_session_id [] dom (demo_ops (demo_none_request (bs "carol")))) ++ added /\
    In (d, LAcceptedPassword (bs "carol")) added).
  { eexists. eexists. split; [vm_compute; reflexivity|]. right. left. reflexivity. }
  destruct E as (d & added & E & I).
  destruct (H (demo_config true) plain_texts demo_session_id [] dom (demo_ops (demo_none_request (bs "carol"))) demo_world false
    (demo_none_request (bs "carol")) (bs "carol") d added) as (password & P); [|reflexivity|exact E|exact I|].
  - repeat (constructor; [first [exact Logic.I|repeat (constructor; [reflexivity|]); constructor]|]). constructor.
  - apply (f_equal (firstn 36)) in P. discriminate.
Qed.
Print Assumptions C89_password_refuted.

(** A failed password (after which the key is rejected as well, see C35), a
    login with a key and one with a password; the end by a
    timeout, by the client and by the destructor. *)
Definition demo_log (payloads : list bytes) (last : list gop) : list (bytes * line) :=
  au_lines (grun (demo_config true) plain_texts demo_session_id [] (bs "192.0.2.1")
    (map (fun op => GOp op false) (demo_start ++ flat_map demo_attempt payloads) ++ last)).
Example C89_demo :
  map snd (demo_log [demo_password_request (bs "alice") (bs "wrong"); demo_key_request (bs "alice") (bs "KEY"); demo_key_request (bs "far") (bs "KEY")]
    [GOp (OPacket MSG_DISCONNECT (enc [FU32 11; FString (bs "bye"); FString []]) demo_env) false; GDestroy]) =
    [LUserauth (bs "alice") CONNECTION PASSWORD; LFailedPassword (bs "alice");
     LUserauth (bs "alice") CONNECTION PUBLICKEY; LRejected (bs "alice");
     LUserauth (bs "far") CONNECTION PUBLICKEY; LAcceptedKey (bs "far") (bs "KEY"); LClientDisconnected (bs "bye")] /\
  map fst (demo_log [demo_key_request (bs "alice") (bs "KEY")] [GDestroy]) =
    [bs "192.0.2.1"; bs "192.0.2.1"; bs "192.0.2.1 user=""alice"""] /\
  map snd (demo_log [] [GOp OTimeout false; GDestroy]) = [LTimeout] /\
  map snd (demo_log [] [GTerminate; GDestroy]) = [LTerminating] /\
  records (log_text plain_texts (demo_log [demo_password_request (bs "alice") (bs "secret")] [GOp OClose true])) =
    [bs "192.0.2.1: Userauth ""alice"" service=""ssh-connection"" method=""password"""; bs "192.0.2.1: Accepted password for ""alice""";
     bs "192.0.2.1 user=""alice"": Error"; bs "192.0.2.1 user=""alice"": Disconnected"].
Proof. repeat split; vm_compute; reflexivity. Qed.

(** A proxy whose key is authorized tells the address of its client. *)
Definition demo_proxied : config :=
  let c := demo_config true in
  {| cf_translation_server := true; cf_authorized_host_keys := cf_authorized_host_keys c; cf_global_keys := [];
     cf_accept_client_address := true; cf_exec_reject_stderr := false; cf_verbose_errors := false;
     cf_proxy_to := cf_proxy_to c; cf_openssl := true; cf_base64 := cf_base64 c; cf_parse_key := cf_parse_key c;
     cf_verify := cf_verify c; cf_parse_address := cf_parse_address c |}.
Example C89_address_demo :
  let r := host_request (bs "alice") (bs "ssh-ed25519") (bs "HOST") (bs "proxy.example") (bs "alice@198.51.100.7") in
  au_lines (grun demo_proxied plain_texts demo_session_id [] (bs "192.0.2.1")
    (map (fun op => GOp op false) (demo_start ++
      demo_attempt (enc (r ++ [FString (toy_sign (bs "HOST") (signed_data demo_session_id r))]))) ++ [GTerminate])) =
  [(bs "192.0.2.1", LUserauth (bs "alice") CONNECTION HOSTBASED); (bs "192.0.2.1", LAddress (bs "198.51.100.7"));
   (bs "198.51.100.7", LAcceptedHost (bs "alice") (bs "HOST")); (bs "198.51.100.7 user=""alice""", LTerminating)] /\
  quote plain_texts [97; 34; 10; 127; 27; 200] = bs """a\""\n\x7f\x1b\xc8""".
Proof. split; vm_compute; reflexivity. Qed.
