(** * C72: the conversation with the translation server is exact *)

From Coq Require Import NArith List Bool Lia String.
From Verif.Base Require Import Bytes.
From Verif.Spec Require Import TranslateSpec.
From Verif.Model Require Import TranslateClient.
From Verif.Proofs Require Import TranslateFacts.
Import ListNotations.
Open Scope N_scope.

Local Arguments take : simpl never.
Local Arguments drop : simpl never.
Local Arguments bs : simpl never.

(** The packets of a login request *)
Definition login_request (code : tcommand -> N) (tag : option bytes) (user : bytes) (password : option bytes) (peek : bool) : list tpacket :=
  [(code TBEGIN, []); (code TLOGIN, []); (code TSERVICE, bs "ssh")]
  ++ match tag with Some t => [(code TLISTENER_TAG, t)] | None => [] end
  ++ [(code TUSER, user)]
  ++ match password with Some p => [(code TPASSWORD, p)] | None => [] end
  ++ (if peek then [(code TPEEK, [])] else [])
  ++ [(code TEND, [])].

Definition option_ok (o : option bytes) : Prop := match o with Some b => bytes_ok b | None => True end.
Definition option_len (o : option bytes) : N := match o with Some b => len b | None => 0 end.

(** The request consists of exactly these packets, whatever bytes the user name
    and the password consist of; a password of more than 256 bytes is refused;
    the buffer is large enough.  The configuration file limits the tag, and the
    server limits the user name to 255 bytes. *)
Theorem C72_request :
  forall code tag user password peek,
  (forall c, code c < 65536) -> bytes_ok user -> option_ok tag -> option_ok password ->
  option_len tag <= 256 -> len user <= 256 ->
  (256 < option_len password -> SendTranslateLogin code (bs "ssh") tag user password peek = TooLong) /\
  (option_len password <= 256 -> exists b, SendTranslateLogin code (bs "ssh") tag user password peek = Sent b /\
    carries b (login_request code tag user password peek)).
Proof.
  intros code tag user password peek CO OU OT OP LT LU.
  assert (SU : 256 <? len user = false) by (apply N.ltb_ge; exact LU).
  split; intro LP.
  - unfold SendTranslateLogin. rewrite SU. destruct password as [p|]; cbn [option_len] in LP; [|lia]. now rewrite (proj2 (N.ltb_lt _ _) LP).
  - unfold SendTranslateLogin. rewrite SU.
    assert (SP : match password with Some p => 256 <? len p | None => false end = false).
    { destruct password; [|reflexivity]. now apply N.ltb_ge. }
    rewrite SP. clear SP SU.
    assert (SV : len (bs "ssh") = 3) by reflexivity.
    assert (C : forall c p, len p < 65536 -> WritePacket code c p = tpackets_bytes [(code c, p)]).
    { intros c p L. rewrite tpackets_one. now apply WritePacket_bytes. }
    set (b := WritePacket code TBEGIN [] ++ _).
    assert (E : b = tpackets_bytes (login_request code tag user password peek)).
    { unfold b, login_request. change [(code TBEGIN, []); (code TLOGIN, []); (code TSERVICE, bs "ssh")] with
        ([(code TBEGIN, [])] ++ [(code TLOGIN, [])] ++ [(code TSERVICE, bs "ssh")]). rewrite <- !app_assoc, !tpackets_app.
      rewrite !C by (rewrite ?SV, ?len_nil; lia).
      repeat f_equal.
      - destruct tag as [t|]; [apply C; cbn in LT; lia|reflexivity].
      - destruct password as [p|]; [apply C; cbn in LP; lia|reflexivity].
      - destruct peek; reflexivity. }
    assert (L : len b <= 1024).
    { rewrite E. unfold login_request. cbn [app]. rewrite !tpackets_cons, !tpackets_app, !tpackets_cons, !tpackets_app, !len_app, !tpackets_one, !len_tpacket. cbn [snd].
      rewrite SV, !len_nil. destruct tag as [t|], password as [p|], peek; cbn [option_len] in *; rewrite ?tpackets_cons, ?tpackets_app, ?tpackets_one, ?len_app, ?len_tpacket; cbn [snd];
        rewrite ?len_nil; unfold tpackets_bytes; cbn [map List.concat]; rewrite ?len_app, ?len_tpacket, ?len_nil; cbn [snd]; rewrite ?len_nil; lia. }
    rewrite (proj2 (N.ltb_ge _ _) L). exists b. split; [reflexivity|]. split; [|exact E].
    assert (ONE : forall c p, len p < 65536 -> bytes_ok p -> Forall tpacket_ok [(code c, p)]) by (intros c p L1 O1; constructor; [split; [apply CO|split; assumption]|constructor]).
    assert (NIL : forall c, Forall tpacket_ok [(code c, [])]) by (intro c; apply ONE; [rewrite len_nil; lia|constructor]).
    unfold login_request. change [(code TBEGIN, []); (code TLOGIN, []); (code TSERVICE, bs "ssh")] with
        ([(code TBEGIN, [])] ++ [(code TLOGIN, [])] ++ [(code TSERVICE, bs "ssh")]). rewrite !Forall_app.
    assert (F1 : Forall tpacket_ok match tag with Some t => [(code TLISTENER_TAG, t)] | None => [] end).
    { destruct tag; [apply ONE; [cbn in LT; lia|exact OT]|constructor]. }
    assert (F2 : Forall tpacket_ok match password with Some t => [(code TPASSWORD, t)] | None => [] end).
    { destruct password; [apply ONE; [cbn in LP; lia|exact OP]|constructor]. }
    assert (F3 : Forall tpacket_ok (if peek then [(code TPEEK, [])] else [])) by (destruct peek; [apply NIL|constructor]).
    assert (F4 : Forall tpacket_ok [(code TUSER, user)]) by (apply ONE; [lia|exact OU]).
    assert (F5 : Forall tpacket_ok [(code TSERVICE, bs "ssh")]) by (apply ONE; [lia|apply bs_ok]).
    pose proof (NIL TBEGIN). pose proof (NIL TLOGIN). pose proof (NIL TEND). tauto.
Qed.
Print Assumptions C72_request.

(** Therefore different logins are different requests. *)
Theorem C72_request_distinct :
  forall code tag user password peek tag' user' password' peek' b,
  (forall c, code c < 65536) -> (forall c d, code c = code d -> c = d) ->
  bytes_ok user -> option_ok tag -> option_ok password -> bytes_ok user' -> option_ok tag' -> option_ok password' ->
  option_len tag <= 256 -> option_len tag' <= 256 ->
  SendTranslateLogin code (bs "ssh") tag user password peek = Sent b ->
  SendTranslateLogin code (bs "ssh") tag' user' password' peek' = Sent b ->
  tag = tag' /\ user = user' /\ password = password' /\ peek = peek'.
Proof.
  intros code tag user password peek tag' user' password' peek' b CO IN OU OT OP OU' OT' OP' LT LT' S S'.
  assert (X : forall tag user password peek, bytes_ok user -> option_ok tag -> option_ok password -> option_len tag <= 256 ->
    SendTranslateLogin code (bs "ssh") tag user password peek = Sent b -> carries b (login_request code tag user password peek)).
  { clear - CO. intros tag user password peek OU OT OP LT S.
    assert (LU : len user <= 256). { unfold SendTranslateLogin in S. destruct (N.ltb_spec 256 (len user)); [discriminate|assumption]. }
    destruct (C72_request code tag user password peek CO OU OT OP LT LU) as [P1 P2].
    destruct (N.le_gt_cases (option_len password) 256) as [L|L]; [|rewrite (P1 L) in S; discriminate].
    destruct (P2 L) as (b' & E & K). rewrite E in S. injection S as <-. exact K. }
  pose proof (carries_inj b _ _ (X _ _ _ _ OU OT OP LT S) (X _ _ _ _ OU' OT' OP' LT' S')) as E. clear X S S'.
  assert (D : forall c d, c <> d -> code c <> code d) by (intros c d N F; apply N; now apply IN).
  assert (P : forall c d (p q : bytes) (l m : list tpacket), (c, p) :: l = (d, q) :: m -> c = d /\ p = q /\ l = m) by (intros; repeat split; congruence).
  unfold login_request in E.
  destruct tag as [t|], tag' as [t'|], password as [p|], password' as [p'|], peek, peek'; cbn [app] in E;
  repeat match goal with
    | H : _ :: _ = _ :: _ |- _ => apply P in H as (?C & ?Q & H)
    | H : code ?c = code ?d |- _ => first [exfalso; refine (D c d _ H); discriminate | clear H]
    | H : _ :: _ = [] |- _ => discriminate H
    | H : [] = _ :: _ |- _ => discriminate H
    end.
  all: subst; repeat split; reflexivity.
Qed.
Print Assumptions C72_request_distinct.

(** A response which was sent completely is received, with exactly its packets,
    no matter how it was cut into pieces. *)
Theorem C72_response :
  forall (code : tcommand -> N) response handle (r0 r : response) stream ps es,
  complete_response (code TEND) stream ps -> builds handle ps r0 = Some r ->
  ~ In RError es -> ~ In REof es ->
  let x := recv_run code response handle es (recv_start response r0 stream) in
  x = (Returned r, []) \/ exists rd buffer r', fst x = Waiting rd buffer r' /\ snd x <> [].
Proof.
  intros code response handle r0 r stream ps es (NE & e & F & E) B N1 N2 x.
  assert (OB : bytes_ok stream).
  { subst stream. clear - F. induction F as [|[c p] l (H1 & H2 & H3) F IH]; [constructor|]. rewrite tpackets_cons. apply bytes_ok_app. split; [|exact IH].
    unfold tpacket_bytes. cbn [fst snd app] in *. apply Forall_app with (l1 := [_; _; _; _]). split; [|exact H3]. repeat constructor; try (now apply N.mod_lt); now apply div256. }
  pose proof (recv_run_received code response handle stream r0 es OB) as R. fold x in R.
  destruct x as [s rest]. destruct R as (got & G & [(qs & FQ & NQ & K)|(_ & [K|K])]); [|contradiction|contradiction].
  (* no packet of [qs] is the last one of the response *)
  assert (PRE : forall ks t, Forall tpacket_ok ks -> stream = tpackets_bytes ks ++ t -> (exists more, ps ++ [(code TEND, e)] = ks ++ more /\ t = tpackets_bytes more) \/
    exists more, ks = (ps ++ [(code TEND, e)]) ++ more /\ [] = tpackets_bytes more ++ t).
  { intros ks t FK EK. rewrite E in EK. rewrite <- (app_nil_r (tpackets_bytes _)) in EK.
    destruct (tpackets_split _ _ _ _ F FK EK) as [(m & -> & M)|(m & M1 & ->)]; [right; now exists m|left; exists m; split; [exact M1|now rewrite app_nil_r]]. }
  assert (PS : forall k more, not_end code k -> ps ++ [(code TEND, e)] = k ++ more -> exists m, ps = k ++ m /\ more = m ++ [(code TEND, e)]).
  { intros k more NK EM. revert ps B NE F E PRE EM. induction k as [|a k IHk]; intros ps B NE F E PRE EM; [exists ps; now split|].
    destruct ps as [|b ps].
    - cbn in EM. injection EM as <- _. exfalso. apply (NK (code TEND, e)); [now left|reflexivity].
    - cbn [app] in EM. injection EM as <- EM.
      assert (X : exists m, ps = k ++ m /\ more = m ++ [(code TEND, e)]).
      { clear - NK EM. revert ps EM. induction k as [|c k IH]; intros ps EM; [exists ps; now split|]. destruct ps as [|d ps].
        - cbn in EM. injection EM as <- _. exfalso. apply (NK (code TEND, e)); [right; now left|reflexivity].
        - cbn [app] in EM. injection EM as <- EM. destruct (IH) with (ps := ps) as (m & -> & ->); [|exact EM|now exists m].
          intros p [<-|I]; apply NK; [now left|right; now right]. }
      destruct X as (m & -> & ->). now exists m. }
  destruct s as [rd b r'|r'|]; cbn [fst snd].
  - right. exists rd, b, r'. split; [reflexivity|]. intros ->. rewrite app_nil_r in G. subst got. destruct K as (ST & EK & BK).
    destruct (PRE qs (unread rd b) FQ EK) as [(more & M1 & M2)|(more & M1 & M2)].
    + destruct (PS qs more NQ M1) as (m & -> & ->). rewrite tpackets_app in M2.
      (* the unread bytes contain a whole packet *)
      assert (exists q t, tpacket_ok q /\ unread rd b = tpacket_bytes q ++ t) as (q & t & OQ & UQ).
      { assert (FM : Forall tpacket_ok (m ++ [(code TEND, e)])) by (rewrite <- app_assoc in F; now apply Forall_app in F as [_ F]).
        destruct m as [|q m].
        - exists (code TEND, e), []. split; [now inversion FM|]. rewrite M2. cbn [app]. unfold tpackets_bytes. cbn. now rewrite !app_nil_r.
        - exists q, (tpackets_bytes m ++ tpackets_bytes [(code TEND, e)]). split; [now inversion FM|]. now rewrite M2, tpackets_cons, <- app_assoc. }
      destruct ST as [OK SB]. destruct rd as [|c n have|c p].
      * cbn [unread] in UQ. subst b. rewrite len_app, len_tpacket in SB. lia.
      * subst b. cbn [unread] in UQ. rewrite app_nil_r in UQ. destruct OK as (C1 & C2 & C3 & _). destruct q as [d p]. destruct OQ as (D1 & D2 & _). cbn [fst snd] in *.
        unfold header, tpacket_bytes in UQ. cbn [fst snd app] in UQ. injection UQ as U1 U2 U3 U4 U5.
        assert (n = len p) by (rewrite (N.div_mod n 256), (N.div_mod (len p) 256) by discriminate; congruence).
        rewrite U5, len_app in C3. lia.
      * cbn [unread] in UQ. subst b. rewrite len_app, len_tpacket in SB. lia.
    + exfalso. apply (NQ (code TEND, e)); [rewrite M1; apply in_or_app; left; apply in_or_app; right; now left|reflexivity].
  - left. destruct K as (e' & OE & EK & BK). subst got.
    assert (FK : Forall tpacket_ok (qs ++ [(code TEND, e')])) by (apply Forall_app; split; [exact FQ|now constructor]).
    destruct (PRE _ _ FK G) as [(more & M1 & ->)|(more & M1 & M2)].
    + rewrite <- app_assoc in M1. destruct (PS qs _ NQ M1) as (m & -> & M3). destruct m as [|q m].
      * cbn [app] in M3. injection M3 as _ ->. rewrite app_nil_r in B. f_equal. f_equal. congruence.
      * exfalso. cbn [app] in M3. injection M3 as <- _. apply (NE (code TEND, e')); [apply in_or_app; right; now left|reflexivity].
    + symmetry in M2. apply app_eq_nil in M2 as [M2 ->]. assert (more = []) as -> by (destruct more as [|[? ?] ?]; [reflexivity|discriminate]).
      rewrite app_nil_r in M1. apply app_inj_tail in M1 as [-> _]. f_equal. f_equal. congruence.
  - exfalso. destruct K as (r1 & BK & q & t & OQ & EK & D). subst got. rewrite <- app_assoc in G.
    assert (FK : Forall tpacket_ok (qs ++ [q])) by (apply Forall_app; split; [exact FQ|now constructor]).
    destruct (PRE _ _ FK G) as [(more & M1 & M2)|(more & M1 & M2)].
    + rewrite <- app_assoc in M1. destruct (PS qs _ NQ M1) as (m & -> & M3). destruct m as [|q' m].
      * cbn [app] in M3. injection M3 as -> ->. apply app_eq_nil in M2 as [-> _]. cbn [fst] in D. destruct D as [[_ D]|[D _]]; now apply D.
      * cbn [app] in M3. injection M3 as -> _. destruct D as [[D _]|[_ D]].
        -- apply (NE q'); [apply in_or_app; right; now left|exact D].
        -- rewrite builds_app, BK in B. destruct q' as [c p]. cbn [builds fst snd] in *. rewrite D in B. discriminate.
    + symmetry in M2. apply app_eq_nil in M2 as [M2 M3]. apply app_eq_nil in M3 as [-> ->].
      assert (more = []) as -> by (destruct more as [|[? ?] ?]; [reflexivity|discriminate]).
      rewrite app_nil_r in M1. apply app_inj_tail in M1 as [_ ->]. cbn [fst] in D. destruct D as [[_ D]|[D _]]; now apply D.
Qed.
Print Assumptions C72_response.

(** A response is never accepted before all of it is there: if the server hangs
    up in the middle of it, or there is an error, the login fails. *)
Theorem C72_response_whole :
  forall (code : tcommand -> N) response handle (r0 r : response) stream rest es, bytes_ok stream ->
  recv_run code response handle es (recv_start response r0 stream) = (Returned r, rest) ->
  exists got ps, stream = got ++ rest /\ complete_response (code TEND) got ps /\ builds handle ps r0 = Some r.
Proof.
  intros code response handle r0 r stream rest es OB E.
  pose proof (recv_run_received code response handle stream r0 es OB) as R. rewrite E in R.
  destruct R as (got & G & [(qs & FQ & NQ & e & OE & EK & B)|(K & _)]); [|discriminate].
  exists got, qs. split; [exact G|]. split; [|exact B]. split; [exact NQ|]. exists e. split; [|exact EK]. apply Forall_app. split; [exact FQ|now constructor].
Qed.
Print Assumptions C72_response_whole.

(** a small set of numbers for the examples *)
Definition demo_code (c : tcommand) : N :=
  match c with TBEGIN => 1 | TEND => 2 | TLOGIN => 10 | TSERVICE => 11 | TLISTENER_TAG => 12 | TUSER => 13 | TPASSWORD => 14 | TPEEK => 15 end.

(** what the response is, for the examples: all the packets *)
Definition demo_handle (c : N) (p : bytes) (r : list tpacket) : option (list tpacket) := Some (r ++ [(c, p)]).

(** Full statement: whether a response is accepted does not depend on the pieces
    in which it arrives. *)
Definition C72_pieces_full_statement : Prop :=
  forall (code : tcommand -> N) response handle (r0 r : response) stream es es',
  fst (recv_run code response handle es (recv_start response r0 stream)) = Returned r ->
  fst (recv_run code response handle es' (recv_start response r0 stream)) = Failed -> In RError es' \/ In REof es'.

(** Data behind the end of a response is an error only if it arrives together
    with the end; otherwise it is not looked at.  [C72_response] is the statement
    for responses without such data. *)
Theorem C72_pieces_refuted : ~ C72_pieces_full_statement.
Proof.
  intro H. specialize (H demo_code (list tpacket) demo_handle [] [(1, [])] (tpackets_bytes [(1, []); (2, [])] ++ [7]) [RData 8] [RData 9]).
  specialize (H ltac:(vm_compute; reflexivity) ltac:(vm_compute; reflexivity)). destruct H as [[H|[]]|[H|[]]]; discriminate.
Qed.
Print Assumptions C72_pieces_refuted.

(** A request and a response in several pieces *)
Example C72_demo_request :
  SendTranslateLogin demo_code (bs "ssh") (Some (bs "sftp")) (bs "alice") (Some (bs "secret")) false =
    Sent ([0; 0; 1; 0; 0; 0; 10; 0; 3; 0; 11; 0] ++ bs "ssh" ++ [4; 0; 12; 0] ++ bs "sftp" ++ [5; 0; 13; 0] ++ bs "alice" ++ [6; 0; 14; 0] ++ bs "secret" ++ [0; 0; 2; 0]).
Proof. vm_compute. reflexivity. Qed.

Example C72_demo_response :
  let ps := [(1, [3]); (100, bs "/home/alice"); (101, [])] in
  complete_response (demo_code TEND) (tpackets_bytes (ps ++ [(2, [])])) ps /\ builds demo_handle ps [] = Some ps /\
  recv_run demo_code (list tpacket) demo_handle [RData 3; RAgain; RData 5; RData 1; RData 9; RAgain; RData 100]
    (recv_start _ [] (tpackets_bytes (ps ++ [(2, [])]))) = (Returned ps, []).
Proof.
  split; [|split; vm_compute; reflexivity]. split.
  - intros p [<-|[<-|[<-|[]]]]; discriminate.
  - exists []. split; [|reflexivity]. repeat constructor; cbn; lia.
Qed.
