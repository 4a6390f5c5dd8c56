(** After its connection is gone, a job comes to rest. *)

From Coq Require Import NArith List Bool Lia Arith.
From Verif.Base Require Import Bytes.
From Verif.Model Require Import Queue Output.
From Verif.Model Require Input Lifetime.
From Verif.Proofs Require Import OutputFacts.
From Verif.Proofs Require InputFacts.
Import ListNotations.
Open Scope N_scope.

Section OutputEnds.
Variable C : Type.
Variable encrypt : C -> N -> bytes -> option (C * bytes).
Notation ostate := (ostate C).
Notation step := (step C encrypt).

(** the steps which do not need the connection *)
Definition detached (o : op C) : Prop :=
  match o with RunBegin _ | RunEncrypt _ | RunEnd _ | Wakeup _ => True | _ => False end.

Inductive winds : ostate -> list (op C) -> ostate -> Prop :=
| winds_nil : forall s, winds s [] s
| winds_cons : forall s o s1 b l s2, detached o -> step s o = Ok C s1 b -> winds s1 l s2 -> winds s (o :: l) s2.

Definition sound (s : ostate) : Prop :=
  (o_next_cipher C s = None -> o_next_plain C s = []) /\
  (o_cipher C s = None -> o_plain C s = [] /\ srcs C s = []) /\
  (if o_encrypted C s then (o_cipher C s = None -> o_next_cipher C s <> None)
   else o_cipher C s = None /\ o_next_cipher C s = None /\ o_job C s = JInitial).

Ltac fin := cbn in *; intuition (try congruence; try discriminate).

Lemma sound_step : forall s o s' b, sound s -> step s o = Ok C s' b -> sound s'.
Proof.
  intros s o s' b (A & B & D) H. destruct s as [sq ci nc en pe pl np ec er ar jo ag]. unfold sound, srcs in *. cbn in A, B, D.
  destruct o as [c| |p|k| | | |]; cbn [Output.step] in H.
  - injection H as <- _. fin.
  - injection H as <- _. fin.
  - unfold do_Push in H. cbn in H. destruct en.
    + destruct (add_job jo ag) as [j a] eqn:EA.
      assert (J : match j with JBusy src _ => src | _ => [] end = match jo with JBusy src _ => src | _ => [] end).
      { destruct jo; cbn in EA; injection EA as <- <-; reflexivity. }
      destruct nc as [c|]; injection H as <- _; cbn; rewrite J; fin.
    + injection H as <- _. fin.
  - unfold do_Flush in H. cbn in H. destruct (en && er); [discriminate|].
    destruct (if en then _ else _) as [q e0]. destruct (sq_Prepare q 32) as [[|v0 v]|]; [|destruct k as [k|]|discriminate].
    + injection H as <- _. fin.
    + destruct (_ <? _); [discriminate|]. destruct (sq_Consume q k); [|discriminate]. injection H as <- _. fin.
    + injection H as <- _. fin.
  - unfold do_RunBegin in H. cbn in H. destruct jo; try discriminate.
    destruct en; [|fin].
    destruct pl as [|p pl], nc as [c|]; injection H as <- _; fin.
  - unfold do_RunEncrypt in H. cbn in H. destruct jo as [| |[|p src] dest|]; try discriminate. destruct ci as [c|]; [|discriminate].
    destruct en; [|fin].
    destruct (encrypt c sq p) as [[c' x]|]; injection H as <- _; fin.
  - unfold do_RunEnd in H. cbn in H. destruct jo as [| |[|p src] dest|]; try discriminate. injection H as <- _.
    destruct en; fin.
  - unfold do_Wakeup in H. cbn in H. destruct jo; try discriminate. injection H as <- _.
    destruct en, ag; fin.
Qed.

Lemma sound_runs : forall allowed ops s sub w, runs C encrypt allowed ops s sub w -> sound s.
Proof.
  intros allowed ops s sub w H. induction H as [|ops s sub w o s' b H IH _ Hs].
  - repeat split.
  - exact (sound_step s o s' b IH Hs).
Qed.

(** How often Run() will still be called. *)
Definition left_from (pl np : list bytes) : nat := match pl, np with _ :: _, _ :: _ => 2 | _, _ => 1 end.
Definition reruns (s : ostate) : nat :=
  match o_job C s with
  | JInitial => 0
  | JWaiting => if o_again C s then 2 else left_from (o_plain C s) (o_next_plain C s)
  | JBusy _ _ =>
      if o_again C s || match o_plain C s, o_next_plain C s with [], _ :: _ => true | _, _ => false end
      then left_from (o_plain C s) (o_next_plain C s) else 0
  | JDone => if o_again C s then left_from (o_plain C s) (o_next_plain C s) else 0
  end.
Definition phase (s : ostate) : nat :=
  match o_job C s with JInitial => 0 | JWaiting => 0 | JBusy _ _ => 2 | JDone => 1 end.
Definition packets (s : ostate) : nat :=
  (List.length (o_plain C s) + List.length (o_next_plain C s) + List.length (srcs C s))%nat.
Definition weight (s : ostate) : nat := (3 * reruns s + phase s + packets s)%nat.

Lemma weight_step : forall s o s' b, sound s -> detached o -> step s o = Ok C s' b -> (weight s' < weight s)%nat.
Proof.
  intros s o s' b (A & B & D) Dt H. destruct s as [sq ci nc en pe pl np ec er ar jo ag]. cbn in A, B, D.
  unfold weight, reruns, phase, packets, srcs.
  destruct o as [c| |p|k| | | |]; cbn [detached] in Dt; try contradiction; cbn [Output.step] in H.
  - unfold do_RunBegin in H. cbn in H. destruct jo; try discriminate.
    destruct pl as [|p pl], nc as [c|]; injection H as <- _; cbn.
    + destruct ag; cbn; lia.
    + rewrite (A eq_refl). cbn. destruct ag; cbn; lia.
    + destruct ag; cbn; [lia|]. destruct np; cbn; lia.
    + rewrite (A eq_refl). cbn. destruct ag; cbn; lia.
  - unfold do_RunEncrypt in H. cbn in H. destruct jo as [| |[|p src] dest|]; try discriminate. destruct ci as [c|]; [|discriminate].
    destruct (encrypt c sq p) as [[c' x]|]; injection H as <- _; cbn.
    + destruct ag, pl, np; cbn; lia.
    + destruct ag, pl, np; cbn; lia.
  - unfold do_RunEnd in H. cbn in H. destruct jo as [| |[|p src] dest|]; try discriminate. injection H as <- _. cbn.
    destruct ag, pl, np; cbn; lia.
  - unfold do_Wakeup in H. cbn in H. destruct jo; try discriminate. injection H as <- _. cbn.
    destruct ag, pl, np; cbn; lia.
Qed.

Lemma winds_weight : forall s l s', winds s l s' -> sound s -> sound s' /\ (List.length l + weight s' <= weight s)%nat.
Proof.
  intros s l s' H. induction H as [s|s o s1 b l s2 Dt Hs H IH]; intro S; [split; [exact S|cbn [List.length]; lia]|].
  pose proof (weight_step s o s1 b S Dt Hs). destruct (IH (sound_step s o s1 b S Hs)) as (S2 & L). split; [exact S2|]. cbn [List.length]. lia.
Qed.

Lemma weight_bound : forall s, (weight s <= 8 + packets s)%nat.
Proof.
  intro s. unfold weight. generalize (packets s). intro n. unfold reruns, phase, left_from. destruct (o_job C s); destruct (o_again C s), (o_plain C s), (o_next_plain C s); cbn; lia.
Qed.

(** Whenever the job is not at rest, a step is possible. *)
Lemma progress : forall s, sound s -> (forall o, detached o -> forall s' b, step s o <> Ok C s' b) -> o_job C s = JInitial.
Proof.
  intros s (A & B & D) H. destruct (o_job C s) as [| |[|p src] dest|] eqn:J; [reflexivity|exfalso..].
  - destruct (o_plain C s) eqn:P, (o_next_cipher C s) eqn:N;
      (eapply (H (RunBegin C) Logic.I); unfold Output.step, do_RunBegin; rewrite J, P, N; reflexivity).
  - eapply (H (RunEnd C) Logic.I). unfold Output.step, do_RunEnd. rewrite J. reflexivity.
  - destruct (o_cipher C s) as [c|] eqn:Ec; [|destruct (B eq_refl) as [_ X]; unfold srcs in X; rewrite J in X; discriminate X].
    destruct (encrypt c (o_seq C s) p) as [[c' x]|] eqn:Ee;
      (eapply (H (RunEncrypt C) Logic.I); unfold Output.step, do_RunEncrypt; rewrite J, Ec, Ee; reflexivity).
  - eapply (H (Wakeup C) Logic.I). unfold Output.step, do_Wakeup. rewrite J. reflexivity.
Qed.

End OutputEnds.

Section InputEnds.
Import Input InputFacts.
Variable C : Type.
Variable auth_size : C -> N.
Variable dec_header : C -> N -> bytes -> option (C * bytes).
Variable dec_payload : C -> N -> bytes -> option (C * bytes).
Notation istate := (istate C).
Notation istep := (istep C auth_size dec_header dec_payload).
Notation inv := (InputFacts.inv C auth_size dec_header dec_payload).

Local Notation CAP := Lifetime.BUFFER_SIZE.

(** DefaultFifoBuffer::MoveFrom*(): no more than fits, and something, if
    there is something and there is space. *)
Definition moves (s : istate) (k : N) : Prop :=
  k <= len (i_raw C s) /\ len (i_unprot C s) + k <= CAP /\
  (k = 0 -> i_raw C s = [] \/ len (i_unprot C s) = CAP).
Definition fits (s : istate) (o : iop C) : Prop :=
  match o with RunBegin _ k | RunEnd _ k => moves s k | _ => True end.

Inductive cruns : istate -> Prop :=
| cruns_nil : cruns (new_input C)
| cruns_snoc : forall s o s' e, cruns s -> fits s o -> istep s o = IOk C s' e -> cruns s'.

(** the steps which do not need the connection; the thread queue calls
    Done() even if the connection has ended with an error *)
Definition idetached (o : iop C) : Prop :=
  match o with RunBegin _ _ | RunLoop _ | RunEnd _ _ | Wakeup _ => True | _ => False end.
Definition dstep (s : istate) (o : iop C) : iresult C :=
  match o with Wakeup _ => do_Wakeup C s | _ => istep s o end.

Inductive iwinds : istate -> list (iop C) -> istate -> Prop :=
| iwinds_nil : forall s, iwinds s [] s
| iwinds_cons : forall s o s1 e l s2, idetached o -> fits s o -> dstep s o = IOk C s1 e -> iwinds s1 l s2 ->
    iwinds s (o :: l) s2.

Hypothesis dec_payload_len : forall c n src c' r,
  dec_payload c n src = Some (c', r) -> len r + 4 + auth_size c = len src.
Hypothesis small_auth : forall c, auth_size c <= 64.

Definition cap (s : istate) : Prop :=
  len (i_unprot C s) <= CAP /\ (forall l nk, i_job C s = IBusy l nk true -> len (i_unprot C s) < CAP).

Definition isound (s : istate) : Prop := cap s /\ exists stream trace, inv s stream trace.

Lemma CAP_is : CAP = 65536.
Proof. reflexivity. Qed.

Lemma length_small : forall s l nk st, (exists stream trace, inv s stream trace) -> i_job C s = IBusy l nk st ->
  i_packet_length C s <= 35000.
Proof.
  intros s l nk st (stream & trace & r & _ & [_ Hm _]) J.
  destruct (i_encrypted C s).
  - destruct Hm as [Hw He (r1 & _ & Ee & Eo)].
    destruct (i_error C s) eqn:X; [destruct (He eq_refl) as [Y _]; rewrite J in Y; discriminate Y|].
    destruct (Eo eq_refl) as (r2 & _ & W).
    destruct (w_cipher _ _ _ _ _ _ W) as (c0 & _ & [(-> & _)|(_ & A & _)]); [lia|]. apply acceptable_ge in A. lia.
  - pose proof (p_job _ _ _ Hm) as Y. congruence.
Qed.

Lemma read_body_unprot : forall s n raw s' e, read_body C s n raw = IOk C s' e ->
  i_unprot C s' = i_unprot C s /\ i_job C s' = i_job C s.
Proof.
  intros s n raw s' e H. unfold read_body in H.
  repeat match type of H with context [match ?x with _ => _ end] => destruct x end; try discriminate H;
  try (unfold close in H); injection H as <- _; split; reflexivity.
Qed.

Lemma add_busy : forall j a j' a', add_job j a = (j', a') -> forall l nk st, j' = IBusy l nk st -> j = IBusy l nk st.
Proof. intros j a j' a' H l nk st ->. destruct j; cbn in H; injection H; congruence. Qed.

Lemma cap_step : forall s o s' e, isound s -> fits s o -> dstep s o = IOk C s' e -> cap s'.
Proof.
  intros s o s' e ((A & B) & I) F H. pose proof CAP_is as Q.
  assert (M : forall t, i_unprot C t = i_unprot C s -> i_job C t = i_job C s -> cap t).
  { intros t U J. split; rewrite U; [exact A|]. intros l nk X. rewrite J in X. exact (B l nk X). }
  assert (M2 : forall t, i_unprot C t = i_unprot C s -> (forall l nk st, i_job C t = IBusy l nk st -> i_job C s = IBusy l nk st) -> cap t).
  { intros t U J. split; rewrite U; [exact A|]. intros l nk X. exact (B l nk (J _ _ _ X)). }
  destruct o as [l| |c| | |k| |k|]; cbn [dstep Input.istep fits] in H, F.
  - destruct (i_closed C s); [discriminate|]. unfold do_Feed in H.
    repeat match type of H with context [match ?x with _ => _ end] => destruct x eqn:? end; try discriminate H;
      injection H as <- _; apply M2; cbn; try reflexivity; intros l0 nk st X; try exact X.
    match goal with E : (if ?c then _ else _) = _ |- _ => destruct c end; [eauto using add_busy|congruence].
  - destruct (i_closed C s); [discriminate|]. unfold do_Read in H.
    repeat match type of H with context [match ?x with _ => _ end] => destruct x eqn:? end; try discriminate H;
      try (apply read_body_unprot in H as [H1 H2]; apply M; assumption);
      unfold close in H; injection H as <- _; apply M; reflexivity.
  - destruct (i_closed C s); [discriminate|]. unfold do_SetCipher in H.
    repeat match type of H with context [match ?x with _ => _ end] => destruct x eqn:? end; try discriminate H;
      injection H as <- _; apply M2; cbn; try reflexivity; intros l0 nk st X; eauto using add_busy.
  - destruct (i_closed C s); [discriminate|]. injection H as <- _. apply M; reflexivity.
  - destruct (i_closed C s); [discriminate|]. unfold do_Consume in H.
    repeat match type of H with context [match ?x with _ => _ end] => destruct x eqn:? end; try discriminate H;
      injection H as <- _; apply M; reflexivity.
  - unfold do_RunBegin in H. destruct (i_job C s) eqn:J; try discriminate. destruct (_ || _); injection H as <- _.
    + apply M2; [reflexivity|]. cbn. discriminate.
    + destruct F as (F1 & F2 & _). split; cbn; [|discriminate]. rewrite len_app, len_take by exact F1. lia.
  - unfold do_RunLoop in H. destruct (i_job C s) as [| |l nk [|]|] eqn:J; try discriminate.
    pose proof (length_small s l nk false I J) as SL.
    destruct (i_cipher C s) as [c|]; [|discriminate].
    assert (R : forall n c', n <= 35000 -> run_payload C auth_size dec_payload s l n c' = IOk C s' e -> cap s').
    { intros n c' Hn X. clear H. unfold run_payload, run_stop, run_error in X. cbv zeta in X.
      remember (4 + n + auth_size c') as need eqn:EN. pose proof (small_auth c') as SA.
      destruct (len (i_unprot C s) <? need) eqn:EL.
      - injection X as <- _. apply N.ltb_lt in EL. split; cbn; [exact A|]. intros _ _ _. lia.
      - apply N.ltb_ge in EL. destruct (dec_payload _ _ _) as [[c2 r]|]; [|injection X as <- _; split; cbn; [exact A|discriminate]].
        destruct (negb _); [discriminate|].
        destruct (_ <? _); injection X as <- _; split; cbn [upd i_unprot i_job]; rewrite ?len_drop; try discriminate; try lia.
        }
    unfold run_stop, run_error in H.
    destruct (_ =? 0).
    + destruct (len (i_unprot C s) <? 4) eqn:E4.
      * injection H as <- _. apply N.ltb_lt in E4. split; cbn; [exact A|]. intros _ _ _. lia.
      * destruct (dec_header _ _ _) as [[c2 h]|]; [|injection H as <- _; split; cbn; [exact A|discriminate]].
        destruct (length_ok _) eqn:LO; [|injection H as <- _; split; cbn; [exact A|discriminate]].
        rewrite length_ok_acceptable in LO. apply acceptable_ge in LO. apply (R (header_length h) c2); [lia|exact H].
    + apply (R _ _ SL H).
  - unfold do_RunEnd in H. destruct (i_job C s) as [| |l nk [|]|] eqn:J; try discriminate.
    destruct (i_waiting C s); [discriminate|]. injection H as <- _.
    destruct F as (F1 & F2 & _). split; cbn; [|discriminate]. rewrite len_app, len_take by exact F1. lia.
  - unfold do_Wakeup in H. destruct (i_job C s) eqn:J; try discriminate. injection H as <- _.
    apply M2; [reflexivity|]. cbn. destruct (i_again C s); discriminate.
Qed.

Lemma isound_dstep : forall s o s' e, isound s -> fits s o -> idetached o -> dstep s o = IOk C s' e -> isound s'.
Proof.
  intros s o s' e S F Dt H. split; [exact (cap_step s o s' e S F H)|].
  destruct S as (_ & stream & trace & I). exists (stream ++ fed C o), (trace ++ map (seen C) e).
  assert (G : InputFacts.good C auth_size dec_header dec_payload s stream trace o (dstep s o)).
  { destruct o; cbn [idetached] in Dt; try contradiction; cbn [dstep];
      try (apply InputFacts.inv_step; assumption). now apply good_Wakeup. }
  rewrite H in G. exact G.
Qed.

Lemma cruns_sound : forall s, cruns s -> isound s.
Proof.
  intros s H. induction H as [|s o s' e H IH F Hs].
  - split; [split; [rewrite CAP_is; cbn; lia|discriminate]|]. exists [], []. apply inv_new.
  - assert (D : dstep s o = IOk C s' e).
    { destruct o; try exact Hs. cbn [Input.istep] in Hs. destruct (i_closed C s); [discriminate|exact Hs]. }
    split; [exact (cap_step s o s' e IH F D)|].
    destruct IH as (_ & stream & trace & I). exists (stream ++ fed C o), (trace ++ map (seen C) e).
    pose proof (InputFacts.inv_step C auth_size dec_header dec_payload dec_payload_len s stream trace o I) as G.
    rewrite Hs in G. exact G.
Qed.

Definition iphase (s : istate) : N :=
  match i_job C s, i_again C s with
  | IInitial, _ => 0
  | IDone, false => 1 | IBusy _ _ true, false => 2 | IBusy _ _ false, false => 3 | IWaiting, false => 4
  | IDone, true => 5 | IBusy _ _ true, true => 6 | IBusy _ _ false, true => 7 | IWaiting, true => 8
  end.
Definition iweight (s : istate) : N := 5 * (2 * len (i_raw C s) + len (i_unprot C s)) + iphase s.

Lemma iweight_step : forall s o s' e, isound s -> idetached o -> fits s o -> dstep s o = IOk C s' e -> iweight s' < iweight s.
Proof.
  intros s o s' e ((A & B) & I) Dt F H. pose proof CAP_is as Q. unfold iweight, iphase.
  destruct o as [l| |c| | |k| |k|]; cbn [idetached] in Dt; try contradiction; cbn [dstep Input.istep fits] in H, F.
  - unfold do_RunBegin in H. destruct (i_job C s) eqn:J; try discriminate. destruct (_ || _); injection H as <- _; cbn [upd i_raw i_unprot i_job i_again].
    + destruct (i_again C s); lia.
    + destruct F as (F1 & F2 & _). rewrite len_drop, len_app, len_take by exact F1. destruct (i_again C s); lia.
  - unfold do_RunLoop in H. destruct (i_job C s) as [| |l nk [|]|] eqn:J; try discriminate.
    destruct (i_cipher C s) as [c|]; [|discriminate].
    assert (R : forall n c', run_payload C auth_size dec_payload s l n c' = IOk C s' e -> iweight s' < iweight s).
    { intros n c' X. clear H. unfold run_payload, run_stop, run_error in X. cbv zeta in X.
      remember (4 + n + auth_size c') as need eqn:EN. unfold iweight, iphase. rewrite J.
      destruct (len (i_unprot C s) <? need) eqn:EL.
      - injection X as <- _. cbn [upd i_raw i_unprot i_job i_again]. destruct (i_again C s); lia.
      - apply N.ltb_ge in EL. destruct (dec_payload _ _ _) as [[c2 r]|];
          [|injection X as <- _; cbn [upd i_raw i_unprot i_job i_again]; destruct (i_again C s); lia].
        destruct (negb _); [discriminate|].
        destruct (_ <? _); injection X as <- _; cbn [upd i_raw i_unprot i_job i_again]; rewrite len_drop.
        + destruct (i_again C s); lia.
        + destruct (is_newkeys _), (i_again C s); lia. }
    unfold iweight, iphase in R. rewrite J in R.
    unfold run_stop, run_error in H.
    destruct (_ =? 0).
    + destruct (len (i_unprot C s) <? 4).
      * injection H as <- _. cbn [upd i_raw i_unprot i_job i_again]. destruct (i_again C s); lia.
      * destruct (dec_header _ _ _) as [[c2 h]|]; [|injection H as <- _; cbn [upd i_raw i_unprot i_job i_again]; destruct (i_again C s); lia].
        destruct (length_ok _); [|injection H as <- _; cbn [upd i_raw i_unprot i_job i_again]; destruct (i_again C s); lia].
        exact (R _ _ H).
    + exact (R _ _ H).
  - unfold do_RunEnd in H. destruct (i_job C s) as [| |l nk [|]|] eqn:J; try discriminate.
    destruct (i_waiting C s); [discriminate|]. injection H as <- _. cbn [upd i_raw i_unprot i_job i_again].
    destruct F as (F1 & F2 & F3). pose proof (B l nk eq_refl) as BU.
    rewrite len_drop, len_app, len_take by exact F1.
    destruct (i_raw C s) as [|x raw] eqn:ER.
    + rewrite len_nil in *. destruct (i_again C s); lia.
    + destruct (N.eq_dec k 0) as [K|K]; [destruct (F3 K) as [X|X]; [discriminate X|lia]|]. destruct (i_again C s); lia.
  - unfold do_Wakeup in H. destruct (i_job C s) eqn:J; try discriminate. injection H as <- _. cbn [upd i_raw i_unprot i_job i_again].
    destruct (i_again C s); lia.
Qed.

Lemma iwinds_weight : forall s l s', iwinds s l s' -> isound s -> isound s' /\ len l + iweight s' <= iweight s.
Proof.
  intros s l s' H. induction H as [s|s o s1 e l s2 Dt F Hs H IH]; intro S; [split; [exact S|rewrite len_nil; lia]|].
  pose proof (iweight_step s o s1 e S Dt F Hs). destruct (IH (isound_dstep s o s1 e S F Dt Hs)) as (S2 & L). split; [exact S2|].
  rewrite len_cons. lia.
Qed.

Lemma iprogress : forall s, isound s -> (forall o, idetached o -> fits s o -> forall s' e, dstep s o <> IOk C s' e) ->
  i_job C s = IInitial.
Proof.
  intros s ((A & B) & stream & trace & Iv) H. pose proof CAP_is as Q.
  assert (K : exists k, moves s k).
  { exists (N.min (len (i_raw C s)) (CAP - len (i_unprot C s))). unfold moves. repeat split; try lia.
    intro X. destruct (N.eq_dec (len (i_raw C s)) 0) as [Y|Y]; [left; now apply len_0|right; lia]. }
  destruct K as (k & K).
  destruct (i_job C s) as [| |l nk [|]|] eqn:J; [reflexivity|exfalso..].
  - destruct (i_error C s || i_waiting C s) eqn:E;
      (eapply (H (RunBegin C k) Logic.I K); cbn [dstep Input.istep]; unfold do_RunBegin; rewrite J, E; reflexivity).
  - pose proof (good_RunEnd C auth_size dec_header dec_payload s stream trace k Iv) as G.
    destruct (do_RunEnd C s k) as [s' e| | |] eqn:E; cbn in G; try contradiction.
    + exact (H (RunEnd C k) Logic.I K s' e E).
    + unfold do_RunEnd in E. rewrite J in E. destruct (i_waiting C s); discriminate E.
  - pose proof (good_RunLoop C auth_size dec_header dec_payload dec_payload_len s stream trace Iv) as G.
    destruct (do_RunLoop C auth_size dec_header dec_payload s) as [s' e| | |] eqn:E; cbn in G; try contradiction.
    + exact (H (RunLoop C) Logic.I Logic.I s' e E).
    + unfold do_RunLoop, run_payload, run_stop, run_error in E. rewrite J in E.
      repeat match type of E with context [match ?x with _ => _ end] => destruct x end; discriminate E.
  - eapply (H (Wakeup C) Logic.I Logic.I). cbn [dstep]. unfold do_Wakeup. rewrite J. reflexivity.
Qed.

End InputEnds.
