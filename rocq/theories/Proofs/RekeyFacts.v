(** Facts about Model/Rekey.v *)

From Coq Require Import NArith List Bool Lia.
From Verif.Model Require Import Negotiate KexKeys KexMachine Rekey.
From Verif.Spec Require Import RekeySpec.
Import ListNotations.
Open Scope N_scope.

Lemma hour_eq : REKEY_INTERVAL = one_hour. Proof. reflexivity. Qed.
Lemma gib_eq : REKEY_BYTES = one_gib. Proof. reflexivity. Qed.

Lemma used_snoc : forall l e, used (l ++ [e]) = match snd e with VPacket true n => used l + n | VKeys => 0 | _ => used l end.
Proof. intros. unfold used. now rewrite fold_left_app. Qed.
Lemma exchanging_snoc : forall l e, exchanging (l ++ [e]) = match snd e with VKexInit _ => true | VDone => false | _ => exchanging l end.
Proof. intros. unfold exchanging. now rewrite fold_left_app. Qed.
Lemma logged_in_snoc : forall l e, logged_in (l ++ [e]) = logged_in l || match snd e with VAuth => true | _ => false end.
Proof. intros. unfold logged_in. rewrite existsb_app. cbn. now rewrite orb_false_r. Qed.
Lemma renewed_snoc : forall l e, renewed (l ++ [e]) = match snd e with VDone | VAuth => Some (fst e) | _ => renewed l end.
Proof. intros. unfold renewed. now rewrite fold_left_app. Qed.

(** the time of the oldest packet beyond the limit, with the present keys *)
Fixpoint exh (l : rhistory) : option N :=
  match l with
  | [] => None
  | e :: before =>   (* newest first *)
      match snd e with
      | VPacket true _ =>
          if logged_in (rev before) && negb (exchanging (rev before)) && (one_gib <=? used (rev before ++ [e]))
          then match exh before with Some t => Some t | None => Some (fst e) end
          else exh before
      | VKexInit _ | VDone | VAuth | VKeys => None
      | _ => exh before
      end
  end.
Definition exhausted (l : rhistory) : option N := exh (rev l).
Lemma exhausted_snoc : forall l e, exhausted (l ++ [e]) =
  match snd e with
  | VPacket true _ =>
      if logged_in l && negb (exchanging l) && (one_gib <=? used (l ++ [e]))
      then match exhausted l with Some t => Some t | None => Some (fst e) end
      else exhausted l
  | VKexInit _ | VDone | VAuth | VKeys => None
  | _ => exhausted l
  end.
Proof. intros. unfold exhausted. rewrite rev_app_distr. cbn [rev app exh]. now rewrite rev_involutive. Qed.

(** the flags between events *)
Definition rest (f : kflags) : Prop :=
  newkeys_received f = false /\ (newkeys_sent f = true -> kexinit_received f = true) /\ (kexinit_received f = true -> kexinit_sent f = true).
Lemma rest_idle : forall f, rest f -> IsIdle f = negb (kexinit_sent f).
Proof. intros [a b c d] (A & B & C). cbn in *. unfold IsIdle. cbn. destruct a, b, c, d; cbn in *; try reflexivity; try discriminate; try (specialize (C eq_refl); discriminate); specialize (B eq_refl); discriminate. Qed.

Section Inv.
  Variables (dbg : bool) (slack : N) (role : Role).

  (** holds even within an event *)
  Record core (s : rconn) : Prop := {
    co_used : used (r_log s) = r_bytes s;
    co_auth : logged_in (r_log s) = r_auth s;
    co_renewed : r_auth s = true -> renewed (r_log s) <> None;
    co_ex : exchanging (r_log s) = kexinit_sent (r_flags s);
    co_late : forall d, r_due s = Some d -> r_now s <= d + slack;
    co_early : forall d t, r_due s = Some d -> r_auth s = true -> renewed (r_log s) = Some t -> t + one_hour <= d \/ one_gib <= used (r_log s);
    co_past : Forall (fun e => fst e <= r_now s) (r_log s)
  }.
  Record due_ok (s : rconn) : Prop := {
    du_some : r_auth s = true -> kexinit_sent (r_flags s) = false -> exists d t, r_due s = Some d /\ renewed (r_log s) = Some t /\ d <= t + one_hour;
    du_now : forall t, exhausted (r_log s) = Some t -> kexinit_sent (r_flags s) = false -> exists d, r_due s = Some d /\ d <= t
  }.
  Definition full (s : rconn) : Prop := r_status s = RRunning -> core s /\ rest (r_flags s) /\ due_ok s.

  Lemma renewed_keep : forall s e, match snd e with VDone | VAuth => False | _ => True end -> renewed (r_log s ++ [e]) = renewed (r_log s).
  Proof. intros s e H. rewrite renewed_snoc. destruct (snd e); try reflexivity; contradiction. Qed.

  Lemma past_snoc : forall (l : rhistory) n x, Forall (fun e => fst e <= n) l -> Forall (fun e => fst e <= n) (l ++ [(n, x)]).
  Proof. intros l n x H. apply Forall_app. split; [exact H|]. constructor; [cbn; lia|constructor]. Qed.

  (** SendPacket(): the flags stay *)
  Lemma send_core : forall n s, rest (r_flags s) -> core s -> core (r_SendPacket n s).
  Proof.
    intros n s R [U A RN X L E P]. unfold r_SendPacket. destruct (r_out s).
    - cbv zeta. assert (K : forall d, (r_due s = Some d \/ (one_gib <= r_bytes s + (n + r_tag s) /\ (d = r_now s \/ exists d0, r_due s = Some d0 /\ d = N.min d0 (r_now s)))) ->
        core (r_set_due (Some d) (r_set_bytes (r_bytes (r_note (VPacket true (n + r_tag s)) s) + (n + r_tag s)) (r_note (VPacket true (n + r_tag s)) s)))).
      { intros d D. split; cbn [r_set_due r_set_bytes r_note r_log r_bytes r_auth r_flags r_due r_now].
        - rewrite used_snoc. cbn [snd]. now rewrite U.
        - rewrite logged_in_snoc. cbn [snd]. now rewrite orb_false_r.
        - rewrite renewed_snoc. exact RN.
        - rewrite exchanging_snoc. exact X.
        - intros d' D'. injection D' as <-. destruct D as [D|(_ & [D|(d0 & D0 & D)])]; [now apply L|subst; lia|]. specialize (L _ D0). subst. lia.
        - rewrite renewed_snoc, used_snoc. cbn [snd]. intros d' t D' AU RT. injection D' as <-. rewrite U. destruct D as [D|(D & _)]; [destruct (E d t D AU RT); [left|right]; lia|right; exact D].
        - now apply past_snoc. }
      assert (K0 : r_due s = None -> core (r_set_bytes (r_bytes (r_note (VPacket true (n + r_tag s)) s) + (n + r_tag s)) (r_note (VPacket true (n + r_tag s)) s))).
      { intros D. split; cbn [r_set_due r_set_bytes r_note r_log r_bytes r_auth r_flags r_due r_now]; try congruence.
        - rewrite used_snoc. cbn [snd]. now rewrite U.
        - rewrite logged_in_snoc. cbn [snd]. now rewrite orb_false_r.
        - rewrite renewed_snoc. exact RN.
        - rewrite exchanging_snoc. exact X.
        - now apply past_snoc. }
      unfold r_schedule_now. cbn [r_set_bytes r_note r_bytes r_auth r_flags r_due r_now] in *.
      destruct (r_auth s && (REKEY_BYTES <=? r_bytes s + (n + r_tag s)) && IsIdle (r_flags s)) eqn:B.
      + apply andb_true_iff in B. destruct B as (B & _). apply andb_true_iff in B. destruct B as (_ & B). apply N.leb_le in B. rewrite gib_eq in B. apply K. right. split; [exact B|].
        destruct (r_due s) as [d0|]; [right; exists d0; split; reflexivity|now left].
      + destruct (r_due s) as [d0|] eqn:D; [|now apply K0]. specialize (K d0 (or_introl eq_refl)). unfold r_set_due, r_set_bytes, r_note in *. cbn in *. rewrite D in *. exact K.
    - split; cbn [r_note r_log r_bytes r_auth r_flags r_due r_now].
      + rewrite used_snoc. exact U.
      + rewrite logged_in_snoc. cbn [snd]. now rewrite orb_false_r.
      + rewrite renewed_snoc. exact RN.
      + rewrite exchanging_snoc. exact X.
      + exact L.
      + rewrite renewed_snoc, used_snoc. exact E.
      + now apply past_snoc.
  Qed.
  Lemma send_due : forall n s, rest (r_flags s) -> core s -> due_ok s -> due_ok (r_SendPacket n s).
  Proof.
    intros n s R C [DS DN]. pose proof (rest_idle _ R) as I. unfold r_SendPacket. destruct (r_out s).
    - cbv zeta. unfold r_schedule_now. cbn [r_set_bytes r_note r_bytes r_auth r_flags r_due r_now].
      destruct (r_auth s && (REKEY_BYTES <=? r_bytes s + (n + r_tag s)) && IsIdle (r_flags s)) eqn:B.
      + apply andb_true_iff in B. destruct B as (B & B3). apply andb_true_iff in B. destruct B as (B1 & B2). rewrite I in B3. apply negb_true_iff in B3.
        destruct (DS B1 B3) as (d & t & D & T & LE). rewrite D.
        split; cbn [r_set_due r_set_bytes r_note r_log r_auth r_flags r_due r_now].
        * intros _ _. exists (N.min d (r_now s)), t. rewrite renewed_snoc. cbn [snd]. split; [reflexivity|]. split; [exact T|lia].
        * intros x X _. rewrite exhausted_snoc in X. cbn [snd fst] in X. exists (N.min d (r_now s)). split; [reflexivity|].
          destruct (exhausted (r_log s)) as [y|] eqn:Y.
          { assert (y = x) by (destruct (_ && _) in X; congruence). subst y. destruct (DN x eq_refl B3) as (d1 & D1 & L1). rewrite D in D1. injection D1 as <-. lia. }
          { destruct (_ && _) in X; [|discriminate]. injection X as <-. lia. }
      + split; cbn [r_set_due r_set_bytes r_note r_log r_auth r_flags r_due r_now].
        * rewrite renewed_snoc. exact DS.
        * intros x X K. rewrite exhausted_snoc in X. cbn [snd fst] in X. rewrite used_snoc in X. cbn [snd] in X. rewrite (co_used _ C), (co_auth _ C), (co_ex _ C) in X. rewrite I, K in B. rewrite K, <- gib_eq in X.
          assert (Z : r_auth s && negb false && (REKEY_BYTES <=? r_bytes s + (n + r_tag s)) = false) by (destruct (r_auth s), (REKEY_BYTES <=? _); cbn in *; congruence).
          rewrite Z in X. now apply DN.
    - split; cbn [r_note r_log r_auth r_flags r_due].
      + rewrite renewed_snoc. exact DS.
      + rewrite exhausted_snoc. exact DN.
  Qed.
  Lemma send_flags : forall n s, r_flags (r_SendPacket n s) = r_flags s /\ r_status (r_SendPacket n s) = r_status s /\ r_auth (r_SendPacket n s) = r_auth s /\ r_now (r_SendPacket n s) = r_now s /\ r_in (r_SendPacket n s) = r_in s /\ r_out (r_SendPacket n s) = r_out s.
  Proof. intros n s. unfold r_SendPacket. destruct (r_out s) eqn:O; cbv zeta; [destruct (_ && _)|]; cbn; auto 10. Qed.

  (** SendKexInit() *)
  Lemma kexinit_full : forall own n s, rest (r_flags s) \/ (kexinit_received (r_flags s) = true /\ newkeys_sent (r_flags s) = false /\ newkeys_received (r_flags s) = false) ->
    core s -> core (r_SendKexInit own n s) /\ rest (r_flags (r_SendKexInit own n s)) /\ due_ok (r_SendKexInit own n s).
  Proof.
    intros own n s R C. unfold r_SendKexInit. cbv zeta.
    set (s1 := r_set_flags _ (r_note (VKexInit own) s)).
    assert (R1 : rest (r_flags s1)). { unfold s1, rest. cbn. destruct R as [(A & B & D)|(A & B & D)]; [auto|]. rewrite A, B, D. auto. }
    assert (C1 : core s1).
    { destruct C as [U A RN X L E P]. split; unfold s1; cbn [r_set_flags r_note r_log r_bytes r_auth r_flags r_due r_now kexinit_sent].
      - now rewrite used_snoc.
      - rewrite logged_in_snoc. cbn [snd]. now rewrite orb_false_r.
      - now rewrite renewed_snoc.
      - now rewrite exchanging_snoc.
      - exact L.
      - rewrite renewed_snoc, used_snoc. exact E.
      - now apply past_snoc. }
    assert (D1 : due_ok s1). { split; unfold s1; cbn [r_set_flags r_note r_log r_auth r_flags r_due kexinit_sent]; [discriminate|]. intros t _ H. discriminate. }
    split; [now apply send_core|]. split; [|now apply send_due]. rewrite (proj1 (send_flags n s1)). exact R1.
  Qed.

  Lemma cancel_core : forall s, core s -> core (r_set_due None s).
  Proof. intros s [U A RN X L E P]. split; cbn; auto; discriminate. Qed.

  Lemma newkeys_full : forall fails n tag s, rest (r_flags s) -> kexinit_sent (r_flags s) = true -> kexinit_received (r_flags s) = true ->
    core s -> r_status s = RRunning -> full (r_SendNewKeys fails n tag s).
  Proof.
    intros fails n tag s R K1 K2 C ST. unfold r_SendNewKeys. cbv zeta.
    set (s1 := r_SendPacket n (r_set_due None s)). assert (C1 : core s1) by (apply send_core; [exact R|now apply cancel_core]).
    assert (F1 : r_flags s1 = r_flags s) by apply (send_flags n (r_set_due None s)).
    assert (D1 : r_due s1 = None). { unfold s1, r_SendPacket. destruct (r_out _); [|reflexivity]. cbv zeta. cbn [r_set_due r_set_bytes r_note r_bytes r_auth r_flags r_due r_now]. rewrite (rest_idle _ R), K1, andb_false_r. reflexivity. }
    destruct fails; [intros H; discriminate|]. destruct R as (R1 & R2 & R3). rewrite R1.
    unfold r_ResetIfComplete, IsComplete. cbn [r_note r_set_bytes r_set_out r_set_flags r_flags newkeys_sent newkeys_received andb]. intros _.
    destruct C1 as [U A RN X L E P]. split; [|split].
    - split; cbn [r_note r_set_bytes r_set_out r_set_flags r_log r_bytes r_auth r_flags r_due r_now kexinit_sent]; try (rewrite D1; discriminate).
      + now rewrite used_snoc.
      + rewrite logged_in_snoc. cbn [snd]. now rewrite orb_false_r.
      + now rewrite renewed_snoc.
      + rewrite exchanging_snoc. cbn [snd]. rewrite X, F1. reflexivity.
      + now apply past_snoc.
    - unfold rest. cbn. auto.
    - split; cbn [r_note r_set_bytes r_set_out r_set_flags r_log r_auth r_flags r_due kexinit_sent]; intros; congruence.
  Qed.

  Lemma step_full : forall o s s', full s -> rk_step dbg slack role o s = Some s' -> full s'.
  Proof.
    intros o s s' F S. unfold rk_step in S. destruct (r_status s) eqn:ST; try discriminate. destruct (F ST) as (C & R & D). cbv zeta in S. destruct o.
    - injection S as <-. intros _. split; [now apply send_core|]. split; [rewrite (proj1 (send_flags size s)); exact R|now apply send_due].
    - injection S as <-. intros _. destruct C as [U A RN X L E P]. destruct D as [D1 D2]. split; [|split; [exact R|]]; split; cbn [r_note r_log r_bytes r_auth r_flags r_due r_now];
        rewrite ?used_snoc, ?logged_in_snoc, ?renewed_snoc, ?exchanging_snoc, ?exhausted_snoc; cbn [snd]; rewrite ?orb_false_r; auto. now apply past_snoc.
    - destruct (_ && _) in S; [|discriminate]. injection S as <-. intros _. destruct C as [U A RN X L E P]. split; [|split; [exact R|]]; split; unfold r_schedule; cbn [r_set_due r_set_auth r_note r_log r_bytes r_auth r_flags r_due r_now];
        rewrite ?used_snoc, ?logged_in_snoc, ?renewed_snoc, ?exchanging_snoc, ?exhausted_snoc; cbn [snd fst]; rewrite ?orb_true_r; auto; try discriminate.
      + intros d Q. injection Q as <-. lia.
      + intros d t Q _ T. injection Q as <-. injection T as <-. left. rewrite hour_eq. lia.
      + now apply past_snoc.
      + intros _ _. exists (r_now s + REKEY_INTERVAL), (r_now s). rewrite hour_eq. split; [reflexivity|]. split; [reflexivity|lia].
    - destruct role; [discriminate|]. destruct (_ && _) in S; [|discriminate]. injection S as <-. intros _. apply kexinit_full; auto.
    - destruct (_ || _) eqn:B in S; [injection S as <-; intros Z; discriminate|]. repeat (apply orb_false_iff in B; destruct B as (B & ?)). injection S as <-.
      set (s1 := r_set_flags _ _). assert (G : core s1 -> forall s2, s2 = (if kexinit_sent (r_flags s) then s1 else r_SendKexInit false size1 s1) -> core s2 /\ rest (r_flags s2) /\ due_ok s2).
      { intros C1 s2 E2. destruct (kexinit_sent (r_flags s)) eqn:K; subst s2.
        - split; [exact C1|]. split; [unfold s1, rest; cbn; rewrite ?K; auto|]. split; unfold s1; cbn [r_set_flags r_set_due r_log r_auth r_flags r_due kexinit_sent]; rewrite ?K; intros; congruence.
        - apply kexinit_full; [right; unfold s1; cbn; auto|exact C1]. }
      assert (C1 : core s1). { destruct C as [U A RN X L E P]. split; unfold s1; cbn [r_set_flags r_set_due r_log r_bytes r_auth r_flags r_due r_now kexinit_sent]; auto; discriminate. }
      destruct (G C1 _ eq_refl) as (G1 & G2 & G3). set (s2 := if kexinit_sent (r_flags s) then s1 else _) in *. clearbody s2. intros _. destruct role; [auto|]. split; [now apply send_core|]. split; [rewrite (proj1 (send_flags size2 s2)); exact G2|now apply send_due].
    - destruct (_ || _) eqn:B in S; [injection S as <-; intros Z; discriminate|]. repeat (apply orb_false_iff in B; destruct B as (B & ?)). injection S as <-.
      apply negb_false_iff in B. apply negb_false_iff in H1. destruct role.
      + apply newkeys_full; rewrite ?(proj1 (send_flags size1 s)); auto; [now apply send_core|]. rewrite (proj1 (proj2 (send_flags size1 s))). exact ST.
      + apply newkeys_full; auto.
    - destruct (_ || _) eqn:B in S; [injection S as <-; intros Z; discriminate|]. repeat (apply orb_false_iff in B; destruct B as (B & ?)). injection S as <-.
      destruct fails; [intros Z; discriminate|]. apply negb_false_iff in H0. unfold r_ResetIfComplete, IsComplete. cbn [r_note r_set_in r_set_flags r_set_due r_flags newkeys_sent newkeys_received]. rewrite H0. cbn [andb].
      intros _. destruct C as [U A RN X L E P]. split; [|split; [unfold rest; cbn; auto|]]; [split; unfold r_schedule; cbn [r_note r_set_in r_set_flags r_set_due r_log r_bytes r_auth r_flags r_due r_now];
        rewrite ?used_snoc, ?logged_in_snoc, ?renewed_snoc, ?exchanging_snoc, ?exhausted_snoc; cbn [snd fst]; rewrite ?orb_false_r; auto; try discriminate|].
      + intros d Q. injection Q as <-. lia.
      + intros d t Q _ T. injection Q as <-. injection T as <-. left. rewrite hour_eq. lia.
      + now apply past_snoc, past_snoc.
      + split; unfold r_schedule; cbn [r_note r_set_in r_set_flags r_set_due r_log r_auth r_flags r_due r_now]; rewrite ?renewed_snoc, ?exhausted_snoc; cbn [snd fst]; [|discriminate].
        intros _ _. exists (r_now s + REKEY_INTERVAL), (r_now s). rewrite hour_eq. split; [reflexivity|]. split; [reflexivity|lia].
    - destruct (r_due s) as [due|] eqn:DU; [|discriminate]. destruct (N.leb_spec due (r_now s)); [|discriminate]. destruct (dbg && _); injection S as <-; [intros Z; discriminate|].
      intros _. destruct (IsIdle (r_flags s)) eqn:I; [apply kexinit_full; [now left|now apply cancel_core]|]. split; [now apply cancel_core|]. split; [exact R|]. rewrite (rest_idle _ R) in I. apply negb_false_iff in I.
      split; cbn [r_set_due r_flags]; intros; congruence.
    - assert (Q : (forall due, r_due s = Some due -> r_now s + d <= due + slack) /\ s' = r_set_now (r_now s + d) s).
      { destruct (r_due s) as [due|]; [destruct (N.leb_spec (r_now s + d) (due + slack)); [|discriminate]|]; injection S as <-; split; try reflexivity; [|discriminate]. intros x Z. injection Z as <-. assumption. }
      destruct Q as (Q & ->). intros _. destruct C as [U A RN X L E P]. destruct D as [D1 D2]. split; [|split; [exact R|split; cbn; auto]]. split; cbn [r_set_now r_log r_bytes r_auth r_flags r_due r_now]; auto.
      eapply Forall_impl; [|exact P]. intros e. cbn. lia.
    - injection S as <-. intros Z. discriminate.
  Qed.

  Lemma runs_full : forall ops s, rk_runs dbg slack role ops s -> full s.
  Proof.
    intros ops s H. induction H as [now|ops s o s' H IH S].
    - intros _. split; [|split]; [split; cbn; try reflexivity; try discriminate; constructor|unfold rest; cbn; repeat split; auto|split; cbn; intros; discriminate].
    - now apply (step_full o s s').
  Qed.
End Inv.

(** ** The history makes sense *)

Definition sensible (pre : rhistory) (e : N * revent) : Prop :=
  Forall (fun x => fst x <= fst e) pre /\
  match snd e with
  | VAuth => logged_in pre = false
  | VDone | VKeys => exchanging pre = true
  | VKexInit true => logged_in pre = true -> forall t0, renewed pre = Some t0 -> t0 + one_hour <= fst e \/ one_gib <= used pre
  | _ => True
  end.
Definition wf (l : rhistory) : Prop := forall pre e post, l = pre ++ e :: post -> sensible pre e.
Lemma wf_snoc : forall l e, wf l -> sensible l e -> wf (l ++ [e]).
Proof.
  intros l e H E pre x post L. destruct post as [|y post] using rev_ind.
  - apply app_inj_tail in L. destruct L as (-> & ->). exact E.
  - clear IHpost. rewrite app_comm_cons, app_assoc in L. apply app_inj_tail in L. destruct L as (-> & _). now apply (H pre x post).
Qed.
Definition W (s : rconn) : Prop := wf (r_log s) /\ Forall (fun e => fst e <= r_now s) (r_log s).
Lemma note_W : forall e s, W s -> match e with
  | VAuth => logged_in (r_log s) = false
  | VDone | VKeys => exchanging (r_log s) = true
  | VKexInit true => logged_in (r_log s) = true -> forall t0, renewed (r_log s) = Some t0 -> t0 + one_hour <= r_now s \/ one_gib <= used (r_log s)
  | _ => True
  end -> W (r_note e s).
Proof. intros e s (A & B) H. split; cbn [r_note r_log r_now]; [apply wf_snoc; [exact A|split; [exact B|exact H]]|now apply past_snoc]. Qed.

Lemma send_W : forall n s, W s -> W (r_SendPacket n s).
Proof.
  intros n s H. unfold r_SendPacket. destruct (r_out s); cbv zeta; [|now apply note_W].
  assert (K : W (r_note (VPacket true (n + r_tag s)) s)) by now apply note_W. destruct (_ && _); exact K.
Qed.
Lemma send_exchanging : forall n s, exchanging (r_log (r_SendPacket n s)) = exchanging (r_log s).
Proof. intros n s. unfold r_SendPacket. destruct (r_out s); cbv zeta; [destruct (_ && _)|]; cbn [r_schedule_now r_set_due r_set_bytes r_note r_log]; now rewrite exchanging_snoc. Qed.
Lemma answer_W : forall n s, W s -> W (r_SendKexInit false n s).
Proof. intros n s H. unfold r_SendKexInit. cbv zeta. apply send_W. assert (K : W (r_note (VKexInit false) s)) by now apply note_W. exact K. Qed.

(** authentication needs keys *)
Definition keyed (s : rconn) : Prop := r_auth s = true -> r_out s = true /\ r_in s = true.
Lemma send_keyed : forall n s, keyed s -> keyed (r_SendPacket n s).
Proof. intros n s H. unfold keyed in *. destruct (send_flags n s) as (_ & _ & A & _ & B & C). now rewrite A, B, C. Qed.
Lemma kexinit_keyed : forall own n s, keyed s -> keyed (r_SendKexInit own n s).
Proof. intros own n s H. unfold r_SendKexInit. cbv zeta. apply send_keyed. exact H. Qed.
Lemma reset_keyed : forall s, keyed s -> keyed (r_ResetIfComplete s).
Proof. intros s H. unfold r_ResetIfComplete. destruct (IsComplete _); exact H. Qed.
Lemma newkeys_keyed : forall fails n tag s, keyed s -> keyed (r_SendNewKeys fails n tag s).
Proof.
  intros fails n tag s H. unfold r_SendNewKeys. cbv zeta. assert (K : keyed (r_SendPacket n (r_set_due None s))) by (apply send_keyed; exact H).
  destruct fails; [exact K|]. apply reset_keyed. intros A. split; [reflexivity|]. exact (proj2 (K A)).
Qed.
Lemma reset_W : forall s, W s -> exchanging (r_log s) = true -> W (r_ResetIfComplete s).
Proof. intros s H X. unfold r_ResetIfComplete. destruct (IsComplete _); [|exact H]. assert (K : W (r_note VDone (r_set_flags no_flags s))) by (apply note_W; [exact H|exact X]). exact K. Qed.
Lemma newkeys_W : forall fails n tag s, W s -> exchanging (r_log s) = true -> W (r_SendNewKeys fails n tag s).
Proof.
  intros fails n tag s H X. unfold r_SendNewKeys. cbv zeta. assert (K : W (r_SendPacket n (r_set_due None s))) by (apply send_W; exact H).
  assert (Y : exchanging (r_log (r_SendPacket n (r_set_due None s))) = true) by (rewrite send_exchanging; exact X).
  set (s1 := r_SendPacket n (r_set_due None s)) in *. clearbody s1. destruct fails; [exact K|].
  apply reset_W; [apply note_W; [exact K|exact Y]|]. cbn [r_note r_log r_set_bytes r_set_out r_set_flags]. rewrite exchanging_snoc. exact Y.
Qed.

Lemma step_W : forall dbg slack role o s s', full slack s -> keyed s -> W s -> rk_step dbg slack role o s = Some s' -> keyed s' /\ W s'.
Proof.
  intros dbg slack role o s s' F K H S. unfold rk_step in S. destruct (r_status s) eqn:ST; try discriminate. destruct (F ST) as (C & R & D). cbv zeta in S. destruct o.
  - injection S as <-. split; [now apply send_keyed|now apply send_W].
  - injection S as <-. split; [exact K|]. now apply note_W.
  - destruct (r_in s) eqn:I, (r_out s) eqn:O, (r_auth s) eqn:AU; cbn in S; try discriminate. injection S as <-. split; [intros _; cbn; auto|].
    assert (Z : W (r_note VAuth (r_set_auth s))) by (apply note_W; [exact H|exact (eq_trans (co_auth _ _ C) AU)]). exact Z.
  - destruct role; [discriminate|]. destruct (IsIdle _), (r_out s) eqn:O, (r_in s); cbn in S; try discriminate. injection S as <-. split; [now apply kexinit_keyed|].
    unfold r_SendKexInit. cbv zeta. apply send_W. assert (Z : W (r_note (VKexInit true) s)); [|exact Z]. apply note_W; [exact H|]. intros A. rewrite (co_auth _ _ C) in A. destruct (K A). congruence.
  - destruct (_ || _) in S; injection S as <-; [split; [exact K|exact H]|]. set (s1 := r_set_flags _ _).
    assert (K1 : keyed s1) by exact K. assert (H1 : W s1) by exact H.
    assert (G : keyed (if kexinit_sent (r_flags s) then s1 else r_SendKexInit false size1 s1) /\ W (if kexinit_sent (r_flags s) then s1 else r_SendKexInit false size1 s1)).
    { destruct (kexinit_sent _); [auto|]. split; [now apply kexinit_keyed|now apply answer_W]. }
    destruct G as (G1 & G2). destruct role; [auto|]. split; [now apply send_keyed|now apply send_W].
  - destruct (_ || _) eqn:B in S; injection S as <-; [split; [exact K|exact H]|]. repeat (apply orb_false_iff in B; destruct B as (B & ?)). apply negb_false_iff in B.
    assert (X : exchanging (r_log s) = true) by (rewrite (co_ex _ _ C); exact B). destruct role; (split; [apply newkeys_keyed|apply newkeys_W]); rewrite ?send_exchanging; auto; [now apply send_keyed|now apply send_W].
  - destruct (_ || _) eqn:B in S; injection S as <-; [split; [exact K|exact H]|]. repeat (apply orb_false_iff in B; destruct B as (B & ?)). apply negb_false_iff in B.
    assert (X : exchanging (r_log s) = true) by (rewrite (co_ex _ _ C); exact B). destruct fails; [split; [exact K|exact H]|]. split.
    + apply reset_keyed. intros A. cbn. split; [apply (K A)|reflexivity].
    + apply reset_W; [apply note_W; [exact H|exact Logic.I]|]. cbn [r_note r_log r_set_in r_set_flags r_set_due]. rewrite exchanging_snoc. exact X.
  - destruct (r_due s) as [due|] eqn:DU; [|discriminate]. destruct (N.leb_spec due (r_now s)); [|discriminate]. destruct (dbg && _); injection S as <-; [split; [exact K|exact H]|].
    destruct (IsIdle _); [|split; [exact K|exact H]]. split; [now apply kexinit_keyed|]. unfold r_SendKexInit. cbv zeta. apply send_W.
    assert (Z : W (r_note (VKexInit true) (r_set_due None s))); [|exact Z]. apply note_W; [exact H|]. cbn [r_set_due r_log r_now]. intros A t0 T.
    destruct (co_early _ _ C due t0 DU) as [Q|Q]; [rewrite <- (co_auth _ _ C); exact A|exact T|left; lia|now right].
  - assert (Q : s' = r_set_now (r_now s + d) s) by (destruct (r_due s); [destruct (_ <=? _); [|discriminate]|]; congruence). subst s'. split; [exact K|]. destruct H as (H1 & H2). split; [exact H1|].
    eapply Forall_impl; [|exact H2]. intros e. cbn. lia.
  - injection S as <-. split; [exact K|exact H].
Qed.

Lemma runs_W : forall dbg slack role ops s, rk_runs dbg slack role ops s -> keyed s /\ W s.
Proof.
  intros dbg slack role ops s H. induction H as [now|ops s o s' H (IH1 & IH2) S].
  - split; [intros A; discriminate|]. split; [intros pre t post L; destruct pre; discriminate|constructor].
  - eapply step_W; eauto. eapply runs_full; eauto.
Qed.

(** ** Splitting the history *)

Lemma exhausted_in : forall l t, exhausted l = Some t -> exists e, In e l /\ fst e = t.
Proof.
  induction l as [|e l IH] using rev_ind; intros t H; [discriminate|]. rewrite exhausted_snoc in H.
  assert (G : exhausted l = Some t -> exists x, In x (l ++ [e]) /\ fst x = t) by (intros E; destruct (IH t E) as (x & X & Y); exists x; split; [apply in_or_app; now left|exact Y]).
  assert (L : Some (fst e) = Some t -> exists x, In x (l ++ [e]) /\ fst x = t) by (intros E; injection E as <-; exists e; split; [apply in_or_app; right; now left|reflexivity]).
  destruct (snd e) as [[|] ?| | | | | |]; try discriminate; auto. destruct (_ && _); [destruct (exhausted l)|]; auto.
Qed.
Lemma logged_in_app : forall a b, logged_in a = true -> logged_in (a ++ b) = true.
Proof. intros a b H. unfold logged_in in *. rewrite existsb_app, H. reflexivity. Qed.

Lemma exhausted_split : forall l pre t n post, wf l -> l = pre ++ (t, VPacket true n) :: post ->
  logged_in pre = true -> exchanging pre = false -> one_gib <= used (pre ++ [(t, VPacket true n)]) ->
  forallb (fun e => negb (is_kexinit e)) post = true ->
  exchanging l = false /\ logged_in l = true /\ exists t', exhausted l = Some t' /\ t' <= t.
Proof.
  intros l pre t n post WF L A X U F. subst l. induction post as [|e q IH] using rev_ind.
  - rewrite exhausted_snoc, exchanging_snoc, (logged_in_app _ _ A). cbn [snd fst]. rewrite A, X. cbn [negb andb]. split; [reflexivity|]. split; [reflexivity|].
    destruct (N.leb_spec one_gib (used (pre ++ [(t, VPacket true n)]))); [|lia].
    destruct (exhausted pre) as [t'|] eqn:B; [|exists t; split; [reflexivity|lia]]. exists t'. split; [reflexivity|]. destruct (exhausted_in _ _ B) as (x & I & <-).
    destruct (WF pre _ [] eq_refl) as (P & _). rewrite Forall_forall in P. exact (P x I).
  - rewrite forallb_app in F. apply andb_true_iff in F. destruct F as (F & Fe). cbn in Fe. rewrite andb_true_r in Fe. apply negb_true_iff in Fe.
    assert (E : pre ++ (t, VPacket true n) :: q ++ [e] = (pre ++ (t, VPacket true n) :: q) ++ [e]) by (rewrite <- app_assoc; reflexivity). rewrite E in *.
    destruct (IH ltac:(intros a b c EQ; apply (WF a b (c ++ [e])); rewrite EQ, <- app_assoc; reflexivity) F) as (I1 & I2 & t' & I3 & I4).
    destruct (WF _ e [] eq_refl) as (_ & S). rewrite exhausted_snoc, exchanging_snoc, logged_in_snoc, I1, I2, I3. unfold is_kexinit in Fe.
    destruct (snd e) as [[|] ?| | | | | |]; try discriminate; try congruence; cbn [orb]; (split; [reflexivity|split; [reflexivity|]]); exists t'; split; try exact I4; try reflexivity.
    destruct (_ && _); reflexivity.
Qed.
