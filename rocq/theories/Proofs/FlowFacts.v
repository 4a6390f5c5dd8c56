(** Invariants of the output side of channels. *)

From Coq Require Import NArith List Bool Lia.
From Verif.Base Require Import Bytes.
From Verif.Model Require Import Wire ChannelIO.
From Verif.Spec Require Import FlowSpec.
Import ListNotations.
Open Scope N_scope.

Local Arguments take : simpl never.
Local Arguments drop : simpl never.
Local Arguments N.min : simpl never.

Lemma src_eqb_eq : forall a b, src_eqb a b = true <-> a = b.
Proof. intros [] []; cbn; split; congruence. Qed.
Lemma src_eqb_refl : forall a, src_eqb a a = true.
Proof. intros []; reflexivity. Qed.
Lemma src_eqb_neq : forall a b, a <> b -> src_eqb a b = false.
Proof. intros [] []; cbn; congruence. Qed.

Lemma sget_sput : forall x y v s, x <> Sock -> sget (sput x v s) y = if src_eqb x y then v else sget s y.
Proof. intros [] [] v s H; try reflexivity; congruence. Qed.

(** ** Facts about one source *)

Definition src_ok (x : src) (swin : N) (v : source) : Prop :=
  (so_read v = true -> 0 < swin /\ so_reg v = true) /\
  (so_reg v = true -> so_open v = true) /\
  (x <> Tty -> so_reg v = so_read v) /\
  (so_open v = false -> so_data v = []).

Lemma ok_none : forall x w, src_ok x w no_source.
Proof. intros. repeat split; discriminate. Qed.
Lemma ok_new : forall x w d e, src_ok x w (new_source d e).
Proof. intros. repeat split; discriminate. Qed.
Ltac sok := unfold src_ok in *; cbn in *; intuition (try congruence; try lia; eauto).
Lemma ok_schedule : forall x w v, 0 < w -> src_ok x w v -> src_ok x w (schedule_read v).
Proof. intros x w v P H. unfold schedule_read. destruct (so_open v) eqn:O; [sok|exact H]. Qed.
Lemma ok_cancel_all : forall x w w' v, src_ok x w v -> src_ok x w' (cancel_all v).
Proof. intros x w w' v H. sok. Qed.
Lemma ok_cancel_read : forall w w' v, src_ok Tty w v -> src_ok Tty w' (cancel_read v).
Proof. intros w w' v H. sok. Qed.
Lemma ok_schedule_write : forall w v, src_ok Tty w v -> src_ok Tty w (schedule_write v).
Proof. intros w v H. unfold schedule_write. destruct (so_open v) eqn:O; [sok|exact H]. Qed.
Lemma ok_set_eof : forall x w v, src_ok x w v -> src_ok x w (set_eof v).
Proof. intros x w v H. sok. Qed.
Lemma ok_set_data : forall x w v d, so_open v = true -> src_ok x w v -> src_ok x w (set_data v d).
Proof. intros x w v d O H. sok. Qed.
Lemma ok_swin : forall x w w' v, (so_read v = true -> 0 < w') -> src_ok x w v -> src_ok x w' v.
Proof. intros x w w' v P H. sok. Qed.

(** ** The window *)

Definition W (w : N) (s : sess) : Prop :=
  (forall x, src_ok x (ss_swin s) (sget s x)) /\
  ss_swin s + sent_total (ss_log s) = credit w (ss_log s) /\
  ~ In IAssertFailed (ss_log s).

Definition quiet (e : iev) : Prop :=
  match e with ISent _ _ | IAdjusted _ | IAssertFailed => False | _ => True end.

Lemma W_log : forall w e s, quiet e -> W w s -> W w (slog e s).
Proof.
  intros w e s Q (A & B & C). split; [exact A|]. split; [destruct e; try exact B; contradiction|].
  intros [->|H]; [contradiction|exact (C H)].
Qed.
Lemma W_put : forall w x v s, x <> Sock -> src_ok x (ss_swin s) v -> W w s -> W w (sput x v s).
Proof.
  intros w x v s X V (A & B & C). split; [|split; [exact B|exact C]].
  intros y. rewrite sget_sput by exact X. change (ss_swin (sput x v s)) with (ss_swin s).
  destruct (src_eqb x y) eqn:E; [apply src_eqb_eq in E; subst; exact V|apply A].
Qed.
Lemma W_child : forall w c s, W w s -> W w (schild c s).
Proof. intros w c s (A & B & C). split; [intros []; exact (A _)|split; assumption]. Qed.
Lemma W_block : forall w c s, W w s -> W w (sblock c s).
Proof. intros w c s (A & B & C). split; [intros []; exact (A _)|split; assumption]. Qed.
Lemma W_closed : forall w s, W w s -> W w (sclosed s).
Proof. intros w s (A & B & C). split; [intros []; exact (A _)|split; assumption]. Qed.

Lemma W_close_source : forall w x c s, x <> Sock -> W w s -> W w (s_close_source x c s).
Proof.
  intros w x c s X H. unfold s_close_source. destruct (so_open (sget s x)); [|exact H].
  destruct (so_data (sget s x)); apply W_log; try exact I; apply W_put; auto using ok_none; apply W_log; auto; exact I.
Qed.
Lemma W_close : forall w c s, W w s -> W w (s_close c s).
Proof.
  intros w c s H. unfold s_close. apply W_closed, W_child, W_log; [exact I|].
  repeat (apply W_close_source; [discriminate|]). exact H.
Qed.
Lemma W_inactive : forall w s, W w s -> W w (s_close_if_inactive s).
Proof. intros w s H. unfold s_close_if_inactive. destruct (s_outputs s || ss_child s); [exact H|now apply W_close]. Qed.
Lemma W_eof : forall w s, W w s -> W w (s_maybe_eof s).
Proof. intros w s H. unfold s_maybe_eof. destruct (s_outputs s); [exact H|]. apply W_inactive, W_log; [exact I|exact H]. Qed.

Lemma W_schedule : forall w s, 0 < ss_swin s -> W w s -> W w (s_schedule s).
Proof.
  intros w s P H. unfold s_schedule. pose proof H as (A & _).
  apply W_put; [discriminate| |apply W_put; [discriminate| |apply W_put; [discriminate| |exact H]]];
    apply ok_schedule; try exact P; [exact (A Tty)|exact (A Stderr)|exact (A Stdout)].
Qed.

Lemma sget_cancel : forall s x, sget (s_cancel s) x =
  match x with Tty => cancel_read (ss_tty s) | Stdout => cancel_all (ss_out s) | Stderr => cancel_all (ss_err s) | Sock => no_source end.
Proof. intros s []; reflexivity. Qed.

(** canceling makes every window fine *)
Lemma cancel_ok : forall s w, (forall x, src_ok x w (sget s x)) -> forall w' x, src_ok x w' (sget (s_cancel s) x).
Proof.
  intros s w A w' x. rewrite sget_cancel. destruct x.
  - eapply ok_cancel_all, (A Stdout).
  - eapply ok_cancel_all, (A Stderr).
  - eapply ok_cancel_read, (A Tty).
  - apply ok_none.
Qed.
Lemma W_cancel : forall w s, W w s -> W w (s_cancel s).
Proof. intros w s (A & B & C). split; [|split; [exact B|exact C]]. apply (cancel_ok s (ss_swin s) A). Qed.

Lemma W_tell : forall w t s, W w s -> W w (s_tell t s).
Proof.
  intros w t s H. 
  assert (B : forall s, W w s -> W w (s_blocked s)).
  { intros s0 H0. unfold s_blocked. destruct (ss_swin s0 =? 0); [exact H0|now apply W_cancel]. }
  assert (U : forall s, W w s -> W w (s_unblocked s)).
  { intros s0 H0. unfold s_unblocked. destruct (ss_swin s0 =? 0) eqn:E; [exact H0|]. apply N.eqb_neq in E. apply W_schedule; [lia|exact H0]. }
  destruct t; cbn; auto.
Qed.

Lemma take_le : forall n (d : bytes), len (take n d) <= n.
Proof. intros n d. unfold len, take. pose proof (firstn_le_length (N.to_nat n) d) as H. rewrite firstn_length. lia. Qed.

Lemma W_read : forall w x s, x <> Sock -> so_read (sget s x) = true -> W w s -> W w (s_read x s).
Proof.
  intros w x s X R H. pose proof H as (A & B & C). unfold s_read.
  destruct (A x) as (P & Q & _). destruct (P R) as (P1 & P2).
  set (size := N.min 4096 (ss_swin s)) in *. assert (SZ : 0 < size /\ size <= ss_swin s) by (unfold size; lia).
  destruct (size =? 0) eqn:Z; [apply N.eqb_eq in Z; lia|].
  destruct (take size (so_data (sget s x))) as [|b t] eqn:T.
  - apply W_eof, W_close_source; assumption.
  - rewrite <- T. set (d := take size (so_data (sget s x))) in *.
    assert (L : len d <= ss_swin s) by (pose proof (take_le size (so_data (sget s x))); unfold d; lia).
    set (v := set_data (sget s x) (drop size (so_data (sget s x)))).
    change (ss_swin (sput x v s)) with (ss_swin s). cbv zeta.
    set (s' := slog (ISent x d) (sswin (ss_swin s - len d) (sput x v s))).
    assert (V : forall y, src_ok y (ss_swin s) (sget (sput x v s) y)).
    { apply (W_put w x v s X); [|exact H]. apply ok_set_data; [now apply Q|apply A]. }
    assert (B' : ss_swin s' + sent_total (ss_log s') = credit w (ss_log s')).
    { cbn. lia. }
    assert (C' : ~ In IAssertFailed (ss_log s')) by (intros [K|K]; [discriminate|exact (C K)]).
    change (ss_swin s') with (ss_swin s - len d).
    destruct (ss_swin s - len d =? 0) eqn:E.
    + split; [|split; [exact B'|exact C']]. apply (cancel_ok s' (ss_swin s)). intros y. exact (V y).
    + apply N.eqb_neq in E. split; [|split; [exact B'|exact C']].
      intros y. apply (ok_swin y (ss_swin s)); [cbn; lia|]. exact (V y).
Qed.

Lemma W_step : forall w s o, credit w (ss_log (sstep s o)) < pow64 -> W w s -> W w (sstep s o).
Proof.
  intros w s o CR H. unfold sstep in *. destruct (ss_closed s); [exact H|]. pose proof H as (A & B & C).
  destruct o.
  - destruct (so_open (sget s x)) eqn:O; [|exact H]. destruct (negb (so_eof (sget s x))); [|exact H]. cbn [andb] in *.
    apply W_log; [exact I|]. apply W_put; [intros ->; discriminate| |exact H]. apply ok_set_data; [exact O|apply A].
  - destruct (so_open (sget s x)) eqn:O; [|exact H]. apply W_put; [intros ->; discriminate| |exact H]. apply ok_set_eof, A.
  - destruct (so_open (sget s x)) eqn:O; [|exact H]. destruct (so_reg (sget s x)) eqn:R; [|exact H]. cbn [andb] in *.
    destruct x; try discriminate.
    + assert (RD : so_read (sget s Stdout) = true) by (destruct (A Stdout) as (_ & _ & K & _); rewrite <- K; [exact R|discriminate]).
      destruct (so_data (sget s Stdout)) eqn:D; [destruct (so_eof (sget s Stdout)); [|exact H]|]; apply W_read; auto; discriminate.
    + assert (RD : so_read (sget s Stderr) = true) by (destruct (A Stderr) as (_ & _ & K & _); rewrite <- K; [exact R|discriminate]).
      destruct (so_data (sget s Stderr)) eqn:D; [destruct (so_eof (sget s Stderr)); [|exact H]|]; apply W_read; auto; discriminate.
    + unfold s_tty_ready. destruct (so_read (ss_tty s)) eqn:RD; cbn [andb].
      * destruct (so_data (ss_tty s)) eqn:D; cbn [negb].
        -- destruct (so_eof (ss_tty s)); [apply W_eof, W_close_source; auto; discriminate|exact H].
        -- apply W_read; auto; discriminate.
      * destruct (so_eof (ss_tty s)); [apply W_eof, W_close_source; auto; discriminate|exact H].
  - apply W_put; [discriminate| |exact H]. apply ok_schedule_write, (A Tty).
  - destruct (k =? 0) eqn:K; [exact H|]. apply N.eqb_neq in K.
    change (ss_swin (slog (IAdjusted k) s)) with (ss_swin s) in *.
    destruct (ss_swin s =? 0) eqn:Z.
    + apply N.eqb_eq in Z. cbn [ss_log sswin s_schedule sput slog] in CR. cbn [credit] in CR.
      split; [|split].
      * intros y. cbn [ss_swin sswin s_schedule sput slog]. rewrite Z, N.add_0_l, N.mod_small by lia.
        assert (Y : sget (sswin k (s_schedule (slog (IAdjusted k) s))) y = match y with Sock => no_source | _ => schedule_read (sget s y) end)
          by (destruct y; reflexivity).
        change (sget (sswin k (s_schedule (slog (IAdjusted k) s))) y) with (sget (s_schedule (slog (IAdjusted k) s)) y) in Y.
        change (sget (sswin (k mod pow64) (s_schedule (slog (IAdjusted k) s))) y) with (sget (s_schedule (slog (IAdjusted k) s)) y).
        match goal with |- src_ok _ _ ?v => assert (V : v = match y with Sock => no_source | _ => schedule_read (sget s y) end) by (destruct y; reflexivity); rewrite V end.
        destruct y; [| | |apply ok_none]; (apply ok_schedule; [lia|]; eapply ok_swin; [|apply A]; intros _; lia).
      * cbn [ss_swin sswin s_schedule sput slog ss_log sent_total credit]. rewrite Z, N.add_0_l, N.mod_small by lia. lia.
      * intros [X|X]; [discriminate|exact (C X)].
    + apply N.eqb_neq in Z. cbn [ss_log sswin slog credit] in CR. split; [|split].
      * intros y. cbn [ss_swin sswin slog]. rewrite N.mod_small by lia. apply (ok_swin y (ss_swin s)); [lia|]. destruct y; apply A.
      * cbn [ss_swin sswin slog ss_log sent_total credit]. rewrite N.mod_small by lia. lia.
      * intros [X|X]; [discriminate|exact (C X)].
  - destruct (ss_child s || s_outputs s); [exact H|]. apply W_put; [discriminate|apply ok_new|exact H].
  - destruct (ss_child s || so_open (ss_out s) || so_open (ss_err s)); [exact H|].
    apply W_log; [exact I|]. apply W_child.
    set (s1 := if so_open (ss_tty s) then s else _). assert (H1 : W w s1).
    { unfold s1. destruct (so_open (ss_tty s)); [exact H|]. apply W_put; [discriminate|apply ok_new|].
      apply W_put; [discriminate|apply ok_new|exact H]. }
    clearbody s1. destruct (ss_swin s1 =? 0) eqn:Z; [exact H1|]. apply N.eqb_neq in Z. apply W_schedule; [lia|exact H1].
  - destruct (ss_child s); [|exact H]. apply W_inactive, W_log; [exact I|]. now apply W_child.
  - set (s1 := slog (IProduced Stderr text) _). assert (H1 : W w s1).
    { unfold s1. apply W_log; [exact I|]. apply W_put; [discriminate|apply ok_new|]. apply W_child.
      repeat (apply W_close_source; [discriminate|]). exact H. }
    clearbody s1. destruct (ss_swin s1 =? 0) eqn:Z; [exact H1|]. apply N.eqb_neq in Z. apply W_schedule; [lia|exact H1].
  - destruct (b_rekey (ss_block s)); [exact H|]. cbn [b_kexinit]. apply W_tell, W_log; [exact I|]. now apply W_block.
  - destruct (b_rekey (ss_block s)); [|exact H]. cbn [b_newkeys]. apply W_tell, W_log; [exact I|]. now apply W_block.
  - cbn [b_flush]. apply W_tell. now apply W_block.
  - now apply W_close.
Qed.

(** ** Runs *)

Lemma close_source_log : forall x c s, exists evs, ss_log (s_close_source x c s) = evs ++ ss_log s.
Proof.
  intros x c s. unfold s_close_source. destruct (so_open (sget s x)); [|now exists []].
  destruct (so_data (sget s x)); cbn; [exists [IEnded x]|eexists [IEnded x; _]]; reflexivity.
Qed.
Lemma close_log : forall c s, exists evs, ss_log (s_close c s) = evs ++ ss_log s.
Proof.
  intros c s. unfold s_close. cbn [ss_log sclosed schild slog].
  destruct (close_source_log Stdout c s) as (e1 & E1).
  destruct (close_source_log Stderr c (s_close_source Stdout c s)) as (e2 & E2).
  destruct (close_source_log Tty c (s_close_source Stderr c (s_close_source Stdout c s))) as (e3 & E3).
  rewrite E3, E2, E1. exists (IClosed :: e3 ++ e2 ++ e1). cbn. now rewrite <- !app_assoc.
Qed.
Lemma inactive_log : forall s, exists evs, ss_log (s_close_if_inactive s) = evs ++ ss_log s.
Proof. intros s. unfold s_close_if_inactive. destruct (s_outputs s || ss_child s); [now exists []|apply close_log]. Qed.
Lemma eof_log : forall s, exists evs, ss_log (s_maybe_eof s) = evs ++ ss_log s.
Proof.
  intros s. unfold s_maybe_eof. destruct (s_outputs s); [now exists []|].
  destruct (inactive_log (slog ISentEof s)) as (e & E). rewrite E. exists (e ++ [ISentEof]). now rewrite <- app_assoc.
Qed.
Lemma tell_log : forall t s, ss_log (s_tell t s) = ss_log s.
Proof.
  intros t s. assert (B : forall s, ss_log (s_blocked s) = ss_log s) by (intros s0; unfold s_blocked; destruct (ss_swin s0 =? 0); reflexivity).
  assert (U : forall s, ss_log (s_unblocked s) = ss_log s) by (intros s0; unfold s_unblocked; destruct (ss_swin s0 =? 0); reflexivity).
  destruct t; cbn; rewrite ?B, ?U; reflexivity.
Qed.
Lemma read_log : forall x s, exists evs, ss_log (s_read x s) = evs ++ ss_log s.
Proof.
  intros x s. unfold s_read. destruct (N.min 4096 (ss_swin s) =? 0); [now exists [IAssertFailed]|].
  destruct (take (N.min 4096 (ss_swin s)) (so_data (sget s x))) as [|b t].
  - destruct (close_source_log x LHangup s) as (e1 & E1). destruct (eof_log (s_close_source x LHangup s)) as (e2 & E2).
    rewrite E2, E1. exists (e2 ++ e1). now rewrite app_assoc.
  - cbv zeta. destruct (_ =? 0); eexists [_]; reflexivity.
Qed.

Lemma step_log : forall s o, exists evs, ss_log (sstep s o) = evs ++ ss_log s.
Proof.
  intros s o. unfold sstep. destruct (ss_closed s); [now exists []|]. destruct o.
  - destruct (so_open (sget s x) && negb (so_eof (sget s x))); [eexists [_]; reflexivity|now exists []].
  - destruct (so_open (sget s x)); now exists [].
  - destruct (so_open (sget s x) && so_reg (sget s x)); [|now exists []].
    destruct x; try (destruct (so_data _); [destruct (so_eof _)|]; (apply read_log || now exists [])).
    unfold s_tty_ready. destruct (_ && _); [apply read_log|]. destruct (so_eof (ss_tty s)); [|now exists []].
    destruct (close_source_log Tty LHangup s) as (e1 & E1). destruct (eof_log (s_close_source Tty LHangup s)) as (e2 & E2).
    rewrite E2, E1. exists (e2 ++ e1). now rewrite app_assoc.
  - now exists [].
  - destruct (k =? 0); [now exists []|]. cbv zeta. change (ss_swin (slog (IAdjusted k) s)) with (ss_swin s).
    destruct (ss_swin s =? 0); eexists [_]; reflexivity.
  - destruct (ss_child s || s_outputs s); now exists [].
  - destruct (ss_child s || so_open (ss_out s) || so_open (ss_err s)); [now exists []|]. cbv zeta.
    destruct (so_open (ss_tty s)); (destruct (_ =? 0); now exists [IStarted]).
  - destruct (ss_child s); [|now exists []]. destruct (inactive_log (slog ISentExit (schild false s))) as (e & E).
    rewrite E. exists (e ++ [ISentExit]). cbn. now rewrite <- app_assoc.
  - cbv zeta. destruct (close_source_log Stdout LRejected s) as (e1 & E1).
    destruct (close_source_log Stderr LRejected (s_close_source Stdout LRejected s)) as (e2 & E2).
    destruct (close_source_log Tty LRejected (s_close_source Stderr LRejected (s_close_source Stdout LRejected s))) as (e3 & E3).
    exists (IProduced Stderr text :: e3 ++ e2 ++ e1). destruct (_ =? 0); cbn; rewrite E3, E2, E1, <- !app_assoc; reflexivity.
  - destruct (b_rekey (ss_block s)); [now exists []|]. cbn [b_kexinit]. rewrite tell_log. now exists [IKexInit].
  - destruct (b_rekey (ss_block s)); [|now exists []]. cbn [b_newkeys]. rewrite tell_log. now exists [INewKeys].
  - cbn [b_flush]. rewrite tell_log. now exists [].
  - apply close_log.
Qed.

Lemma credit_mono : forall w evs l, credit w l <= credit w (evs ++ l).
Proof. intros w evs l. induction evs as [|e t IH]; [reflexivity|]. destruct e; cbn; try exact IH. lia. Qed.

Lemma sruns_snoc : forall w b ops o, sruns w b (ops ++ [o]) = sstep (sruns w b ops) o.
Proof. intros. unfold sruns. now rewrite fold_left_app. Qed.

Lemma sruns_W : forall w b ops, credit w (ss_log (sruns w b ops)) < pow64 -> W w (sruns w b ops).
Proof.
  intros w b ops. induction ops as [|o t IH] using rev_ind; intros H.
  - split; [intros []; apply ok_none|]. split; [cbn; lia|intros []].
  - rewrite sruns_snoc in *. destruct (step_log (sruns w b t) o) as (e & E).
    pose proof (credit_mono w e (ss_log (sruns w b t))) as M. rewrite <- E in M. apply W_step; [exact H|]. apply IH. lia.
Qed.

(** ** Conservation *)

Definition K (s : sess) : Prop := forall x, x <> Sock ->
  (lost x (ss_log s) = false -> produced x (ss_log s) = sent x (ss_log s) ++ so_data (sget s x)) /\
  (so_open (sget s x) = false -> so_data (sget s x) = []).

Definition still (e : iev) : Prop := match e with IProduced _ _ | ISent _ _ | ILost _ _ _ => False | _ => True end.

Lemma K_log : forall e s, still e -> K s -> K (slog e s).
Proof.
  intros e s Q H x X. destruct (H x X) as (A & B). split; [|exact B]. destruct e; try exact A; contradiction.
Qed.
Lemma K_put : forall x v s, so_data v = so_data (sget s x) -> (so_open v = false -> so_data v = []) -> K s -> K (sput x v s).
Proof.
  intros x v s D O H y Y. destruct (H y Y) as (A & B). change (ss_log (sput x v s)) with (ss_log s).
  destruct x; [| | |split; [destruct y; exact A|destruct y; exact B]];
    rewrite sget_sput by discriminate; match goal with |- context [src_eqb ?a y] => destruct (src_eqb a y) eqn:E end;
    try (split; [exact A|exact B]); apply src_eqb_eq in E; subst y; rewrite D; (split; [exact A|]); rewrite <- D; exact O.
Qed.
Lemma K_child : forall c s, K s -> K (schild c s).
Proof. intros c s H x X. destruct (H x X) as (A & B). destruct x; split; assumption. Qed.
Lemma K_block : forall c s, K s -> K (sblock c s).
Proof. intros c s H x X. destruct (H x X) as (A & B). destruct x; split; assumption. Qed.
Lemma K_closed : forall s, K s -> K (sclosed s).
Proof. intros s H x X. destruct (H x X) as (A & B). destruct x; split; assumption. Qed.
Lemma K_swin : forall w s, K s -> K (sswin w s).
Proof. intros w s H x X. destruct (H x X) as (A & B). destruct x; split; assumption. Qed.

Lemma lost_cons : forall x d c l, lost x (ILost x d c :: l) = true.
Proof. intros. unfold lost. cbn. now rewrite src_eqb_refl. Qed.

Lemma K_close_source : forall x c s, x <> Sock -> K s -> K (s_close_source x c s).
Proof.
  intros x c s X H. unfold s_close_source. destruct (so_open (sget s x)) eqn:O; [|exact H].
  destruct (so_data (sget s x)) as [|b t] eqn:D; apply K_log; try exact I.
  - apply K_put; auto.
  - intros y Y. change (ss_log (sput x no_source (slog (ILost x (b :: t) c) s))) with (ILost x (b :: t) c :: ss_log s).
    rewrite sget_sput by exact X. destruct (src_eqb x y) eqn:E.
    + split; [|reflexivity]. unfold lost. cbn. rewrite E. discriminate.
    + destruct (H y Y) as (A & B). change (sget (slog (ILost x (b :: t) c) s) y) with (sget s y).
      split; [|exact B]. unfold lost. cbn. rewrite E. exact A.
Qed.
Lemma K_close : forall c s, K s -> K (s_close c s).
Proof.
  intros c s H. unfold s_close. apply K_closed, K_child, K_log; [exact I|].
  repeat (apply K_close_source; [discriminate|]). exact H.
Qed.
Lemma K_inactive : forall s, K s -> K (s_close_if_inactive s).
Proof. intros s H. unfold s_close_if_inactive. destruct (s_outputs s || ss_child s); [exact H|now apply K_close]. Qed.
Lemma K_eof : forall s, K s -> K (s_maybe_eof s).
Proof. intros s H. unfold s_maybe_eof. destruct (s_outputs s); [exact H|]. apply K_inactive, K_log; [exact I|exact H]. Qed.
Lemma schedule_data : forall v, so_data (schedule_read v) = so_data v /\ so_open (schedule_read v) = so_open v.
Proof. intros v. unfold schedule_read. destruct (so_open v) eqn:O; split; cbn; congruence. Qed.
Lemma K_schedule : forall s, K s -> K (s_schedule s).
Proof.
  intros s H x X. destruct (H x X) as (A & B).
  assert (G : sget (s_schedule s) x = match x with Sock => no_source | _ => schedule_read (sget s x) end) by (destruct x; reflexivity).
  rewrite G. destruct (schedule_data (sget s x)) as (D & O).
  destruct x; try contradiction; rewrite ?D, ?O; (split; [exact A|exact B]).
Qed.
Lemma K_cancel : forall s, K s -> K (s_cancel s).
Proof. intros s H x X. destruct (H x X) as (A & B). rewrite sget_cancel. destruct x; (split; [exact A|exact B]). Qed.
Lemma K_tell : forall t s, K s -> K (s_tell t s).
Proof.
  intros t s H. assert (B : forall s, K s -> K (s_blocked s)) by (intros s0 H0; unfold s_blocked; destruct (ss_swin s0 =? 0); [exact H0|now apply K_cancel]).
  assert (U : forall s, K s -> K (s_unblocked s)) by (intros s0 H0; unfold s_unblocked; destruct (ss_swin s0 =? 0); [exact H0|now apply K_schedule]).
  destruct t; cbn; auto.
Qed.

Lemma K_sent : forall x n s, x <> Sock -> so_open (sget s x) = true -> K s ->
  K (slog (ISent x (take n (so_data (sget s x)))) (sput x (set_data (sget s x) (drop n (so_data (sget s x)))) s)).
Proof.
  intros x n s X O H y Y. destruct (H y Y) as (A & B).
  match goal with |- context [sget (slog ?e ?t) y] => assert (G : sget (slog e t) y = sget t y) by (destruct y; reflexivity); rewrite G end.
  rewrite sget_sput by exact X. cbn [ss_log slog sput]. cbn [sent produced]. unfold lost. cbn [existsb]. fold (lost y (ss_log s)).
  destruct (src_eqb x y) eqn:E; [|split; [exact A|exact B]]. apply src_eqb_eq in E. subst y.
  split; [|cbn; congruence]. cbn [so_data set_data]. intros L. rewrite <- app_assoc, take_drop. exact (A L).
Qed.

Lemma K_read : forall x s, x <> Sock -> so_open (sget s x) = true -> K s -> K (s_read x s).
Proof.
  intros x s X O H. unfold s_read. destruct (N.min 4096 (ss_swin s) =? 0); [now apply K_log|].
  set (size := N.min 4096 (ss_swin s)).
  destruct (take size (so_data (sget s x))) as [|b t] eqn:T; [apply K_eof, K_close_source; assumption|].
  rewrite <- T. cbv zeta.
  assert (G : K (slog (ISent x (take size (so_data (sget s x)))) (sswin (ss_swin (sput x (set_data (sget s x) (drop size (so_data (sget s x)))) s) - len (take size (so_data (sget s x))))
                   (sput x (set_data (sget s x) (drop size (so_data (sget s x)))) s)))).
  { pose proof (K_sent x size s X O H) as P. apply (K_swin (ss_swin s - len (take size (so_data (sget s x))))) in P. exact P. }
  destruct (_ =? 0); [now apply K_cancel|exact G].
Qed.

Lemma K_step : forall s o, K s -> K (sstep s o).
Proof.
  intros s o H. unfold sstep. destruct (ss_closed s); [exact H|]. destruct o.
  - destruct (so_open (sget s x)) eqn:O; [|exact H]. destruct (negb (so_eof (sget s x))); [|exact H]. cbn [andb].
    assert (X : x <> Sock) by (intros ->; discriminate).
    intros y Y. destruct (H y Y) as (A & B).
    match goal with |- context [sget (slog ?e ?t) y] => assert (G : sget (slog e t) y = sget t y) by (destruct y; reflexivity); rewrite G end.
    rewrite sget_sput by exact X. cbn [ss_log slog sput produced sent]. unfold lost. cbn [existsb]. fold (lost y (ss_log s)).
    destruct (src_eqb x y) eqn:E; [|split; [exact A|exact B]]. apply src_eqb_eq in E. subst y.
    split; [|cbn; congruence]. cbn [so_data set_data]. intros L. rewrite (A L). now rewrite app_assoc.
  - destruct (so_open (sget s x)) eqn:O; [|exact H]. apply K_put; [reflexivity|cbn; congruence|exact H].
  - destruct (so_open (sget s x)) eqn:O; [|exact H]. destruct (so_reg (sget s x)); [|exact H]. cbn [andb].
    destruct x; try discriminate;
      try (destruct (so_data _); [destruct (so_eof _)|]; (apply K_read; [discriminate|exact O|exact H]) || exact H).
    unfold s_tty_ready. destruct (_ && _); [apply K_read; [discriminate|exact O|exact H]|].
    destruct (so_eof (ss_tty s)); [|exact H]. apply K_eof, K_close_source; [discriminate|exact H].
  - destruct (H Tty ltac:(discriminate)) as (A & B). apply K_put; [| |exact H].
    + unfold schedule_write. cbn [sget]. destruct (so_open (ss_tty s)); reflexivity.
    + unfold schedule_write. cbn [sget] in *. destruct (so_open (ss_tty s)) eqn:O; [discriminate|intros _; now apply B].
  - destruct (k =? 0); [exact H|]. cbv zeta. change (ss_swin (slog (IAdjusted k) s)) with (ss_swin s).
    apply K_swin. destruct (ss_swin s =? 0); [apply K_schedule|]; (apply K_log; [exact I|exact H]).
  - destruct (ss_child s); [exact H|]. unfold s_outputs. destruct (so_open (ss_out s)); [exact H|]. destruct (so_open (ss_err s)); [exact H|].
    destruct (so_open (ss_tty s)) eqn:O; [exact H|]. cbn [orb]. apply K_put; [|discriminate|exact H].
    symmetry. apply (proj2 (H Tty ltac:(discriminate))). exact O.
  - destruct (ss_child s); [exact H|]. destruct (so_open (ss_out s)) eqn:O1; [exact H|]. destruct (so_open (ss_err s)) eqn:O2; [exact H|].
    cbn [orb]. cbv zeta. apply K_log; [exact I|]. apply K_child.
    set (s1 := if so_open (ss_tty s) then s else _). assert (H1 : K s1).
    { unfold s1. destruct (so_open (ss_tty s)); [exact H|]. apply K_put; [|discriminate|apply K_put; [|discriminate|exact H]].
      - symmetry. apply (proj2 (H Stderr ltac:(discriminate))). exact O2.
      - symmetry. apply (proj2 (H Stdout ltac:(discriminate))). exact O1. }
    clearbody s1. destruct (ss_swin s1 =? 0); [exact H1|now apply K_schedule].
  - destruct (ss_child s); [|exact H]. apply K_inactive, K_log; [exact I|]. now apply K_child.
  - cbv zeta.
    set (s0 := s_close_source Tty LRejected (s_close_source Stderr LRejected (s_close_source Stdout LRejected s))).
    assert (H0 : K s0) by (unfold s0; repeat (apply K_close_source; [discriminate|]); exact H).
    assert (O : so_open (ss_err s0) = false).
    { unfold s0. assert (G : forall c s, so_open (sget (s_close_source Stderr c s) Stderr) = false).
      { intros c t. unfold s_close_source. destruct (so_open (sget t Stderr)) eqn:O; [|exact O]. destruct (so_data (sget t Stderr)); reflexivity. }
      specialize (G LRejected (s_close_source Stdout LRejected s)). revert G.
      generalize (s_close_source Stderr LRejected (s_close_source Stdout LRejected s)) as t. intros t G.
      unfold s_close_source. destruct (so_open (sget t Tty)); [|exact G]. destruct (so_data (sget t Tty)); exact G. }
    assert (H1 : K (slog (IProduced Stderr text) (sput Stderr (new_source text true) (schild false s0)))).
    { intros y Y. destruct (H0 y Y) as (A & B). destruct (H0 Stderr ltac:(discriminate)) as (_ & B').
      match goal with |- context [sget (slog ?e ?t) y] => assert (G : sget (slog e t) y = sget t y) by (destruct y; reflexivity); rewrite G end.
      rewrite sget_sput by discriminate. cbn [ss_log slog sput schild produced sent]. unfold lost. cbn [existsb]. fold (lost y (ss_log s0)).
      destruct (src_eqb Stderr y) eqn:E; [|destruct y; split; assumption]. apply src_eqb_eq in E. subst y.
      split; [|discriminate]. cbn [so_data new_source]. intros L. rewrite (A L), (B' O), app_nil_r. reflexivity. }
    destruct (_ =? 0); [exact H1|now apply K_schedule].
  - destruct (b_rekey (ss_block s)); [exact H|]. cbn [b_kexinit]. apply K_tell, K_log; [exact I|]. now apply K_block.
  - destruct (b_rekey (ss_block s)); [|exact H]. cbn [b_newkeys]. apply K_tell, K_log; [exact I|]. now apply K_block.
  - cbn [b_flush]. apply K_tell. now apply K_block.
  - now apply K_close.
Qed.

Lemma sruns_K : forall w b ops, K (sruns w b ops).
Proof.
  intros w b ops. induction ops as [|o t IH] using rev_ind.
  - intros [] X; split; reflexivity.
  - rewrite sruns_snoc. now apply K_step.
Qed.

(** ** Why data is lost *)

Definition cause_ok (e : iev) (_ : list iev) : Prop :=
  match e with ILost x _ c => x = Tty /\ c = LHangup | _ => True end.
Definition L (s : sess) : Prop := throughout cause_ok (ss_log s).

Lemma L_log : forall e s, cause_ok e [] -> L s -> L (slog e s).
Proof. intros e s Q H. split; [destruct e; exact Q|exact H]. Qed.
Lemma L_close_source : forall x c s, so_data (sget s x) = [] \/ (x = Tty /\ c = LHangup) -> L s -> L (s_close_source x c s).
Proof.
  intros x c s Q H. unfold s_close_source. destruct (so_open (sget s x)); [|exact H].
  destruct (so_data (sget s x)) eqn:D; (split; [exact I|]); [exact H|]. split; [|exact H].
  destruct Q as [Q|Q]; [discriminate|exact Q].
Qed.
Lemma L_inactive : forall s, L s -> L (s_close_if_inactive s).
Proof.
  intros s H. unfold s_close_if_inactive. destruct (s_outputs s || ss_child s) eqn:O; [exact H|].
  unfold s_outputs in O. apply orb_false_elim in O as (O & _). apply orb_false_elim in O as (O & O3). apply orb_false_elim in O as (O1 & O2).
  unfold s_close, s_close_source. cbn [sget]. rewrite O1, O2, O3. split; [exact I|exact H].
Qed.
Lemma L_eof : forall s, L s -> L (s_maybe_eof s).
Proof. intros s H. unfold s_maybe_eof. destruct (s_outputs s); [exact H|]. apply L_inactive, L_log; [exact I|exact H]. Qed.
Lemma L_tell : forall t s, L s -> L (s_tell t s).
Proof. intros t s H. unfold L. now rewrite tell_log. Qed.

Lemma take_nil : forall n (d : bytes), 0 < n -> take n d = [] -> d = [].
Proof.
  intros n [|b d] P T; [reflexivity|]. exfalso. unfold take in T. destruct (N.to_nat n) eqn:E; [lia|discriminate].
Qed.

Lemma L_read : forall x s, L s -> L (s_read x s).
Proof.
  intros x s H. unfold s_read. destruct (N.min 4096 (ss_swin s) =? 0) eqn:E; [split; [exact I|exact H]|].
  apply N.eqb_neq in E. destruct (take _ _) eqn:T.
  - apply L_eof, L_close_source; [left; eapply take_nil; [|exact T]; lia|exact H].
  - cbv zeta. destruct (_ =? 0); (split; [exact I|exact H]).
Qed.

Lemma L_step : forall s o, benign o -> L s -> L (sstep s o).
Proof.
  intros s o B H. unfold sstep. destruct (ss_closed s); [exact H|]. destruct o; try contradiction.
  - destruct (_ && _); [split; [exact I|exact H]|exact H].
  - destruct (so_open (sget s x)); exact H.
  - destruct (_ && _); [|exact H].
    destruct x; try (destruct (so_data _); [destruct (so_eof _)|]; (apply L_read; exact H) || exact H).
    unfold s_tty_ready. destruct (_ && _); [now apply L_read|]. destruct (so_eof _); [|exact H].
    apply L_eof, L_close_source; [now right|exact H].
  - exact H.
  - destruct (k =? 0); [exact H|]. cbv zeta. destruct (_ =? 0); (split; [exact I|exact H]).
  - destruct (_ || _); exact H.
  - destruct (_ || _); [exact H|]. cbv zeta. split; [exact I|]. destruct (so_open (ss_tty s)); destruct (_ =? 0); exact H.
  - destruct (ss_child s); [|exact H]. apply L_inactive. split; [exact I|exact H].
  - destruct (b_rekey (ss_block s)); [exact H|]. cbn [b_kexinit]. apply L_tell. split; [exact I|exact H].
  - destruct (b_rekey (ss_block s)); [|exact H]. cbn [b_newkeys]. apply L_tell. split; [exact I|exact H].
  - cbn [b_flush]. now apply L_tell.
Qed.

Lemma sruns_L : forall w b ops, Forall benign ops -> L (sruns w b ops).
Proof.
  intros w b ops. induction ops as [|o t IH] using rev_ind; intros F; [exact I|].
  rewrite sruns_snoc. apply Forall_app in F as (F1 & F2). inversion F2. apply L_step; auto.
Qed.

Lemma L_lost : forall s x, L s -> x <> Tty -> lost x (ss_log s) = false.
Proof.
  intros s x H X. unfold L, lost in *. induction (ss_log s) as [|e l IH]; [reflexivity|]. destruct H as (A & B).
  cbn [existsb]. rewrite (IH B). destruct e; try reflexivity. destruct A as (-> & _). rewrite src_eqb_neq; [reflexivity|congruence].
Qed.

(** ** Reading is scheduled *)

Definition T (s : sess) : Prop := ss_closed s = false -> In IStarted (ss_log s) -> ss_child s || s_outputs s = true.

Lemma T_inactive : forall s, T (s_close_if_inactive s).
Proof.
  intros s C _. unfold s_close_if_inactive in *. destruct (s_outputs s || ss_child s) eqn:O; [|discriminate].
  now rewrite orb_comm.
Qed.
Lemma T_eof : forall s, T (s_maybe_eof s).
Proof.
  intros s. unfold s_maybe_eof. destruct (s_outputs s) eqn:O; [|apply T_inactive]. intros _ _. rewrite O. apply orb_true_r.
Qed.
(** same openness *)
Definition alike (s t : sess) : Prop :=
  ss_closed t = ss_closed s /\ ss_child t = ss_child s /\ s_outputs t = s_outputs s.
Lemma T_alike : forall s t, alike s t -> (In IStarted (ss_log t) -> In IStarted (ss_log s)) -> T s -> T t.
Proof. intros s t (A & B & C) D H. unfold T in *. rewrite A, B, C. auto. Qed.
Lemma alike_refl : forall s, alike s s.
Proof. intros s. repeat split. Qed.
Lemma alike_schedule : forall s, alike s (s_schedule s).
Proof.
  intros s. repeat split. unfold s_outputs. cbn.
  now rewrite (proj2 (schedule_data (ss_out s))), (proj2 (schedule_data (ss_err s))), (proj2 (schedule_data (ss_tty s))).
Qed.
Lemma alike_cancel : forall s, alike s (s_cancel s).
Proof. intros s. repeat split. Qed.
Lemma alike_trans : forall a b c, alike a b -> alike b c -> alike a c.
Proof. intros a b c (A & B & C) (A' & B' & C'). split; [congruence|split; congruence]. Qed.
Lemma alike_put : forall x v s, so_open v = so_open (sget s x) -> alike s (sput x v s).
Proof. intros [] v s H; repeat split; unfold s_outputs; cbn in *; now rewrite ?H. Qed.
Lemma alike_tell : forall t s, alike s (s_tell t s).
Proof.
  intros t s. assert (B : forall s, alike s (s_blocked s)) by (intros s0; unfold s_blocked; destruct (_ =? 0); [apply alike_refl|apply alike_cancel]).
  assert (U : forall s, alike s (s_unblocked s)) by (intros s0; unfold s_unblocked; destruct (_ =? 0); [apply alike_refl|apply alike_schedule]).
  destruct t; cbn; auto using alike_refl. eapply alike_trans; [apply U|apply B].
Qed.

Lemma T_read : forall x s, T s -> T (s_read x s).
Proof.
  intros x s H. unfold s_read. destruct (_ =? 0).
  - refine (T_alike s _ _ _ H); [repeat split|]. cbn. intuition congruence.
  - destruct (take _ _); [apply T_eof|]. cbv zeta.
    set (t := slog _ _). assert (A : alike s t).
    { unfold t. eapply alike_trans; [apply (alike_put x (set_data (sget s x) (drop (N.min 4096 (ss_swin s)) (so_data (sget s x)))) s); reflexivity|repeat split]. }
    assert (B : In IStarted (ss_log t) -> In IStarted (ss_log s)) by (cbn; intuition congruence). clearbody t.
    destruct (_ =? 0); [|exact (T_alike _ _ A B H)]. refine (T_alike s _ _ B H). eapply alike_trans; [exact A|apply alike_cancel].
Qed.

Lemma T_step : forall s o, T s -> T (sstep s o).
Proof.
  intros s o H. unfold sstep. destruct (ss_closed s); [exact H|]. destruct o.
  - destruct (so_open (sget s x)) eqn:O; [|exact H]. destruct (negb _); [|exact H]. cbn [andb].
    refine (T_alike s _ _ _ H); [|cbn; intuition congruence]. apply (alike_put x _ s). reflexivity.
  - destruct (so_open (sget s x)) eqn:O; [|exact H]. refine (T_alike s _ _ _ H); [|exact (fun p => p)]. apply alike_put. reflexivity.
  - destruct (_ && _); [|exact H].
    destruct x; try (destruct (so_data _); [destruct (so_eof _)|]; (apply T_read; exact H) || exact H).
    unfold s_tty_ready. destruct (_ && _); [now apply T_read|]. destruct (so_eof _); [|exact H]. apply T_eof.
  - refine (T_alike s _ _ _ H); [|exact (fun p => p)]. apply alike_put. unfold schedule_write. cbn. destruct (so_open (ss_tty s)) eqn:E; [reflexivity|exact E].
  - destruct (k =? 0); [exact H|]. cbv zeta. change (ss_swin (slog (IAdjusted k) s)) with (ss_swin s). destruct (ss_swin s =? 0).
    + refine (T_alike s _ _ _ H); [|cbn; intuition congruence]. exact (alike_schedule (slog (IAdjusted k) s)).
    + refine (T_alike s _ _ _ H); [|cbn; intuition congruence]. repeat split.
  - destruct (ss_child s || s_outputs s) eqn:E; [exact H|]. intros C I. exfalso. specialize (H C I). congruence.
  - destruct (_ || _); [exact H|]. intros _ _. reflexivity.
  - destruct (ss_child s); [|exact H]. apply T_inactive.
  - intros _ _. cbv zeta. destruct (_ =? 0); unfold s_outputs; cbn; now rewrite ?orb_true_r.
  - destruct (b_rekey (ss_block s)); [exact H|]. cbn [b_kexinit]. 
    refine (T_alike s _ _ _ H); [eapply alike_trans; [|apply alike_tell]; repeat split|rewrite tell_log; cbn; intuition congruence].
  - destruct (b_rekey (ss_block s)); [|exact H]. cbn [b_newkeys].
    refine (T_alike s _ _ _ H); [eapply alike_trans; [|apply alike_tell]; repeat split|rewrite tell_log; cbn; intuition congruence].
  - cbn [b_flush]. refine (T_alike s _ _ _ H); [eapply alike_trans; [|apply alike_tell]; repeat split|rewrite tell_log; cbn; intuition congruence].
  - intros C. discriminate.
Qed.

(** reading is scheduled if there is a window and writing is not blocked *)
Definition S (s : sess) : Prop := forall x, x <> Sock ->
  ss_closed s = false -> so_open (sget s x) = true -> (x <> Tty \/ In IStarted (ss_log s)) ->
  0 < ss_swin s -> is_blocked (ss_block s) = false -> so_read (sget s x) = true.

Lemma schedule_open : forall v, so_open (schedule_read v) = true -> so_read (schedule_read v) = true.
Proof. intros v. unfold schedule_read. destruct (so_open v) eqn:E; [reflexivity|congruence]. Qed.
Lemma S_scheduled_any : forall s x, so_open (sget (s_schedule s) x) = true -> so_read (sget (s_schedule s) x) = true.
Proof. intros s [] O; try discriminate; apply schedule_open; exact O. Qed.
Lemma S_schedule : forall s, S (s_schedule s).
Proof. intros s x X C O _ _ _. now apply S_scheduled_any. Qed.
Lemma S_closed : forall s, ss_closed s = true -> S s.
Proof. intros s H x X C. congruence. Qed.
Lemma S_log : forall e s, e <> IStarted -> S s -> S (slog e s).
Proof.
  intros e s E H x X C O R P B. assert (G : sget (slog e s) x = sget s x) by (destruct x; reflexivity). rewrite G in *.
  apply H; try assumption. destruct R as [R|R]; [now left|right]. cbn in R. destruct R; [congruence|assumption].
Qed.
Lemma S_put : forall x v s, (so_open v = true -> so_open (sget s x) = true /\ so_read v = so_read (sget s x)) -> S s -> S (sput x v s).
Proof.
  intros x v s V H y Y C O R P B. destruct x; [| | |destruct y; exact (H _ Y C O R P B)];
    (rewrite sget_sput in * by discriminate; match type of O with context [src_eqb ?a y] => destruct (src_eqb a y) eqn:E end; [|exact (H _ Y C O R P B)]);
    apply src_eqb_eq in E; subst y; destruct (V O) as (V1 & V2); rewrite V2; apply H; assumption.
Qed.
Lemma S_none : forall x s, S s -> S (sput x no_source s).
Proof. intros x s H. apply S_put; [discriminate|exact H]. Qed.
Lemma S_close_source : forall x c s, S s -> S (s_close_source x c s).
Proof.
  intros x c s H. unfold s_close_source. destruct (so_open (sget s x)); [|exact H].
  destruct (so_data (sget s x)); (apply S_log; [discriminate|]); apply S_none; [exact H|]. apply S_log; [discriminate|exact H].
Qed.
Lemma S_inactive : forall s, S s -> S (s_close_if_inactive s).
Proof. intros s H. unfold s_close_if_inactive. destruct (_ || _); [exact H|]. now apply S_closed. Qed.
Lemma S_eof : forall s, S s -> S (s_maybe_eof s).
Proof. intros s H. unfold s_maybe_eof. destruct (s_outputs s); [exact H|]. apply S_inactive, S_log; [discriminate|exact H]. Qed.
Lemma S_zero : forall s, ss_swin s = 0 -> S s.
Proof. intros s Z x X C O R P. lia. Qed.
Lemma S_isblocked : forall s, is_blocked (ss_block s) = true -> S s.
Proof. intros s Z x X C O R P B. congruence. Qed.
Lemma S_sent : forall x n s, S s -> 0 < ss_swin s ->
  S (slog (ISent x (take n (so_data (sget s x)))) (sswin (ss_swin s - len (take n (so_data (sget s x)))) (sput x (set_data (sget s x) (drop n (so_data (sget s x)))) s))).
Proof.
  intros x n s H W0. apply S_log; [discriminate|].
  assert (G : S (sput x (set_data (sget s x) (drop n (so_data (sget s x)))) s)) by (apply S_put; [intros O; split; [exact O|reflexivity]|exact H]).
  intros y Y C O R P B. specialize (G y Y C). 
  assert (E : forall w t, sget (sswin w t) y = sget t y) by (intros; destruct y; reflexivity). rewrite E in *.
  apply G; assumption.
Qed.

Lemma S_read : forall x s, S s -> S (s_read x s).
Proof.
  intros x s H. unfold s_read. destruct (N.min 4096 (ss_swin s) =? 0) eqn:E; [apply S_log; [discriminate|exact H]|].
  apply N.eqb_neq in E. destruct (take _ _) eqn:Q; [apply S_eof, S_close_source, H|]. rewrite <- Q. cbv zeta.
  match goal with |- S (if ?c =? 0 then s_cancel ?t else ?t) => destruct (c =? 0) eqn:Z end.
  - apply N.eqb_eq in Z. now apply S_zero.
  - apply (S_sent x (N.min 4096 (ss_swin s)) s H). lia.
Qed.

Lemma block_tell : forall t s, ss_block (s_tell t s) = ss_block s /\ ss_swin (s_tell t s) = ss_swin s.
Proof.
  intros t s. assert (B : forall s, ss_block (s_blocked s) = ss_block s /\ ss_swin (s_blocked s) = ss_swin s) by (intros s0; unfold s_blocked; destruct (_ =? 0); split; reflexivity).
  assert (U : forall s, ss_block (s_unblocked s) = ss_block s /\ ss_swin (s_unblocked s) = ss_swin s) by (intros s0; unfold s_unblocked; destruct (_ =? 0); split; reflexivity).
  destruct t; cbn; auto. destruct (B (s_unblocked s)) as (-> & ->). apply U.
Qed.
Lemma S_unblocked : forall s, S (s_unblocked s).
Proof. intros s. unfold s_unblocked. destruct (ss_swin s =? 0) eqn:E; [apply S_zero; now apply N.eqb_eq|apply S_schedule]. Qed.

Lemma S_step : forall s o, T s -> S s -> S (sstep s o).
Proof.
  intros s o HT H. unfold sstep. destruct (ss_closed s) eqn:CL; [exact H|]. destruct o.
  - destruct (so_open (sget s x)) eqn:O; [|exact H]. destruct (negb _); [|exact H]. cbn [andb].
    apply S_log; [discriminate|]. apply S_put; [intros _; split; [exact O|reflexivity]|exact H].
  - destruct (so_open (sget s x)) eqn:O; [|exact H]. apply S_put; [intros _; split; [exact O|reflexivity]|exact H].
  - destruct (_ && _); [|exact H].
    destruct x; try (destruct (so_data _); [destruct (so_eof _)|]; (apply S_read; exact H) || exact H).
    unfold s_tty_ready. destruct (_ && _); [now apply S_read|]. destruct (so_eof _); [|exact H]. now apply S_eof, S_close_source.
  - apply S_put; [|exact H]. unfold schedule_write. cbn. destruct (so_open (ss_tty s)) eqn:E; [split; reflexivity|congruence].
  - destruct (k =? 0); [exact H|]. cbv zeta. change (ss_swin (slog (IAdjusted k) s)) with (ss_swin s).
    intros y Y C O R P B.
    assert (E : forall w t, sget (sswin w t) y = sget t y) by (intros; destruct y; reflexivity). rewrite E in *.
    destruct (ss_swin s =? 0) eqn:Z; [now apply S_scheduled_any|]. apply N.eqb_neq in Z.
    exact (S_log (IAdjusted k) s ltac:(discriminate) H y Y C O R ltac:(cbn; lia) B).
  - destruct (ss_child s || s_outputs s) eqn:E; [exact H|]. intros y Y C O R P B.
    rewrite sget_sput in * by discriminate. destruct (src_eqb Tty y) eqn:Q; [|apply H; assumption].
    apply src_eqb_eq in Q. subst y. destruct R as [R|R]; [congruence|]. specialize (HT CL R). congruence.
  - destruct (_ || _); [exact H|]. cbv zeta. set (s1 := if so_open (ss_tty s) then s else _). clearbody s1.
    intros y Y C O R P B.
    assert (E : forall t, sget (slog IStarted (schild true t)) y = sget t y) by (intros; destruct y; reflexivity). rewrite E in *.
    destruct (ss_swin s1 =? 0) eqn:Z; [|now apply S_scheduled_any]. apply N.eqb_eq in Z. cbn in P. lia.
  - destruct (ss_child s); [|exact H]. apply S_inactive, S_log; [discriminate|].
    intros y Y C O R P B. assert (E : forall t, sget (schild false t) y = sget t y) by (intros; destruct y; reflexivity). rewrite E in *. now apply H.
  - cbv zeta. match goal with |- S (if ?c =? 0 then ?t else _) => destruct (c =? 0) eqn:Z end; [apply N.eqb_eq in Z; now apply S_zero|apply S_schedule].
  - destruct (b_rekey (ss_block s)); [exact H|]. cbn [b_kexinit]. apply S_isblocked. rewrite (proj1 (block_tell _ _)). unfold is_blocked. cbn. now rewrite orb_true_r.
  - destruct (b_rekey (ss_block s)) eqn:RK; [|exact H]. unfold b_newkeys. rewrite RK. cbn [andb].
    destruct (b_write (ss_block s)) eqn:BW; cbn [negb]; [|apply S_unblocked]. now apply S_isblocked.
  - cbn [b_flush]. destruct (b_write (ss_block s)) eqn:BW, (b_rekey (ss_block s)) eqn:RK, more; cbn [andb negb];
      try (apply S_isblocked; rewrite (proj1 (block_tell _ _)); reflexivity); try apply S_unblocked.
    intros y Y C O R P B. assert (E : forall b t, sget (sblock b t) y = sget t y) by (intros; destruct y; reflexivity).
    cbn [s_tell] in *. rewrite E in *. apply H; try assumption. unfold is_blocked. now rewrite BW, RK.
  - now apply S_closed.
Qed.

Lemma sruns_S : forall w b ops, T (sruns w b ops) /\ S (sruns w b ops).
Proof.
  intros w b ops. induction ops as [|o t (A & B)] using rev_ind.
  - split; [intros _ []|]. intros [] X; discriminate.
  - rewrite sruns_snoc. split; [now apply T_step|now apply S_step].
Qed.

(** ** Nothing is sent while rekeying *)

Definition sent_ok (e : iev) (older : list iev) : Prop :=
  match e with ISent _ _ => rekeying older = false | _ => True end.

Definition Z (s : sess) : Prop :=
  (is_blocked (ss_block s) = true -> forall x, so_read (sget s x) = false) /\
  b_rekey (ss_block s) = rekeying (ss_log s) /\
  throughout sent_ok (ss_log s).

Definition plain (e : iev) : bool := match e with ISent _ _ | IKexInit | INewKeys => false | _ => true end.

(** [t] has fewer scheduled reads than [s] *)
Definition dec (s t : sess) : Prop :=
  ss_block t = ss_block s /\ (forall x, so_read (sget t x) = true -> so_read (sget s x) = true) /\
  exists evs, ss_log t = evs ++ ss_log s /\ forallb plain evs = true.

Lemma dec_refl : forall s, dec s s.
Proof. intros s. split; [reflexivity|]. split; [auto|]. now exists []. Qed.
Lemma dec_trans : forall a b c, dec a b -> dec b c -> dec a c.
Proof.
  intros a b c (A & B & e & E & P) (A' & B' & e' & E' & P'). split; [congruence|]. split; [auto|].
  exists (e' ++ e). rewrite E', E, app_assoc. split; [reflexivity|]. rewrite forallb_app. now rewrite P, P'.
Qed.
Lemma dec_log : forall e s, plain e = true -> dec s (slog e s).
Proof. intros e s P. split; [reflexivity|]. split; [intros []; auto|]. exists [e]. split; [reflexivity|]. cbn. now rewrite P. Qed.
Lemma dec_put : forall x v s, (so_read v = true -> so_read (sget s x) = true) -> dec s (sput x v s).
Proof. intros x v s V. split; [reflexivity|]. split; [destruct x; intros []; auto|]. now exists []. Qed.
Lemma dec_child : forall c s, dec s (schild c s).
Proof. intros c s. split; [reflexivity|]. split; [intros []; auto|]. now exists []. Qed.
Lemma dec_closed : forall s, dec s (sclosed s).
Proof. intros s. split; [reflexivity|]. split; [intros []; auto|]. now exists []. Qed.
Lemma dec_swin : forall w s, dec s (sswin w s).
Proof. intros w s. split; [reflexivity|]. split; [intros []; auto|]. now exists []. Qed.
Lemma dec_cancel : forall s, dec s (s_cancel s).
Proof. intros s. split; [reflexivity|]. split; [intros []; discriminate|]. now exists []. Qed.
Lemma dec_close_source : forall x c s, dec s (s_close_source x c s).
Proof.
  intros x c s. unfold s_close_source. destruct (so_open (sget s x)); [|apply dec_refl].
  destruct (so_data (sget s x)) as [|b t].
  - eapply dec_trans; [apply (dec_put x no_source); discriminate|now apply dec_log].
  - eapply dec_trans; [apply dec_log with (e := ILost x (b :: t) c); reflexivity|].
    eapply dec_trans; [apply (dec_put x no_source); discriminate|now apply dec_log].
Qed.
Lemma dec_close : forall c s, dec s (s_close c s).
Proof.
  intros c s. unfold s_close. eapply dec_trans; [|apply dec_closed]. eapply dec_trans; [|apply dec_child].
  eapply dec_trans; [|now apply dec_log]. eapply dec_trans; [|apply dec_close_source]. eapply dec_trans; [|apply dec_close_source]. apply dec_close_source.
Qed.
Lemma dec_inactive : forall s, dec s (s_close_if_inactive s).
Proof. intros s. unfold s_close_if_inactive. destruct (_ || _); [apply dec_refl|apply dec_close]. Qed.
Lemma dec_eof : forall s, dec s (s_maybe_eof s).
Proof. intros s. unfold s_maybe_eof. destruct (s_outputs s); [apply dec_refl|]. eapply dec_trans; [now apply (dec_log ISentEof)|apply dec_inactive]. Qed.

Lemma plain_rekeying : forall evs l, forallb plain evs = true -> rekeying (evs ++ l) = rekeying l.
Proof. intros evs l. induction evs as [|e t IH]; [reflexivity|]. cbn [forallb]. intros P. apply andb_true_iff in P as (P & Q). destruct e; try discriminate; exact (IH Q). Qed.
Lemma plain_sent_ok : forall evs l, forallb plain evs = true -> throughout sent_ok l -> throughout sent_ok (evs ++ l).
Proof.
  intros evs l P H. induction evs as [|e t IH]; [exact H|]. cbn [forallb] in P. apply andb_true_iff in P as (P & Q).
  split; [destruct e; try discriminate; exact I|exact (IH Q)].
Qed.
Lemma Z_dec : forall s t, dec s t -> Z s -> Z t.
Proof.
  intros s t (A & B & e & E & P) (Z1 & Z2 & Z3). unfold Z. rewrite A, E, plain_rekeying by exact P.
  split; [|split; [exact Z2|now apply plain_sent_ok]]. intros Q x. specialize (Z1 Q x).
  destruct (so_read (sget t x)) eqn:R; [|reflexivity]. now rewrite (B x R) in Z1.
Qed.

(** if writing is not blocked, only the log matters *)
Lemma Z_free : forall s t, is_blocked (ss_block s) = false -> ss_block t = ss_block s ->
  (exists evs, ss_log t = evs ++ ss_log s /\ forallb plain evs = true) -> Z s -> Z t.
Proof.
  intros s t F A (e & E & P) (_ & Z2 & Z3). unfold Z. rewrite A, E, plain_rekeying by exact P.
  split; [congruence|]. split; [exact Z2|now apply plain_sent_ok].
Qed.

Lemma Z_read : forall x s, is_blocked (ss_block s) = false -> Z s -> Z (s_read x s).
Proof.
  intros x s F H. unfold s_read. destruct (_ =? 0); [apply (Z_dec s); [now apply dec_log|exact H]|].
  destruct (take _ _) as [|b0 t0].
  - eapply Z_dec; [|exact H]. eapply dec_trans; [apply dec_close_source|apply dec_eof].
  - cbv zeta. destruct H as (Z1 & Z2 & Z3).
    assert (R : rekeying (ss_log s) = false) by (rewrite <- Z2; unfold is_blocked in F; now apply orb_false_elim in F as (_ & F)).
    destruct (_ =? 0); (split; [cbn; congruence|split; [exact Z2|split; [exact R|exact Z3]]]).
Qed.

Lemma unread_cancel : forall s x, so_read (sget (s_cancel s) x) = false.
Proof. intros s []; reflexivity. Qed.

Lemma Z_step : forall w s o, W w s -> calm_op s o -> Z s -> Z (sstep s o).
Proof.
  intros w s o HW CO H. unfold sstep. destruct (ss_closed s) eqn:CL; [exact H|]. destruct o.
  - destruct (_ && _); [|exact H]. eapply Z_dec; [|exact H]. eapply dec_trans; [apply (dec_put x (set_data (sget s x) (so_data (sget s x) ++ d))); auto|now apply dec_log].
  - destruct (so_open _); [|exact H]. eapply Z_dec; [|exact H]. apply dec_put; auto.
  - destruct (so_open (sget s x)) eqn:O; [|exact H]. destruct (so_reg (sget s x)) eqn:G; [|exact H]. cbn [andb].
    destruct (is_blocked (ss_block s)) eqn:BL.
    + assert (R : so_read (sget s x) = false) by (apply H; exact BL). destruct HW as (HW & _). destruct (HW x) as (_ & _ & Q & _).
      destruct x; try (exfalso; specialize (Q ltac:(discriminate)); congruence).
      unfold s_tty_ready. cbn [sget] in R. rewrite R. cbn [andb]. destruct (so_eof _); [|exact H].
      eapply Z_dec; [|exact H]. eapply dec_trans; [apply dec_close_source|apply dec_eof].
    + destruct x; try (destruct (so_data _); [destruct (so_eof _)|]; (apply Z_read; [exact BL|exact H]) || exact H).
      unfold s_tty_ready. destruct (_ && _); [now apply Z_read|]. destruct (so_eof _); [|exact H].
      eapply Z_dec; [|exact H]. eapply dec_trans; [apply dec_close_source|apply dec_eof].
  - eapply Z_dec; [|exact H]. apply dec_put. unfold schedule_write. cbn. destruct (so_open (ss_tty s)); auto.
  - destruct (k =? 0); [exact H|]. cbv zeta. change (ss_swin (slog (IAdjusted k) s)) with (ss_swin s).
    destruct (is_blocked (ss_block s)) eqn:BL.
    + specialize (CO BL). cbn in CO. destruct (ss_swin s =? 0) eqn:E; [apply N.eqb_eq in E; lia|].
      eapply Z_dec; [|exact H]. eapply dec_trans; [now apply (dec_log (IAdjusted k))|apply dec_swin].
    + apply (Z_free s); try assumption; [destruct (_ =? 0); reflexivity|]. exists [IAdjusted k]. destruct (_ =? 0); split; reflexivity.
  - destruct (_ || _); [exact H|]. eapply Z_dec; [|exact H]. apply dec_put. discriminate.
  - destruct (_ || _); [exact H|]. destruct (is_blocked (ss_block s)) eqn:BL; [destruct (CO BL)|]. cbv zeta.
    apply (Z_free s); try assumption; [destruct (so_open _); destruct (_ =? 0); reflexivity|].
    exists [IStarted]. destruct (so_open _); destruct (_ =? 0); split; reflexivity.
  - destruct (ss_child s); [|exact H]. eapply Z_dec; [|exact H]. eapply dec_trans; [apply (dec_child false)|].
    eapply dec_trans; [now apply (dec_log ISentExit)|apply dec_inactive].
  - destruct (is_blocked (ss_block s)) eqn:BL; [destruct (CO BL)|]. cbv zeta.
    set (s0 := s_close_source Tty LRejected (s_close_source Stderr LRejected (s_close_source Stdout LRejected s))).
    assert (D : dec s s0) by (unfold s0; eapply dec_trans; [|apply dec_close_source]; eapply dec_trans; apply dec_close_source).
    pose proof (Z_dec _ _ D H) as H0. destruct D as (D & _). clearbody s0. rewrite <- D in BL.
    apply (Z_free s0); try assumption; [destruct (_ =? 0); reflexivity|]. exists [IProduced Stderr text]. destruct (_ =? 0); split; reflexivity.
  - destruct (b_rekey (ss_block s)) eqn:RK; [exact H|]. cbn [b_kexinit]. destruct H as (Z1 & Z2 & Z3).
    destruct (block_tell (if b_write (ss_block s) then TNone else TBlocked) (slog IKexInit (sblock {| b_write := b_write (ss_block s); b_rekey := true |} s))) as (B1 & B2).
    unfold Z. rewrite B1, tell_log. split; [|split; [reflexivity|split; [exact I|exact Z3]]].
    intros _ x. destruct (b_write (ss_block s)) eqn:BW.
    + specialize (Z1 ltac:(unfold is_blocked; now rewrite BW) x). destruct x; exact Z1.
    + cbn [s_tell]. unfold s_blocked. cbn [ss_swin slog sblock]. destruct (ss_swin s =? 0) eqn:E; [|apply unread_cancel].
      apply N.eqb_eq in E. destruct HW as (HW & _). destruct (HW x) as (Q & _). assert (G : so_read (sget s x) = false).
      { destruct (so_read (sget s x)); [|reflexivity]. specialize (Q eq_refl). lia. } destruct x; exact G.
  - destruct (b_rekey (ss_block s)) eqn:RK; [|exact H]. unfold b_newkeys. rewrite RK. cbn [andb]. destruct H as (Z1 & Z2 & Z3).
    specialize (Z1 ltac:(unfold is_blocked; rewrite RK; apply orb_true_r)).
    match goal with |- Z (s_tell ?t ?u) => destruct (block_tell t u) as (B1 & B2) end.
    unfold Z. rewrite B1, tell_log. split; [|split; [reflexivity|split; [exact I|exact Z3]]].
    unfold is_blocked. cbn [ss_block slog sblock b_write b_rekey]. rewrite orb_false_r. intros BW x. rewrite BW. cbn [negb s_tell].
    specialize (Z1 x). destruct x; exact Z1.
  - cbn [b_flush]. destruct H as (Z1 & Z2 & Z3).
    match goal with |- Z (s_tell ?t ?u) => destruct (block_tell t u) as (B1 & B2) end.
    unfold Z. rewrite B1, tell_log. split; [|split; [exact Z2|exact Z3]].
    assert (CN : forall u, (forall x, so_read (sget u x) = true -> 0 < ss_swin u) -> forall x, so_read (sget (s_blocked u) x) = false).
    { intros u Hu x. unfold s_blocked. destruct (ss_swin u =? 0) eqn:E; [|apply unread_cancel]. apply N.eqb_eq in E.
      destruct (so_read (sget u x)) eqn:Q; [|reflexivity]. specialize (Hu x Q). lia. }
    assert (WS : forall b x, so_read (sget (sblock b s) x) = true -> 0 < ss_swin s).
    { intros b0 x Q. destruct HW as (HW & _). destruct (HW x) as (P & _). destruct x; apply P; exact Q. }
    unfold is_blocked in *. cbn [ss_block sblock b_write b_rekey]. intros Q x.
    destruct (b_write (ss_block s)) eqn:BW, (b_rekey (ss_block s)) eqn:RK, more; cbn [andb negb orb s_tell] in *; try discriminate;
      try (specialize (Z1 eq_refl x); destruct x; exact Z1).
    + apply CN. intros y Qy. unfold s_unblocked in *. destruct (ss_swin _ =? 0) eqn:E; [exact (WS _ y Qy)|]. apply N.eqb_neq in E. cbn in *. lia.
    + apply CN. intros y Qy. exact (WS _ y Qy).
  - eapply Z_dec; [apply dec_close|exact H].
Qed.

Lemma calm_from_snoc : forall t s o, calm_from s (t ++ [o]) <-> calm_from s t /\ calm_op (fold_left sstep t s) o.
Proof. induction t as [|a t IH]; intros s o; cbn; [tauto|]. rewrite IH. tauto. Qed.

Lemma sruns_Z : forall w b ops, b_rekey b = false -> credit w (ss_log (sruns w b ops)) < pow64 -> calm w b ops -> Z (sruns w b ops).
Proof.
  intros w b ops RK. induction ops as [|o t IH] using rev_ind; intros H C.
  - split; [intros _ []; reflexivity|]. split; [exact RK|exact I].
  - rewrite sruns_snoc in *. apply calm_from_snoc in C as (C1 & C2).
    destruct (step_log (sruns w b t) o) as (e & E). pose proof (credit_mono w e (ss_log (sruns w b t))) as M. rewrite <- E in M.
    apply (Z_step w); [apply sruns_W; lia|exact C2|apply IH; [lia|exact C1]].
Qed.

(** ** class SocketChannel *)

Record KI (w : N) (k : sock) : Prop := {
  ki_read : so_read (sk_sock k) = true -> 0 < sk_swin k /\ so_reg (sk_sock k) = true;
  ki_open : so_open (sk_sock k) = negb (sk_closed k);
  ki_win : sk_swin k + sent_total (sk_log k) = credit w (sk_log k);
  ki_assert : ~ In IAssertFailed (sk_log k);
  ki_keep : lost Sock (sk_log k) = false -> produced Sock (sk_log k) = sent Sock (sk_log k) ++ so_data (sk_sock k);
  ki_cause : forall x d c, In (ILost x d c) (sk_log k) -> c = LPeerClosed;
  ki_live : sk_closed k = false -> 0 < sk_swin k -> is_blocked (sk_block k) = false -> so_read (sk_sock k) = true
}.

Lemma KI_block : forall w b k, (sk_closed k = false -> 0 < sk_swin k -> is_blocked b = false -> so_read (sk_sock k) = true) -> KI w k -> KI w (kblock b k).
Proof. intros w b k Q [A B C D E F G]. constructor; assumption. Qed.

Lemma KI_log : forall w e k, quiet e -> still e -> KI w k -> KI w (klog e k).
Proof.
  intros w e k Q S0 [A B C D E F G]. constructor; try assumption.
  - destruct e; try exact C; contradiction.
  - cbn. intros [->|I0]; [contradiction|exact (D I0)].
  - destruct e; try exact E; contradiction.
  - intros x d c [->|I0]; [contradiction|exact (F x d c I0)].
Qed.

Lemma KI_close : forall w c k, so_data (sk_sock k) = [] \/ c = LPeerClosed -> KI w k -> KI w (k_close c k).
Proof.
  intros w c k Q [A B C D E F G]. unfold k_close. destruct (so_data (sk_sock k)) as [|b t] eqn:Dt.
  - constructor; cbn; try discriminate; try assumption; [reflexivity| |].
    + intuition discriminate.
    + intros x d c0 [I0|[I0|I0]]; try discriminate. eauto.
  - destruct Q as [Q|Q]; [discriminate|]. subst c. constructor; cbn; try discriminate; try assumption; [reflexivity| |].
    + intuition discriminate.
    + intros x d c0 [I0|[I0|[I0|I0]]]; try discriminate; [congruence|eauto].
Qed.

Lemma KI_cancel : forall w k, KI w k -> (sk_swin k = 0 \/ is_blocked (sk_block k) = true) -> KI w (kset (cancel_read (sk_sock k)) k).
Proof. intros w k [A B C D E F G] Q. constructor; try assumption; cbn; [discriminate|]. destruct Q as [Q|Q]; [lia|congruence]. Qed.

Lemma drop_short : forall n (d : bytes), len (take n d) < n -> drop n d = [].
Proof.
  intros n d H. unfold len, take, drop in *. rewrite firstn_length in H. apply skipn_all2. lia.
Qed.

Lemma KI_ready : forall dbg w k, sk_closed k = false -> KI w k -> KI w (k_ready dbg k).
Proof.
  intros dbg w k CL H. unfold k_ready. destruct (so_read (sk_sock k)) eqn:R; [|exact H]. cbn [andb].
  destruct (so_eof (sk_sock k) || _) eqn:Rd; [|exact H]. destruct (ki_read _ _ H R) as (P & Rg).
  set (size := N.min 4096 (sk_swin k)) in *. assert (P' : 0 < size) by (unfold size; lia).
  rewrite (proj2 (N.eqb_neq size 0)) by lia. rewrite andb_false_r.
  destruct (take size (so_data (sk_sock k))) as [|b t] eqn:TK.
  - apply KI_close; [left; now apply (take_nil size)|exact H].
  - rewrite <- TK. cbv zeta. pose proof (take_le size (so_data (sk_sock k))) as LE.
    assert (LP : 0 < len (take size (so_data (sk_sock k)))) by (rewrite TK; unfold len; cbn; lia).
    set (k2 := klog (ISent Sock (take size (so_data (sk_sock k)))) _).
    assert (E2 : sk_swin k2 = sk_swin k - len (take size (so_data (sk_sock k)))) by reflexivity.
    assert (D2 : so_data (sk_sock k2) = drop size (so_data (sk_sock k))) by reflexivity.
    assert (H3 : KI w (if sk_swin k2 =? 0 then kset (cancel_read (sk_sock k2)) k2 else k2)).
    { destruct H as [A B C D E F G].
      assert (M : sk_swin k2 + sent_total (sk_log k2) = credit w (sk_log k2)) by (rewrite E2; cbn; unfold size in *; lia).
      assert (V : ~ In IAssertFailed (sk_log k2)) by (cbn; intuition discriminate).
      assert (U : lost Sock (sk_log k2) = false -> produced Sock (sk_log k2) = sent Sock (sk_log k2) ++ so_data (sk_sock k2)).
      { intros L0. cbn [produced sent k2 sk_log klog kswin kset src_eqb]. rewrite D2, <- app_assoc, take_drop. apply E. exact L0. }
      assert (Y : forall x d c, In (ILost x d c) (sk_log k2) -> c = LPeerClosed) by (intros x d c [I0|I0]; [discriminate|eauto]).
      destruct (sk_swin k2 =? 0) eqn:Z0.
      - apply N.eqb_eq in Z0. constructor; try assumption; cbn [sk_swin kset]; [discriminate|intros; lia].
      - apply N.eqb_neq in Z0. constructor; try assumption; cbn; intros; [split; [cbn in *; lia|exact Rg]|exact R]. }
    assert (D3 : so_data (sk_sock (if sk_swin k2 =? 0 then kset (cancel_read (sk_sock k2)) k2 else k2)) = drop size (so_data (sk_sock k)))
      by (destruct (sk_swin k2 =? 0); exact D2).
    destruct (so_eof (sk_sock k) && (len (take size (so_data (sk_sock k))) <? size)) eqn:CE; [|exact H3].
    apply andb_true_iff in CE as (_ & CE). apply N.ltb_lt in CE. apply KI_close; [left|exact H3]. rewrite D3. now apply drop_short.
Qed.

Lemma KI_schedule : forall w k, 0 < sk_swin k -> KI w k -> KI w (kset (schedule_read (sk_sock k)) k).
Proof.
  intros w k P [A B C D E F G]. unfold schedule_read. destruct (so_open (sk_sock k)) eqn:O.
  - constructor; try assumption; cbn; auto.
  - constructor; try assumption; cbn; congruence.
Qed.

(** everything but liveness; then liveness *)
Lemma KI_step : forall dbg w k o, KI w k -> credit w (sk_log (kstep dbg k o)) < pow64 -> KI w (kstep dbg k o).
Proof.
  intros dbg w k o H. unfold kstep. destruct (sk_closed k) eqn:CL; [auto|]. destruct o.
  - intros _. destruct (so_eof (sk_sock k)); [exact H|]. destruct H as [A B C D E F G]. constructor; try assumption; cbn in *.
    + intuition discriminate.
    + intros L0. rewrite (E L0). now rewrite app_assoc.
    + intros x d0 c [I0|I0]; [discriminate|eauto].
  - intros _. destruct H as [A B C D E F G]. constructor; assumption.
  - intros _. destruct (so_reg (sk_sock k)); [now apply KI_ready|exact H].
  - destruct (k0 =? 0) eqn:K0; [auto|]. apply N.eqb_neq in K0. cbv zeta. change (sk_swin (klog (IAdjusted k0) k)) with (sk_swin k).
    destruct H as [A B C D E F G]. destruct (sk_swin k =? 0) eqn:Z0.
    + apply N.eqb_eq in Z0. intros CR. assert (V : ~ In IAssertFailed (IAdjusted k0 :: sk_log k)) by (cbn; intuition discriminate).
      assert (Y : forall x d c, In (ILost x d c) (IAdjusted k0 :: sk_log k) -> c = LPeerClosed) by (intros x d c [I0|I0]; [discriminate|eauto]).
      cbn in CR. rewrite Z0 in *. cbn [kset klog sk_swin]. rewrite Z0.
      assert (M : (0 + k0) mod pow64 = k0) by (apply N.mod_small; lia).
      unfold schedule_read. cbn [sk_sock klog]. destruct (so_open (sk_sock k)) eqn:O; [|rewrite CL in B; discriminate].
      constructor; cbn [sk_swin sk_sock sk_log sk_closed kswin kset klog so_read so_reg so_open so_data]; try assumption; rewrite ?M; try (intros; split; [lia|reflexivity]); try reflexivity.
      cbn. lia.
    + apply N.eqb_neq in Z0. intros CR. assert (V : ~ In IAssertFailed (IAdjusted k0 :: sk_log k)) by (cbn; intuition discriminate).
      assert (Y : forall x d c, In (ILost x d c) (IAdjusted k0 :: sk_log k) -> c = LPeerClosed) by (intros x d c [I0|I0]; [discriminate|eauto]).
      cbn in CR. assert (M : (sk_swin k + k0) mod pow64 = sk_swin k + k0) by (apply N.mod_small; lia).
      constructor; cbn [sk_swin sk_sock sk_log sk_closed kswin klog sk_block]; try assumption; rewrite ?M.
      * intros R. destruct (A R). split; [lia|assumption].
      * cbn. lia.
      * intros. apply G; try assumption. lia.
  - intros _. destruct (b_rekey (sk_block k)) eqn:RK; [exact H|]. cbn [b_kexinit].
    assert (H1 : KI w (klog IKexInit (kblock {| b_write := b_write (sk_block k); b_rekey := true |} k))).
    { apply KI_log; try exact I. apply KI_block; [|exact H]. intros _ _. unfold is_blocked. cbn. now rewrite orb_true_r. }
    destruct (b_write (sk_block k)); cbn [k_tell]; [exact H1|]. unfold k_blocked. destruct (sk_swin _ =? 0); [exact H1|].
    apply KI_cancel; [exact H1|right]. reflexivity.
  - intros _. destruct (b_rekey (sk_block k)) eqn:RK; [|exact H]. unfold b_newkeys. rewrite RK. cbn [andb].
    destruct (b_write (sk_block k)) eqn:BW; cbn [negb k_tell].
    + apply KI_log; try exact I. apply KI_block; [discriminate|exact H].
    + unfold k_unblocked. change (sk_swin (klog INewKeys (kblock {| b_write := false; b_rekey := false |} k))) with (sk_swin k).
      destruct H as [A B C D E F G]. destruct (sk_swin k =? 0) eqn:Z0.
      * apply N.eqb_eq in Z0. constructor; try assumption; cbn; [intuition discriminate|intros x d c [I0|I0]; [discriminate|eauto]|lia].
      * apply N.eqb_neq in Z0. unfold schedule_read. cbn [sk_sock klog kblock]. rewrite B, CL. cbn [negb].
        constructor; try assumption; cbn [kset klog kblock sk_sock sk_log sk_swin so_read so_open so_reg so_data sk_closed].
        -- intros _. split; [lia|reflexivity].
        -- now rewrite CL.
        -- cbn. intuition discriminate.
        -- intros x d c [I0|I0]; [discriminate|eauto].
        -- reflexivity.
  - intros _. cbn [b_flush]. 
    assert (SC : forall b, 0 < sk_swin k -> KI w (kset (schedule_read (sk_sock (kblock b k))) (kblock b k))).
    { intros b P. destruct H as [A B C D E F G]. unfold schedule_read. cbn [sk_sock kblock]. rewrite B, CL. cbn [negb].
      constructor; try assumption; cbn; [intros _; split; [exact P|reflexivity]|now rewrite CL|reflexivity]. }
    assert (CN : forall b, is_blocked b = true -> KI w (kset (cancel_read (sk_sock (kblock b k))) (kblock b k))).
    { intros b P. apply KI_cancel; [|right; exact P]. apply KI_block; [congruence|exact H]. }
    assert (ID : forall b, is_blocked b = true \/ sk_swin k = 0 -> KI w (kblock b k)).
    { intros b P. apply KI_block; [|exact H]. destruct P; [congruence|lia]. }
    destruct (b_write (sk_block k)) eqn:BW, (b_rekey (sk_block k)) eqn:RK, more; cbn [andb negb k_tell]; try (apply ID; left; reflexivity).
    + unfold k_unblocked. change (sk_swin (kblock {| b_write := true; b_rekey := false |} k)) with (sk_swin k).
      destruct (sk_swin k =? 0) eqn:Z0; unfold k_blocked; cbn [kset kblock sk_swin]; rewrite Z0.
      * apply ID. now left.
      * apply N.eqb_neq in Z0. apply (KI_cancel w (kset (schedule_read (sk_sock k)) (kblock {| b_write := true; b_rekey := false |} k)));
          [apply SC; lia|right; reflexivity].
    + unfold k_unblocked. change (sk_swin (kblock {| b_write := false; b_rekey := false |} k)) with (sk_swin k).
      destruct (sk_swin k =? 0) eqn:Z0; [apply ID; right; now apply N.eqb_eq|]. apply N.eqb_neq in Z0. apply SC. lia.
    + unfold k_blocked. change (sk_swin (kblock {| b_write := true; b_rekey := false |} k)) with (sk_swin k).
      destruct (sk_swin k =? 0) eqn:Z0; [apply ID; right; now apply N.eqb_eq|]. apply CN. reflexivity.
    + apply KI_block; [|exact H]. intros Q1 Q2 _. apply (ki_live _ _ H); auto. unfold is_blocked. now rewrite BW, RK.
  - intros _. apply KI_close; [now right|exact H].
Qed.

Lemma kclose_log : forall c k, exists evs, sk_log (k_close c k) = evs ++ sk_log k.
Proof. intros c k. unfold k_close. destruct (so_data (sk_sock k)); cbn; [eexists [_; _]|eexists [_; _; _]]; reflexivity. Qed.
Lemma ktell_log : forall t k, sk_log (k_tell t k) = sk_log k.
Proof.
  intros t k. assert (B : forall k, sk_log (k_blocked k) = sk_log k) by (intros s0; unfold k_blocked; destruct (_ =? 0); reflexivity).
  assert (U : forall k, sk_log (k_unblocked k) = sk_log k) by (intros s0; unfold k_unblocked; destruct (_ =? 0); reflexivity).
  destruct t; cbn; rewrite ?B, ?U; reflexivity.
Qed.
Lemma kstep_log : forall dbg k o, exists evs, sk_log (kstep dbg k o) = evs ++ sk_log k.
Proof.
  intros dbg k o. unfold kstep. destruct (sk_closed k); [now exists []|]. destruct o.
  - destruct (so_eof _); [now exists []|eexists [_]; reflexivity].
  - now exists [].
  - destruct (so_reg _); [|now exists []]. unfold k_ready. destruct (_ && _); [|now exists []].
    destruct (_ && _); [eexists [_]; reflexivity|]. destruct (take _ _); [apply kclose_log|]. cbv zeta.
    destruct (_ && _).
    + match goal with |- context [k_close ?c ?t] => destruct (kclose_log c t) as (e & E); rewrite E end.
      destruct (_ =? 0); cbn [sk_log kset klog kswin]; match goal with |- context [e ++ ?a :: sk_log k] => exists (e ++ [a]) end; now rewrite <- app_assoc.
    + destruct (_ =? 0); eexists [_]; reflexivity.
  - destruct (k0 =? 0); [now exists []|]. cbv zeta. destruct (_ =? 0); eexists [_]; reflexivity.
  - destruct (b_rekey _); [now exists []|]. cbn [b_kexinit]. rewrite ktell_log. eexists [_]; reflexivity.
  - destruct (b_rekey _); [|now exists []]. cbn [b_newkeys]. rewrite ktell_log. eexists [_]; reflexivity.
  - cbn [b_flush]. rewrite ktell_log. now exists [].
  - apply kclose_log.
Qed.
Lemma kruns_snoc : forall dbg w b ops o, kruns dbg w b (ops ++ [o]) = kstep dbg (kruns dbg w b ops) o.
Proof. intros. unfold kruns. now rewrite fold_left_app. Qed.

Lemma kruns_KI : forall dbg w b ops, 0 < w -> credit w (sk_log (kruns dbg w b ops)) < pow64 -> KI w (kruns dbg w b ops).
Proof.
  intros dbg w b ops P. induction ops as [|o t IH] using rev_ind; intros H.
  - constructor; cbn; try reflexivity; try lia; auto; intros; contradiction.
  - rewrite kruns_snoc in *. destruct (kstep_log dbg (kruns dbg w b t) o) as (e & E).
    pose proof (credit_mono w e (sk_log (kruns dbg w b t))) as M. rewrite <- E in M. apply KI_step; [|exact H]. apply IH. lia.
Qed.

(** rekeying *)

Definition KZ (k : sock) : Prop :=
  (is_blocked (sk_block k) = true -> so_read (sk_sock k) = false) /\
  b_rekey (sk_block k) = rekeying (sk_log k) /\
  throughout sent_ok (sk_log k).

Lemma KZ_close : forall c k, KZ k -> KZ (k_close c k).
Proof. intros c k (A & B & C). unfold k_close. destruct (so_data (sk_sock k)); (split; [reflexivity|split; [exact B|]]); repeat (split; [exact I|]); exact C. Qed.

Lemma KZ_step : forall dbg w k o, KI w k -> kcalm_op k o -> KZ k -> KZ (kstep dbg k o).
Proof.
  intros dbg w k o HI CO H. unfold kstep. destruct (sk_closed k) eqn:CL; [exact H|]. destruct o.
  - destruct (so_eof _); [exact H|]. destruct H as (A & B & C). repeat split; assumption.
  - destruct H as (A & B & C). repeat split; assumption.
  - destruct (so_reg _); [|exact H]. unfold k_ready. destruct (so_read (sk_sock k)) eqn:R; [|exact H]. cbn [andb].
    destruct H as (A & B & C). assert (F : is_blocked (sk_block k) = false) by (destruct (is_blocked _); [specialize (A eq_refl); congruence|reflexivity]).
    assert (RK : rekeying (sk_log k) = false) by (rewrite <- B; unfold is_blocked in F; now apply orb_false_elim in F as (_ & F)).
    destruct (_ || _); [|repeat split; assumption]. destruct (dbg && _); [repeat split; assumption|].
    destruct (take _ _); [apply KZ_close; repeat split; assumption|]. cbv zeta.
    set (k3 := if _ =? 0 then _ else _). assert (H3 : KZ k3).
    { unfold k3. destruct (_ =? 0); (split; [cbn; congruence|split; [exact B|split; [exact RK|exact C]]]). }
    clearbody k3. destruct (_ && _); [now apply KZ_close|exact H3].
  - destruct (k0 =? 0); [exact H|]. cbv zeta. change (sk_swin (klog (IAdjusted k0) k)) with (sk_swin k). destruct H as (A & B & C).
    destruct (sk_swin k =? 0) eqn:Z0; [|repeat split; assumption]. apply N.eqb_eq in Z0.
    split; [|split; [exact B|split; [exact I|exact C]]]. intros Q. specialize (CO Q). cbn in CO. lia.
  - destruct (b_rekey (sk_block k)) eqn:RK; [exact H|]. cbn [b_kexinit]. destruct H as (A & B & C).
    destruct (b_write (sk_block k)) eqn:BW; cbn [k_tell].
    + split; [intros _; apply A; unfold is_blocked; now rewrite BW|]. split; [reflexivity|split; [exact I|exact C]].
    + unfold k_blocked. cbn [sk_swin klog kblock]. destruct (sk_swin k =? 0) eqn:Z0; (split; [|split; [reflexivity|split; [exact I|exact C]]]); [|reflexivity].
      intros _. apply N.eqb_eq in Z0. cbn. destruct (so_read (sk_sock k)) eqn:R; [|reflexivity]. destruct (ki_read _ _ HI R). lia.
  - destruct (b_rekey (sk_block k)) eqn:RK; [|exact H]. unfold b_newkeys. rewrite RK. cbn [andb]. destruct H as (A & B & C).
    destruct (b_write (sk_block k)) eqn:BW; cbn [negb k_tell].
    + split; [intros _; apply A; unfold is_blocked; now rewrite BW|]. split; [reflexivity|split; [exact I|exact C]].
    + unfold k_unblocked. cbn [sk_swin klog kblock]. destruct (sk_swin k =? 0); (split; [discriminate|split; [reflexivity|split; [exact I|exact C]]]).
  - cbn [b_flush]. destruct H as (A & B & C). unfold is_blocked in A.
    assert (ZR : sk_swin k = 0 -> so_read (sk_sock k) = false).
    { intros Z0. destruct (so_read (sk_sock k)) eqn:R; [|reflexivity]. destruct (ki_read _ _ HI R). lia. }
    unfold k_tell, k_unblocked, k_blocked. cbn [sk_swin kset kblock].
    destruct (b_write (sk_block k)) eqn:BW, (b_rekey (sk_block k)) eqn:RK, more; cbn [andb negb orb sk_swin kset kblock] in *;
      destruct (sk_swin k =? 0) eqn:Z0; cbn [sk_swin kset kblock]; rewrite ?Z0;
      (split; [|split; [exact B|exact C]]); cbn; auto; try discriminate; intros _; apply ZR; now apply N.eqb_eq.
  - now apply KZ_close.
Qed.

Lemma kcalm_from_snoc : forall dbg t s o, kcalm_from dbg s (t ++ [o]) <-> kcalm_from dbg s t /\ kcalm_op (fold_left (kstep dbg) t s) o.
Proof. induction t as [|a t IH]; intros s o; cbn; [tauto|]. rewrite IH. tauto. Qed.

Lemma kruns_KZ : forall dbg w b ops, 0 < w -> is_blocked b = false -> credit w (sk_log (kruns dbg w b ops)) < pow64 ->
  kcalm dbg w b ops -> KZ (kruns dbg w b ops).
Proof.
  intros dbg w b ops P F. induction ops as [|o t IH] using rev_ind; intros H C.
  - split; [cbn; congruence|]. split; [|exact I]. unfold is_blocked in F. now apply orb_false_elim in F.
  - rewrite kruns_snoc in *. apply kcalm_from_snoc in C as (C1 & C2).
    destruct (kstep_log dbg (kruns dbg w b t) o) as (e & E). pose proof (credit_mono w e (sk_log (kruns dbg w b t))) as M. rewrite <- E in M.
    apply (KZ_step dbg w); [apply kruns_KI; [exact P|lia]|exact C2|apply IH; [lia|exact C1]].
Qed.
