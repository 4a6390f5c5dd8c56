(** Facts about the output which waits for a client (Model/Backlog.v). *)

From Coq Require Import NArith List Bool Lia.
From Verif.Base Require Import Bytes.
From Verif.Model Require Import Wire Auth Session Server ChannelIO Backlog.
From Verif.Spec Require Import AuthSpec FlowSpec BacklogSpec.
From Verif.Proofs Require Import ServerFacts FlowFacts.
Import ListNotations.
Open Scope N_scope.

Lemma session_bytes_total : forall l, session_bytes l = sent_total l.
Proof. induction l as [|[] l IH]; cbn; try exact IH; [reflexivity|]. fold (session_bytes l). now rewrite IH. Qed.

Lemma server_bytes_app : forall a b, server_bytes (a ++ b) = server_bytes a + server_bytes b.
Proof.
  induction a as [|e a IH]; intros b; [reflexivity|]. unfold server_bytes in *. cbn [app fold_right].
  destruct e; rewrite ?IH; try reflexivity. lia.
Qed.

Lemma server_packets_app : forall a b, server_packets (a ++ b) = server_packets a + server_packets b.
Proof. intros a b. unfold server_packets. rewrite filter_app. unfold len. rewrite app_length. lia. Qed.

Lemma no_packets_no_bytes : forall l, server_packets l = 0 -> server_bytes l = 0.
Proof.
  induction l as [|e l IH]; [reflexivity|]. unfold server_packets, server_bytes in *. cbn [filter fold_right].
  destruct e; try exact IH. unfold len. cbn [List.length]. lia.
Qed.

(** ** The parts of a run *)

Lemma brun_snoc : forall cfg sid peer w evs e, brun cfg sid peer w (evs ++ [e]) = bstep cfg sid (brun cfg sid peer w evs) e.
Proof. intros. unfold brun. now rewrite fold_left_app. Qed.

Lemma brun_app : forall cfg sid peer w a b, brun cfg sid peer w (a ++ b) = fold_left (bstep cfg sid) b (brun cfg sid peer w a).
Proof. intros. unfold brun. now rewrite fold_left_app. Qed.

Definition server_ops (evs : list bevent) : list vop := flat_map (fun e => match e with BServer op => [op] | _ => [] end) evs.

Lemma brun_server : forall cfg sid peer w evs, bk_server (brun cfg sid peer w evs) = vrun cfg sid peer (server_ops evs).
Proof.
  intros cfg sid peer w evs. induction evs as [|e t IH] using rev_ind; [reflexivity|]. rewrite brun_snoc.
  unfold server_ops. rewrite flat_map_app. fold (server_ops t). unfold vrun. rewrite fold_left_app. fold (vrun cfg sid peer (server_ops t)). rewrite <- IH.
  destruct e as [op|o| |k]; cbn [bstep flat_map app fold_left]; [reflexivity| | |].
  - destruct o; try reflexivity; destruct (_ && _); reflexivity.
  - destruct (_ <? _); reflexivity.
  - destruct (_ || _); reflexivity.
Qed.

Lemma run_good : forall cfg sid peer w evs, Forall well_formed evs -> good cfg (bk_server (brun cfg sid peer w evs)).
Proof.
  intros cfg sid peer w evs F. rewrite brun_server. apply vrun_good. unfold server_ops.
  induction F as [|e l H F IH]; [constructor|]. destruct e; cbn; auto.
Qed.

(** ** Steps of the session channel *)

(** the adjustment in an event *)
Definition adjustment (o : ChannelIO.sop) : N := match o with SAdjust k => k | _ => 0 end.

Definition no_adjust (e : iev) : bool := match e with IAdjusted _ => false | _ => true end.
Definition ext (P : iev -> bool) (s t : sess) : Prop := exists l, ss_log t = l ++ ss_log s /\ forallb P l = true.

Lemma ext_refl : forall P s, ext P s s.
Proof. intros P s. now exists []. Qed.
Lemma ext_trans : forall P a b c, ext P a b -> ext P b c -> ext P a c.
Proof.
  intros P a b c (l & L & A) (m & M & B). exists (m ++ l). rewrite M, L, app_assoc. split; [reflexivity|].
  now rewrite forallb_app, A, B.
Qed.

(** nothing sent, no adjustment *)
Definition silent (e : iev) : bool := match e with IAdjusted _ | ISent _ _ => false | _ => true end.

(** no packet is sent *)
Definition silent_packet (e : iev) : bool := match e with ISent _ _ | ISentEof | ISentExit | IClosed => false | _ => true end.

Lemma silent_total : forall s t, ext silent s t -> sent_total (ss_log t) = sent_total (ss_log s).
Proof.
  intros s t (l & -> & H). induction l as [|e l IH]; [reflexivity|]. cbn [forallb] in H. apply andb_true_iff in H as (A & B).
  destruct e; try discriminate; exact (IH B).
Qed.
Lemma silent_credit : forall w s t, ext silent s t -> credit w (ss_log t) = credit w (ss_log s).
Proof.
  intros w s t (l & -> & H). induction l as [|e l IH]; [reflexivity|]. cbn [forallb] in H. apply andb_true_iff in H as (A & B).
  destruct e; try discriminate; exact (IH B).
Qed.

Lemma silent_close_source : forall x c s, ext silent s (s_close_source x c s).
Proof.
  intros x c s. unfold s_close_source. destruct (so_open (sget s x)); [|apply ext_refl].
  destruct (so_data (sget s x)); [exists [IEnded x]|eexists [IEnded x; _]]; split; try reflexivity.
Qed.
Lemma silent_close : forall c s, ext silent s (s_close c s).
Proof.
  intros c s. unfold s_close. eapply ext_trans; [apply (silent_close_source Stdout c)|].
  eapply ext_trans; [apply (silent_close_source Stderr c)|]. eapply ext_trans; [apply (silent_close_source Tty c)|].
  exists [IClosed]. split; reflexivity.
Qed.
Lemma silent_inactive : forall s, ext silent s (s_close_if_inactive s).
Proof. intros s. unfold s_close_if_inactive. destruct (_ || _); [apply ext_refl|apply silent_close]. Qed.
Lemma silent_eof : forall s, ext silent s (s_maybe_eof s).
Proof.
  intros s. unfold s_maybe_eof. destruct (s_outputs s); [apply ext_refl|].
  eapply ext_trans; [|apply silent_inactive]. exists [ISentEof]. split; reflexivity.
Qed.

(** what one event adds to the log of a session *)
Lemma read_adds : forall x s, credit 0 (ss_log (s_read x s)) = credit 0 (ss_log s) /\ sent_total (ss_log (s_read x s)) <= sent_total (ss_log s) + 4096.
Proof.
  intros x s. unfold s_read. destruct (N.min 4096 (ss_swin s) =? 0); [split; [reflexivity|cbn; lia]|].
  destruct (take _ _) as [|b t] eqn:T.
  - assert (E : ext silent s (s_maybe_eof (s_close_source x LHangup s))) by (eapply ext_trans; [apply silent_close_source|apply silent_eof]).
    rewrite (silent_credit 0 _ _ E), (silent_total _ _ E). lia.
  - cbv zeta. pose proof (take_le (N.min 4096 (ss_swin s)) (so_data (sget s x))) as L. rewrite T in L.
    set (d := b :: t) in *. destruct (_ =? 0); split; try reflexivity; cbn [ss_log s_cancel sput slog sswin sent_total]; lia.
Qed.

Lemma credit_shift : forall w l, credit w l = w + credit 0 l.
Proof. intros w l. induction l as [|[] l IH]; cbn; try exact IH; rewrite ?IH; lia. Qed.

Lemma step_adds : forall s o,
  credit 0 (ss_log (sstep s o)) <= adjustment o + credit 0 (ss_log s) /\
  sent_total (ss_log (sstep s o)) <= sent_total (ss_log s) + 4096.
Proof.
  assert (Q : forall s t n, ext silent s t -> credit 0 (ss_log t) <= n + credit 0 (ss_log s) /\ sent_total (ss_log t) <= sent_total (ss_log s) + 4096).
  { intros s t n E. rewrite (silent_credit 0 _ _ E), (silent_total _ _ E). lia. }
  assert (R : forall x s n, credit 0 (ss_log (s_read x s)) <= n + credit 0 (ss_log s) /\ sent_total (ss_log (s_read x s)) <= sent_total (ss_log s) + 4096).
  { intros x s n. destruct (read_adds x s) as (A & B). lia. }
  Local Ltac QS := match goal with Q : forall s t n, ext silent s t -> _ |- _ => apply Q; exists []; split; reflexivity end.
  intros s o. unfold sstep. destruct (ss_closed s); [QS|]. destruct o; cbn [adjustment].
  - destruct (_ && _); [apply Q; eexists [_]; split; reflexivity|QS].
  - destruct (so_open _); QS.
  - destruct (_ && _); [|QS]. unfold s_tty_ready.
    destruct x; try (destruct (so_data _); [destruct (so_eof _)|]; (apply R || QS)).
    destruct (_ && _); [apply R|]. destruct (so_eof _); [|QS].
    apply Q. eapply ext_trans; [apply silent_close_source|apply silent_eof].
  - QS.
  - destruct (k =? 0); [cbn; lia|]. cbv zeta. destruct (_ =? 0); cbn; lia.
  - destruct (_ || _); QS.
  - destruct (_ || _); [QS|]. cbv zeta. apply Q. exists [IStarted]. destruct (so_open _); destruct (_ =? 0); split; reflexivity.
  - destruct (ss_child s); [|QS]. apply Q. eapply ext_trans; [|apply silent_inactive]. exists [ISentExit]. split; reflexivity.
  - cbv zeta. apply Q. eapply ext_trans; [apply (silent_close_source Stdout LRejected)|].
    eapply ext_trans; [apply (silent_close_source Stderr LRejected)|]. eapply ext_trans; [apply (silent_close_source Tty LRejected)|].
    exists [IProduced Stderr text]. destruct (_ =? 0); split; reflexivity.
  - destruct (b_rekey _); [QS|]. cbn [b_kexinit]. rewrite tell_log. cbn. lia.
  - destruct (b_rekey _); [|QS]. cbn [b_newkeys]. rewrite tell_log. cbn. lia.
  - cbn [b_flush]. rewrite tell_log. cbn. lia.
  - apply Q, silent_close.
Qed.

(** The session of a run, and what the client granted. *)
Lemma brun_session : forall cfg sid peer w evs, exists ops,
  bk_session (brun cfg sid peer w evs) = sruns w {| b_write := false; b_rekey := false |} ops /\
  credit w (ss_log (bk_session (brun cfg sid peer w evs))) <= granted w evs.
Proof.
  intros cfg sid peer w evs. induction evs as [|e t IH] using rev_ind; [exists []; split; [reflexivity|cbn; lia]|].
  destruct IH as (ops & E & C). rewrite brun_snoc. set (s := brun cfg sid peer w t) in *.
  assert (G : granted w (t ++ [e]) = match e with BSession o => adjustment o | _ => 0 end + granted w t).
  { unfold granted. rewrite fold_right_app. cbn [fold_right]. clear.
    induction t as [|a t IH]; cbn [fold_right].
    - destruct e as [|[]| |]; cbn; lia.
    - destruct a as [|[]| |]; rewrite ?IH; try reflexivity. lia. }
  assert (K : exists ops, bk_session s = sruns w {| b_write := false; b_rekey := false |} ops /\ credit w (ss_log (bk_session s)) <= granted w (t ++ [e])).
  { exists ops. split; [exact E|lia]. }
  assert (ST : forall o n, adjustment o <= n -> granted w (t ++ [e]) = n + granted w t ->
    exists ops, sstep (bk_session s) o = sruns w {| b_write := false; b_rekey := false |} ops /\ credit w (ss_log (sstep (bk_session s) o)) <= granted w (t ++ [e])).
  { intros o n A B. exists (ops ++ [o]). rewrite sruns_snoc, <- E. split; [reflexivity|]. destruct (step_adds (bk_session s) o) as (X & _).
    rewrite credit_shift in C |- *. lia. }
  destruct e as [op|o| |k]; cbn [bstep].
  - exact K.
  - destruct o; try (destruct (_ && _); [eapply ST; [|exact G]; reflexivity|exact K]). exact K.
  - destruct (_ <? _); exact K.
  - destruct (_ || _); [|exact K]. eapply ST; [|exact G]. cbn. lia.
Qed.

Lemma run_W : forall cfg sid peer w evs, granted w evs < pow64 -> W w (bk_session (brun cfg sid peer w evs)).
Proof.
  intros cfg sid peer w evs G. destruct (brun_session cfg sid peer w evs) as (ops & E & C). rewrite E in C |- *. apply sruns_W. lia.
Qed.

(** ** Suspended programs *)

Definition suspended (s : sess) : Prop := forall x, so_read (sget s x) = false.

Lemma suspended_dec : forall s t, dec s t -> suspended s -> suspended t.
Proof. intros s t (_ & D & _) Q x. destruct (so_read (sget t x)) eqn:R; [|reflexivity]. specialize (D x R). now rewrite (Q x) in D. Qed.

Definition wakes (o : ChannelIO.sop) : bool :=
  match o with SAdjust _ | SSpawn | SReject _ | SKexInit | SNewKeys | SFlush _ => true | _ => false end.

(** A suspended program stays suspended, and nothing is sent for it. *)
Lemma suspended_step : forall w s o, W w s -> suspended s -> wakes o = false ->
  suspended (sstep s o) /\ sent_total (ss_log (sstep s o)) = sent_total (ss_log s).
Proof.
  intros w s o HW Q K.
  assert (P : forall t, dec s t -> ext silent s t -> suspended t /\ sent_total (ss_log t) = sent_total (ss_log s)).
  { intros t D E. split; [exact (suspended_dec s t D Q)|now apply silent_total]. }
  assert (P0 : suspended s /\ sent_total (ss_log s) = sent_total (ss_log s)) by (split; [exact Q|reflexivity]).
  unfold sstep. destruct (ss_closed s); [exact P0|]. destruct o; try discriminate K.
  - destruct (_ && _); [|exact P0]. apply P; [|eexists [_]; split; reflexivity].
    eapply dec_trans; [apply (dec_put x (set_data (sget s x) (so_data (sget s x) ++ d))); auto|now apply dec_log].
  - destruct (so_open _); [|exact P0]. apply P; [apply dec_put; auto|now exists []].
  - destruct (so_open (sget s x)) eqn:O; [|exact P0]. destruct (so_reg (sget s x)) eqn:G; [|exact P0]. cbn [andb].
    pose proof (Q x) as R. destruct HW as (HW & _). destruct (HW x) as (_ & _ & X & _).
    destruct x; try (exfalso; specialize (X ltac:(discriminate)); congruence).
    unfold s_tty_ready. cbn [sget] in R. rewrite R. cbn [andb]. destruct (so_eof _); [|exact P0].
    apply P; [eapply dec_trans; [apply dec_close_source|apply dec_eof]|eapply ext_trans; [apply silent_close_source|apply silent_eof]].
  - apply P; [|now exists []]. apply dec_put. unfold schedule_write. cbn. destruct (so_open (ss_tty s)); auto.
  - destruct (_ || _); [exact P0|]. apply P; [|now exists []]. apply dec_put. discriminate.
  - destruct (ss_child s); [|exact P0]. apply P.
    + eapply dec_trans; [apply (dec_child false)|]. eapply dec_trans; [now apply (dec_log ISentExit)|apply dec_inactive].
    + eapply ext_trans; [|apply silent_inactive]. exists [ISentExit]. split; reflexivity.
  - apply P; [apply dec_close|apply silent_close].
Qed.

Lemma rekey_step : forall s o, o <> SKexInit -> b_rekey (ss_block s) = false -> b_rekey (ss_block (sstep s o)) = false.
Proof.
  intros s o N R. assert (D : forall t, dec s t -> b_rekey (ss_block t) = false) by (intros t (E & _); now rewrite E).
  unfold sstep. destruct (ss_closed s); [exact R|]. destruct o.
  - destruct (_ && _); exact R.
  - destruct (so_open _); exact R.
  - destruct (_ && _); [|exact R].
    assert (RD : forall x, b_rekey (ss_block (s_read x s)) = false).
    { intros y. unfold s_read. destruct (_ =? 0); [exact R|]. destruct (take _ _); [apply D; eapply dec_trans; [apply dec_close_source|apply dec_eof]|].
      cbv zeta. destruct (_ =? 0); exact R. }
    unfold s_tty_ready. destruct x; try (destruct (so_data _); [destruct (so_eof _)|]; (apply RD || exact R)).
    destruct (_ && _); [apply RD|]. destruct (so_eof _); [|exact R]. apply D. eapply dec_trans; [apply dec_close_source|apply dec_eof].
  - exact R.
  - destruct (k =? 0); [exact R|]. cbv zeta. destruct (_ =? 0); exact R.
  - destruct (_ || _); exact R.
  - destruct (_ || _); [exact R|]. cbv zeta. destruct (so_open _); destruct (_ =? 0); exact R.
  - destruct (ss_child s); [|exact R]. apply D. eapply dec_trans; [apply (dec_child false)|]. eapply dec_trans; [now apply (dec_log ISentExit)|apply dec_inactive].
  - cbv zeta. set (s0 := s_close_source Tty LRejected _).
    assert (E : dec s s0) by (unfold s0; eapply dec_trans; [|apply dec_close_source]; eapply dec_trans; apply dec_close_source).
    specialize (D s0 E). clearbody s0. destruct (_ =? 0); exact D.
  - destruct (N eq_refl).
  - rewrite R. exact R.
  - cbn [b_flush]. match goal with |- context [s_tell ?t ?u] => destruct (block_tell t u) as (B & _); rewrite B end. exact R.
  - apply D, dec_close.
Qed.

(** After an attempt to write which leaves something, programs are suspended. *)
Lemma flush_suspends : forall w s, W w s -> b_rekey (ss_block s) = false ->
  (ss_closed s = true -> suspended s) -> suspended (sstep s (SFlush true)).
Proof.
  intros w s HW R CL. unfold sstep. destruct (ss_closed s); [exact (CL eq_refl)|]. unfold b_flush. rewrite R. cbn [andb negb].
  assert (CN : forall u, (forall x, so_read (sget u x) = true -> 0 < ss_swin u) -> forall x, so_read (sget (s_blocked u) x) = false).
  { intros u Hu x. unfold s_blocked. destruct (ss_swin u =? 0) eqn:E; [|apply unread_cancel]. apply N.eqb_eq in E.
    destruct (so_read (sget u x)) eqn:Q; [|reflexivity]. specialize (Hu x Q). lia. }
  assert (WS : forall b x, so_read (sget (sblock b s) x) = true -> 0 < ss_swin s).
  { intros b0 x Q. destruct HW as (HW & _). destruct (HW x) as (P & _). destruct x; apply P; exact Q. }
  destruct (b_write (ss_block s)); cbn [andb s_tell]; intros x; apply CN; intros y Qy.
  - unfold s_unblocked in *. destruct (ss_swin _ =? 0) eqn:E; [exact (WS _ y Qy)|]. apply N.eqb_neq in E. cbn in *. lia.
  - exact (WS _ y Qy).
Qed.

(** A closed channel has no program. *)
Definition closed_ok (s : sess) : Prop := ss_closed s = true -> forall x, so_open (sget s x) = false.

Lemma close_source_open : forall x c s y, so_open (sget (s_close_source x c s) y) = true -> x <> y /\ so_open (sget s y) = true.
Proof.
  intros x c s y. unfold s_close_source. destruct (so_open (sget s x)) eqn:O.
  - destruct (so_data _); destruct x, y; cbn; intros H; try discriminate H; split; try discriminate; exact H.
  - intros H. split; [intros <-; congruence|exact H].
Qed.
Lemma close_source_closed : forall x c s, ss_closed (s_close_source x c s) = ss_closed s.
Proof. intros x c s. unfold s_close_source. destruct (so_open _); [|reflexivity]. destruct (so_data _); destruct x; reflexivity. Qed.
Lemma close_closed_ok : forall c s, closed_ok (s_close c s).
Proof.
  intros c s _ x. unfold s_close. destruct (so_open (sget _ x)) eqn:H; [exfalso|reflexivity].
  assert (H' : so_open (sget (s_close_source Tty c (s_close_source Stderr c (s_close_source Stdout c s))) x) = true) by (destruct x; exact H).
  apply close_source_open in H' as (A & H'). apply close_source_open in H' as (B & H'). apply close_source_open in H' as (C & _).
  destruct x; try congruence. discriminate H.
Qed.
Lemma inactive_closed_ok : forall s, ss_closed s = false -> closed_ok (s_close_if_inactive s).
Proof. intros s C. unfold s_close_if_inactive. destruct (_ || _); [intros K; congruence|apply close_closed_ok]. Qed.
Lemma eof_closed_ok : forall s, ss_closed s = false -> closed_ok (s_maybe_eof s).
Proof. intros s C. unfold s_maybe_eof. destruct (s_outputs s); [intros K; congruence|now apply inactive_closed_ok]. Qed.
Lemma tell_closed : forall t s, ss_closed (s_tell t s) = ss_closed s.
Proof.
  intros t s. assert (B : forall s, ss_closed (s_blocked s) = ss_closed s) by (intros u; unfold s_blocked; destruct (_ =? 0); reflexivity).
  assert (U : forall s, ss_closed (s_unblocked s) = ss_closed s) by (intros u; unfold s_unblocked; destruct (_ =? 0); reflexivity).
  destruct t; cbn; rewrite ?B, ?U; reflexivity.
Qed.
Lemma step_closed_ok : forall s o, closed_ok s -> closed_ok (sstep s o).
Proof.
  intros s o H. unfold sstep. destruct (ss_closed s) eqn:C; [exact H|].
  assert (F : forall t, ss_closed t = false -> closed_ok t) by (intros t E K; congruence).
  assert (HG : forall x, closed_ok (s_maybe_eof (s_close_source x LHangup s))) by (intros x; apply eof_closed_ok; now rewrite close_source_closed).
  destruct o.
  - destruct (_ && _); [|exact H]. apply F. destruct x; exact C.
  - destruct (so_open _); [|exact H]. apply F. destruct x; exact C.
  - destruct (_ && _); [|exact H].
    assert (RD : forall x, closed_ok (s_read x s)).
    { intros y. unfold s_read. destruct (_ =? 0); [apply F; exact C|]. destruct (take _ _); [apply HG|].
      cbv zeta. apply F. destruct (_ =? 0); destruct y; exact C. }
    unfold s_tty_ready. destruct x; try (destruct (so_data _); [destruct (so_eof _)|]; (apply RD || exact H)).
    destruct (_ && _); [apply RD|]. destruct (so_eof _); [apply HG|exact H].
  - apply F. exact C.
  - destruct (k =? 0); [exact H|]. cbv zeta. apply F. destruct (_ =? 0); exact C.
  - destruct (_ || _); [exact H|]. apply F. exact C.
  - destruct (_ || _); [exact H|]. cbv zeta. apply F. destruct (so_open _); destruct (_ =? 0); exact C.
  - destruct (ss_child s); [|exact H]. apply inactive_closed_ok. exact C.
  - cbv zeta. apply F. match goal with |- context [s_close_source Tty LRejected ?u] => set (s0 := s_close_source Tty LRejected u) end.
    assert (E : ss_closed s0 = false) by (unfold s0; now rewrite !close_source_closed). clearbody s0. destruct (_ =? 0); exact E.
  - destruct (b_rekey _); [exact H|]. apply F. cbn [b_kexinit]. rewrite tell_closed. exact C.
  - destruct (b_rekey _); [|exact H]. apply F. cbn [b_newkeys]. rewrite tell_closed. exact C.
  - apply F. cbn [b_flush]. rewrite tell_closed. exact C.
  - apply close_closed_ok.
Qed.

Lemma closed_suspended : forall w s, W w s -> closed_ok s -> ss_closed s = true -> suspended s.
Proof.
  intros w s (A & _) C K x. destruct (so_read (sget s x)) eqn:R; [|reflexivity]. destruct (A x) as (P & Q & _).
  destruct (P R) as (_ & G). specialize (Q G). rewrite (C K x) in Q. discriminate.
Qed.

Lemma sruns_closed_ok : forall w b ops, closed_ok (sruns w b ops).
Proof. intros w b ops. induction ops as [|o t IH] using rev_ind; [intros K; discriminate|]. rewrite sruns_snoc. now apply step_closed_ok. Qed.

(** ** The bound *)

Definition srv (s : backlog) : N := server_bytes (sv_log (bk_server s)).

Definition bound (s : backlog) (n : N) : Prop :=
  (suspended (bk_session s) /\ waiting s <= srv s + 4096 * (1 + n)) \/ waiting s <= srv s + 4096 * n.

(** everything is encrypted *)
Record J (s : backlog) (n : N) : Prop := {
  j_rekey : b_rekey (ss_block (bk_session s)) = false;
  j_encrypted : bk_encrypted s = bk_pushed s;
  j_written : bk_written s <= bk_encrypted s;
  j_waiting : waiting s <= srv s + 4096 * (1 + n);
  j_bound : bk_defer s = false -> bound s n
}.

Lemma write_J : forall cfg sid w s k n, W w (bk_session s) -> closed_ok (bk_session s) -> J s n ->
  J (bstep cfg sid s (BWrite k)) n /\ bk_defer (bstep cfg sid s (BWrite k)) = false.
Proof.
  intros cfg sid w s k n HW HC [R E WR WA BD]. cbn [bstep]. destruct (bk_defer s || (0 <? k)) eqn:D.
  2:{ apply orb_false_iff in D as (D & _). split; [constructor; assumption|exact D]. }
  split; [|reflexivity]. set (wr := N.min (bk_written s + k) (bk_encrypted s)).
  assert (LOG : forall m, ss_log (sstep (bk_session s) (SFlush m)) = ss_log (bk_session s)).
  { intros m. unfold sstep. destruct (ss_closed _); [reflexivity|]. cbn [b_flush]. rewrite tell_log. reflexivity. }
  assert (P : forall x d, bk_pushed (mk_backlog (bk_server s) (sstep (bk_session s) (SFlush x)) (bk_encrypted s) d false) = bk_pushed s).
  { intros x d. unfold bk_pushed. cbn [bk_server bk_session mk_backlog]. now rewrite LOG. }
  assert (B : bound (mk_backlog (bk_server s) (sstep (bk_session s) (SFlush (wr <? bk_encrypted s))) (bk_encrypted s) wr false) n).
  { unfold bound, waiting. rewrite P. cbn [bk_written bk_session bk_server mk_backlog]. unfold srv. cbn [bk_server mk_backlog]. unfold waiting, srv in *.
    destruct (wr <? bk_encrypted s) eqn:M.
    - left. split; [|unfold wr; lia]. apply (flush_suspends w); [exact HW|exact R|]. intros K. exact (closed_suspended w _ HW HC K).
    - right. apply N.ltb_ge in M. lia. }
  constructor.
  - cbn [bk_session mk_backlog]. apply rekey_step; [discriminate|exact R].
  - rewrite P. exact E.
  - cbn [bk_written bk_encrypted mk_backlog]. unfold wr. lia.
  - destruct B as [(_ & B)|B]; [exact B|]. lia.
  - intros _. exact B.
Qed.

Lemma work_session : forall cfg sid s, bk_session (bstep cfg sid s BWork) = bk_session s /\ bk_server (bstep cfg sid s BWork) = bk_server s /\
  bk_written (bstep cfg sid s BWork) = bk_written s.
Proof. intros cfg sid s. cbn [bstep]. destruct (_ <? _); auto. Qed.

(** after something happened, everything is encrypted *)
Lemma work_J : forall cfg sid s n, b_rekey (ss_block (bk_session s)) = false -> bk_written s <= bk_encrypted s -> bk_encrypted s <= bk_pushed s ->
  waiting s <= srv s + 4096 * (1 + n) -> (bk_defer s = false -> bk_encrypted s = bk_pushed s -> bound s n) -> J (bstep cfg sid s BWork) n.
Proof.
  intros cfg sid s n R WR EN WA BD. cbn [bstep]. destruct (bk_encrypted s <? bk_pushed s) eqn:E.
  - constructor; try assumption; cbn [bk_session bk_encrypted bk_written bk_defer mk_backlog].
    + reflexivity.
    + lia.
    + discriminate.
  - apply N.ltb_ge in E. assert (EQ : bk_encrypted s = bk_pushed s) by lia. constructor; auto.
Qed.

Lemma granted_app : forall w a b, granted w (a ++ b) = granted 0 b + granted w a.
Proof.
  intros w a b. unfold granted. rewrite fold_right_app. induction a as [|e a IH]; cbn [fold_right].
  - induction b as [|e b IH]; cbn [fold_right]; [reflexivity|]. destruct e as [|[]| |]; rewrite ?IH; try reflexivity. lia.
  - destruct e as [|[]| |]; rewrite ?IH; try reflexivity. lia.
Qed.
Lemma attentive_snoc : forall t e k, attentive (t ++ [(e, k)]) = attentive t ++ [e; BWork; BWrite k].
Proof. intros. unfold attentive. now rewrite flat_map_app. Qed.
Lemma granted_attentive : forall w evs, granted w (attentive evs) = granted w (map fst evs).
Proof.
  intros w evs. induction evs as [|(e & k) t IH] using rev_ind; [reflexivity|]. rewrite attentive_snoc, map_app, !granted_app, IH.
  f_equal; try reflexivity. 
Qed.
Lemma resumptions_app : forall a b, resumptions (a ++ b) = resumptions a + resumptions b.
Proof. intros a b. unfold resumptions. rewrite filter_app, app_length. lia. Qed.

Lemma session_ok : forall cfg sid peer w evs, granted w evs < pow64 ->
  W w (bk_session (brun cfg sid peer w evs)) /\ closed_ok (bk_session (brun cfg sid peer w evs)).
Proof.
  intros cfg sid peer w evs G. split; [now apply run_W|]. destruct (brun_session cfg sid peer w evs) as (ops & -> & _). apply sruns_closed_ok.
Qed.

Lemma attentive_wf : forall evs, Forall well_formed (map fst evs) -> Forall well_formed (attentive evs).
Proof.
  intros evs. induction evs as [|(e & k) t IH]; intros F; [constructor|]. inversion F as [|? ? A B]; subst.
  unfold attentive. cbn [flat_map fst snd app]. constructor; [exact A|]. constructor; [exact Logic.I|]. constructor; [exact Logic.I|]. exact (IH B).
Qed.

Lemma attentive_J : forall cfg sid peer w evs, Forall well_formed (map fst evs) -> granted w (map fst evs) < pow64 ->
  existsb rekeys (map fst evs) = false ->
  J (brun cfg sid peer w (attentive evs)) (resumptions (map fst evs)) /\ bk_defer (brun cfg sid peer w (attentive evs)) = false.
Proof.
  intros cfg sid peer w evs. induction evs as [|(e & k) t IH] using rev_ind; intros F G RK.
  { split; [|reflexivity]. constructor; try reflexivity; cbn; try lia. intros _. left. split; [intros []; reflexivity|]. cbn. lia. }
  rewrite map_app in F, G, RK |- *. cbn [map fst] in *. apply Forall_app in F as (F & FE). rewrite existsb_app in RK. apply orb_false_iff in RK as (RK & RE).
  assert (FE' : well_formed e) by now inversion FE. clear FE. cbn [existsb] in RE. rewrite orb_false_r in RE.
  rewrite granted_app in G. destruct (IH F ltac:(lia) RK) as (H & DF). rewrite resumptions_app.
  rewrite attentive_snoc. set (s := brun cfg sid peer w (attentive t)) in *. set (n := resumptions (map fst t)) in *.
  assert (GA : granted w (attentive t ++ [e]) < pow64) by (rewrite granted_app, granted_attentive; exact G).
  destruct (session_ok cfg sid peer w (attentive t)) as (W0 & C0); [rewrite granted_attentive; lia|]. fold s in W0, C0.
  destruct (session_ok cfg sid peer w (attentive t ++ [e]) GA) as (W1 & C1).
  rewrite brun_snoc in W1, C1. fold s in W1, C1.
  change [e; BWork; BWrite k] with ([e] ++ [BWork] ++ [BWrite k]). rewrite !app_assoc, !brun_snoc. fold s.
  destruct (work_session cfg sid (bstep cfg sid s e)) as (S2 & _ & _).
  apply (write_J cfg sid w); [now rewrite S2|now rewrite S2|]. 
  destruct H as [R E WR WA BD]. specialize (BD DF).
  assert (GD : good cfg (bk_server s)) by (apply run_good, attentive_wf, F).
  destruct e as [op|o| |j].
  - (* the server *) change (resumptions [BServer op]) with 0. rewrite N.add_0_r.
    destruct (ServerFacts.step_log cfg sid op (bk_server s) GD) as (l & L & _).
    assert (SV : srv (bstep cfg sid s (BServer op)) = srv s + server_bytes l).
    { unfold srv. cbn [bstep bk_server mk_backlog]. now rewrite L, server_bytes_app. }
    assert (PU : bk_pushed (bstep cfg sid s (BServer op)) = bk_pushed s + server_bytes l).
    { unfold bk_pushed. cbn [bstep bk_server bk_session mk_backlog]. rewrite L, server_bytes_app. lia. }
    assert (WT : waiting (bstep cfg sid s (BServer op)) = waiting s + server_bytes l).
    { unfold waiting. rewrite PU. cbn [bstep bk_written mk_backlog]. lia. }
    apply work_J.
    + exact R.
    + exact WR.
    + rewrite PU. cbn [bstep bk_encrypted mk_backlog]. lia.
    + rewrite WT, SV. lia.
    + intros _ _. unfold bound. rewrite WT, SV. destruct BD as [(Q & BD)|BD]; [left; split; [exact Q|lia]|right; lia].
  - (* the program *)
    assert (SAME : bstep cfg sid s (BSession o) = s -> J (bstep cfg sid (bstep cfg sid s (BSession o)) BWork) (n + resumptions [BSession o])).
    { intros ->. apply work_J; try assumption; try lia. intros _ _. unfold bound. destruct BD as [(Q & BD)|BD]; [left; split; [exact Q|lia]|right; lia]. }
    destruct (sv_alive (bk_server s) && sv_channels (bk_server s)) eqn:AC.
    2:{ apply SAME. cbn [bstep]. rewrite AC. destruct o; reflexivity. }
    assert (FL : (exists m, o = SFlush m) \/ forall m, o <> SFlush m) by (destruct o; try (right; discriminate); left; eauto).
    destruct FL as [(m & ->)|FL]; [now apply SAME|].
    assert (ST : bstep cfg sid s (BSession o) = mk_backlog (bk_server s) (sstep (bk_session s) o) (bk_encrypted s) (bk_written s)
      (bk_defer s || (session_packets (ss_log (bk_session s)) <? session_packets (ss_log (sstep (bk_session s) o))))).
    { cbn [bstep]. rewrite AC. destruct o; try reflexivity. destruct (FL more eq_refl). }
    rewrite ST. set (s1 := mk_backlog _ _ _ _ _) in *. clear SAME.
    assert (SR : srv s1 = srv s) by reflexivity.
    destruct (step_adds (bk_session s) o) as (_ & AD).
    destruct (FlowFacts.step_log (bk_session s) o) as (l & L).
    assert (GR : sent_total (ss_log (bk_session s)) <= sent_total (ss_log (sstep (bk_session s) o))).
    { rewrite L. clear. induction l as [|e l IH]; [reflexivity|]. destruct e; cbn; lia. }
    assert (PU : bk_pushed s1 = bk_pushed s + (sent_total (ss_log (sstep (bk_session s) o)) - sent_total (ss_log (bk_session s)))).
    { unfold bk_pushed, s1. cbn [bk_server bk_session mk_backlog]. rewrite (session_bytes_total (ss_log (bk_session s))), (session_bytes_total (ss_log (sstep _ _))). clear - GR. lia. }
    assert (WT : waiting s1 = waiting s + (sent_total (ss_log (sstep (bk_session s) o)) - sent_total (ss_log (bk_session s)))).
    { unfold waiting. rewrite PU. change (bk_written s1) with (bk_written s). lia. }
    assert (NK : o <> SKexInit) by (intros ->; discriminate RE).
    apply work_J.
    + apply rekey_step; [exact NK|exact R].
    + exact WR.
    + rewrite PU. change (bk_encrypted s1) with (bk_encrypted s). lia.
    + rewrite WT, SR. destruct BD as [(Q & BD)|BD]; [|lia]. destruct (wakes o) eqn:K.
      * destruct o; try discriminate K; try congruence.
        -- change (resumptions [BSession (SAdjust k0)]) with 1. lia.
        -- change (resumptions [BSession SSpawn]) with 1. lia.
        -- change (resumptions [BSession (SReject text)]) with 1. lia.
        -- assert (sent_total (ss_log (sstep (bk_session s) SNewKeys)) = sent_total (ss_log (bk_session s))); [|lia].
           unfold sstep. destruct (ss_closed _); [reflexivity|]. rewrite R. reflexivity.
      * destruct (suspended_step w _ _ W0 Q K) as (_ & X). lia.
    + intros _ EN. assert (Z : sent_total (ss_log (sstep (bk_session s) o)) = sent_total (ss_log (bk_session s))).
      { change (bk_encrypted s1) with (bk_encrypted s) in EN. lia. }
      unfold bound. rewrite WT, SR, Z. destruct BD as [(Q & BD)|BD]; [|right; lia]. destruct (wakes o) eqn:K.
      * destruct o; try discriminate K; try congruence.
        -- right. change (resumptions [BSession (SAdjust k0)]) with 1. lia.
        -- right. change (resumptions [BSession SSpawn]) with 1. lia.
        -- right. change (resumptions [BSession (SReject text)]) with 1. lia.
        -- left. split; [|lia]. unfold s1. cbn [bk_session mk_backlog]. unfold sstep. destruct (ss_closed _); [exact Q|]. rewrite R. exact Q.
      * left. destruct (suspended_step w _ _ W0 Q K) as (X & _). split; [exact X|lia].
  - change (resumptions [BWork]) with 0. rewrite N.add_0_r.
    assert (Z : bstep cfg sid s BWork = s) by (cbn [bstep]; rewrite E, N.ltb_irrefl; reflexivity). rewrite !Z. constructor; auto.
  - change (resumptions [BWrite j]) with 0. rewrite N.add_0_r.
    destruct (write_J cfg sid w s j n W0 C0) as (X & Y); [constructor; auto|].
    destruct X as [R' E' WR' WA' BD']. apply work_J; auto. lia.
Qed.
