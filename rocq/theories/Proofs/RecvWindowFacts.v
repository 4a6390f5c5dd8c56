(** Facts about Model/RecvWindow.v *)

From Coq Require Import NArith List Bool Lia.
From Verif.Base Require Import Bytes.
From Verif.Model Require Import Wire Buffered RecvWindow.
From Verif.Spec Require Import BufferedSpec RecvWindowSpec.
From Verif.Proofs Require Import BufferedFacts.
Import ListNotations.
Open Scope N_scope.

Local Arguments take : simpl never.
Local Arguments drop : simpl never.

Definition RW : N := 1048576.
Lemma RW_eq : RECEIVE_WINDOW = RW. Proof. reflexivity. Qed.
Lemma RW_half : RECEIVE_WINDOW / 2 = 524288. Proof. reflexivity. Qed.

Lemma sum_app : forall a b, sum (a ++ b) = sum a + sum b.
Proof. induction a as [|x a IH]; intros b; [reflexivity|]. change (x + sum (a ++ b) = x + sum a + sum b). rewrite IH. lia. Qed.
Lemma len_drop : forall n (p : bytes), n <= len p -> len (drop n p) + n = len p.
Proof. intros n p H. unfold len, drop in *. rewrite skipn_length. lia. Qed.

Definition total (q : list bytes) : N := sum (map len q).
Definition adj {D} (w : wch D) : N := sum (w_adjusts w).

(** one OnBufferedData() *)
Definition balanced {D} (n : N) (w w' : wch D) : Prop :=
  w_window w' + n + adj w + w_dropped w = w_window w + adj w' + w_dropped w' /\
  adj w <= adj w' /\ w_dropped w <= w_dropped w' /\ w_window w' <= RW /\ w_broken w' = false /\ (524288 <= w_window w -> 524288 <= w_window w').

Lemma consume_small : forall D dbg n (w : wch D), n <= w_window w -> w_window w <= RW ->
  ConsumeReceiveWindow dbg n w = {| w_dst := w_dst w; w_window := w_window w - n; w_adjusts := w_adjusts w; w_dropped := w_dropped w; w_broken := w_broken w |}.
Proof.
  intros D dbg n w L U. unfold ConsumeReceiveWindow. f_equal.
  - unfold RW, pow64 in *. replace (w_window w + _ - n) with (w_window w - n + 1 * 18446744073709551616) by lia. rewrite N.mod_add by lia. apply N.mod_small. lia.
  - destruct (N.ltb_spec (w_window w) n); [lia|]. now rewrite andb_false_r, orb_false_r.
Qed.

Lemma replenish_ok : forall D dbg n (w : wch D), n <= w_window w -> w_window w <= RW -> w_broken w = false -> balanced n w (replenish dbg n w).
Proof.
  intros D dbg n w L U B. unfold replenish. rewrite (consume_small D dbg n w L U). cbv zeta. cbn [w_window]. rewrite RW_half, RW_eq.
  destruct (N.ltb_spec (w_window w - n) 524288) as [S|S].
  - unfold SendWindowAdjust, balanced, adj. cbn [w_window w_adjusts w_dropped w_broken w_dst]. rewrite sum_app. cbn [sum fold_right]. unfold RW, pow64 in *.
    rewrite N.mod_small by lia. rewrite B. destruct (N.eqb_spec (1048576 - (w_window w - n)) 0); [lia|].
    destruct (N.ltb_spec (18446744073709551616 - 1 - (w_window w - n)) (1048576 - (w_window w - n))); [lia|]. rewrite andb_false_r. cbn [orb].
    repeat split; try lia; reflexivity.
  - unfold balanced, adj. cbn [w_window w_adjusts w_dropped w_broken w_dst]. unfold RW in *. repeat split; try lia; assumption.
Qed.

Section Facts.
  Context {D : Type} (on_data : D -> bytes -> N * bool * D) (on_eof : D -> D).
  Hypothesis portion : forall d p, fst (fst (on_data d p)) <= len p.

  Lemma wdata_ok : forall dbg (w : wch D) p, len p <= w_window w -> w_window w <= RW -> w_broken w = false ->
    fst (wdata on_data dbg w p) <= len p /\ balanced (fst (wdata on_data dbg w p)) w (snd (wdata on_data dbg w p)).
  Proof.
    intros dbg w p L U B. unfold wdata. pose proof (portion (w_dst w) p) as P. destruct (on_data (w_dst w) p) as [[n c] d]. cbn [fst] in P. cbn [fst snd]. split; [exact P|].
    destruct c.
    - apply (replenish_ok D dbg n (w_set_dst d w)); cbn [w_set_dst w_window w_broken]; [lia|exact U|exact B].
    - unfold balanced, adj. cbn [w_set_dst w_window w_adjusts w_dropped w_broken]. repeat split; try lia; assumption.
  Qed.

  (** ReadBuffer(), as long as the buffer fits into the window *)
  Lemma read_ok : forall dbg q (w : wch D), total q <= w_window w -> w_window w <= RW -> w_broken w = false ->
    let r := read_queue (wdata on_data dbg) q w in
    w_window (snd r) + total q + adj w + w_dropped w = w_window w + total (fst r) + adj (snd r) + w_dropped (snd r) /\
    adj w <= adj (snd r) /\ w_dropped w <= w_dropped (snd r) /\ w_window (snd r) <= RW /\ w_broken (snd r) = false /\ (524288 <= w_window w -> 524288 <= w_window (snd r)).
  Proof.
    intros dbg. induction q as [|p q IH]; intros w L U B; cbn [read_queue].
    - cbn. repeat split; try lia; assumption.
    - unfold total in L. cbn [map sum fold_right] in L. fold (sum (map len q)) in L. fold (total q) in L.
      destruct (wdata_ok dbg w p ltac:(lia) U B) as (P & B1 & B2 & B3 & B4 & B5 & B6). destruct (wdata on_data dbg w p) as [n w']. cbn [fst snd] in *.
      unfold total. cbn [map sum fold_right]. fold (sum (map len q)). fold (total q).
      destruct (N.ltb_spec n (len p)) as [S|S].
      + cbn [fst snd]. unfold total. cbn [map sum fold_right]. fold (sum (map len q)). fold (total q). pose proof (len_drop n p P). repeat split; try lia; assumption.
      + assert (n = len p) by lia. subst n. destruct (IH w' ltac:(lia) B4 B5) as (C1 & C2 & C3 & C4 & C5 & C6).
        destruct (read_queue (wdata on_data dbg) q w') as [q' w'']. cbn [fst snd] in *. fold (total q'). repeat split; try lia; auto.
  Qed.

  (** the bytes sent by the peer, [t], are in the window or in the buffer *)
  Record inv (t : N) (s : wst D) : Prop := {
    in_accepted : ws_rejected s = false;
    in_intact : w_broken (bc_dst (ws_ch s)) = false;
    in_granted : t <= granted s;
    in_window : bc_assert (ws_ch s) = false -> window s <= RW /\ window s + t = granted s + waiting s + w_dropped (bc_dst (ws_ch s))
  }.

  Definition wsize (o : wop D) : N := match o with WData p => len p | WExt p => len p | _ => 0 end.

  Lemma inv_init : forall d, inv 0 (wst_init d).
  Proof. intros d. split; try reflexivity; cbn; [lia|]. intros _. split; [|reflexivity]. unfold RW, RECEIVE_WINDOW. lia. Qed.

  Lemma granted_adj : forall s : wst D, granted s = RW + adj (bc_dst (ws_ch s)).
  Proof. reflexivity. Qed.
  Lemma waiting_total : forall s : wst D, waiting s = total (bc_queue (ws_ch s)).
  Proof. reflexivity. Qed.

  Lemma wstep_inv : forall dbg t s o, inv t s -> t + wsize o <= granted s -> inv (t + wsize o) (wstep on_data on_eof dbg s o).
  Proof.
    intros dbg t s o [A I G W] L. unfold wstep, stopped. cbv zeta. rewrite A, I. cbn [orb]. rewrite orb_false_r.
    destruct (bc_assert (ws_ch s)) eqn:AS; [split; [exact A|exact I|exact L|congruence]|]. specialize (W eq_refl). destruct W as (U & W).
    rewrite granted_adj, waiting_total in *. unfold window in *.
    destruct o as [p|p| | |f]; cbn [wsize] in L |- *.
    - destruct (N.ltb_spec (w_window (bc_dst (ws_ch s))) (len p)); [lia|]. unfold on_ch, bstep. rewrite AS. unfold OnData.
      destruct (dbg && bc_eof (ws_ch s)).
      { split; cbn [ws_rejected ws_ch bfail bc_dst bc_assert]; [exact A|exact I|exact L|discriminate]. }
      destruct (bc_queue (ws_ch s)) as [|c q] eqn:Q.
      + destruct (wdata_ok dbg (bc_dst (ws_ch s)) p ltac:(lia) U I) as (P & B1 & B2 & B3 & B4 & B5 & B6). destruct (wdata on_data dbg (bc_dst (ws_ch s)) p) as [n w']. cbn [fst snd] in *.
        split; [exact A|exact B5|rewrite granted_adj; cbn [ws_ch bc_dst]; lia|]. intros _. rewrite granted_adj, waiting_total. unfold window. cbn [ws_ch bc_dst bc_queue]. split; [exact B4|].
        change (total []) with 0 in W. destruct (N.ltb_spec n (len p)) as [S|S]; [change (total [drop n p]) with (len (drop n p) + 0); pose proof (len_drop n p P)|change (total []) with 0]; lia.
      + split; [exact A|exact I|rewrite granted_adj; cbn [ws_ch bc_dst]; lia|]. intros _. rewrite granted_adj, waiting_total. unfold window. cbn [ws_ch bc_dst bc_queue]. split; [exact U|].
        change (c :: q ++ [p]) with ((c :: q) ++ [p]). unfold total. rewrite map_app, sum_app. change (sum (map len (c :: q))) with (total (c :: q)). change (sum (map len [p])) with (len p + 0). lia.
    - destruct (N.ltb_spec (w_window (bc_dst (ws_ch s))) (len p)); [lia|]. unfold on_ch, bstep. rewrite AS. rewrite (consume_small D dbg (len p) (bc_dst (ws_ch s))) by lia.
      split; [exact A|exact I|rewrite granted_adj; cbn [ws_ch bc_dst adj w_adjusts]; exact L|]. intros _. rewrite granted_adj, waiting_total. unfold window. cbn [ws_ch bc_dst bc_queue w_window w_dropped].
      unfold adj in *. cbn [w_adjusts]. split; lia.
    - rewrite N.add_0_r in *. unfold on_ch, bstep. rewrite AS. unfold OnEof. destruct (dbg && bc_eof (ws_ch s)).
      { split; cbn [ws_rejected ws_ch bfail bc_dst bc_assert]; [exact A|exact I|exact L|discriminate]. }
      destruct (bc_queue (ws_ch s)) as [|c q] eqn:Q; (split; [exact A|exact I|exact L|]); intros _; rewrite granted_adj, waiting_total; unfold window; cbn [ws_ch bc_dst bc_queue weof w_set_dst w_window w_dropped]; unfold adj in *;
        cbn [w_adjusts]; split; assumption.
    - rewrite N.add_0_r in *. unfold on_ch, bstep. rewrite AS. unfold ReadBuffer.
      destruct (read_ok dbg (bc_queue (ws_ch s)) (bc_dst (ws_ch s)) ltac:(lia) U I) as (C1 & C2 & C3 & C4 & C5 & C6). destruct (read_queue _ _ _) as [q' w']. cbn [fst snd] in *.
      destruct q' as [|c q']; [destruct (bc_eof (ws_ch s))|]; (split; [exact A|exact C5|rewrite granted_adj; cbn [ws_ch bc_dst]; unfold adj in *; cbn [weof w_set_dst w_adjusts]; lia|]); intros _; rewrite granted_adj, waiting_total; unfold window;
        cbn [ws_ch bc_dst bc_queue weof w_set_dst w_window w_dropped]; unfold adj in *; cbn [weof w_set_dst w_adjusts]; (split; [assumption|lia]).
    - rewrite N.add_0_r in *. unfold on_ch, bstep. rewrite AS. split; [exact A|exact I|exact L|]. intros _. rewrite granted_adj, waiting_total. unfold window. cbn [ws_ch bc_dst bc_queue w_set_dst w_window w_dropped].
      unfold adj in *. cbn [w_adjusts]. split; assumption.
  Qed.

  Lemma other_granted : forall dbg s f, granted (wstep on_data on_eof dbg s (WOther f)) = granted s.
  Proof. intros dbg s f. unfold wstep. cbv zeta. destruct (stopped s) eqn:S; [reflexivity|]. unfold on_ch, bstep. destruct (bc_assert (ws_ch s)); reflexivity. Qed.

  (** ** Any peer, but no extended data *)

  Definition small (p : bytes) : Prop := len p <= 524288.
  Record inv2 (s : wst D) : Prop := {
    i2_intact : w_broken (bc_dst (ws_ch s)) = false;
    i2_small : Forall small (bc_queue (ws_ch s));
    i2_low : 524288 <= window s;
    i2_high : window s <= RW
  }.
  Definition tame (o : wop D) : Prop := match o with WData p => small p | WExt _ => False | _ => True end.

  Lemma small_drop : forall n p, small p -> small (drop n p).
  Proof. intros n p S. unfold small, len, drop in *. rewrite skipn_length. lia. Qed.

  Lemma read_ok2 : forall dbg q (w : wch D), Forall small q -> 524288 <= w_window w -> w_window w <= RW -> w_broken w = false ->
    let r := read_queue (wdata on_data dbg) q w in
    Forall small (fst r) /\ 524288 <= w_window (snd r) /\ w_window (snd r) <= RW /\ w_broken (snd r) = false.
  Proof.
    intros dbg. induction q as [|p q IH]; intros w S L U B; cbn [read_queue]; [auto|]. inversion S as [|? ? S1 S2]; subst.
    destruct (wdata_ok dbg w p ltac:(unfold small in S1; lia) U B) as (P & B1 & B2 & B3 & B4 & B5 & B6). destruct (wdata on_data dbg w p) as [n w']. cbn [fst snd] in *.
    destruct (n <? len p); [cbn [fst snd]; split; [constructor; [now apply small_drop|assumption]|auto]|]. apply IH; auto.
  Qed.

  Lemma wstep_inv2 : forall dbg s o, inv2 s -> tame o -> inv2 (wstep on_data on_eof dbg s o).
  Proof.
    intros dbg s o [I S L U] T. unfold wstep. cbv zeta. destruct (stopped s) eqn:ST; [split; assumption|].
    assert (AS : bc_assert (ws_ch s) = false) by (unfold stopped in ST; destruct (ws_rejected s), (bc_assert (ws_ch s)); try discriminate; reflexivity).
    unfold window in *. destruct o as [p|p| | |f]; cbn [tame] in T; [|contradiction| | |].
    - destruct (w_window _ <? len p); [split; assumption|]. unfold on_ch, bstep. rewrite AS. unfold OnData. destruct (dbg && _); [split; assumption|].
      destruct (bc_queue (ws_ch s)) as [|c q] eqn:Q.
      + destruct (wdata_ok dbg (bc_dst (ws_ch s)) p ltac:(unfold small in T; lia) U I) as (P & B1 & B2 & B3 & B4 & B5 & B6). destruct (wdata on_data dbg (bc_dst (ws_ch s)) p) as [n w']. cbn [fst snd] in *.
        split; unfold window; cbn [ws_ch bc_dst bc_queue]; auto. destruct (n <? len p); [|constructor]. constructor; [now apply small_drop|constructor].
      + split; unfold window; cbn [ws_ch bc_dst bc_queue]; auto. change (c :: q ++ [p]) with ((c :: q) ++ [p]). apply Forall_app. split; [exact S|now constructor].
    - unfold on_ch, bstep. rewrite AS. unfold OnEof. destruct (dbg && _); [split; assumption|]. destruct (bc_queue (ws_ch s)) as [|c q] eqn:Q; split; unfold window; cbn [ws_ch bc_dst bc_queue weof w_set_dst w_window w_broken]; auto.
    - unfold on_ch, bstep. rewrite AS. unfold ReadBuffer. destruct (read_ok2 dbg (bc_queue (ws_ch s)) (bc_dst (ws_ch s)) S L U I) as (C1 & C2 & C3 & C4). destruct (read_queue _ _ _) as [q' w']. cbn [fst snd] in *.
      destruct q' as [|c q']; [destruct (bc_eof (ws_ch s))|]; split; unfold window; cbn [ws_ch bc_dst bc_queue weof w_set_dst w_window w_broken]; auto.
    - unfold on_ch, bstep. rewrite AS. split; unfold window; cbn [ws_ch bc_dst bc_queue w_set_dst w_window w_broken]; auto.
  Qed.
  Lemma inv2_init : forall d, inv2 (wst_init d).
  Proof. intros d. split; cbn; try constructor; unfold RW, RECEIVE_WINDOW; lia. Qed.
End Facts.

(** ** Sessions and sockets *)

Lemma session_portion : forall d p, fst (fst (session_data d p)) <= len p.
Proof.
  intros d p. unfold session_data, stdin_data. destruct (i_enabled d); cbn [negb fst]; [|lia]. destruct (i_destination d); cbn [negb fst]; [|lia].
  destruct (hd Again (i_answers d)); cbn [fst]; lia.
Qed.
Lemma socket_portion : forall d p, fst (fst (socket_data d p)) <= len p.
Proof. intros d p. unfold socket_data. destruct (k_failed d); cbn [fst]; [lia|]. destruct (hd Again (k_answers d)); cbn [fst]; lia. Qed.

Lemma sstep_inv : forall dbg t s o, inv t s -> t + session_size o <= granted s -> inv (t + session_size o) (sstep dbg s o).
Proof.
  intros dbg t s o I L. assert (Z : forall u : wst stdin, inv t u -> inv (t + 0) u) by (intros u; now rewrite N.add_0_r).
  assert (ZO : forall (u : wst stdin) f, inv t u -> inv t (wstep session_data stdin_eof dbg u (WOther f))).
  { intros u f J. rewrite <- (N.add_0_r t). apply (wstep_inv session_data stdin_eof session_portion dbg t u (WOther f) J). cbn [wsize]. rewrite N.add_0_r. apply (in_granted _ _ J). }
  destruct o as [o|p]; [destruct o as [p a| | | | |a]|]; unfold sstep; cbv zeta; cbn [session_size] in *.
  - apply (wstep_inv session_data stdin_eof session_portion dbg t _ (WData p)); [now apply ZO|]. rewrite other_granted. exact L.
  - apply (wstep_inv session_data stdin_eof session_portion dbg t s WEof I L).
  - apply Z. destruct (i_pipe _); [destruct (i_enabled _)| |]; auto.
  - apply Z. destruct (i_tty _); auto.
  - apply Z. destruct (i_pipe _); [destruct (i_tty _)| |]; auto.
  - destruct (i_sched _); [|now apply Z]. apply (wstep_inv session_data stdin_eof session_portion dbg t _ WRead); [now apply ZO, ZO|]. rewrite !other_granted. exact L.
  - apply (wstep_inv session_data stdin_eof session_portion dbg t s (WExt p) I L).
Qed.
Lemma kstep_inv : forall dbg t s o, inv t s -> t + socket_size o <= granted s -> k_failed (w_dst (bc_dst (ws_ch s))) = false -> inv (t + socket_size o) (kstep dbg s o).
Proof.
  intros dbg t s o I L F. assert (Z : forall u : wst ksock, inv t u -> inv (t + 0) u) by (intros u; now rewrite N.add_0_r).
  assert (ZO : forall (u : wst ksock) f, inv t u -> inv t (wstep socket_data socket_eof dbg u (WOther f))).
  { intros u f J. rewrite <- (N.add_0_r t). apply (wstep_inv socket_data socket_eof socket_portion dbg t u (WOther f) J). cbn [wsize]. rewrite N.add_0_r. apply (in_granted _ _ J). }
  unfold kstep. cbv zeta. rewrite F. destruct o as [p a|p| |a]; cbn [socket_size] in *.
  - apply (wstep_inv socket_data socket_eof socket_portion dbg t _ (WData p)); [now apply ZO|]. rewrite other_granted. exact L.
  - apply (wstep_inv socket_data socket_eof socket_portion dbg t s (WExt p) I L).
  - apply (wstep_inv socket_data socket_eof socket_portion dbg t s WEof I L).
  - destruct (k_sched _); [|now apply Z]. apply (wstep_inv socket_data socket_eof socket_portion dbg t _ WRead); [now apply ZO, ZO|]. rewrite !other_granted. exact L.
Qed.

Lemma obeys_snoc : forall D Op (size : Op -> N) (run : list Op -> wst D) ops o,
  obeys size run (ops ++ [o]) -> obeys size run ops /\ size o <= remaining size run ops.
Proof.
  intros D Op size run ops o H. split; [|now apply (H ops o [])]. intros pre x post X. apply (H pre x (post ++ [o])). now rewrite X, <- app_assoc.
Qed.
Lemma sent_snoc : forall Op (size : Op -> N) ops o, sent size (ops ++ [o]) = sent size ops + size o.
Proof. intros Op size ops o. unfold sent. rewrite map_app, sum_app. cbn. lia. Qed.

Lemma sruns_snoc : forall dbg ops o, sruns dbg (ops ++ [o]) = sstep dbg (sruns dbg ops) o.
Proof. intros. unfold sruns. now rewrite fold_left_app. Qed.
Lemma kruns_snoc : forall dbg ops o, kruns dbg (ops ++ [o]) = kstep dbg (kruns dbg ops) o.
Proof. intros. unfold kruns. now rewrite fold_left_app. Qed.

Lemma sruns_inv : forall dbg ops, obeys session_size (sruns dbg) ops -> inv (sent session_size ops) (sruns dbg ops).
Proof.
  intros dbg. induction ops as [|o ops IH] using rev_ind; intros O; [apply inv_init|]. apply obeys_snoc in O. destruct O as (O & L).
  rewrite sruns_snoc, sent_snoc. pose proof (IH O) as I. apply sstep_inv; [exact I|]. unfold remaining in L. pose proof (in_granted _ _ I). lia.
Qed.

Definition knot (s : wst ksock) : bool := k_failed (w_dst (bc_dst (ws_ch s))).
Lemma kruns_failed_before : forall dbg ops o, knot (kruns dbg (ops ++ [o])) = false -> knot (kruns dbg ops) = false.
Proof. intros dbg ops o H. rewrite kruns_snoc in H. unfold kstep in H. cbv zeta in H. unfold knot in *. destruct (k_failed (w_dst (bc_dst (ws_ch (kruns dbg ops))))) eqn:F; [rewrite F in H; discriminate|reflexivity]. Qed.

Definition kinv (t : N) (s : wst ksock) : Prop := ws_rejected s = false /\ w_broken (bc_dst (ws_ch s)) = false /\ (knot s = false -> inv t s).
Lemma kruns_inv : forall dbg ops, obeys socket_size (kruns dbg) ops -> kinv (sent socket_size ops) (kruns dbg ops).
Proof.
  intros dbg. induction ops as [|o ops IH] using rev_ind; intros O; [split; [reflexivity|]; split; [reflexivity|]; intros _; apply inv_init|].
  apply obeys_snoc in O. destruct O as (O & L). rewrite sent_snoc. destruct (IH O) as (A & B & I).
  destruct (knot (kruns dbg ops)) eqn:F.
  - rewrite kruns_snoc. unfold kstep. cbv zeta. unfold knot in F. rewrite F. split; [exact A|]. split; [exact B|]. unfold knot. congruence.
  - specialize (I eq_refl). assert (J : inv (sent socket_size ops + socket_size o) (kruns dbg (ops ++ [o]))).
    { rewrite kruns_snoc. apply kstep_inv; [exact I| |exact F]. unfold remaining in L. pose proof (in_granted _ _ I). lia. }
    split; [apply (in_accepted _ _ J)|]. split; [apply (in_intact _ _ J)|]. auto.
Qed.

Lemma sstep_inv2 : forall dbg s o, inv2 s -> (match o with SExt _ => False | _ => True end) -> session_size o <= 524288 -> inv2 (sstep dbg s o).
Proof.
  intros dbg s o I T S. assert (ZO : forall (u : wst stdin) f, inv2 u -> inv2 (wstep session_data stdin_eof dbg u (WOther f))) by (intros u f J; now apply (wstep_inv2 session_data stdin_eof session_portion)).
  destruct o as [o|p]; [destruct o as [p a| | | | |a]|contradiction]; unfold sstep; cbv zeta; cbn [session_size] in *.
  - apply (wstep_inv2 session_data stdin_eof session_portion); [now apply ZO|exact S].
  - now apply (wstep_inv2 session_data stdin_eof session_portion).
  - destruct (i_pipe _); [destruct (i_enabled _)| |]; auto.
  - destruct (i_tty _); auto.
  - destruct (i_pipe _); [destruct (i_tty _)| |]; auto.
  - destruct (i_sched _); [|exact I]. apply (wstep_inv2 session_data stdin_eof session_portion); [now apply ZO, ZO|exact Logic.I].
Qed.
Lemma kstep_inv2 : forall dbg s o, inv2 s -> (match o with KExt _ => False | _ => True end) -> socket_size o <= 524288 -> inv2 (kstep dbg s o).
Proof.
  intros dbg s o I T S. assert (ZO : forall (u : wst ksock) f, inv2 u -> inv2 (wstep socket_data socket_eof dbg u (WOther f))) by (intros u f J; now apply (wstep_inv2 socket_data socket_eof socket_portion)).
  unfold kstep. cbv zeta. destruct (k_failed _); [exact I|]. destruct o as [p a|p| |a]; cbn [socket_size] in *; [|contradiction| |].
  - apply (wstep_inv2 socket_data socket_eof socket_portion); [now apply ZO|exact S].
  - now apply (wstep_inv2 socket_data socket_eof socket_portion).
  - destruct (k_sched _); [|exact I]. apply (wstep_inv2 socket_data socket_eof socket_portion); [now apply ZO, ZO|exact Logic.I].
Qed.

(** ** What does not count, and the data of a socket *)

Section Keep.
  Context {D : Type} (on_data : D -> bytes -> N * bool * D) (on_eof : D -> D) (dbg : bool) (P : wch D -> Prop).
  Hypothesis keep_data : forall w p, P w -> P (snd (wdata on_data dbg w p)).
  Hypothesis keep_eof : forall w, P w -> P (weof on_eof w).
  Hypothesis keep_ext : forall w n, P w -> P (ConsumeReceiveWindow dbg n w).

  Lemma read_keep : forall q w, P w -> P (snd (read_queue (wdata on_data dbg) q w)).
  Proof.
    induction q as [|p q IH]; intros w H; [exact H|]. cbn [read_queue]. pose proof (keep_data w p H) as K. destruct (wdata on_data dbg w p) as [n w']. cbn [snd] in K.
    destruct (n <? len p); [exact K|auto].
  Qed.
  Lemma wstep_keep : forall s o, P (bc_dst (ws_ch s)) -> (forall f, o = WOther f -> P (w_set_dst (f (w_dst (bc_dst (ws_ch s)))) (bc_dst (ws_ch s)))) -> P (bc_dst (ws_ch (wstep on_data on_eof dbg s o))).
  Proof.
    intros s o H F. unfold wstep. cbv zeta. destruct (stopped s); [exact H|]. destruct o as [p|p| | |f].
    - destruct (_ <? _); [exact H|]. unfold on_ch, bstep. cbn [ws_ch]. destruct (bc_assert _); [exact H|]. unfold OnData. destruct (dbg && _); [exact H|]. destruct (bc_queue _); [|exact H].
      pose proof (keep_data _ p H) as K. destruct (wdata on_data dbg _ p) as [n w']. exact K.
    - destruct (_ <? _); [exact H|]. unfold on_ch, bstep. cbn [ws_ch]. destruct (bc_assert _); [exact H|]. now apply keep_ext.
    - unfold on_ch, bstep. cbn [ws_ch]. destruct (bc_assert _); [exact H|]. unfold OnEof. destruct (dbg && _); [exact H|]. destruct (bc_queue _); [now apply keep_eof|exact H].
    - unfold on_ch, bstep. cbn [ws_ch]. destruct (bc_assert _); [exact H|]. unfold ReadBuffer. pose proof (read_keep (bc_queue (ws_ch s)) _ H) as K. destruct (read_queue _ _ _) as [[|c q] w']; [destruct (bc_eof _); [now apply keep_eof|exact K]|exact K].
    - unfold on_ch, bstep. cbn [ws_ch]. destruct (bc_assert _); [exact H|]. now apply F.
  Qed.
End Keep.

Lemma replenish_same : forall D dbg n (w : wch D), w_dst (replenish dbg n w) = w_dst w /\ w_dropped (replenish dbg n w) = w_dropped w.
Proof. intros D dbg n w. unfold replenish. cbv zeta. destruct (_ <? _); split; reflexivity. Qed.

Lemma discarded_app : forall a b, discarded (a ++ b) = discarded a + discarded b.
Proof. intros a b. unfold discarded. now rewrite map_app, sum_app. Qed.

Definition counted (w : wch stdin) : Prop := w_dropped w = discarded (i_fate (w_dst w)).
Lemma session_data_counted : forall dbg w p, counted w -> counted (snd (wdata session_data dbg w p)).
Proof.
  intros dbg w p H. unfold wdata, session_data, stdin_data, counted in *. destruct (i_enabled (w_dst w)) eqn:E; cbn [negb andb].
  - destruct (i_destination (w_dst w)) eqn:T; cbn [negb andb].
    + destruct (hd Again (i_answers (w_dst w))) as [n| |]; cbn [snd].
      * rewrite (proj1 (replenish_same _ _ _ _)), (proj2 (replenish_same _ _ _ _)).
        destruct (_ <? _); cbn [w_set_dst w_dst w_dropped i_schedule i_add i_fate i_set_answers]; rewrite discarded_app, H; change (discarded [Written (take (N.min n (len p)) p)]) with 0; lia.
      * cbn [w_dst w_dropped w_set_dst i_schedule i_fate i_set_answers]. lia.
      * cbn [w_dst w_dropped w_set_dst]. unfold i_close. destruct (i_pipe _); cbn [i_add i_fate i_set_answers]; rewrite discarded_app, H; change (discarded [Discarded p]) with (len p + 0); lia.
    + cbn [snd w_dst w_dropped w_set_dst i_add i_fate]. rewrite discarded_app, H. change (discarded [Discarded p]) with (len p + 0). lia.
  - cbn [snd w_dst w_dropped w_set_dst i_defer i_fate]. lia.
Qed.

Lemma stdin_eof_fate : forall d, i_fate (stdin_eof d) = i_fate d.
Proof. intros d. unfold stdin_eof, i_close. destruct (i_pipe d) eqn:E; reflexivity. Qed.

Lemma sstep_counted : forall dbg s o, counted (bc_dst (ws_ch s)) -> counted (bc_dst (ws_ch (sstep dbg s o))).
Proof.
  intros dbg s o H.
  assert (K : forall (u : wst stdin) x, counted (bc_dst (ws_ch u)) -> (forall f, x = WOther f -> forall d, i_fate (f d) = i_fate d) -> counted (bc_dst (ws_ch (wstep session_data stdin_eof dbg u x)))).
  { intros u x J F. apply (wstep_keep session_data stdin_eof dbg counted (session_data_counted dbg)).
    - intros w W. unfold counted, weof in *. cbn [w_set_dst w_dst w_dropped]. now rewrite stdin_eof_fate.
    - intros w n W. exact W.
    - exact J.
    - intros f X. unfold counted in *. cbn [w_set_dst w_dst w_dropped]. now rewrite (F f X). }
  destruct o as [o|p]; [destruct o as [p a| | | | |a]|]; unfold sstep; cbv zeta.
  - apply K; [|discriminate]. apply K; [exact H|]. intros f X. injection X as X. subst f. reflexivity.
  - apply K; [exact H|discriminate].
  - destruct (i_pipe _); [destruct (i_enabled _)| |]; try exact H. apply K; [exact H|]. intros f X. injection X as X. subst f. reflexivity.
  - destruct (i_tty _); [exact H|]. apply K; [exact H|]. intros f X. injection X as X. subst f. intros d. unfold stdin_open. destruct (i_pipe d); reflexivity.
  - assert (Z : counted (bc_dst (ws_ch (wstep session_data stdin_eof dbg s (WOther stdin_enable))))).
    { apply K; [exact H|]. intros f X. injection X as X. subst f. intros d. unfold stdin_enable. repeat match goal with |- context [if ?b then _ else _] => destruct b end; reflexivity. }
    destruct (i_pipe _); [destruct (i_tty _)| |]; assumption.
  - destruct (i_sched _); [|exact H]. apply K; [|discriminate]. apply K; [apply K; [exact H|]|]; intros f X; injection X as X; subst f; reflexivity.
  - apply K; [exact H|discriminate].
Qed.
Lemma sruns_counted : forall dbg ops, counted (bc_dst (ws_ch (sruns dbg ops))).
Proof. intros dbg. induction ops as [|o ops IH] using rev_ind; [reflexivity|]. rewrite sruns_snoc. now apply sstep_counted. Qed.

Definition nothing_dropped (w : wch ksock) : Prop := w_dropped w = 0.
Lemma socket_data_dropped : forall dbg w p, nothing_dropped w -> nothing_dropped (snd (wdata socket_data dbg w p)).
Proof.
  intros dbg w p H. unfold wdata, socket_data, nothing_dropped in *. destruct (k_failed _); cbn [snd w_dropped w_set_dst]; [lia|].
  destruct (hd Again _) as [n| |]; cbn [snd w_dropped w_set_dst]; try lia. rewrite (proj2 (replenish_same _ _ _ _)). exact H.
Qed.
Lemma kstep_dropped : forall dbg s o, nothing_dropped (bc_dst (ws_ch s)) -> nothing_dropped (bc_dst (ws_ch (kstep dbg s o))).
Proof.
  intros dbg s o H. assert (K : forall (u : wst ksock) x, nothing_dropped (bc_dst (ws_ch u)) -> nothing_dropped (bc_dst (ws_ch (wstep socket_data socket_eof dbg u x)))).
  { intros u x J. apply (wstep_keep socket_data socket_eof dbg nothing_dropped (socket_data_dropped dbg)); auto. }
  unfold kstep. cbv zeta. destruct (k_failed _); [exact H|]. destruct o as [p a|p| |a]; auto 6. destruct (k_sched _); auto 6.
Qed.
Lemma kruns_dropped : forall dbg ops, nothing_dropped (bc_dst (ws_ch (kruns dbg ops))).
Proof. intros dbg. induction ops as [|o ops IH] using rev_ind; [reflexivity|]. rewrite kruns_snoc. now apply kstep_dropped. Qed.

(** the data of a socket arrives in order *)
Definition kgot (w : wch ksock) : bytes := concat (k_written (w_dst w)).
Definition kends (w : wch ksock) : N := k_shut (w_dst w).
Lemma socket_destination : forall dbg, destination (wdata socket_data dbg) (weof socket_eof) kgot kends.
Proof.
  intros dbg. split; unfold kgot, kends.
  - intros w p. unfold wdata. pose proof (socket_portion (w_dst w) p). destruct (socket_data (w_dst w) p) as [[n c] d]. exact H.
  - intros w p. unfold wdata, socket_data. destruct (k_failed _); cbn [fst snd w_dst]; [unfold take; cbn; now rewrite app_nil_r|].
    destruct (hd Again _) as [n| |]; cbn [fst snd w_dst]; try (unfold take; cbn; now rewrite app_nil_r).
    rewrite (proj1 (replenish_same _ _ _ _)). cbn [w_set_dst w_dst k_written]. rewrite concat_app. cbn [concat]. now rewrite app_nil_r.
  - intros w p. unfold wdata, socket_data. destruct (k_failed _); cbn [fst snd w_dst]; [reflexivity|].
    destruct (hd Again _) as [n| |]; cbn [fst snd w_dst]; try reflexivity. rewrite (proj1 (replenish_same _ _ _ _)). reflexivity.
  - intros w. reflexivity.
  - intros w. cbn [weof w_set_dst w_dst socket_eof k_shut]. apply N.add_comm.
Qed.

Definition ksum (s : wst ksock) : bytes := kgot (bc_dst (ws_ch s)) ++ concat (bc_queue (ws_ch s)).
Definition kdata (o : wop ksock) : bytes := match o with WData p => p | _ => [] end.
Definition keof (o : wop ksock) : N := match o with WEof => 1 | _ => 0 end.
Definition kpending (s : wst ksock) : N := kends (bc_dst (ws_ch s)) + (if bc_eof (ws_ch s) then 1 else 0).

Lemma stopped_false : forall D (s : wst D), stopped s = false -> bc_assert (ws_ch s) = false.
Proof. intros D s H. unfold stopped in H. destruct (ws_rejected s), (bc_assert (ws_ch s)); try discriminate; reflexivity. Qed.

Lemma wstep_stays : forall D (od : D -> bytes -> N * bool * D) oe dbg s o, stopped s = true -> wstep od oe dbg s o = s.
Proof. intros D od oe dbg s o H. unfold wstep. cbv zeta. now rewrite H. Qed.

Lemma wstep_order : forall dbg s o, stopped (wstep socket_data socket_eof dbg s o) = false ->
  (forall f, o = WOther f -> forall d, k_written (f d) = k_written d /\ k_shut (f d) = k_shut d) ->
  ksum (wstep socket_data socket_eof dbg s o) = ksum s ++ kdata o /\
  kpending (wstep socket_data socket_eof dbg s o) <= kpending s + keof o.
Proof.
  intros dbg s o H F. destruct (stopped s) eqn:ST; [rewrite wstep_stays in H by exact ST; congruence|].
  assert (A : bc_assert (ws_ch s) = false) by now apply stopped_false.
  assert (B : forall b, harmless kgot kends b -> stopped (on_ch (fun c => bstep (wdata socket_data dbg) (weof socket_eof) dbg c b) s) = false ->
    ksum (on_ch (fun c => bstep (wdata socket_data dbg) (weof socket_eof) dbg c b) s) = ksum s ++ received [b] /\
    kpending (on_ch (fun c => bstep (wdata socket_data dbg) (weof socket_eof) dbg c b) s) <= kpending s + eof_packets [b]).
  { intros b HB SB. pose proof (bstep_fact _ _ kgot kends (socket_destination dbg) dbg (ws_ch s) b HB A) as X. unfold step_fact in X. specialize (X (stopped_false _ _ SB)).
    destruct X as (X1 & X2 & X3 & _). split; [exact X1|exact X3]. }
  revert H. unfold wstep. cbv zeta. rewrite ST. destruct o as [p|p| | |f]; cbn [kdata keof].
  - destruct (_ <? _); [intros H; unfold reject, stopped in H; discriminate H|]. intros H. destruct (B (BData p) Logic.I H) as (B1 & B2). cbn [received eof_packets] in *. rewrite app_nil_r in B1. split; assumption.
  - destruct (_ <? _); [intros H; unfold reject, stopped in H; discriminate H|]. intros H. refine (B (BOther (ConsumeReceiveWindow dbg (len p))) _ H). intros w. split; reflexivity.
  - intros H. exact (B BEof Logic.I H).
  - intros H. exact (B BRead Logic.I H).
  - intros H. refine (B (BOther (fun w => w_set_dst (f (w_dst w)) w)) _ H). intros w. unfold kgot, kends. cbn [w_set_dst w_dst]. destruct (F f eq_refl (w_dst w)) as (F1 & F2). rewrite F1, F2. split; reflexivity.
Qed.

(** the writer is awake as long as something is waiting *)
Definition awake (s : wst ksock) : Prop := knot s = false -> bc_queue (ws_ch s) <> [] -> k_sched (w_dst (bc_dst (ws_ch s))) = true.

Lemma socket_data_awake : forall dbg w p, k_failed (w_dst (snd (wdata socket_data dbg w p))) = false -> fst (wdata socket_data dbg w p) < len p -> k_sched (w_dst (snd (wdata socket_data dbg w p))) = true.
Proof.
  intros dbg w p. unfold wdata, socket_data. destruct (k_failed (w_dst w)) eqn:E; cbn [fst snd w_dst].
  - congruence.
  - destruct (hd Again _) as [n| |]; cbn [fst snd w_dst k_failed k_schedule k_sched]; try discriminate; try reflexivity.
    rewrite (proj1 (replenish_same _ _ _ _)). cbn [w_set_dst w_dst k_sched k_failed]. intros _ H. destruct (N.ltb_spec (N.min n (len p)) (len p)); [reflexivity|lia].
Qed.
Lemma read_awake : forall dbg q w, let r := read_queue (wdata socket_data dbg) q w in k_failed (w_dst (snd r)) = false -> fst r <> [] -> k_sched (w_dst (snd r)) = true.
Proof.
  intros dbg. induction q as [|p q IH]; intros w; cbn [read_queue]; [cbn [fst]; congruence|].
  pose proof (socket_data_awake dbg w p) as S. destruct (wdata socket_data dbg w p) as [n w']. cbn [fst snd] in S. destruct (N.ltb_spec n (len p)); [cbn [fst snd]; auto|apply IH].
Qed.
Lemma read_failed : forall dbg q w, k_failed (w_dst w) = true -> k_failed (w_dst (snd (read_queue (wdata socket_data dbg) q w))) = true.
Proof.
  intros dbg. induction q as [|p q IH]; intros w F; [exact F|]. cbn [read_queue]. unfold wdata at 1, socket_data at 1. rewrite F. destruct (0 <? len p); [exact F|]. apply IH. exact F.
Qed.

Lemma wstep_awake : forall dbg s o, awake s -> (forall f, o = WOther f -> forall d, k_sched (f d) = k_sched d /\ k_failed (f d) = k_failed d) -> awake (wstep socket_data socket_eof dbg s o).
Proof.
  intros dbg s o W F. unfold wstep. cbv zeta. destruct (stopped s) eqn:ST; [exact W|]. pose proof (stopped_false _ _ ST) as A.
  destruct o as [p|p| | |f].
  - destruct (_ <? _); [exact W|]. unfold on_ch, bstep. rewrite A. unfold OnData. destruct (dbg && _); [exact W|]. destruct (bc_queue (ws_ch s)) as [|c q] eqn:Q.
    + pose proof (socket_data_awake dbg (bc_dst (ws_ch s)) p) as S. destruct (wdata socket_data dbg _ p) as [n w']. unfold awake, knot. cbn [ws_ch bc_dst bc_queue fst snd] in *. destruct (N.ltb_spec n (len p)); [auto|congruence].
    + unfold awake, knot in *. cbn [ws_ch bc_dst bc_queue]. intros K _. apply W; [exact K|]. rewrite Q. discriminate.
  - destruct (_ <? _); [exact W|]. unfold on_ch, bstep. rewrite A. exact W.
  - unfold on_ch, bstep. rewrite A. unfold OnEof. destruct (dbg && _); [exact W|]. destruct (bc_queue (ws_ch s)) as [|c q] eqn:Q; unfold awake, knot in *; cbn [ws_ch bc_dst bc_queue]; [congruence|]. rewrite Q in W. exact W.
  - unfold on_ch, bstep. rewrite A. unfold ReadBuffer. pose proof (read_awake dbg (bc_queue (ws_ch s)) (bc_dst (ws_ch s))) as R. cbv zeta in R. destruct (read_queue _ _ _) as [[|c q] w']; cbn [fst snd] in R.
    + destruct (bc_eof _); unfold awake; cbn [ws_ch bc_queue]; congruence.
    + unfold awake, knot. cbn [ws_ch bc_queue bc_dst]. exact R.
  - unfold on_ch, bstep. rewrite A. unfold awake, knot in *. cbn [ws_ch bc_dst bc_queue w_set_dst w_dst]. destruct (F f eq_refl (w_dst (bc_dst (ws_ch s)))) as (F1 & F2). rewrite F1, F2. exact W.
Qed.
Lemma read_step_awake : forall dbg s, stopped s = false -> awake (wstep socket_data socket_eof dbg s WRead).
Proof.
  intros dbg s ST. unfold wstep. cbv zeta. rewrite ST. unfold on_ch, bstep. rewrite (stopped_false _ _ ST). unfold ReadBuffer.
  pose proof (read_awake dbg (bc_queue (ws_ch s)) (bc_dst (ws_ch s))) as R. cbv zeta in R. destruct (read_queue _ _ _) as [[|c q] w']; cbn [fst snd] in R.
  - destruct (bc_eof _); unfold awake; cbn [ws_ch bc_queue]; congruence.
  - unfold awake, knot. cbn [ws_ch bc_queue bc_dst]. exact R.
Qed.
Lemma other_stopped : forall D (od : D -> bytes -> N * bool * D) oe dbg s f, stopped (wstep od oe dbg s (WOther f)) = stopped s.
Proof. intros D od oe dbg s f. unfold wstep. cbv zeta. destruct (stopped s) eqn:ST; [exact ST|]. unfold on_ch, bstep. pose proof (stopped_false _ _ ST) as A. rewrite A. unfold stopped in *. cbn [ws_rejected ws_ch bc_assert bc_dst w_set_dst w_broken]. rewrite A in ST. exact ST. Qed.

Lemma kstep_awake : forall dbg s o, awake s -> awake (kstep dbg s o).
Proof.
  intros dbg s o W. unfold kstep. cbv zeta. destruct (k_failed _); [exact W|]. destruct o as [p a|p| |a].
  - apply wstep_awake; [|discriminate]. apply wstep_awake; [exact W|]. intros f X. injection X as X. subst f. split; reflexivity.
  - apply wstep_awake; [exact W|discriminate].
  - apply wstep_awake; [exact W|discriminate].
  - destruct (k_sched _); [|exact W]. destruct (stopped s) eqn:ST; [do 3 (rewrite wstep_stays by (rewrite ?other_stopped; exact ST)); exact W|]. apply read_step_awake. now rewrite !other_stopped.
Qed.
Lemma kruns_awake : forall dbg ops, awake (kruns dbg ops).
Proof. intros dbg. induction ops as [|o ops IH] using rev_ind; [intros _ H; now contradiction H|]. rewrite kruns_snoc. now apply kstep_awake. Qed.

Lemma kstep_order : forall dbg s o, stopped (kstep dbg s o) = false -> knot (kstep dbg s o) = false ->
  ksum (kstep dbg s o) = ksum s ++ (match o with KData p _ => p | _ => [] end) /\ kpending (kstep dbg s o) <= kpending s + (match o with KEof => 1 | _ => 0 end).
Proof.
  intros dbg s o. unfold kstep. cbv zeta. destruct (k_failed _) eqn:F; [unfold knot; congruence|]. intros H _.
  assert (K : forall (u : wst ksock) f, (forall d, k_written (f d) = k_written d /\ k_shut (f d) = k_shut d) -> ksum (wstep socket_data socket_eof dbg u (WOther f)) = ksum u /\ kpending (wstep socket_data socket_eof dbg u (WOther f)) <= kpending u).
  { intros u f Z. destruct (stopped u) eqn:SU; [rewrite wstep_stays by exact SU; split; [reflexivity|lia]|]. destruct (wstep_order dbg u (WOther f)) as (A & B).
    - now rewrite other_stopped.
    - intros g X. injection X as X. subst g. exact Z.
    - cbn [kdata keof] in *. rewrite app_nil_r in A. rewrite N.add_0_r in B. split; assumption. }
  assert (Y : forall a d, k_written (k_set_answers a d) = k_written d /\ k_shut (k_set_answers a d) = k_shut d) by (intros; split; reflexivity).
  assert (Y' : forall b d, k_written (k_schedule b d) = k_written d /\ k_shut (k_schedule b d) = k_shut d) by (intros; split; reflexivity).
  destruct o as [p a|p| |a].
  - destruct (wstep_order dbg _ (WData p) H ltac:(discriminate)) as (A & B). destruct (K s (k_set_answers a) (Y a)) as (C & E). cbn [kdata keof] in *. rewrite A, C. split; [reflexivity|lia].
  - destruct (wstep_order dbg _ (WExt p) H ltac:(discriminate)) as (A & B). cbn [kdata keof] in *. split; assumption.
  - destruct (wstep_order dbg _ WEof H ltac:(discriminate)) as (A & B). cbn [kdata keof] in *. split; assumption.
  - destruct (k_sched _); [|rewrite app_nil_r; split; [reflexivity|lia]]. destruct (wstep_order dbg _ WRead H ltac:(discriminate)) as (A & B). destruct (K s (k_set_answers a) (Y a)) as (C & E).
    destruct (K (wstep socket_data socket_eof dbg s (WOther (k_set_answers a))) (k_schedule false) (Y' false)) as (C' & E'). cbn [kdata keof] in *. rewrite A, C', C. split; [reflexivity|lia].
Qed.

Lemma wstep_unstopped : forall D (od : D -> bytes -> N * bool * D) oe dbg s o, stopped (wstep od oe dbg s o) = false -> stopped s = false.
Proof. intros D od oe dbg s o H. destruct (stopped s) eqn:S; [rewrite wstep_stays in H by exact S; congruence|reflexivity]. Qed.
Lemma kstep_unstopped : forall dbg s o, stopped (kstep dbg s o) = false -> stopped s = false.
Proof.
  intros dbg s o. unfold kstep. cbv zeta. destruct (k_failed _); [auto|]. destruct o as [p a|p| |a]; intros H; try (destruct (k_sched _); [|exact H]); repeat apply wstep_unstopped in H; exact H.
Qed.
Lemma kruns_order : forall dbg ops, stopped (kruns dbg ops) = false -> knot (kruns dbg ops) = false ->
  ksum (kruns dbg ops) = socket_received ops /\ kpending (kruns dbg ops) <= socket_eofs ops.
Proof.
  intros dbg. induction ops as [|o ops IH] using rev_ind; intros S F; [split; [reflexivity|cbn; lia]|].
  pose proof (kruns_failed_before _ _ _ F) as F'. rewrite kruns_snoc in *. destruct (IH (kstep_unstopped _ _ _ S) F') as (A & B).
  destruct (kstep_order dbg _ o S F) as (C & E). unfold socket_received, socket_eofs in *. rewrite flat_map_app, map_app, sum_app, C, A. cbn [flat_map map]. rewrite app_nil_r. split; [reflexivity|].
  change (sum [match o with KEof => 1 | _ => 0 end]) with ((match o with KEof => 1 | _ => 0 end) + 0). destruct o; lia.
Qed.
