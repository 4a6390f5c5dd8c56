(** Facts about the lifetime of a connection's objects. *)

From Coq Require Import NArith List Bool Lia.
From Verif.Model Require Import Lifetime.
From Verif.Spec Require Import LifetimeSpec.
Import ListNotations.
Open Scope N_scope.

Lemma entered_app : forall b l l', entered b (l ++ l') = entered b l + entered b l'.
Proof. induction l as [|[] l IH]; intro l'; cbn [entered app]; try apply IH; [reflexivity|rewrite IH; lia]. Qed.
Lemma left_app : forall b l l', left b (l ++ l') = left b l + left b l'.
Proof. induction l as [|[] l IH]; intro l'; cbn [left app]; try apply IH; [reflexivity|rewrite IH; lia]. Qed.

Definition inside (x : object) : N := match x_state x with BUSY => 1 | _ => 0 end.

Record okx (b : which) (alive : bool) (x : object) (log : list event) : Prop := {
  k_live : alive = true -> x_postponed x = false /\ ~ In (Free b) log;
  k_freed : In (Free b) log -> x_state x = INITIAL;
  k_doomed : alive = false -> In (Free b) log \/ x_postponed x = true /\ x_state x <> INITIAL;
  k_inside : entered b log = left b log + inside x
}.

Record good (w : world) : Prop := {
  g_safe : safe (w_log w);
  g_gone : In Gone (w_log w) <-> w_alive w = false;
  g_obj : forall b, okx b (w_alive w) (obj b w) (w_log w)
}.

Lemma good_new : good new_world.
Proof.
  constructor; cbn.
  - constructor.
  - split; [tauto|discriminate].
  - intros []; constructor; cbn; intuition discriminate.
Qed.

(** Events which do not concern [b]. *)
Definition foreign (b : which) (e : event) : Prop :=
  match e with Enter b' | Leave b' | Free b' => b <> b' | _ => True end.

Lemma eqb_ne : forall a b, a <> b -> which_eqb a b = false.
Proof. intros [] [] H; try reflexivity; contradiction. Qed.
Lemma eqb_refl : forall a, which_eqb a a = true.
Proof. intros []; reflexivity. Qed.

Lemma foreign_none : forall b l, Forall (foreign b) l ->
  entered b l = 0 /\ left b l = 0 /\ ~ In (Free b) l.
Proof.
  intros b l H. induction H as [|e l He H (A & B & D)]; [cbn; auto|].
  destruct e; cbn [entered left In foreign] in *; rewrite ?(eqb_ne _ _ He), ?A, ?B; repeat split; try lia;
    intros [X|X]; try discriminate; try contradiction. injection X as X. congruence.
Qed.

Lemma okx_foreign : forall b al x log l, okx b al x log -> Forall (foreign b) l -> okx b al x (log ++ l).
Proof.
  intros b al x log l [A B D E] H. destruct (foreign_none b l H) as (X & Y & Z).
  constructor; rewrite ?in_app_iff, ?entered_app, ?left_app, ?X, ?Y, ?N.add_0_r; try tauto; try lia.
Qed.

Lemma good_other : forall w b x l al, good w ->
  okx b al x (w_log w ++ l) ->
  (forall b', b' <> b -> Forall (foreign b') l) ->
  al = w_alive w -> safe (w_log w ++ l) -> ~ In Gone l ->
  forall w', w_alive w' = al -> obj b w' = x -> (forall b', b' <> b -> obj b' w' = obj b' w) -> w_log w' = w_log w ++ l ->
  good w'.
Proof.
  intros w b x l al [S Gn O] K Fo Al Sf Ng w' Wa Wx Wo Wl. constructor; rewrite ?Wl, ?Wa; subst al.
  - exact Sf.
  - rewrite in_app_iff, <- Gn. tauto.
  - intro b'. assert (Dec : b' = b \/ b' <> b) by (destruct b, b'; (now left) || (right; discriminate)).
    destruct Dec as [->|Ne]; [now rewrite Wx|]. rewrite (Wo _ Ne). apply okx_foreign; [apply O|now apply Fo].
Qed.

Lemma safe_app2 : forall l e f, safe l -> may l e -> may (l ++ [e]) f -> safe (l ++ [e; f]).
Proof. intros l e f S A B. change [e; f] with ([e] ++ [f]). rewrite app_assoc. constructor; [|exact B]. now constructor. Qed.
Lemma safe_app3 : forall l e f g, safe l -> may l e -> may (l ++ [e]) f -> may (l ++ [e; f]) g -> safe (l ++ [e; f; g]).
Proof.
  intros l e f g S A B D. change [e; f; g] with ([e; f] ++ [g]). rewrite app_assoc. constructor; [|exact D]. now apply safe_app2.
Qed.

Ltac ins := rewrite ?in_app_iff in *; cbn [In] in *.
Ltac nofree := intros X; ins; intuition discriminate.

(** One step of the thread queue or of a method: the object's new state and
    the events. *)
Definition harmless (b : which) (x x' : object) (l : list event) : Prop :=
  x_postponed x' = x_postponed x /\ ~ In (Free b) l /\
  (x_state x' = INITIAL -> x_state x = INITIAL) /\
  entered b l + inside x = left b l + inside x'.

Lemma okx_harmless : forall b al x x' log l, okx b al x log -> harmless b x x' l ->
  (In (Free b) log -> x_state x' = INITIAL) -> okx b al x' (log ++ l).
Proof.
  intros b al x x' log l [A B D E] (P & Nf & I & Q) FI.
  constructor; rewrite ?in_app_iff, ?entered_app, ?left_app, ?P.
  - tauto.
  - tauto.
  - tauto.
  - lia.
Qed.

Definition touch (b : which) (w w' : world) (x : object) (l : list event) : Prop :=
  w_alive w' = w_alive w /\ obj b w' = x /\ (forall b', b' <> b -> obj b' w' = obj b' w) /\ w_log w' = w_log w ++ l.

Lemma touch_good : forall b w w' x l, good w -> touch b w w' x l ->
  okx b (w_alive w) x (w_log w ++ l) -> (forall b', b' <> b -> Forall (foreign b') l) ->
  safe (w_log w ++ l) -> ~ In Gone l -> good w'.
Proof. intros b w w' x l G (A & X & O & L) K Fo S N. eapply good_other; eauto. Qed.

Lemma touch_set : forall b w x l, touch b w (set_obj b x (say l w)) x l.
Proof. intros [] w x l; repeat split; cbn; intros [] H; congruence || reflexivity. Qed.
Lemma touch_say : forall b w l, touch b w (say l w) (obj b w) l.
Proof. intros b w l; repeat split; destruct b; intros; destruct b'; reflexivity. Qed.

Ltac foreigners := intros b' Hb'; repeat constructor; cbn [foreign]; try exact Logic.I; try congruence.

Lemma Use_may : forall w b, good w -> (w_alive w = true \/ x_state (obj b w) <> INITIAL) -> ~ In (Free b) (w_log w).
Proof.
  intros w b G [Al|S] I.
  - now apply (proj2 (k_live _ _ _ _ (g_obj w G b) Al)).
  - exact (S (k_freed _ _ _ _ (g_obj w G b) I)).
Qed.

(** Destroy() of a live connection's object *)
Lemma Destroy_cases : forall b w, x_postponed (obj b w) = false ->
  exists x l, touch b w (Destroy b w) x l /\
  ((l = [Use b; Free b] /\ x_state x = INITIAL /\ inside (obj b w) = 0) \/
   (l = [Use b] /\ x_postponed x = true /\ x_state x <> INITIAL /\ x_state x = x_state (obj b w))).
Proof.
  intros b w P. unfold Destroy. replace (obj b (say [Use b] w)) with (obj b w) by (destruct b; reflexivity). rewrite P.
  unfold Cancel. destruct (x_state (obj b w)) eqn:S.
  - exists (obj b w), [Use b; Free b]. split.
    + destruct b, w as [al xi xo log]; cbn; repeat split; cbn; try (intros [] H; congruence || reflexivity);
        now rewrite <- app_assoc.
    + left. unfold inside. now rewrite S.
  - exists {| x_state := INITIAL; x_again := x_again (obj b w); x_postponed := x_postponed (obj b w) |}, [Use b; Free b]. split.
    + destruct b, w as [al xi xo log]; cbn; repeat split; cbn; try (intros [] H; congruence || reflexivity);
        now rewrite <- app_assoc.
    + left. unfold inside. now rewrite S.
  - exists {| x_state := BUSY; x_again := x_again (obj b w); x_postponed := true |}, [Use b]. split.
    + destruct b, w as [al xi xo log]; cbn in *; rewrite S; repeat split; cbn; intros [] H; congruence || reflexivity.
    + right. cbn. repeat split; congruence.
  - exists {| x_state := DONE; x_again := x_again (obj b w); x_postponed := true |}, [Use b]. split.
    + destruct b, w as [al xi xo log]; cbn in *; rewrite S; repeat split; cbn; intros [] H; congruence || reflexivity.
    + right. cbn. repeat split; congruence.
Qed.

Lemma doomed : forall b w x l, good w -> w_alive w = true ->
  ((l = [Use b; Free b] /\ x_state x = INITIAL /\ inside (obj b w) = 0) \/
   (l = [Use b] /\ x_postponed x = true /\ x_state x <> INITIAL /\ x_state x = x_state (obj b w))) ->
  okx b false x (w_log w ++ l).
Proof.
  intros b w x l G Al H. destruct (g_obj w G b) as [A B D E]. destruct (A Al) as (P & NF).
  destruct H as [(-> & S & I0)|(-> & P' & S & S')]; constructor; ins; rewrite ?entered_app, ?left_app; cbn [entered left].
  - discriminate.
  - now intros _.
  - intros _. left. tauto.
  - unfold inside in *. rewrite S. lia.
  - discriminate.
  - intros [X|[X|[]]]; [contradiction|discriminate].
  - intros _. right. auto.
  - unfold inside in *. rewrite S'. lia.
Qed.

Lemma doomed_safe : forall b w (x : object) l log', good w -> w_alive w = true ->
  ((l = [Use b; Free b] /\ x_state x = INITIAL /\ inside (obj b w) = 0) \/
   (l = [Use b] /\ x_postponed x = true /\ x_state x <> INITIAL /\ x_state x = x_state (obj b w))) ->
  safe log' -> (exists m, log' = w_log w ++ m /\ Forall (foreign b) m) -> safe (log' ++ l).
Proof.
  intros b w x l log' G Al H S (m & -> & F). destruct (foreign_none b m F) as (F1 & F2 & F3).
  destruct (g_obj w G b) as [A B D E]. destruct (A Al) as (P & NF).
  assert (NF' : ~ In (Free b) (w_log w ++ m)) by (rewrite in_app_iff; tauto).
  destruct H as [(-> & _ & I0)|(-> & _)].
  - apply safe_app2; [exact S|exact NF'|]. cbn [may]. split; [ins; intuition discriminate|].
    rewrite !entered_app, !left_app, F1, F2. cbn [entered left]. lia.
  - apply safe_snoc; [exact S|exact NF'].
Qed.

Lemma good_step : forall o w w', good w -> step o w = Some w' -> good w'.
Proof.
  intros o w w' G H. destruct o as [b|b| |b|b|b again|b ready]; cbn [step] in H.
  - destruct (w_alive w) eqn:Al; [|discriminate]. injection H as <-.
    pose proof (Use_may w b G (or_introl Al)) as NF.
    eapply touch_good; [exact G|apply (touch_say b)| |foreigners| |nofree].
    + eapply okx_harmless; [apply (g_obj w G b)|repeat split; cbn; auto; intuition discriminate|tauto].
    + apply safe_snoc; [apply G|exact NF].
  - destruct (w_alive w) eqn:Al; [|discriminate]. injection H as <-.
    pose proof (Use_may w b G (or_introl Al)) as NF.
    eapply touch_good; [exact G|apply touch_set| |foreigners| |nofree].
    + eapply okx_harmless; [apply (g_obj w G b)| |tauto].
      unfold harmless, Add, inside. cbn [entered left]. destruct (x_state (obj b w)) eqn:S; cbn; rewrite ?S;
        repeat split; auto; try (intuition discriminate); try discriminate; try lia.
    + apply safe_snoc; [apply G|exact NF].
  - destruct (w_alive w) eqn:Al; [|discriminate]. injection H as <-. unfold DestroyConnection.
    destruct (Destroy_cases OUTPUT w (proj1 (k_live _ _ _ _ (g_obj w G OUTPUT) Al))) as (xo & lo & (To1 & To2 & To3 & To4) & Co).
    assert (Ni : INPUT <> OUTPUT) by discriminate.
    pose proof (To3 INPUT Ni) as Ii.
    assert (Pi : x_postponed (obj INPUT (Destroy OUTPUT w)) = false).
    { rewrite Ii. exact (proj1 (k_live _ _ _ _ (g_obj w G INPUT) Al)). }
    destruct (Destroy_cases INPUT _ Pi) as (xi & li & (Ti1 & Ti2 & Ti3 & Ti4) & Ci).
    rewrite Ii in Ci.
    assert (No : OUTPUT <> INPUT) by discriminate. pose proof (Ti3 OUTPUT No) as Oo. rewrite To2 in Oo.
    assert (Flo : Forall (foreign INPUT) lo) by (destruct Co as [(-> & _)|(-> & _)]; repeat constructor; cbn; congruence).
    assert (Fli : Forall (foreign OUTPUT) li) by (destruct Ci as [(-> & _)|(-> & _)]; repeat constructor; cbn; congruence).
    assert (So : safe (w_log w ++ lo)).
    { eapply (doomed_safe OUTPUT w xo lo); [exact G|exact Al|exact Co|apply G|exists []; rewrite app_nil_r; auto]. }
    assert (Si : safe ((w_log w ++ lo) ++ li)).
    { eapply (doomed_safe INPUT w xi li); [exact G|exact Al|exact Ci|exact So|exists lo; auto]. }
    assert (NG : ~ In Gone ((w_log w ++ lo) ++ li)).
    { rewrite !in_app_iff. intros [[X|X]|X].
      - apply (g_gone w G) in X. congruence.
      - destruct Co as [(-> & _)|(-> & _)]; cbn in X; intuition discriminate.
      - destruct Ci as [(-> & _)|(-> & _)]; cbn in X; intuition discriminate. }
    pose proof (doomed OUTPUT w xo lo G Al Co) as Ko. pose proof (doomed INPUT w xi li G Al Ci) as Ki.
    constructor; cbn [say w_log w_alive]; rewrite Ti4, To4.
    + apply safe_snoc; [exact Si|exact NG].
    + split; [reflexivity|intros _]. rewrite in_app_iff. right. now left.
    + intros [].
      * cbn [obj say w_input]. replace (w_input (Destroy INPUT (Destroy OUTPUT w))) with xi by (symmetry; exact Ti2).
        clear - Ki Flo. destruct (foreign_none _ _ Flo) as (F1 & F2 & F3). destruct Ki as [A B D E].
        constructor; rewrite ?in_app_iff, ?entered_app, ?left_app in *; cbn [In entered left] in *; try discriminate.
        -- intros X. apply B. intuition discriminate.
        -- intro X. destruct (D X) as [Y|Y]; [left; tauto|now right].
        -- lia.
      * cbn [obj say w_output]. replace (w_output (Destroy INPUT (Destroy OUTPUT w))) with xo by (symmetry; exact Oo).
        apply okx_foreign; [apply okx_foreign; [exact Ko|exact Fli]|]. repeat constructor.
  - destruct (x_state (obj b w)) eqn:S; try discriminate. injection H as <-.
    assert (SN : x_state (obj b w) <> INITIAL) by congruence.
    pose proof (Use_may w b G (or_intror SN)) as NF.
    eapply touch_good; [exact G|apply touch_set| |foreigners| |nofree].
    + eapply okx_harmless; [apply (g_obj w G b)| |tauto].
      unfold harmless, inside. cbn [entered left x_state x_postponed]. rewrite S, eqb_refl.
      repeat split; try discriminate; try lia; nofree.
    + apply safe_app2; [apply G|exact NF|cbn [may]; nofree].
  - destruct (x_state (obj b w)) eqn:S; try discriminate. injection H as <-.
    assert (SN : x_state (obj b w) <> INITIAL) by congruence.
    pose proof (Use_may w b G (or_intror SN)) as NF.
    eapply touch_good; [exact G|apply (touch_say b)| |foreigners| |nofree].
    + eapply okx_harmless; [apply (g_obj w G b)|repeat split; cbn; auto; intuition discriminate|tauto].
    + apply safe_snoc; [apply G|exact NF].
  - destruct (x_state (obj b w)) eqn:S; try discriminate. injection H as <-.
    assert (SN : x_state (obj b w) <> INITIAL) by congruence.
    pose proof (Use_may w b G (or_intror SN)) as NF.
    eapply touch_good; [exact G|apply touch_set| |foreigners| |nofree].
    + eapply okx_harmless; [apply (g_obj w G b)| |tauto].
      unfold harmless, inside. cbn [entered left x_state x_postponed]. rewrite S, eqb_refl.
      repeat split; try discriminate; try lia; nofree.
    + apply safe_app2; [apply G|exact NF|cbn [may]; nofree].
  - destruct (x_state (obj b w)) eqn:S; try discriminate.
    assert (SN : x_state (obj b w) <> INITIAL) by congruence.
    pose proof (Use_may w b G (or_intror SN)) as NF.
    replace (obj b (say [Use b] w)) with (obj b w) in H by (destruct b; reflexivity).
    destruct (x_again (obj b w)); injection H as <-.
    + eapply touch_good; [exact G|apply touch_set| |foreigners| |nofree].
      * eapply okx_harmless; [apply (g_obj w G b)| |tauto].
        unfold harmless, inside. cbn [entered left x_state x_postponed]. rewrite S.
        repeat split; try discriminate; try lia; nofree.
      * apply safe_snoc; [apply G|exact NF].
    + pose proof (k_inside _ _ _ _ (g_obj w G b)) as KI. unfold inside in KI. rewrite S in KI.
      set (x := {| x_state := INITIAL; x_again := false; x_postponed := x_postponed (obj b w) |}).
      destruct (x_postponed (obj b w)) eqn:P.
      * assert (T : touch b w (Done b ready (set_obj b x (say [Use b] w))) x [Use b; Use b; Free b]).
        { unfold Done, x. clear. destruct b, w as [al xi xo log]; cbn; repeat split; cbn;
            try (intros [] Hn; congruence || reflexivity); now rewrite <- !app_assoc. }
        assert (Al : w_alive w = false).
        { destruct (w_alive w) eqn:Al; [|reflexivity]. destruct (k_live _ _ _ _ (g_obj w G b) Al). congruence. }
        eapply touch_good; [exact G|exact T| |foreigners| |nofree].
        -- rewrite Al. constructor; ins; rewrite ?entered_app, ?left_app; cbn [entered left inside]; [discriminate|reflexivity|tauto|].
           unfold inside. cbn [x x_state]. lia.
        -- apply safe_app3; [apply G|exact NF|cbn [may]; nofree|]. cbn [may]. split; [nofree|].
           rewrite entered_app, left_app. cbn [entered left]. lia.
      * assert (Al : w_alive w = true).
        { destruct (w_alive w) eqn:Al; [reflexivity|]. destruct (k_doomed _ _ _ _ (g_obj w G b) Al) as [X|[X _]]; [contradiction|congruence]. }
        assert (NG : ~ In Gone (w_log w)) by (intro X; apply (g_gone w G) in X; congruence).
        assert (K : forall l, ~ In (Free b) l -> entered b l = 0 -> left b l = 0 -> okx b (w_alive w) x (w_log w ++ l)).
        { intros l N1 N2 N3. rewrite Al. constructor; rewrite ?in_app_iff, ?entered_app, ?left_app, ?N2, ?N3.
          - intros _. split; [reflexivity|tauto].
          - reflexivity.
          - discriminate.
          - unfold inside. cbn [x x_state]. lia. }
        assert (T : touch b w (Done b ready (set_obj b x (say [Use b] w))) x [Use b; Use b; Callback b] \/
                    touch b w (Done b ready (set_obj b x (say [Use b] w))) x [Use b; Use b]).
        { unfold Done. replace (x_postponed (obj b (say [Use b] (set_obj b x (say [Use b] w))))) with false
            by (clear - P; destruct b; cbn in *; congruence).
          clear. destruct b, ready, w as [al xi xo log]; [left|right|left|left]; cbn; repeat split; cbn;
            try (intros [] Hn; congruence || reflexivity); now rewrite <- !app_assoc. }
        destruct T as [T|T].
        -- eapply touch_good; [exact G|exact T|apply K; [nofree|reflexivity|reflexivity]|foreigners| |nofree].
           apply safe_app3; [apply G|exact NF|cbn [may]; nofree|]. cbn [may]. nofree.
        -- eapply touch_good; [exact G|exact T|apply K; [nofree|reflexivity|reflexivity]|foreigners| |nofree].
           apply safe_app2; [apply G|exact NF|cbn [may]; nofree].
Qed.

Lemma good_runs : forall ops w, runs ops w -> good w.
Proof. intros ops w H. induction H as [|ops w o w' H IH Hs]; [apply good_new|exact (good_step o w w' IH Hs)]. Qed.
