(** Invariants of the output pipeline. *)

From Coq Require Import NArith List Bool Lia.
From Verif.Base Require Import Bytes.
From Verif.Model Require Import Queue Output.
From Verif.Spec Require Import OutputSpec.
From Verif.Proofs Require Import QueueFacts.
Import ListNotations.
Open Scope N_scope.

Section Output.
Variable C : Type.
Variable encrypt : C -> N -> bytes -> option (C * bytes).

Notation ostate := (ostate C).
Notation op := (op C).
Notation step := (step C encrypt).
Notation wire := (wire C encrypt).

(** what an operation submits for sending *)
Definition submits (s : ostate) (o : op) : list (submitted C) :=
  match o with
  | Push _ p => [Packet p]
  | SetCipher _ c => [NewCipher c (o_auto_reset_seq C s)]
  | _ => []
  end.

(** All histories: operations of the main thread and the worker in any
    order, subject to a condition [allowed] on the caller. *)
Inductive runs (allowed : ostate -> op -> Prop)
  : list op -> ostate -> list (submitted C) -> bytes -> Prop :=
| runs_nil : runs allowed [] (new_output C) [] []
| runs_snoc : forall ops s sub w o s' b,
    runs allowed ops s sub w -> allowed s o -> step s o = Ok C s' b ->
    runs allowed (ops ++ [o]) s' (sub ++ submits s o) (w ++ b).

(** packets are not empty *)
Definition packets_ok (s : ostate) (o : op) : Prop :=
  match o with Push _ p => p <> [] | _ => True end.

(** a new cipher is not installed (and the reset mode not changed) before the
    worker has picked up the previous one *)
Definition one_cipher_at_a_time (s : ostate) (o : op) : Prop :=
  match o with
  | SetCipher _ _ | AutoResetSeq _ => o_next_cipher C s = None
  | _ => True
  end.

Definition srcs (s : ostate) : list bytes := match o_job C s with JBusy src _ => src | _ => [] end.
Definition dests (s : ostate) : list bytes := match o_job C s with JBusy _ dest => dest | _ => [] end.

Definition upcoming (s : ostate) : list (submitted C) :=
  map Packet (srcs s) ++ map Packet (o_plain C s) ++
  match o_next_cipher C s with
  | Some c => NewCipher c (o_auto_reset_seq C s) :: map Packet (o_next_plain C s)
  | None => []
  end.

Definition nonempty (l : list bytes) : Prop := Forall (fun b => b <> []) l.

Record shape (s : ostate) : Prop := {
  sh_next_plain : o_next_cipher C s = None -> o_next_plain C s = [];
  sh_plain_cipher : o_cipher C s = None -> o_plain C s = [] /\ srcs s = [];
  sh_enc_cipher : o_encrypted C s = true -> o_cipher C s = None -> o_next_cipher C s <> None;
  sh_unenc : o_encrypted C s = false ->
    o_cipher C s = None /\ o_next_cipher C s = None /\ o_enc C s = [] /\
    o_job C s = JInitial /\ o_error C s = false;
  sh_pending : sq_ok (o_pending C s);
  sh_enc_ok : nonempty (o_enc C s);
  sh_dests_ok : nonempty (dests s);
  sh_rest : (o_job C s = JInitial \/ (o_job C s = JDone /\ o_again C s = false)) ->
    o_error C s = false -> o_plain C s = [] /\ o_next_plain C s = [];
  sh_busy : forall src dest, o_job C s = JBusy src dest -> o_plain C s <> [] -> o_again C s = true
}.

Definition accounted (s : ostate) (sub : list (submitted C)) (w : bytes) : Prop :=
  exists done,
    sub = done ++ upcoming s /\
    forall l, wire None 0 (done ++ l) =
      (w ++ sq_bytes (o_pending C s) ++ concat (o_enc C s) ++ concat (dests s))
      ++ wire (o_cipher C s) (o_seq C s) l.

Definition prefix (a b : bytes) : Prop := exists c, b = a ++ c.

Record inv (s : ostate) (sub : list (submitted C)) (w : bytes) : Prop := {
  inv_shape : shape s;
  inv_acc : o_error C s = false -> accounted s sub w;
  inv_prefix : prefix w (wire None 0 sub)
}.

Lemma prefix_app : forall a b c, prefix a b -> prefix a (b ++ c).
Proof. intros a b c [x ->]. exists (x ++ c). now rewrite app_assoc. Qed.

Lemma wire_app_prefix : forall l c n l', prefix (wire c n l) (wire c n (l ++ l')).
Proof.
  induction l as [|x l IH]; intros c n l'.
  - exists (wire c n l'). reflexivity.
  - destruct x as [p|c' r]; simpl.
    + destruct c as [c|].
      * destruct (encrypt c n p) as [[c' b]|]; [|exists []; reflexivity].
        destruct (IH (Some c') ((n + 1) mod 2 ^ 64) l') as [x E]. exists x.
        rewrite <- app_assoc. f_equal. exact E.
      * destruct (IH None ((n + 1) mod 2 ^ 64) l') as [x E]. exists x.
        rewrite <- app_assoc. f_equal. exact E.
    + apply IH.
Qed.

Lemma prefix_trans : forall a b c, prefix a b -> prefix b c -> prefix a c.
Proof. intros a b c [x ->] [y ->]. exists (x ++ y). now rewrite app_assoc. Qed.

Lemma accounted_prefix : forall s sub w, accounted s sub w -> prefix w (wire None 0 sub).
Proof.
  intros s sub w (done & -> & H). rewrite H. rewrite <- app_assoc.
  eexists. reflexivity.
Qed.

Lemma inv_new : inv (new_output C) [] [].
Proof.
  constructor.
  - constructor; simpl; try discriminate; auto; try (repeat split; constructor).
  - intros _. exists []. split; [reflexivity|]. intro l. reflexivity.
  - exists []. reflexivity.
Qed.

Hypothesis encrypt_nonempty : forall c n p c' b, encrypt c n p = Some (c', b) -> b <> [].

Lemma map_Packet_snoc : forall l p, map (@Packet C) (l ++ [p]) = map Packet l ++ [Packet p].
Proof. intros. now rewrite map_app. Qed.

Ltac shape_tac :=
  match goal with
  | |- nonempty _ => constructor
  | H : o_encrypted C ?s = true |- o_encrypted C ?s = false -> _ => rewrite H; discriminate
  | H : o_encrypted C ?s = true |- context [o_encrypted C ?s] => rewrite H; try discriminate; auto
  | |- _ \/ _ -> _ => intros [X|[X _]]; discriminate
  | |- forall src dest, _ -> [] <> [] -> _ => intros src dest _ X; now contradiction X
  | |- forall src dest, _ => intros src dest X; discriminate
  | _ => idtac
  end.

(** The central lemma: every step preserves the invariant, and no assertion
    fails. *)
Lemma inv_step : forall s sub w o,
  inv s sub w -> packets_ok s o -> one_cipher_at_a_time s o ->
  step s o <> AssertFailed C /\
  forall s' b, step s o = Ok C s' b -> inv s' (sub ++ submits s o) (w ++ b).
Proof.
  intros s sub w o [S A P] Hp H1.
  destruct o as [c| |p|k| | | |]; cbn [Output.step submits packets_ok one_cipher_at_a_time] in *.
  - (* SetCipher *)
    unfold do_SetCipher. split; [discriminate|]. intros s' b H. injection H as <- <-.
    rewrite app_nil_r. constructor.
    + destruct S. constructor; simpl; auto; try discriminate.
    + simpl. intro E. destruct (A E) as (done & -> & D). exists done. split.
      * unfold upcoming. cbn. rewrite H1. rewrite !app_nil_r.
        assert (NP : o_next_plain C s = []) by (now apply S). rewrite NP. cbn.
        now rewrite <- !app_assoc.
      * exact D.
    + apply prefix_trans with (1 := P). apply wire_app_prefix.
  - (* AutoResetSeq *)
    unfold do_AutoResetSeq. split; [discriminate|]. intros s' b H. injection H as <- <-.
    rewrite !app_nil_r. constructor.
    + destruct S. constructor; simpl; auto.
    + simpl. intro E. destruct (A E) as (done & -> & D). exists done. split; [|exact D].
      unfold upcoming. cbn. rewrite H1. reflexivity.
    + assumption.
  - (* Push *)
    unfold do_Push. destruct (o_encrypted C s) eqn:Een.
    + destruct (add_job (o_job C s) (o_again C s)) as [job again] eqn:Ej.
      assert (SD : (match job with JBusy src _ => src | _ => [] end) = srcs s /\
                   (match job with JBusy _ dest => dest | _ => [] end) = dests s).
      { unfold srcs, dests. destruct (o_job C s); simpl in Ej; injection Ej as <- <-; auto. }
      destruct SD as [SS DD].
      assert (RR : ~ (job = JInitial \/ (job = JDone /\ again = false))).
      { destruct (o_job C s); simpl in Ej; injection Ej as <- <-; intros [X|[X Y]]; discriminate. }
      assert (BB : forall src dest, job = JBusy src dest -> again = true).
      { intros src dest E. destruct (o_job C s); simpl in Ej; injection Ej as <- <-; try discriminate; auto. }
      destruct (o_next_cipher C s) as [nc|] eqn:En.
      * split; [discriminate|]. intros s' b H. injection H as <- <-. rewrite app_nil_r.
        constructor.
        -- destruct S. constructor; simpl; auto; try discriminate.
           all: try solve [unfold srcs; simpl; rewrite SS; auto
                          |unfold dests; simpl; rewrite DD; auto
                          |intros X; now apply RR in X
                          |intros src dest X _; eapply BB; eauto].
        -- simpl. intro E. destruct (A E) as (done & -> & D). exists done.
           unfold upcoming, srcs, dests in *. cbn in *. rewrite SS, DD. rewrite En. split.
           ++ rewrite map_Packet_snoc. rewrite <- !app_assoc. cbn. reflexivity.
           ++ exact D.
        -- apply prefix_trans with (1 := P). apply wire_app_prefix.
      * split; [discriminate|]. intros s' b H. injection H as <- <-. rewrite app_nil_r.
        assert (Hc : o_cipher C s <> None).
        { intro X. destruct S. now apply (sh_enc_cipher0 Een X). }
        constructor.
        -- destruct S. constructor; simpl; auto; try discriminate; try contradiction.
           all: try solve [unfold srcs; simpl; rewrite SS; auto
                          |unfold dests; simpl; rewrite DD; auto
                          |intros X; now apply RR in X
                          |intros src dest X _; eapply BB; eauto].
        -- simpl. intro E. destruct (A E) as (done & -> & D). exists done.
           unfold upcoming, srcs, dests in *. cbn in *. rewrite SS, DD. rewrite En. split.
           ++ rewrite map_Packet_snoc. rewrite !app_nil_r, <- !app_assoc. cbn. reflexivity.
           ++ exact D.
        -- apply prefix_trans with (1 := P). apply wire_app_prefix.
    + split; [discriminate|]. intros s' b H. injection H as <- <-. rewrite app_nil_r.
      pose proof (sh_unenc s S Een) as (U1 & U2 & U3 & U4 & U5).
      destruct (sq_Push_ok (o_pending C s) p (sh_pending s S) Hp) as [Q1 Q2].
      constructor.
      * destruct S. constructor; simpl; auto; try discriminate.
      * simpl. intro E. destruct (A E) as (done & -> & D).
        exists (done ++ [Packet p]). unfold upcoming, srcs, dests in *. cbn in *.
        rewrite U1, U2, U3, U4 in *. cbn in *.
        pose proof (sh_plain_cipher s S U1) as [PL _]. rewrite PL in *. cbn in *.
        rewrite !app_nil_r in *. split; [reflexivity|].
        intro l. rewrite <- app_assoc. rewrite D. cbn. rewrite Q2.
        rewrite <- !app_assoc. reflexivity.
      * apply prefix_trans with (1 := P). apply wire_app_prefix.
  - (* Flush *)
    unfold do_Flush. destruct (o_encrypted C s && o_error C s) eqn:Ee.
    { split; [discriminate|]. intros s' b H. discriminate. }
    assert (Eerr : o_error C s = false).
    { destruct (o_error C s) eqn:X; [|reflexivity]. destruct (o_encrypted C s) eqn:Y; [discriminate|].
      destruct (sh_unenc s S Y) as (_ & _ & _ & _ & U). congruence. }
    set (qe := if o_encrypted C s then (sq_MoveFrom (o_pending C s) (o_enc C s), [])
               else (o_pending C s, o_enc C s)).
    assert (QE : sq_ok (fst qe) /\ nonempty (snd qe) /\
                 sq_bytes (fst qe) ++ concat (snd qe) =
                 sq_bytes (o_pending C s) ++ concat (o_enc C s) /\
                 (o_encrypted C s = false -> snd qe = [])).
    { unfold qe. destruct (o_encrypted C s) eqn:Een; simpl.
      - destruct (sq_MoveFrom_ok (o_pending C s) (o_enc C s) (sh_pending s S) (sh_enc_ok s S)) as [Q1 Q2].
        split; [assumption|]. split; [constructor|]. split; [rewrite Q2; now rewrite app_nil_r|discriminate].
      - split; [apply S|]. split; [apply S|]. split; [reflexivity|].
        intros _. apply (sh_unenc s S Een). }
    destruct qe as [q enc]. cbn [fst snd] in QE. destruct QE as (Q1 & Q2 & Q3 & Q4).
    assert (KEY : forall q' b, sq_ok q' -> sq_bytes q = b ++ sq_bytes q' ->
                  inv (with_pending C s q' enc) (sub ++ []) (w ++ b)).
    { intros q' b K1 K2. rewrite app_nil_r.
      assert (AC : accounted (with_pending C s q' enc) sub (w ++ b)).
      { destruct (A Eerr) as (done & -> & D). exists done. split; [reflexivity|].
        intro l. rewrite D. unfold dests, with_pending. cbn.
        f_equal. rewrite (app_assoc (sq_bytes (o_pending C s))).
        rewrite <- Q3, K2. rewrite <- !app_assoc. reflexivity. }
      constructor.
      - destruct S. constructor; simpl; auto.
        intro X. destruct (sh_unenc0 X) as (? & ? & ? & ? & ?). repeat split; auto.
      - intros _. exact AC.
      - apply accounted_prefix with (1 := AC). }
    destruct (sq_Prepare_spec q 32 Q1) as (v & V1 & (rest & R1 & R2) & _).
    rewrite V1.
    assert (K0 : inv (with_pending C s q enc) (sub ++ []) (w ++ [])) by (apply KEY; auto).
    destruct v as [|v0 v].
    { split; [discriminate|]. intros s' b H. apply (f_equal (fun r => match r with Ok _ a c => Some (a, c) | _ => None end)) in H.
      injection H as <- <-. exact K0. }
    destruct k as [k|].
    + destruct (len (concat (v0 :: v)) <? k) eqn:Ek.
      { split; [discriminate|]. intros; discriminate. }
      apply N.ltb_ge in Ek.
      destruct (sq_Consume_spec q k Q1) as (q' & C1 & C2 & C3).
      { rewrite R1, len_app. lia. }
      rewrite C1. split; [discriminate|]. intros s' b H.
      assert (H' : with_pending C s q' enc = s' /\ take k (concat (v0 :: v)) = b) by (split; congruence).
      destruct H' as [<- <-]. apply KEY; [assumption|].
      rewrite C3, R1. rewrite drop_app_le by assumption. rewrite app_assoc, take_drop. reflexivity.
    + split; [discriminate|]. intros s' b H.
      assert (H' : with_pending C s q enc = s' /\ [] = b) by (split; congruence).
      destruct H' as [<- <-]. exact K0.
  - (* RunBegin *)
    unfold do_RunBegin. destruct (o_job C s) eqn:Ej; try (split; [discriminate|intros; discriminate]).
    assert (Een : o_encrypted C s = true).
    { destruct (o_encrypted C s) eqn:X; [reflexivity|].
      destruct (sh_unenc s S X) as (_ & _ & _ & U & _). congruence. }
    destruct (match o_plain C s with
              | [] => match o_next_cipher C s with Some c => Some c | None => None end
              | _ => None end) as [c|] eqn:Esw.
    + destruct (o_plain C s) as [|pl pls] eqn:Epl; [|discriminate].
      destruct (o_next_cipher C s) as [c'|] eqn:En; [|discriminate]. injection Esw as ->.
      split; [discriminate|]. intros s' b H. injection H as <- <-.
      rewrite !app_nil_r. constructor.
      * destruct S. constructor; simpl; auto; try discriminate.
        all: shape_tac.
      * simpl. intro E. destruct (A E) as (done & -> & D).
        exists (done ++ [NewCipher c (o_auto_reset_seq C s)]).
        unfold upcoming, srcs, dests in *. cbn in *. rewrite Ej, Epl, En in *. cbn in *.
        rewrite !app_nil_r in *. split.
        -- now rewrite <- app_assoc.
        -- intro l. rewrite <- app_assoc. rewrite D. reflexivity.
      * assumption.
    + split.
      { discriminate. }
      intros s' b H. injection H as <- <-.
      assert (Hsw : o_plain C s = [] -> o_next_cipher C s = None).
      { intro X. rewrite X in Esw. destruct (o_next_cipher C s); [discriminate|reflexivity]. }
      rewrite !app_nil_r. constructor.
      * destruct S. constructor; simpl; auto; try discriminate.
        all: try solve [intro X; destruct (sh_plain_cipher0 X) as [Y _]; unfold srcs; simpl; auto].
        all: shape_tac.
      * simpl. intro E. destruct (A E) as (done & -> & D). exists done.
        unfold upcoming, srcs, dests in *. cbn in *. rewrite Ej in *. cbn in *. split; [reflexivity|exact D].
      * assumption.
  - (* RunEncrypt *)
    unfold do_RunEncrypt. destruct (o_job C s) as [| |[|p src] dest|] eqn:Ej;
      try (split; [discriminate|intros; discriminate]).
    assert (Een : o_encrypted C s = true).
    { destruct (o_encrypted C s) eqn:X; [reflexivity|].
      destruct (sh_unenc s S X) as (_ & _ & _ & U & _). congruence. }
    destruct (o_cipher C s) as [c|] eqn:Ec.
    2: { exfalso. destruct (sh_plain_cipher s S Ec) as [_ X]. unfold srcs in X. rewrite Ej in X. discriminate. }
    destruct (encrypt c (o_seq C s) p) as [[c' b]|] eqn:Een2.
    + split; [discriminate|]. intros s' b' H. injection H as <- <-. rewrite !app_nil_r.
      constructor.
      * destruct S. constructor; simpl; auto; try discriminate.
        all: try solve [unfold dests in *; simpl; rewrite Ej in sh_dests_ok0;
           apply Forall_app; split; [assumption|];
           constructor; [|constructor]; eapply encrypt_nonempty; eauto].
        all: try solve [intros src' dest' X Y; eapply sh_busy0; eauto].
        all: shape_tac.
      * simpl. intro E. destruct (A E) as (done & -> & D). exists (done ++ [Packet p]).
        unfold upcoming, srcs, dests in *. cbn in *. rewrite Ej in *. cbn in *. split.
        -- now rewrite <- app_assoc.
        -- intro l. rewrite <- app_assoc. cbn. rewrite D. rewrite Ec. cbn. rewrite Een2.
           rewrite concat_app. cbn. rewrite app_nil_r. rewrite <- !app_assoc. reflexivity.
      * assumption.
    + split; [discriminate|]. intros s' b' H. injection H as <- <-. rewrite !app_nil_r.
      constructor.
      * destruct S. constructor; simpl; auto; try discriminate.
        all: try solve [rewrite Ec; discriminate].
        all: shape_tac.
      * simpl. discriminate.
      * assumption.
  - (* RunEnd *)
    unfold do_RunEnd. destruct (o_job C s) as [| |[|p src] dest|] eqn:Ej;
      try (split; [discriminate|intros; discriminate]).
    assert (Een : o_encrypted C s = true).
    { destruct (o_encrypted C s) eqn:X; [reflexivity|].
      destruct (sh_unenc s S X) as (_ & _ & _ & U & _). congruence. }
    split; [discriminate|]. intros s' b' H. injection H as <- <-. rewrite !app_nil_r.
    constructor.
    + destruct S. constructor; simpl; auto; try discriminate.
      all: try solve [intro X; destruct (sh_plain_cipher0 X) as [Y _]; split; [assumption|reflexivity]].
      all: try solve [apply Forall_app; split; [assumption|]; unfold dests in sh_dests_ok0;
                      now rewrite Ej in sh_dests_ok0].
      all: try solve [shape_tac].
      intros [X|[_ X]]; [discriminate|]. intros _.
      destruct (o_plain C s) as [|x l] eqn:Epl.
      * destruct (o_next_plain C s); [auto|discriminate].
      * exfalso. assert (o_again C s = true) by (eapply sh_busy0; eauto; discriminate). congruence.
    + simpl. intro E. destruct (A E) as (done & -> & D). exists done.
      unfold upcoming, srcs, dests in *. cbn in *. rewrite Ej in *. cbn in *. split; [reflexivity|].
      intro l. rewrite D. rewrite concat_app. cbn. rewrite !app_nil_r. reflexivity.
    + assumption.
  - (* Wakeup *)
    unfold do_Wakeup. destruct (o_job C s) eqn:Ej; try (split; [discriminate|intros; discriminate]).
    assert (Een : o_encrypted C s = true).
    { destruct (o_encrypted C s) eqn:X; [reflexivity|].
      destruct (sh_unenc s S X) as (_ & _ & _ & U & _). congruence. }
    split; [discriminate|]. intros s' b' H. injection H as <- <-. rewrite !app_nil_r.
    constructor.
    + destruct S. constructor; simpl; auto; try discriminate.
      all: try solve [intro X; destruct (sh_plain_cipher0 X) as [Y _]; split; [assumption|];
        unfold srcs; simpl; destruct (o_again C s); reflexivity].
      all: try solve [unfold dests; simpl; destruct (o_again C s); constructor].
      all: try solve [intros src dest X; destruct (o_again C s); discriminate].
      all: try solve [shape_tac].
      destruct (o_again C s) eqn:Ea; [intros [X|[X _]]; discriminate|]. intros _. apply sh_rest0. auto.
    + simpl. intro E. destruct (A E) as (done & -> & D). exists done.
      unfold upcoming, srcs, dests in *. cbn in *. rewrite Ej in *. cbn in *.
      destruct (o_again C s); cbn; split; try reflexivity; exact D.
    + assumption.
Qed.

Lemma inv_runs : forall ops s sub w,
  runs (fun s o => packets_ok s o /\ one_cipher_at_a_time s o) ops s sub w -> inv s sub w.
Proof.
  intros ops s sub w H. induction H as [|ops s sub w o s' b _ IH [H1 H2] H3].
  - apply inv_new.
  - destruct (inv_step s sub w o IH H1 H2) as [_ X]. now apply X.
Qed.

End Output.
