(** Facts about Model/Buffered.v *)

From Coq Require Import NArith List Bool Lia.
From Verif.Base Require Import Bytes.
From Verif.Model Require Import Buffered.
From Verif.Spec Require Import BufferedSpec.
Import ListNotations.
Open Scope N_scope.

Local Arguments take : simpl never.
Local Arguments drop : simpl never.

Lemma take_all' : forall n (p : bytes), len p <= n -> take n p = p.
Proof. intros n p H. unfold take, len in *. apply firstn_all2. lia. Qed.

Section Any.
  Context {D : Type} (on_data : D -> bytes -> N * D) (on_eof : D -> D) (got : D -> bytes) (ends : D -> N).
  Hypothesis dest : destination on_data on_eof got ends.

  Lemma received_app : forall a b : list (bop (D:=D)), received (a ++ b) = received a ++ received b.
  Proof. induction a as [|[] a IH]; intros b; cbn; rewrite ?IH, <- ?app_assoc; reflexivity. Qed.
  Lemma eofs_app : forall a b : list (bop (D:=D)), eof_packets (a ++ b) = eof_packets a + eof_packets b.
  Proof. induction a as [|o a IH]; intros b; [reflexivity|]. destruct o; cbn [eof_packets app]; rewrite IH; lia. Qed.

  Lemma bruns_snoc : forall dbg d ops o, bruns on_data on_eof dbg d (ops ++ [o]) = bstep on_data on_eof dbg (bruns on_data on_eof dbg d ops) o.
  Proof. intros. unfold bruns. now rewrite fold_left_app. Qed.

  Lemma read_queue_got : forall q d, got (snd (read_queue on_data q d)) ++ concat (fst (read_queue on_data q d)) = got d ++ concat q /\
    ends (snd (read_queue on_data q d)) = ends d.
  Proof.
    induction q as [|p q IH]; intros d; [split; reflexivity|]. cbn [read_queue].
    pose proof (dest_portion _ _ _ _ dest d p) as P. pose proof (dest_got _ _ _ _ dest d p) as G. pose proof (dest_data_ends _ _ _ _ dest d p) as E.
    destruct (on_data d p) as [n d']. cbn [fst snd] in *. destruct (n <? len p) eqn:L.
    - cbn [fst snd concat]. split; [|exact E]. rewrite G, <- app_assoc. f_equal. rewrite app_assoc, take_drop. reflexivity.
    - apply N.ltb_ge in L. destruct (IH d') as (A & B). rewrite A, B. split; [|exact E]. rewrite G, take_all', <- app_assoc by exact L. reflexivity.
  Qed.

  (** the data consumed and the data waiting are the data received *)
  Definition BI (ops : list (bop (D:=D))) (s : bch (D:=D)) : Prop :=
    (bc_assert s = false -> got (bc_dst s) ++ concat (bc_queue s) = received ops) /\
    (bc_eof s = true -> bc_queue s <> []) /\
    (bc_assert s = false -> ends (bc_dst s) + (if bc_eof s then 1 else 0) <= eof_packets ops).

  Definition step_fact (o : bop (D:=D)) (s s' : bch (D:=D)) : Prop :=
    bc_assert s' = false ->
    got (bc_dst s') ++ concat (bc_queue s') = (got (bc_dst s) ++ concat (bc_queue s)) ++ received [o] /\
    ((bc_eof s = true -> bc_queue s <> []) -> bc_eof s' = true -> bc_queue s' <> []) /\
    (ends (bc_dst s') + (if bc_eof s' then 1 else 0) <= ends (bc_dst s) + (if bc_eof s then 1 else 0) + eof_packets [o]) /\
    ends (bc_dst s) <= ends (bc_dst s') /\
    (ends (bc_dst s') <> ends (bc_dst s) -> bc_queue s' = []) /\
    (bc_eof s = false -> ends (bc_dst s') + (if bc_eof s' then 1 else 0) = ends (bc_dst s) + eof_packets [o]) /\
    (bc_eof s = true -> o <> BEof -> ends (bc_dst s') + (if bc_eof s' then 1 else 0) = ends (bc_dst s) + 1).

  Lemma bstep_fact : forall dbg s o, harmless got ends o -> bc_assert s = false ->
    step_fact o s (bstep on_data on_eof dbg s o).
  Proof.
    intros dbg s o H A. unfold bstep. rewrite A. destruct o as [p| | |f]; cbn [received eof_packets app].
    - unfold OnData. destruct (dbg && bc_eof s); [intros C; discriminate|]. intros _.
      pose proof (dest_portion _ _ _ _ dest (bc_dst s) p) as P. pose proof (dest_got _ _ _ _ dest (bc_dst s) p) as G.
      pose proof (dest_data_ends _ _ _ _ dest (bc_dst s) p) as E.
      destruct (bc_queue s) as [|c q] eqn:Q.
      + destruct (on_data (bc_dst s) p) as [n d]. cbn [fst snd] in *. cbn [bc_dst bc_queue bc_eof].
        rewrite E. cbn [received eof_packets app]. split; [|split; [intros X Y; destruct (X Y); reflexivity|]].
        * rewrite G. cbn [concat]. rewrite !app_nil_r, <- app_assoc. f_equal. destruct (n <? len p) eqn:L; cbn [concat].
          -- rewrite app_nil_r. apply take_drop.
          -- apply N.ltb_ge in L. rewrite app_nil_r. now apply take_all'.
        * split; [lia|]. split; [lia|]. split; [congruence|]. split; intros ->; intros; lia.
      + cbn [bc_dst bc_queue bc_eof received eof_packets app]. split; [|split].
        * change (c :: q ++ [p]) with ((c :: q) ++ [p]). rewrite concat_app. cbn [concat]. now rewrite !app_nil_r, app_assoc.
        * intros _ _. discriminate.
        * split; [lia|]. split; [lia|]. split; [congruence|]. split; intros ->; intros; lia.
    - unfold OnEof. destruct (dbg && bc_eof s); [intros C; discriminate|]. intros _. cbn [received eof_packets]. rewrite app_nil_r.
      pose proof (dest_eof_got _ _ _ _ dest (bc_dst s)) as G. pose proof (dest_eof _ _ _ _ dest (bc_dst s)) as E.
      destruct (bc_queue s) as [|c q] eqn:Q; cbn [bc_dst bc_queue bc_eof].
      + rewrite G, E. split; [reflexivity|]. split; [auto|]. split; [lia|]. split; [lia|]. split; [reflexivity|]. split; [intros ->; lia|congruence].
      + split; [reflexivity|]. split; [intros _ _; discriminate|]. split; [destruct (bc_eof s); lia|]. split; [lia|]. split; [congruence|].
        split; [lia|congruence].
    - unfold ReadBuffer. destruct (read_queue_got (bc_queue s) (bc_dst s)) as (G & E).
      destruct (read_queue on_data (bc_queue s) (bc_dst s)) as [q d]. cbn [fst snd] in *.
      pose proof (dest_eof_got _ _ _ _ dest d) as G'. pose proof (dest_eof _ _ _ _ dest d) as E'. intros _. cbn [received eof_packets]. rewrite app_nil_r.
      destruct q as [|c q]; [destruct (bc_eof s)|]; cbn [bc_dst bc_queue bc_eof]; rewrite ?G', ?E', ?E, ?G;
        (split; [reflexivity|]); (split; [try discriminate; auto|]); (split; [lia|]); (split; [lia|]); (split; [auto; congruence|]); split; intros; try discriminate; try lia;
        destruct (bc_eof s); try discriminate; lia.
    - intros _. cbn [bc_dst bc_queue bc_eof received eof_packets]. destruct (H (bc_dst s)) as (G & E). rewrite G, E, app_nil_r.
      split; [reflexivity|]. split; [auto|]. split; [lia|]. split; [lia|]. split; [congruence|]. split; intros ->; intros; lia.
  Qed.

  Lemma bstep_assert : forall dbg s o, bc_assert (bstep on_data on_eof dbg s o) = false -> bc_assert s = false.
  Proof. intros dbg s o. unfold bstep. destruct (bc_assert s) eqn:A; [congruence|reflexivity]. Qed.

  Lemma bruns_BI : forall dbg d ops, got d = [] -> ends d = 0 -> Forall (harmless got ends) ops ->
    bc_assert (bruns on_data on_eof dbg d ops) = false ->
    got (bc_dst (bruns on_data on_eof dbg d ops)) ++ concat (bc_queue (bruns on_data on_eof dbg d ops)) = received ops /\
    (bc_eof (bruns on_data on_eof dbg d ops) = true -> bc_queue (bruns on_data on_eof dbg d ops) <> []) /\
    ends (bc_dst (bruns on_data on_eof dbg d ops)) + (if bc_eof (bruns on_data on_eof dbg d ops) then 1 else 0) <= eof_packets ops.
  Proof.
    intros dbg d ops G E. induction ops as [|o t IH] using rev_ind; intros F A.
    - cbn. rewrite G, E. split; [reflexivity|]. split; [discriminate|lia].
    - apply Forall_app in F as (F1 & F2). inversion F2 as [|? ? Ho _]; subst. rewrite bruns_snoc in *.
      pose proof (bstep_assert _ _ _ A) as A0. destruct (IH F1 A0) as (I1 & I2 & I3).
      destruct (bstep_fact dbg (bruns on_data on_eof dbg d t) o Ho A0 A) as (S1 & S2 & S3 & _).
      rewrite S1, I1, received_app, eofs_app. split; [reflexivity|]. split; [exact (S2 I2)|]. lia.
  Qed.

  Lemma polite_app : forall (a : list (bop (D:=D))) o, polite (a ++ [o]) -> polite a /\ (eof_packets a <> 0 -> silent o).
  Proof.
    induction a as [|x a IH]; intros o H; [split; [exact I|intros X; now elim X]|].
    destruct x; cbn [app polite eof_packets] in *; try (destruct (IH o H) as (X & Z); split; assumption).
    apply Forall_app in H as (H1 & H2). inversion H2. split; auto.
  Qed.

  (** with a polite peer, no assertion fails and the number of ends is exact *)
  Lemma bruns_polite : forall dbg d ops, got d = [] -> ends d = 0 -> Forall (harmless got ends) ops -> polite ops ->
    bc_assert (bruns on_data on_eof dbg d ops) = false /\
    ends (bc_dst (bruns on_data on_eof dbg d ops)) + (if bc_eof (bruns on_data on_eof dbg d ops) then 1 else 0) = eof_packets ops.
  Proof.
    intros dbg d ops G E. induction ops as [|o t IH] using rev_ind; intros F P.
    - cbn. rewrite E. split; reflexivity.
    - apply Forall_app in F as (F1 & F2). inversion F2 as [|? ? Ho _]; subst. rewrite bruns_snoc.
      apply polite_app in P as (P1 & P3). destruct (IH F1 P1) as (A0 & C0).
      set (s := bruns on_data on_eof dbg d t) in *. clearbody s.
      assert (A1 : bc_assert (bstep on_data on_eof dbg s o) = false).
      { unfold bstep. rewrite A0. destruct o as [p| | |f]; [| | |reflexivity].
        - unfold OnData. destruct (bc_eof s) eqn:EE.
          + destruct (P3 ltac:(lia)).
          + rewrite andb_false_r. destruct (bc_queue s); [destruct (on_data _ _)|]; exact A0.
        - unfold OnEof. destruct (bc_eof s) eqn:EE; [destruct (P3 ltac:(lia))|].
          rewrite andb_false_r. destruct (bc_queue s); exact A0.
        - unfold ReadBuffer. destruct (read_queue _ _ _) as [[|]]; [destruct (bc_eof s)|]; exact A0. }
      split; [exact A1|]. rewrite eofs_app. destruct (bstep_fact dbg s o Ho A0 A1) as (_ & _ & _ & _ & _ & S6 & S7).
      destruct (bc_eof s) eqn:EE; [|specialize (S6 eq_refl); lia].
      specialize (P3 ltac:(lia)). rewrite S7; [destruct o; try contradiction; cbn [eof_packets]; lia|reflexivity|intros ->; contradiction].
  Qed.
End Any.

(** ** The standard input of a program *)

Definition igot (d : stdin) : bytes := concat (map fate_bytes (i_fate d)).

(** what a call of OnBufferedData() does to the flags *)
Record same (d d' : stdin) : Prop := {
  same_enabled : i_enabled d' = i_enabled d;
  same_tty : i_tty d' = i_tty d;
  same_none : i_pipe d' = PNone <-> i_pipe d = PNone;
  same_open : i_pipe d' = POpen -> i_pipe d = POpen;
  same_ended : i_ended d' = i_ended d;
  same_deferred : i_deferred d = true -> i_deferred d' = true
}.
Lemma same_refl : forall d, same d d.
Proof. intros d. split; auto. tauto. Qed.
Lemma same_trans : forall a b c, same a b -> same b c -> same a c.
Proof. intros a b c [] []. split; try congruence; try tauto. Qed.

Lemma stdin_data_same : forall d p, same d (snd (stdin_data d p)).
Proof.
  intros d p. unfold stdin_data. destruct (i_enabled d); cbn [negb snd]; [|split; cbn; auto; tauto].
  destruct (i_destination d) eqn:De; cbn [negb snd]; [|split; cbn; auto; tauto].
  destruct (hd Again (i_answers d)); cbn [snd].
  - destruct (_ <? _); split; cbn; auto; tauto.
  - split; cbn; auto; tauto.
  - unfold i_close. cbn [i_pipe i_set_answers]. destruct (i_pipe d) eqn:P; split; cbn; rewrite ?P; auto; try tauto; split; discriminate.
Qed.

Lemma stdin_data_got : forall d p, fst (stdin_data d p) <= len p /\
  igot (snd (stdin_data d p)) = igot d ++ take (fst (stdin_data d p)) p.
Proof.
  intros d p. unfold stdin_data, igot. destruct (i_enabled d); cbn [negb fst snd]; [|split; [lia|cbn; now rewrite app_nil_r]].
  destruct (i_destination d); cbn [negb fst snd].
  2:{ split; [lia|]. cbn. rewrite map_app, concat_app. cbn. rewrite app_nil_r, take_all'; [reflexivity|lia]. }
  destruct (hd Again (i_answers d)); cbn [fst snd].
  - split; [lia|]. destruct (_ <? _); cbn; rewrite map_app, concat_app; cbn; now rewrite app_nil_r.
  - split; [lia|]. cbn. now rewrite app_nil_r.
  - split; [lia|]. unfold i_close. cbn [i_pipe i_set_answers]. destruct (i_pipe d); cbn; rewrite map_app, concat_app; cbn; rewrite app_nil_r, take_all'; try reflexivity; lia.
Qed.

(** a portion is left: it will be resumed *)
Lemma stdin_data_rest : forall d p, fst (stdin_data d p) < len p ->
  (i_enabled d = false /\ i_deferred (snd (stdin_data d p)) = true) \/
  (i_enabled d = true /\ i_sched (snd (stdin_data d p)) = true).
Proof.
  intros d p. unfold stdin_data. destruct (i_enabled d); cbn [negb fst snd]; [|now left]. right. split; [reflexivity|].
  destruct (i_destination d); cbn [negb fst snd] in *; [|lia]. destruct (hd Again (i_answers d)); cbn [fst snd] in *.
  - apply N.ltb_lt in H. rewrite H. reflexivity.
  - reflexivity.
  - lia.
Qed.

(** WRITE is scheduled only if there is a destination *)
Lemma stdin_data_sched : forall d p, (i_sched d = true -> i_destination d = true) ->
  i_sched (snd (stdin_data d p)) = true -> i_destination (snd (stdin_data d p)) = true.
Proof.
  intros d p H. unfold stdin_data. destruct (i_enabled d); cbn [negb snd]; [|exact H].
  destruct (i_destination d) eqn:De; cbn [negb snd]; [|intros X; specialize (H X); discriminate].
  destruct (hd Again (i_answers d)); cbn [snd].
  - intros _. destruct (_ <? _); exact De.
  - intros _. exact De.
  - unfold i_close, i_destination in *. cbn [i_pipe i_set_answers]. destruct (i_pipe d) eqn:P; cbn [i_add i_pipe i_sched i_tty]; try discriminate; cbn; rewrite P; auto.
Qed.

(** without failures *)
Definition healthy (d : stdin) : Prop := ~ In Failed (i_answers d).
Lemma stdin_data_healthy : forall d p, healthy d ->
  healthy (snd (stdin_data d p)) /\ i_pipe (snd (stdin_data d p)) = i_pipe d.
Proof.
  intros d p H. unfold stdin_data. destruct (i_enabled d); cbn [negb snd]; [|split; [exact H|reflexivity]].
  destruct (i_destination d); cbn [negb snd]; [|split; [exact H|reflexivity]].
  assert (TL : ~ In Failed (tl (i_answers d))) by (intros I0; apply H; destruct (i_answers d); [destruct I0|right; exact I0]).
  destruct (hd Again (i_answers d)) eqn:HD; cbn [snd].
  - destruct (_ <? _); (split; [exact TL|reflexivity]).
  - split; [exact TL|reflexivity].
  - exfalso. apply H. destruct (i_answers d); [discriminate|]. cbn in HD. subst a. now left.
Qed.
Definition all_written (d : stdin) : Prop := igot d = written (i_fate d).
Lemma written_app : forall a b, written (a ++ b) = written a ++ written b.
Proof. induction a as [|[] a IH]; intros b; cbn; rewrite ?IH, <- ?app_assoc; reflexivity. Qed.
Lemma stdin_data_written : forall d p, healthy d -> (i_enabled d = true -> i_destination d = true) -> all_written d -> all_written (snd (stdin_data d p)).
Proof.
  intros d p H De A. unfold stdin_data. destruct (i_enabled d); cbn [negb snd]; [|exact A].
  rewrite (De eq_refl). cbn [negb]. unfold all_written, igot in *.
  destruct (hd Again (i_answers d)) eqn:HD; cbn [snd].
  - destruct (_ <? _); cbn; rewrite map_app, concat_app, written_app; cbn; now rewrite A.
  - exact A.
  - exfalso. apply H. destruct (i_answers d); [discriminate|]. cbn in HD. subst a. now left.
Qed.

(** the invariant *)
Record SI (ops : list iop) (s : bch (D:=stdin)) : Prop := {
  si_got : igot (bc_dst s) ++ concat (bc_queue s) = ireceived ops;
  si_live : i_enabled (bc_dst s) = true -> i_destination (bc_dst s) = true -> bc_queue s <> [] -> i_sched (bc_dst s) = true;
  si_defer : i_enabled (bc_dst s) = false -> bc_queue s <> [] -> i_deferred (bc_dst s) = true;
  si_enabled : i_enabled (bc_dst s) = true -> i_pipe (bc_dst s) <> PNone \/ i_tty (bc_dst s) = true;
  si_sched : i_sched (bc_dst s) = true -> i_destination (bc_dst s) = true;
  si_eof : bc_eof s = true -> bc_queue s <> [];
  si_tty : i_tty (bc_dst s) = true -> i_pipe (bc_dst s) = PNone
}.

Lemma ireceived_app : forall a b, ireceived (a ++ b) = ireceived a ++ ireceived b.
Proof. induction a as [|[] a IH]; intros b; cbn; rewrite ?IH, <- ?app_assoc; reflexivity. Qed.
Lemma iruns_snoc : forall dbg ops o, iruns dbg (ops ++ [o]) = istep dbg (iruns dbg ops) o.
Proof. intros. unfold iruns. now rewrite fold_left_app. Qed.

Lemma read_queue_stdin : forall q d, let r := read_queue stdin_data q d in
  same d (snd r) /\ igot (snd r) ++ concat (fst r) = igot d ++ concat q /\
  (fst r <> [] -> (i_enabled d = false /\ i_deferred (snd r) = true) \/ (i_enabled d = true /\ i_sched (snd r) = true)) /\
  ((i_sched d = true -> i_destination d = true) -> i_sched (snd r) = true -> i_destination (snd r) = true) /\
  (healthy d -> healthy (snd r) /\ i_pipe (snd r) = i_pipe d) /\
  (healthy d -> (i_enabled d = true -> i_destination d = true) -> all_written d -> all_written (snd r)).
Proof.
  induction q as [|p q IH]; intros d r; subst r.
  - cbn. split; [apply same_refl|]. split; [reflexivity|]. split; [congruence|]. auto.
  - cbn [read_queue]. pose proof (stdin_data_same d p) as SA. pose proof (stdin_data_got d p) as (P & G). pose proof (stdin_data_rest d p) as R.
    pose proof (stdin_data_sched d p) as SC. pose proof (stdin_data_healthy d p) as HE. pose proof (stdin_data_written d p) as WR.
    destruct (stdin_data d p) as [n d']. cbn [fst snd] in *. destruct (n <? len p) eqn:L.
    + apply N.ltb_lt in L. cbn [fst snd concat]. split; [exact SA|]. split; [rewrite G, <- app_assoc; f_equal; now rewrite app_assoc, take_drop|].
      split; [intros _; exact (R L)|]. auto.
    + apply N.ltb_ge in L. destruct (IH d') as (A & B & C & E & F & W0). split; [eapply same_trans; eassumption|].
      split; [rewrite B, G, take_all', <- app_assoc by exact L; reflexivity|].
      split; [intros Q; specialize (C Q); rewrite (same_enabled _ _ SA) in C; exact C|].
      split; [auto|]. assert (DE : forall h : healthy d, i_destination d' = i_destination d).
      { intros h. unfold i_destination. rewrite (proj2 (HE h)), (same_tty _ _ SA). reflexivity. }
      split.
      * intros h. destruct (HE h) as (h' & e'). destruct (F h') as (X & Y). split; [exact X|congruence].
      * intros h De Aw. destruct (HE h) as (h' & e'). apply W0; [exact h'| |auto]. intros En. rewrite (DE h). apply De. now rewrite <- (same_enabled _ _ SA).
Qed.

Lemma same_dest : forall d d', same d d' -> i_tty d = false -> i_destination d' = true -> i_destination d = true.
Proof.
  intros d d' SA T. unfold i_destination. rewrite (same_tty _ _ SA), T. destruct (i_pipe d') eqn:P; intros E; try discriminate.
  now rewrite (same_open _ _ SA P).
Qed.

(** ** One step: all of it at once *)

(** [wr]: failures and impolite peers are excluded; then the data is written
    to the program *)
Record SW (ops : list iop) (s : bch (D:=stdin)) : Prop := {
  sw_assert : bc_assert s = false;
  sw_healthy : healthy (bc_dst s);
  sw_written : all_written (bc_dst s);
  sw_closed : i_pipe (bc_dst s) = PClosed -> bc_queue s = [] /\ i_ended (bc_dst s) = true /\ In InEof ops;
  sw_eof : bc_eof s = true -> In InEof ops
}.

Lemma ipolite_app : forall a o, ipolite (a ++ [o]) -> ipolite a /\ (In InEof a -> o <> InEof /\ forall p x, o <> InData p x).
Proof.
  induction a as [|y a IH]; intros o H; [split; [exact I|intros []]|].
  destruct y; cbn [app ipolite] in *; try (destruct (IH o H) as (A & B); split; [exact A|intros [I0|I0]; [discriminate|auto]]).
  destruct H as (H1 & H2 & H3). destruct (IH o H3) as (A & B).
  assert (N1 : o <> InEof) by (intros ->; apply H1, in_or_app; right; now left).
  assert (N2 : forall p x, o <> InData p x) by (intros p x ->; apply (H2 p x), in_or_app; right; now left).
  split; [|intros _; split; assumption]. split; [intros I0; apply H1, in_or_app; now left|]. split; [|exact A].
  intros p x I0. apply (H2 p x), in_or_app. now left.
Qed.

Lemma same_pipe_none : forall d d', same d d' -> i_pipe d = PNone -> i_pipe d' = PNone.
Proof. intros d d' SA H. now apply (same_none _ _ SA). Qed.

Lemma dest_same : forall d d', same d d' -> (i_tty d = true -> i_pipe d = PNone) -> i_destination d' = true -> i_destination d = true.
Proof.
  intros d d' SA T E. destruct (i_tty d) eqn:Ty; [|now apply (same_dest d d')].
  unfold i_destination. now rewrite (T eq_refl).
Qed.

Lemma read_queue_ne : forall q d, fst (read_queue stdin_data q d) <> [] -> q <> [].
Proof. intros [|] d H; [exact H|discriminate]. Qed.

(** receiving data into an empty queue is reading a queue of one *)
Lemma OnData_read : forall p s, bc_queue s = [] -> OnData stdin_data false p s =
  {| bc_queue := fst (read_queue stdin_data [p] (bc_dst s)); bc_eof := bc_eof s; bc_dst := snd (read_queue stdin_data [p] (bc_dst s)); bc_assert := bc_assert s |}.
Proof. intros p s Q. unfold OnData. rewrite Q. cbn [andb read_queue]. destruct (stdin_data (bc_dst s) p) as [n d]. destruct (n <? len p); reflexivity. Qed.

Lemma istep_SI : forall ops s o, SI ops s -> bc_assert s = false ->
  SI (ops ++ [o]) (istep false s o).
Proof.
  intros ops s o [G LV DF EN SC EO TY] A. destruct o.
  - (* data *)
    cbn [istep]. unfold bstep at 2. rewrite A. unfold bstep. cbn [bc_assert].
    set (s0 := {| bc_queue := bc_queue s; bc_eof := bc_eof s; bc_dst := i_set_answers a (bc_dst s); bc_assert := false |}).
    destruct (bc_queue s) as [|c q] eqn:Q.
    + rewrite OnData_read by (cbn [s0 bc_queue]; reflexivity || exact Q). destruct (read_queue_stdin [p] (bc_dst s0)) as (SA & RG & RR & RS & _). cbv zeta in *.
      destruct (read_queue stdin_data [p] (bc_dst s0)) as [q' d']. cbn [fst snd bc_queue bc_dst bc_eof] in *.
      assert (SA' : same (bc_dst s) d') by (destruct SA; split; assumption).
      constructor; cbn [bc_queue bc_dst bc_eof].
      * rewrite RG, ireceived_app, <- G. cbn. now rewrite !app_nil_r.
      * intros E1 D1 Q1. destruct (RR Q1) as [(X & _)|(_ & X)]; [|exact X]. rewrite (same_enabled _ _ SA') in E1. cbn in X. congruence.
      * intros E1 Q1. destruct (RR Q1) as [(_ & X)|(X & _)]; [exact X|]. rewrite (same_enabled _ _ SA') in E1. cbn in X. congruence.
      * intros E1. rewrite (same_enabled _ _ SA') in E1. rewrite (same_tty _ _ SA'). destruct (EN E1) as [X|X]; [left|now right].
        intros Y. apply X. now apply (same_none _ _ SA').
      * apply RS. exact SC.
      * intros E1. specialize (EO E1). congruence.
      * rewrite (same_tty _ _ SA'). intros T1. now apply (same_pipe_none _ _ SA'), TY.
    + unfold OnData. cbn [andb bc_queue s0]. constructor; cbn [bc_queue bc_dst bc_eof s0 i_set_answers i_enabled i_pipe i_tty i_sched i_deferred]; try assumption.
      * rewrite ireceived_app, <- G. change (igot (i_set_answers a (bc_dst s))) with (igot (bc_dst s)). cbn [app].
        change (c :: q ++ [p]) with ((c :: q) ++ [p]). rewrite concat_app, app_assoc. reflexivity.
      * intros E1 D1 _. apply LV; try assumption. discriminate.
      * intros E1 _. apply DF; try assumption. discriminate.
      * intros _. discriminate.
  - (* eof *)
    cbn [istep]. unfold bstep. rewrite A. unfold OnEof. cbn [andb]. destruct (bc_queue s) as [|c q] eqn:Q.
    + unfold stdin_eof, i_close. destruct (i_pipe (bc_dst s)) eqn:P; constructor; cbn [bc_queue bc_dst bc_eof i_enabled i_pipe i_tty i_sched i_deferred]; rewrite ?ireceived_app, ?app_nil_r in *; cbn; try assumption; try discriminate; try congruence.
      all: try (now rewrite app_nil_r in *). all: try (intros; exfalso; congruence).
      all: try (rewrite P; assumption). all: try (intros _; left; discriminate). all: try (intros T1; specialize (TY T1); congruence).
    + constructor; cbn [bc_queue bc_dst bc_eof]; try assumption; [rewrite ireceived_app; cbn; now rewrite app_nil_r|discriminate].
  - (* pty *)
    cbn [istep]. assert (G' : igot (bc_dst s) ++ concat (bc_queue s) = ireceived (ops ++ [InPty])) by (rewrite ireceived_app; cbn; now rewrite app_nil_r).
    destruct (i_pipe (bc_dst s)) eqn:P; try (constructor; rewrite ?P; assumption). destruct (i_enabled (bc_dst s)) eqn:E; [constructor; rewrite ?P, ?E; assumption|].
    unfold bstep. rewrite A. constructor; cbn [bc_queue bc_dst bc_eof stdin_tty i_enabled i_pipe i_tty i_sched i_deferred]; try assumption; try congruence; try tauto.
    + unfold i_destination. cbn. now rewrite P.
  - (* pipes *)
    cbn [istep]. assert (G' : igot (bc_dst s) ++ concat (bc_queue s) = ireceived (ops ++ [InPipes])) by (rewrite ireceived_app; cbn; now rewrite app_nil_r).
    destruct (i_tty (bc_dst s)) eqn:T; [constructor; rewrite ?T; assumption|]. unfold bstep. rewrite A. unfold stdin_open.
    destruct (i_pipe (bc_dst s)) eqn:P; constructor; cbn [bc_queue bc_dst bc_eof i_enabled i_pipe i_tty i_sched i_deferred]; rewrite ?P, ?T; try assumption; try discriminate; try congruence.
    + intros E1. destruct (EN E1); congruence.
    + intros E1. left. discriminate.
  - (* enable *)
    cbn [istep]. assert (G' : igot (bc_dst s) ++ concat (bc_queue s) = ireceived (ops ++ [InEnable])) by (rewrite ireceived_app; cbn; now rewrite app_nil_r).
    assert (K : (i_pipe (bc_dst s) <> PNone \/ i_tty (bc_dst s) = true) -> SI (ops ++ [InEnable]) (bstep stdin_data stdin_eof false s (BOther stdin_enable))).
    { intros K. unfold bstep. rewrite A. constructor; cbn [bc_queue bc_dst bc_eof stdin_enable i_enabled i_pipe i_tty i_sched i_deferred]; try assumption; try discriminate; auto.
      - intros _ D1 Q1. change (i_destination (stdin_enable (bc_dst s))) with (i_destination (bc_dst s)) in D1. rewrite D1, andb_true_r.
        destruct (i_deferred (bc_dst s)) eqn:DD; [reflexivity|]. destruct (i_enabled (bc_dst s)) eqn:E; [now apply LV|]. specialize (DF eq_refl Q1). congruence.
      - change (i_destination (stdin_enable (bc_dst s))) with (i_destination (bc_dst s)).
        destruct (i_destination (bc_dst s)) eqn:DD; [reflexivity|]. rewrite andb_false_r. exact SC. }
    destruct (i_pipe (bc_dst s)) eqn:P; [destruct (i_tty (bc_dst s)) eqn:T; [apply K; now right|]| |]; try (apply K; left; discriminate).
    constructor; rewrite ?P, ?T; assumption.
  - (* ready *)
    cbn [istep]. assert (G' : igot (bc_dst s) ++ concat (bc_queue s) = ireceived (ops ++ [InReady a])) by (rewrite ireceived_app; cbn; now rewrite app_nil_r).
    destruct (i_sched (bc_dst s)) eqn:SCH; [|constructor; rewrite ?SCH; try assumption; auto].
    unfold bstep. rewrite A. cbn [bc_assert]. rewrite ?A. cbn [bc_assert]. unfold ReadBuffer. cbn [bc_queue bc_dst bc_eof].
    set (d0 := i_schedule false (i_set_answers a (bc_dst s))).
    destruct (read_queue_stdin (bc_queue s) d0) as (SA & RG & RR & RS & _). cbv zeta in *.
    pose proof (read_queue_ne (bc_queue s) d0) as NE.
    destruct (read_queue stdin_data (bc_queue s) d0) as [q' d']. cbn [fst snd] in *.
    assert (SA' : same (bc_dst s) d') by (destruct SA; split; assumption).
    assert (B1 : i_enabled d' = true -> i_pipe d' <> PNone \/ i_tty d' = true).
    { intros E1. rewrite (same_enabled _ _ SA') in E1. rewrite (same_tty _ _ SA'). destruct (EN E1) as [X|X]; [left|now right].
      intros Y. apply X. now apply (same_none _ _ SA'). }
    assert (B2 : i_tty d' = true -> i_pipe d' = PNone) by (rewrite (same_tty _ _ SA'); intros T1; now apply (same_pipe_none _ _ SA'), TY).
    assert (B3 : i_sched d' = true -> i_destination d' = true) by (apply RS; discriminate).
    assert (RG' : igot d' ++ concat q' = ireceived (ops ++ [InReady a])) by (rewrite RG; exact G').
    destruct q' as [|c q'].
    + assert (B4 : SI (ops ++ [InReady a]) {| bc_queue := []; bc_eof := false; bc_dst := d'; bc_assert := false |})
        by (constructor; cbn [bc_queue bc_dst bc_eof]; try assumption; congruence).
      destruct (bc_eof s); [|exact B4]. unfold stdin_eof, i_close. destruct (i_pipe d') eqn:P; try exact B4.
      * constructor; cbn [bc_queue bc_dst bc_eof i_enabled i_pipe i_tty i_sched i_deferred]; try assumption; try congruence; try discriminate.
        -- intros _. left. discriminate.
        -- intros T1. specialize (B2 T1). congruence.
    + constructor; cbn [bc_queue bc_dst bc_eof]; try assumption; try discriminate.
      * intros E1 D1 Q1. destruct (RR Q1) as [(X & _)|(_ & X)]; [|exact X]. rewrite (same_enabled _ _ SA') in E1. cbn in X. congruence.
      * intros E1 Q1. destruct (RR Q1) as [(_ & X)|(X & _)]; [exact X|]. rewrite (same_enabled _ _ SA') in E1. cbn in X. congruence.
      
Qed.

(** without assertions, none fails *)
Lemma istep_no_assert : forall s o, bc_assert s = false -> bc_assert (istep false s o) = false.
Proof.
  intros s o A.
  assert (B : forall s x, bc_assert s = false -> bc_assert (bstep stdin_data stdin_eof false s x) = false).
  { clear. intros s x A. unfold bstep. rewrite A. destruct x; [| | |reflexivity].
    - unfold OnData. cbn [andb]. destruct (bc_queue s); [destruct (stdin_data _ _)|]; exact A.
    - unfold OnEof. cbn [andb]. destruct (bc_queue s); exact A.
    - unfold ReadBuffer. destruct (read_queue _ _ _) as [[|]]; [destruct (bc_eof s)|]; exact A. }
  destruct o; cbn [istep]; repeat match goal with |- context [match ?x with _ => _ end] => destruct x end; auto.
Qed.
Lemma iruns_no_assert : forall ops, bc_assert (iruns false ops) = false.
Proof. intros ops. induction ops as [|o t IH] using rev_ind; [reflexivity|]. rewrite iruns_snoc. now apply istep_no_assert. Qed.

Lemma istep_dbg : forall s o, (bc_eof s = true -> o <> InEof /\ forall p x, o <> InData p x) -> istep true s o = istep false s o.
Proof.
  intros s o H. destruct o; cbn [istep]; try reflexivity.
  - unfold bstep at 2 4. destruct (bc_assert s) eqn:A; unfold bstep; cbn [bc_assert]; rewrite ?A; [reflexivity|].
    unfold OnData. cbn [bc_eof]. destruct (bc_eof s); [|reflexivity]. destruct (H eq_refl) as (_ & X). now elim (X p a).
  - unfold bstep. destruct (bc_assert s); [reflexivity|]. unfold OnEof. destruct (bc_eof s); [|reflexivity]. destruct (H eq_refl) as (X & _). now elim X.
Qed.

Lemma iruns_SI : forall ops, SI ops (iruns false ops).
Proof.
  induction ops as [|o t IH] using rev_ind.
  - constructor; cbn; try discriminate; try congruence; auto.
  - rewrite iruns_snoc. apply istep_SI; [exact IH|apply iruns_no_assert].
Qed.

(** with assertions: the same until one fails *)
Lemma istep_same : forall s o, bc_assert (istep true s o) = false -> istep true s o = istep false s o.
Proof.
  intros s o H. destruct (bc_eof s) eqn:E; [|apply istep_dbg; congruence].
  destruct o; try reflexivity; exfalso; revert H; cbn [istep].
  - unfold bstep at 2. destruct (bc_assert s) eqn:A; unfold bstep; cbn [bc_assert]; rewrite ?A; [congruence|]. unfold OnData. cbn [bc_eof]. rewrite E. discriminate.
  - unfold bstep. destruct (bc_assert s) eqn:A; [congruence|]. unfold OnEof. rewrite E. discriminate.
Qed.
Lemma istep_assert : forall dbg s o, bc_assert s = true -> istep dbg s o = s.
Proof.
  intros dbg s o A. assert (B : forall x, bstep stdin_data stdin_eof dbg s x = s) by (intros x; unfold bstep; now rewrite A).
  destruct o; cbn [istep]; rewrite ?B; repeat match goal with |- context [match ?x with _ => _ end] => destruct x end; reflexivity.
Qed.
Lemma iruns_same : forall dbg ops, bc_assert (iruns dbg ops) = false -> iruns dbg ops = iruns false ops.
Proof.
  intros [] ops; [|reflexivity]. induction ops as [|o t IH] using rev_ind; [reflexivity|]. rewrite !iruns_snoc. intros H.
  destruct (bc_assert (iruns true t)) eqn:A; [rewrite istep_assert in H; congruence|]. rewrite istep_same by exact H. now rewrite IH.
Qed.

Lemma istep_SW : forall ops s o, SI ops s -> SW ops s -> no_failure o ->
  (In InEof ops -> o <> InEof /\ forall p x, o <> InData p x) -> SW (ops ++ [o]) (istep false s o).
Proof.
  intros ops s o [G LV DF EN SC EO TY] [A HE WR CL EF] NF PO.
  assert (DST : i_pipe (bc_dst s) <> PClosed -> i_enabled (bc_dst s) = true -> i_destination (bc_dst s) = true).
  { intros P E. unfold i_destination. destruct (EN E) as [X|X], (i_pipe (bc_dst s)); congruence. }
  assert (IN : In InEof ops -> In InEof (ops ++ [o])) by (intros; apply in_or_app; now left).
  destruct o.
  - assert (NE : ~ In InEof ops) by (intros X; destruct (PO X) as (_ & Y); now elim (Y p a)).
    assert (NC : i_pipe (bc_dst s) <> PClosed) by (intros X; apply NE, (CL X)).
    cbn [istep]. unfold bstep at 2. rewrite A. unfold bstep. cbn [bc_assert].
    set (s0 := {| bc_queue := bc_queue s; bc_eof := bc_eof s; bc_dst := i_set_answers a (bc_dst s); bc_assert := false |}).
    destruct (bc_queue s) as [|c q] eqn:Q.
    + rewrite OnData_read by (cbn [s0 bc_queue]; reflexivity || exact Q). destruct (read_queue_stdin [p] (bc_dst s0)) as (SA & _ & _ & _ & RH & RW). cbv zeta in *.
      destruct (read_queue stdin_data [p] (bc_dst s0)) as [q' d']. cbn [fst snd bc_queue bc_dst bc_eof] in *.
      specialize (RH NF). destruct RH as (RH1 & RH2). constructor; cbn [bc_queue bc_dst bc_eof bc_assert]; try assumption; auto.
      rewrite RH2. intros X. now elim (NC X).
    + unfold OnData. cbn [andb bc_queue s0]. constructor; cbn [bc_queue bc_dst bc_eof bc_assert s0]; try assumption; auto.
      intros X. now elim (NC X).
  - assert (NE : ~ In InEof ops) by (intros X; destruct (PO X) as (Y & _); now elim Y).
    assert (NC : i_pipe (bc_dst s) <> PClosed) by (intros X; apply NE, (CL X)).
    assert (IE : In InEof (ops ++ [InEof])) by (apply in_or_app; right; now left).
    cbn [istep]. unfold bstep. rewrite A. unfold OnEof. cbn [andb]. destruct (bc_queue s) as [|c q] eqn:Q.
    + unfold stdin_eof, i_close. destruct (i_pipe (bc_dst s)) eqn:P; try congruence; constructor; cbn [bc_queue bc_dst bc_eof bc_assert i_pipe i_ended]; try assumption; auto; congruence.
    + constructor; cbn [bc_queue bc_dst bc_eof bc_assert]; try assumption; auto. intros X. now elim (NC X).
  - cbn [istep].
    destruct (i_pipe (bc_dst s)) eqn:P.
    2,3: (constructor; try assumption; rewrite ?P; [intros X; (discriminate || (destruct (CL X) as (X1 & X2 & X3); repeat split; auto))|auto]).
    destruct (i_enabled (bc_dst s)) eqn:E; [constructor; try assumption; rewrite ?P; [discriminate|auto]|].
    unfold bstep. rewrite A. constructor; cbn [bc_queue bc_dst bc_eof bc_assert]; try assumption; auto. cbn. rewrite P. discriminate.
  - cbn [istep].
    assert (ID : SW (ops ++ [InPipes]) s) by (constructor; try assumption; [intros X; destruct (CL X) as (X1 & X2 & X3); repeat split; auto|auto]).
    destruct (i_tty (bc_dst s)) eqn:T; [exact ID|]. unfold bstep. rewrite A. unfold stdin_open.
    destruct (i_pipe (bc_dst s)) eqn:P; constructor; cbn [bc_queue bc_dst bc_eof bc_assert i_pipe]; try assumption; rewrite ?P; try discriminate; auto.
    intros X. destruct (CL X) as (X1 & X2 & X3); repeat split; auto.
  - cbn [istep].
    assert (ID : SW (ops ++ [InEnable]) s) by (constructor; try assumption; [intros X; destruct (CL X) as (X1 & X2 & X3); repeat split; auto|auto]).
    assert (K : SW (ops ++ [InEnable]) (bstep stdin_data stdin_eof false s (BOther stdin_enable))).
    { unfold bstep. rewrite A. constructor; cbn [bc_queue bc_dst bc_eof bc_assert]; try assumption; auto.
      intros X. destruct (CL X) as (X1 & X2 & X3); repeat split; auto. }
    destruct (i_pipe (bc_dst s)); [destruct (i_tty (bc_dst s))| |]; assumption.
  - cbn [istep].
    assert (ID : SW (ops ++ [InReady a]) s) by (constructor; try assumption; [intros X; destruct (CL X) as (X1 & X2 & X3); repeat split; auto|auto]).
    destruct (i_sched (bc_dst s)) eqn:SCH; [|exact ID].
    unfold bstep. rewrite A. cbn [bc_assert]. unfold ReadBuffer. cbn [bc_queue bc_dst bc_eof].
    set (d0 := i_schedule false (i_set_answers a (bc_dst s))).
    destruct (read_queue_stdin (bc_queue s) d0) as (SA & _ & _ & _ & RH & RW). cbv zeta in *.
    pose proof (read_queue_ne (bc_queue s) d0) as NE.
    destruct (read_queue stdin_data (bc_queue s) d0) as [q' d']. cbn [fst snd] in *.
    destruct (RH NF) as (RH1 & RH2). change (i_pipe d0) with (i_pipe (bc_dst s)) in RH2.
    assert (ND : i_pipe (bc_dst s) = PClosed -> i_destination (bc_dst s) = true -> False).
    { intros X Y. unfold i_destination in Y. rewrite X in Y. specialize (TY Y). congruence. }
    specialize (SC eq_refl). assert (NC : i_pipe (bc_dst s) <> PClosed) by (intros X; exact (ND X SC)).
    assert (W' : all_written d') by (apply RW; [exact NF|intros E; exact (DST NC E)|exact WR]).
    destruct q' as [|c q'].
    + destruct (bc_eof s) eqn:EE.
      * unfold stdin_eof, i_close. destruct (i_pipe d') eqn:P; constructor; cbn [bc_queue bc_dst bc_eof bc_assert i_pipe i_ended]; try assumption; try discriminate; auto; congruence.
      * constructor; cbn [bc_queue bc_dst bc_eof bc_assert]; try assumption; try discriminate; auto. rewrite RH2. intros X. now elim (NC X).
    + constructor; cbn [bc_queue bc_dst bc_eof bc_assert]; try assumption; auto. rewrite RH2. intros X. now elim (NC X).
Qed.

Lemma iruns_SW : forall dbg ops, Forall no_failure ops -> ipolite ops -> SW ops (iruns dbg ops) /\ iruns dbg ops = iruns false ops.
Proof.
  intros dbg ops. induction ops as [|o t IH] using rev_ind; intros F P.
  - split; [|reflexivity]. constructor; cbn; try discriminate; try reflexivity. intros [].
  - apply Forall_app in F as (F1 & F2). inversion F2; subst. apply ipolite_app in P as (P1 & P2).
    destruct (IH F1 P1) as (A & B). rewrite !iruns_snoc. rewrite B in *.
    assert (E : istep dbg (iruns false t) o = istep false (iruns false t) o).
    { destruct dbg; [|reflexivity]. apply istep_dbg. intros X. apply P2. exact (sw_eof _ _ A X). }
    rewrite E. split; [|reflexivity]. apply istep_SW; auto. apply iruns_SI.
Qed.

(** the end of file is not forgotten *)
Definition ended_or_pending (s : bch (D:=stdin)) : Prop :=
  (i_pipe (bc_dst s) = PClosed /\ i_ended (bc_dst s) = true) \/ bc_eof s = true.

Lemma istep_SE : forall ops s o, SI ops s -> SW ops s -> no_failure o -> In InEof ops ->
  (o <> InEof /\ (forall p x, o <> InData p x) /\ o <> InPty) -> i_tty (bc_dst s) = false ->
  ended_or_pending s -> ended_or_pending (istep false s o) /\ i_tty (bc_dst (istep false s o)) = false.
Proof.
  intros ops s o [G LV DF EN SC EO TY] [A HE WR CL EF] NF IE (O1 & O2 & O3) T H.
  destruct o as [p a| | | | |a]; try congruence; cbn [istep].
  - rewrite T. unfold bstep. rewrite A. cbn [bc_dst]. unfold stdin_open. destruct (i_pipe (bc_dst s)) eqn:P; (split; [|cbn; try exact T]).
    + destruct H as [(X & _)|X]; [congruence|]. right. exact X.
    + destruct H as [(X & _)|X]; [congruence|]. right. exact X.
    + destruct H as [(X & Y)|X]; [left; split; assumption|right; exact X].
  - assert (K : ended_or_pending (bstep stdin_data stdin_eof false s (BOther stdin_enable)) /\ i_tty (bc_dst (bstep stdin_data stdin_eof false s (BOther stdin_enable))) = false).
    { unfold bstep. rewrite A. split; [|exact T]. destruct H as [H|H]; [left; exact H|right; exact H]. }
    rewrite T. destruct (i_pipe (bc_dst s)); [split; assumption|exact K|exact K].
  - destruct (i_sched (bc_dst s)) eqn:SCH; [|split; assumption]. specialize (SC eq_refl).
    unfold bstep. rewrite A. cbn [bc_assert]. unfold ReadBuffer. cbn [bc_queue bc_dst bc_eof].
    set (d0 := i_schedule false (i_set_answers a (bc_dst s))).
    destruct (read_queue_stdin (bc_queue s) d0) as (SA & _ & _ & _ & RH & RW). cbv zeta in *.
    destruct (read_queue stdin_data (bc_queue s) d0) as [q' d']. cbn [fst snd] in *.
    destruct (RH NF) as (RH1 & RH2). change (i_pipe d0) with (i_pipe (bc_dst s)) in RH2.
    assert (P : i_pipe (bc_dst s) = POpen) by (unfold i_destination in SC; rewrite T in SC; destruct (i_pipe (bc_dst s)); congruence).
    destruct H as [(X & _)|X]; [congruence|]. rewrite X.
    pose proof (same_tty _ _ SA) as T'. change (i_tty d0) with (i_tty (bc_dst s)) in T'. rewrite T in T'.
    destruct q' as [|c q']; [|split; [now right|exact T']]. unfold stdin_eof. rewrite RH2, P. unfold i_close. rewrite RH2, P. split; [left; split; reflexivity|exact T'].
Qed.

Lemma iruns_tty : forall ops, ~ In InPty ops -> i_tty (bc_dst (iruns false ops)) = false.
Proof.
  induction ops as [|o t IH] using rev_ind; intros N0; [reflexivity|]. rewrite iruns_snoc.
  specialize (IH ltac:(intros X; apply N0, in_or_app; now left)). pose proof (iruns_no_assert t) as A. set (s := iruns false t) in *. clearbody s.
  destruct o; cbn [istep].
  - unfold bstep at 2. rewrite A. unfold bstep. cbn [bc_assert]. unfold OnData. cbn [andb bc_queue bc_dst].
    destruct (bc_queue s); [|exact IH]. pose proof (stdin_data_same (i_set_answers a (bc_dst s)) p) as SA.
    destruct (stdin_data _ _) as [n d]. cbn [bc_dst snd] in *. rewrite (same_tty _ _ SA). exact IH.
  - unfold bstep. rewrite A. unfold OnEof. cbn [andb]. destruct (bc_queue s); [|exact IH]. cbn [bc_dst]. unfold stdin_eof, i_close. destruct (i_pipe (bc_dst s)); exact IH.
  - exfalso. apply N0, in_or_app. right. now left.
  - rewrite IH. unfold bstep. rewrite A. cbn [bc_dst]. unfold stdin_open. destruct (i_pipe (bc_dst s)); exact IH.
  - rewrite IH. destruct (i_pipe (bc_dst s)); [exact IH| |]; unfold bstep; rewrite A; exact IH.
  - destruct (i_sched (bc_dst s)); [|exact IH]. unfold bstep. rewrite A. cbn [bc_assert]. unfold ReadBuffer. cbn [bc_queue bc_dst bc_eof].
    set (d0 := i_schedule false (i_set_answers a (bc_dst s))).
    destruct (read_queue_stdin (bc_queue s) d0) as (SA & _). cbv zeta in *.
    destruct (read_queue stdin_data (bc_queue s) d0) as [q' d']. cbn [fst snd] in *.
    pose proof (same_tty _ _ SA) as T'. change (i_tty d0) with (i_tty (bc_dst s)) in T'. rewrite IH in T'.
    destruct q'; [|exact T']. destruct (bc_eof s); [|exact T']. cbn [bc_dst]. unfold stdin_eof, i_close. destruct (i_pipe d'); exact T'.
Qed.

Lemma iruns_SE : forall pre post, Forall no_failure (pre ++ InEof :: post) -> ipolite (pre ++ InEof :: post) -> ~ In InPty (pre ++ InEof :: post) ->
  (i_pipe (bc_dst (iruns false pre)) = POpen \/ bc_queue (iruns false pre) <> []) ->
  ended_or_pending (iruns false (pre ++ InEof :: post)).
Proof.
  intros pre post. induction post as [|o t IH] using rev_ind; intros F P NP H.
  - apply ipolite_app in P as (_ & P). rewrite iruns_snoc.
    apply Forall_app in F as (F & _). 
    pose proof (iruns_no_assert pre) as A. pose proof (iruns_tty pre ltac:(intros X; apply NP, in_or_app; now left)) as T.
    set (s := iruns false pre) in *. cbn [istep]. unfold bstep. rewrite A. unfold OnEof. cbn [andb].
    destruct (bc_queue s) as [|c q] eqn:Q; [|now right]. destruct H as [H|H]; [|congruence].
    left. cbn [bc_dst]. unfold stdin_eof, i_close. rewrite H. split; reflexivity.
  - rewrite app_comm_cons, app_assoc in *. set (ops := pre ++ InEof :: t) in *.
    assert (IE : In InEof ops) by (apply in_or_app; right; now left).
    apply Forall_app in F as (F1 & F2). inversion F2; subst. pose proof (ipolite_app _ _ P) as (P1 & P2).
    destruct (P2 IE) as (Q1 & Q2). rewrite iruns_snoc.
    assert (NP' : ~ In InPty ops) by (intros X; apply NP, in_or_app; now left).
    assert (NO : o <> InPty) by (intros ->; apply NP, in_or_app; right; now left).
    apply (istep_SE ops); auto.
    + apply iruns_SI.
    + apply (iruns_SW false ops F1 P1).
    + now apply iruns_tty.
Qed.
