(** Proofs about the path of data from the client to a channel. *)

From Coq Require Import NArith List Bool Lia String.
From Verif.Base Require Import Bytes.
From Verif.Model Require Import Wire Frame Packets Requests Channels Buffered RecvWindow.
From Verif.Spec Require Import FrameSpec OutputSpec InputSpec EndToEndSpec ChannelSpec PipelineSpec.
From Verif.Proofs Require Import ChannelSteps ChannelStatus ChannelObjects ChannelFacts.
Import ListNotations.
Open Scope N_scope.

Lemma calls_app : forall u a b, calls u (a ++ b) = calls u b ++ calls u a.
Proof.
  intros u a b. induction a as [|e a IH]; [cbn; now rewrite app_nil_r|].
  destruct e; cbn [app calls]; try exact IH. destruct c; try exact IH; destruct (u0 =? u); rewrite IH; try reflexivity; now rewrite app_assoc.
Qed.

Lemma calls_fresh : forall u l, Forall (below u) l -> calls u l = [].
Proof.
  intros u l H. induction H as [|e t (A & _) Ht IH]; [reflexivity|].
  destruct e; cbn [calls]; try exact IH. cbn [tag] in A. assert (X : (u0 =? u) = false) by (apply N.eqb_neq; lia).
  destruct c; try exact IH; now rewrite X.
Qed.

Definition silent (evs : list cev) : Prop :=
  Forall (fun e => match e with Called _ _ (CbData _) | Called _ _ CbEof => False | _ => True end) evs.

Lemma calls_silent : forall u evs, silent evs -> calls u evs = [].
Proof.
  intros u evs H. induction H as [|e t A Ht IH]; [reflexivity|]. destruct e; cbn [calls]; try exact IH.
  destruct c; try exact IH; contradiction.
Qed.

Lemma deaths_silent : forall f, silent (deaths f).
Proof.
  intros f. apply Forall_forall. intros e H. unfold deaths in H. apply in_rev, in_flat_map in H as (n & _ & H).
  unfold death_event in H. destruct (f n) as [[g w [|]| | |c]|]; try destruct H as [<-|[]]; try destruct H; exact Logic.I.
Qed.

(** what an operation says on a channel *)
Definition items (n : N) (o : cop) : list item := spoken n (handed [o]).

(** [more s s' evs]: [evs] has been appended to the log *)
Definition more (s s' : cstate) (evs : list cev) : Prop := cs_log s' = evs ++ cs_log s.

Lemma more_trans : forall a b c x y, more a b x -> more b c y -> more a c (y ++ x).
Proof. unfold more. intros a b c x y H K. rewrite K, H. now rewrite app_assoc. Qed.

Lemma more_die : forall r s, exists evs, more s (die r s) evs /\ silent evs.
Proof.
  intros r s. destruct (die_spec r s) as (L & _). exists (deaths (cs_slots s) ++ [Died r]). split.
  - unfold more. rewrite L. now rewrite <- app_assoc.
  - apply Forall_app. split; [apply deaths_silent|repeat constructor].
Qed.

Definition quietly (s s' : cstate) : Prop := exists evs, more s s' evs /\ silent evs.

Lemma q_refl : forall s s', cs_log s' = cs_log s -> quietly s s'.
Proof. intros s s' H. exists []. split; [exact H|constructor]. Qed.
Lemma q_trans : forall a b c, quietly a b -> quietly b c -> quietly a c.
Proof.
  intros a b c (x & H & S) (y & K & T). exists (y ++ x). split; [eapply more_trans; eassumption|]. apply Forall_app. now split.
Qed.
Lemma q_log : forall s s' e, quietly s s' -> silent [e] -> quietly s (log e s').
Proof. intros s s' e H K. eapply q_trans; [exact H|]. exists [e]. split; [reflexivity|exact K]. Qed.
Lemma q_slot : forall s s' n v, quietly s s' -> quietly s (set_slot n v s').
Proof. intros s s' n v H. eapply q_trans; [exact H|]. now apply q_refl. Qed.
Lemma q_put : forall s s' n t c, quietly s s' -> quietly s (put n t c s').
Proof. intros. now apply q_slot. Qed.
Lemma q_fresh : forall s s', quietly s s' -> quietly s (fresh s').
Proof. intros s s' H. eapply q_trans; [exact H|]. now apply q_refl. Qed.
Lemma q_die : forall s s' r, quietly s s' -> quietly s (die r s').
Proof. intros s s' r H. eapply q_trans; [exact H|]. apply more_die. Qed.
Lemma q_delete : forall s s' n v, quietly s s' -> quietly s (delete_slot n v s').
Proof.
  intros s s' n v H. unfold delete_slot. destruct v as [[f w [|]| | |c]|]; try exact H; apply q_log; try exact H; repeat constructor.
Qed.
Lemma q_replies : forall n c rs s s', quietly s s' -> quietly s (send_replies n c rs s').
Proof.
  intros n c rs. induction rs as [|b t IH]; intros s s' H; cbn [send_replies]; [exact H|].
  apply IH. apply q_log; [exact H|]. repeat constructor.
Qed.
Lemma q_submit : forall n t c x s s', quietly s s' -> quietly s (submit_replies n t c x s').
Proof.
  intros n t c [[rs l] []] s s' H; unfold submit_replies; [apply q_die|]; now apply q_put, q_replies.
Qed.
Lemma q_confirm : forall n peer w r s s', quietly s s' -> quietly s (confirm n peer w r s').
Proof.
  intros. unfold confirm. cbv zeta. apply q_slot. apply q_log; [|repeat constructor]. apply q_log; [|repeat constructor]. now apply q_fresh.
Qed.
Lemma q_onchan : forall n s f, (forall c, quietly s (f c)) -> quietly s (on_chan n s f).
Proof. intros n s f H. unfold on_chan. destruct (cs_slots s n) as [[| | |]|]; try now apply q_refl. apply H. Qed.

Ltac qui :=
  cbv zeta; repeat match goal with
  | |- quietly _ (match ?x with _ => _ end) => destruct x
  | |- quietly _ (submit_replies _ _ _ _ _) => apply q_submit
  | |- quietly _ (confirm _ _ _ _ _) => apply q_confirm
  | |- quietly _ (delete_slot _ _ _) => apply q_delete
  | |- quietly _ (die _ _) => apply q_die
  | |- quietly _ (put _ _ _ _) => apply q_put
  | |- quietly _ (set_slot _ _ _) => apply q_slot
  | |- quietly _ (fresh _) => apply q_fresh
  | |- quietly _ (send_replies _ _ _ _) => apply q_replies
  | |- quietly _ (log _ _) => apply q_log; [|repeat constructor]
  | |- quietly ?s ?s => apply q_refl; reflexivity
  end.

Lemma quiet_op : forall E s o, (forall msg p r, o = OpPacket msg p r -> msg <> 94 /\ msg <> 96) -> quietly s (cstep E s o).
Proof.
  intros E s o H. unfold cstep. destruct (cs_dead s); [now apply q_refl|]. destruct o as [msg p r| | | | | | | | | | | | |].
  - destruct (H msg p r eq_refl) as (A & B). unfold HandlePacket. cbv zeta.
    destruct msg as [|m]; [now apply q_refl|].
    do 7 (destruct m as [m|m|]; try now apply q_refl); try (exfalso; now (apply A || apply B));
    unfold HandleChannelOpen, HandleChannelOpenConfirmation, HandleChannelOpenFailure, HandleChannelWindowAdjust, HandleChannelExtendedData, deliver, notify, HandleChannelClose, HandleChannelRequest, HandleChannelSuccess, HandleChannelFailure, notify.
    all: qui.
  - unfold OpenChannel. qui.
  - qui.
  - qui.
  - qui.
  - apply q_onchan. intros c. unfold CloseChannel. qui.
  - apply q_onchan. intros c. qui.
  - apply q_onchan. intros c. qui.
  - apply q_onchan. intros c. qui.
  - apply q_onchan. intros c. qui.
  - apply q_onchan. intros c. qui.
  - apply q_onchan. intros c. qui.
  - apply q_onchan. intros c. qui.
  - qui.
Qed.

(** reading the two messages *)
Lemma read_data : forall n p, item_of n (94 :: p) =
  match ParseChannelData p with Some q => if cd_local_channel q =? n then [Data (cd_data q)] else [] | None => [] end.
Proof.
  intros n p. unfold ParseChannelData, ReadLengthEncoded, ReadU32, ReadN. destruct p as [|a [|b [|c [|e p]]]]; try reflexivity.
  cbn [obind]. destruct p as [|f [|g [|h [|i p]]]]; try reflexivity. cbn [obind item_of].
  destruct (len p <? un_be32 f g h i) eqn:L.
  - cbn [obind]. apply N.ltb_lt in L. destruct (un_be32 f g h i =? len p) eqn:E; [apply N.eqb_eq in E; lia|]. now rewrite andb_false_r.
  - cbn [obind]. apply N.ltb_ge in L. destruct (un_be32 f g h i =? len p) eqn:E.
    + apply N.eqb_eq in E. rewrite E. rewrite andb_true_r. unfold drop, take, len. rewrite Nnat.Nat2N.id, skipn_all, firstn_all. reflexivity.
    + apply N.eqb_neq in E. rewrite andb_false_r. destruct (drop (un_be32 f g h i) p) as [|x t] eqn:D; [|reflexivity].
      exfalso. assert (X : len (drop (un_be32 f g h i) p) = 0) by now rewrite D. unfold drop, len in *. rewrite skipn_length in X. lia.
Qed.

Lemma read_eof : forall n p, item_of n (96 :: p) =
  match ParseChannelEof p with Some k => if k =? n then [Eof] else [] | None => [] end.
Proof.
  intros n p. unfold ParseChannelEof, ReadU32. destruct p as [|a [|b [|c [|e p]]]]; try reflexivity.
  cbn [obind]. destruct p; reflexivity.
Qed.

Lemma read_other : forall n msg p, msg <> 94 -> msg <> 96 -> item_of n (msg :: p) = [].
Proof.
  intros n msg p A B. unfold item_of. destruct msg as [|m]; [reflexivity|].
  do 7 (destruct m as [m|m|]; try reflexivity); exfalso; now (apply A || apply B).
Qed.

Lemma items_packet : forall n msg p r, items n (OpPacket msg p r) = item_of n (msg :: p).
Proof. intros. unfold items, spoken, handed. cbn [flat_map app]. apply app_nil_r. Qed.

(** The effect of one operation: it makes at most one call, of the object
    which has this number.  If the connection survives, it makes the call. *)
Lemma step_calls : forall E s o, exists evs, more s (cstep E s o) evs /\
  (forall u, calls u evs = [] \/ exists n c, cs_slots s n = Some (SChan c) /\ c_uid c = u /\ calls u evs = items n o) /\
  (forall n c, cs_slots s n = Some (SChan c) -> n < CHANNELS -> cs_dead (cstep E s o) = false -> calls (c_uid c) evs = [] -> items n o = []).
Proof.
  intros E s o. destruct (cs_dead s) eqn:D.
  { exists []. unfold cstep. rewrite D. split; [reflexivity|]. split; [now left|]. intros n c _ _ D'. congruence. }
  assert (Q : (forall msg p r, o = OpPacket msg p r -> msg <> 94 /\ msg <> 96) \/ exists p r, o = OpPacket 94 p r \/ o = OpPacket 96 p r).
  { destruct o; try (left; discriminate). destruct (N.eq_dec msg 94) as [->|A]; [right; eauto|]. destruct (N.eq_dec msg 96) as [->|B]; [right; eauto|].
    left. intros ? ? ? X. inversion X; subst; auto. }
  destruct Q as [Q|(p & r & [-> | ->])].
  - destruct (quiet_op E s o Q) as (evs & M & S). exists evs. split; [exact M|]. split; [intros u; left; now apply calls_silent|].
    intros n c _ _ _ _. destruct o; try reflexivity. destruct (Q _ _ _ eq_refl). rewrite items_packet. now apply read_other.
  - assert (IT : forall n, items n (OpPacket 94 p r) = item_of n (94 :: p)) by (intros; apply items_packet).
    setoid_rewrite IT. setoid_rewrite read_data. unfold cstep. rewrite D. cbn [HandlePacket]. unfold HandleChannelData, deliver.
    destruct (ParseChannelData p) as [q|] eqn:PQ.
    2: { destruct (q_die s (log (Received 94 p) s) MALFORMED) as (evs & M & S); [apply q_log; [now apply q_refl|repeat constructor]|].
         exists evs. split; [exact M|]. split; [intros u; left; now apply calls_silent|]. reflexivity. }
    destruct (GetChannel (log (Received 94 p) s) (cd_local_channel q)) as [[t c]|] eqn:G.
    2: { destruct (q_die s (log (Received 94 p) s) BAD_CHANNEL) as (evs & M & S); [apply q_log; [now apply q_refl|repeat constructor]|].
         exists evs. split; [exact M|]. split; [intros u; left; now apply calls_silent|]. intros n c _ _ D'.
         destruct (die_spec BAD_CHANNEL (log (Received 94 p) s)) as (_ & _ & X & _). rewrite X in D'. discriminate. }
    destruct (get_chan _ _ _ _ G) as (G2 & G1). cbn [log cs_slots] in G2.
    destruct (c_rwin c <? len (cd_data q)).
    { destruct (q_die s (log (Received 94 p) s) DError) as (evs & M & S); [apply q_log; [now apply q_refl|repeat constructor]|].
         exists evs. split; [exact M|]. split; [intros u; left; now apply calls_silent|]. intros n c' _ _ D'.
         destruct (die_spec DError (log (Received 94 p) s)) as (_ & _ & X & _). rewrite X in D'. discriminate. }
    destruct t.
    + exists [Dropped (cd_local_channel q) (c_uid c) (cd_data q); Received 94 p]. split; [reflexivity|]. split; [intros u; now left|].
      intros n c' S1 S2 _ _. destruct (cd_local_channel q =? n) eqn:X; [|reflexivity]. apply N.eqb_eq in X. subst n. congruence.
    + set (s1 := log (Called (cd_local_channel q) (c_uid c) (CbData (cd_data q))) (log (Received 94 p) s)).
      assert (Z : exists evs, silent evs /\ more s1 (if rx_throws r then die DError s1 else s1) evs).
      { destruct (rx_throws r); [destruct (more_die DError s1) as (evs & M & S); eauto|]. exists []. split; [constructor|reflexivity]. }
      destruct Z as (evs & S & M). exists (evs ++ [Called (cd_local_channel q) (c_uid c) (CbData (cd_data q)); Received 94 p]).
      split; [eapply more_trans; [|exact M]; reflexivity|]. split.
      * intros u. rewrite calls_app, (calls_silent u evs S). cbn [calls app]. rewrite app_nil_r. destruct (c_uid c =? u) eqn:X; [|now left].
        apply N.eqb_eq in X. right. exists (cd_local_channel q), c. rewrite N.eqb_refl. auto.
      * intros n c' S1 S2 _ K. rewrite calls_app, (calls_silent _ evs S) in K. cbn [calls app] in K. rewrite app_nil_r in K.
        destruct (cd_local_channel q =? n) eqn:X; [|reflexivity]. apply N.eqb_eq in X. subst n.
        assert (c' = c) by congruence. subst c'. rewrite N.eqb_refl in K. discriminate.
  - assert (IT : forall n, items n (OpPacket 96 p r) = item_of n (96 :: p)) by (intros; apply items_packet).
    setoid_rewrite IT. setoid_rewrite read_eof. unfold cstep. rewrite D. cbn [HandlePacket]. unfold HandleChannelEof, notify.
    destruct (ParseChannelEof p) as [k|] eqn:PQ.
    2: { destruct (q_die s (log (Received 96 p) s) MALFORMED) as (evs & M & S); [apply q_log; [now apply q_refl|repeat constructor]|].
         exists evs. split; [exact M|]. split; [intros u; left; now apply calls_silent|]. reflexivity. }
    destruct (GetChannel (log (Received 96 p) s) k) as [[t c]|] eqn:G.
    2: { destruct (q_die s (log (Received 96 p) s) BAD_CHANNEL) as (evs & M & S); [apply q_log; [now apply q_refl|repeat constructor]|].
         exists evs. split; [exact M|]. split; [intros u; left; now apply calls_silent|]. intros n c _ _ D'.
         destruct (die_spec BAD_CHANNEL (log (Received 96 p) s)) as (_ & _ & X & _). rewrite X in D'. discriminate. }
    destruct (get_chan _ _ _ _ G) as (G2 & G1). cbn [log cs_slots] in G2.
    destruct t.
    + exists [Received 96 p]. split; [reflexivity|]. split; [intros u; now left|].
      intros n c' S1 S2 _ _. destruct (k =? n) eqn:X; [|reflexivity]. apply N.eqb_eq in X. subst n. congruence.
    + set (s1 := log (Called k (c_uid c) CbEof) (log (Received 96 p) s)).
      assert (Z : exists evs, silent evs /\ more s1 (if rx_throws r then die DError s1 else s1) evs).
      { destruct (rx_throws r); [destruct (more_die DError s1) as (evs & M & S); eauto|]. exists []. split; [constructor|reflexivity]. }
      destruct Z as (evs & S & M). exists (evs ++ [Called k (c_uid c) CbEof; Received 96 p]).
      split; [eapply more_trans; [|exact M]; reflexivity|]. split.
      * intros u. rewrite calls_app, (calls_silent u evs S). cbn [calls app]. rewrite app_nil_r. destruct (c_uid c =? u) eqn:X; [|now left].
        apply N.eqb_eq in X. right. exists k, c. rewrite N.eqb_refl. auto.
      * intros n c' S1 S2 _ K. rewrite calls_app, (calls_silent _ evs S) in K. cbn [calls app] in K. rewrite app_nil_r in K.
        destruct (k =? n) eqn:X; [|reflexivity]. apply N.eqb_eq in X. subst n.
        assert (c' = c) by congruence. subst c'. rewrite N.eqb_refl in K. discriminate.
Qed.

(** ** Which objects exist *)

Definition holds (o : option slot) (u : N) : Prop := exists c, o = Some (SChan c) /\ c_uid c = u.
Definition exact_lives (s : cstate) : Prop :=
  forall n u, lives n u (cs_log s) <-> cs_dead s = false /\ holds (cs_slots s n) u.

(** neither creation nor destruction *)
Definition plain (evs : list cev) : Prop :=
  Forall (fun e => match e with Created _ _ _ _ _ | Destroyed _ _ => False | _ => True end) evs.

Lemma plain_created : forall n u evs l, plain evs -> created n u (evs ++ l) <-> created n u l.
Proof.
  intros n u evs l P. unfold created. split; intros (a & b & c & H); exists a, b, c; [|apply in_or_app; now right].
  apply in_app_or in H as [H|H]; [|exact H]. unfold plain in P. rewrite Forall_forall in P. destruct (P _ H).
Qed.
Lemma plain_destroyed : forall n u evs l, plain evs -> In (Destroyed n u) (evs ++ l) <-> In (Destroyed n u) l.
Proof.
  intros n u evs l P. split; intros H; [|apply in_or_app; now right].
  apply in_app_or in H as [H|H]; [|exact H]. unfold plain in P. rewrite Forall_forall in P. destruct (P _ H).
Qed.
Lemma plain_lives : forall n u evs l, plain evs -> lives n u (evs ++ l) <-> lives n u l.
Proof. intros. unfold lives. now rewrite plain_created, plain_destroyed. Qed.

Lemma replies_plain : forall n u p rs, plain (reply_events n u p rs).
Proof.
  intros. apply Forall_forall. intros e H. unfold reply_events in H. apply in_rev, in_map_iff in H as (b & <- & _). exact Logic.I.
Qed.
Lemma finish_plain : forall u id o, plain (finish_events u id o).
Proof. intros u id [b| |]; repeat constructor. Qed.
Lemma plain_app : forall a b, plain a -> plain b -> plain (a ++ b).
Proof. intros a b A B. apply Forall_app. now split. Qed.

Ltac pl := repeat match goal with
  | |- plain (reply_events _ _ _ _) => apply replies_plain
  | |- plain (finish_events _ _ _) => apply finish_plain
  | |- plain (_ :: _) => constructor; [exact Logic.I|]
  | |- plain [] => constructor
  | |- plain (_ ++ _) => apply plain_app
  | |- Forall _ [] => constructor
  | |- Forall _ (_ :: _) => constructor; [exact Logic.I|]
  end.

Lemma lives_A : forall s s' n v evs inc, exact_lives s -> goes s s' n v evs inc -> plain evs ->
  (forall u, holds v u <-> holds (cs_slots s n) u) -> exact_lives s'.
Proof.
  intros s s' n v evs inc J (G1 & G2 & G3 & G4 & G5) P H k u. rewrite G2, plain_lives by exact P. rewrite (J k u), G4, G5, G1.
  destruct (k =? n) eqn:E; [apply N.eqb_eq in E; subst k; now rewrite H|reflexivity].
Qed.

Lemma lives_B : forall s s' n c evs inc, exact_lives s -> I2 s -> goes s s' n (Some (SChan c)) evs inc -> c_uid c = cs_next s ->
  (forall u, ~ holds (cs_slots s n) u) ->
  (exists a peer w w' b, evs = a ++ Created n (cs_next s) peer w w' :: b /\ plain a /\ plain b) -> exact_lives s'.
Proof.
  intros s s' n c evs inc J K (G1 & G2 & G3 & G4 & G5) U NH (a & peer & w & w' & b & -> & P1 & P2) k u.
  rewrite G2, <- app_assoc, plain_lives by exact P1. cbn [app]. rewrite G5, G1.
  assert (D : forall l, In (Destroyed k u) (Created n (cs_next s) peer w w' :: b ++ l) <-> In (Destroyed k u) l).
  { intros l. split; [intros [H|H]; [discriminate|]; now apply plain_destroyed in H|]. intros H. right. now apply plain_destroyed. }
  assert (NB : ~ In (Destroyed k (cs_next s)) (cs_log s)).
  { intros H. pose proof (i2_below _ K) as B. rewrite Forall_forall in B. destruct (B _ H) as (X & _). cbn [tag] in X. lia. }
  assert (NC : ~ created k (cs_next s) (cs_log s)).
  { intros (x & y & z & H). pose proof (i2_below _ K) as B. rewrite Forall_forall in B. destruct (B _ H) as (X & _). cbn [tag] in X. lia. }
  assert (C : created k u (Created n (cs_next s) peer w w' :: b ++ cs_log s) <-> (k = n /\ u = cs_next s) \/ created k u (cs_log s)).
  { split.
    - intros (x & y & z & [H|H]); [left; inversion H; auto|]. right. apply (plain_created k u b); [exact P2|]. exists x, y, z. exact H.
    - intros [[-> ->]|H]; [exists peer, w, w'; now left|]. apply (plain_created k u b) in H; [|exact P2]. destruct H as (x & y & z & H).
      exists x, y, z. now right. }
  unfold lives at 1. rewrite D, C. split.
  - intros ([(-> & ->)|CR] & ND).
    + rewrite N.eqb_refl. split; [reflexivity|]. exists c. auto.
    + assert (L : lives k u (cs_log s)) by now split. apply J in L as (_ & L). split; [reflexivity|].
      destruct (k =? n) eqn:E; [|exact L]. apply N.eqb_eq in E. subst k. destruct (NH _ L).
  - intros (_ & L). destruct (k =? n) eqn:E.
    + apply N.eqb_eq in E. subst k. destruct L as (c' & L1 & L2). inversion L1; subst c'. subst u. rewrite U. split; [left; auto|]. exact NB.
    + assert (L' : lives k u (cs_log s)) by (apply J; auto). destruct L' as (X & Y). split; [now right|exact Y].
Qed.

Lemma lives_C : forall s s' n v c evs inc, exact_lives s -> goes s s' n v evs inc -> cs_slots s n = Some (SChan c) ->
  (forall u, ~ holds v u) ->
  (exists b, evs = Destroyed n (c_uid c) :: b /\ plain b) -> exact_lives s'.
Proof.
  intros s s' n v c evs inc J (G1 & G2 & G3 & G4 & G5) S NH (b & -> & P) k u. rewrite G2, G5, G1. cbn [app].
  assert (C : created k u (Destroyed n (c_uid c) :: b ++ cs_log s) <-> created k u (cs_log s)).
  { rewrite <- (plain_created k u b (cs_log s)) by exact P. split; intros (x & y & z & H); exists x, y, z; [destruct H as [H|H]; [discriminate|exact H]|now right]. }
  unfold lives at 1. rewrite C. split.
  - intros (X & Y). assert (L : lives k u (cs_log s)) by (split; [exact X|]; intros H; apply Y; right; now apply plain_destroyed).
    apply J in L as (_ & L). split; [reflexivity|]. destruct (k =? n) eqn:E; [|exact L]. apply N.eqb_eq in E. subst k. destruct L as (c' & L1 & L2).
    exfalso. apply Y. left. congruence.
  - intros (_ & L). destruct (k =? n) eqn:E; [destruct (NH _ L)|]. apply N.eqb_neq in E.
    assert (L' : lives k u (cs_log s)) by (apply J; auto). destruct L' as (X & Y). split; [exact X|].
    intros [H|H]; [congruence|]. apply plain_destroyed in H; auto.
Qed.

Lemma lives_D : forall E P s n v evs inc s1 r, exact_lives s -> I1 s -> allowedD E P s n v evs inc -> goes s s1 n v evs inc -> exact_lives (die r s1).
Proof.
  intros E P s n v evs inc s1 r J (K & _) A (G1 & G2 & G3 & G4 & G5) k u. destruct (die_spec r s1) as (L & _ & X & _). rewrite X. split; [|intros (F & _); discriminate].
  intros (C & ND). exfalso.
  assert (PE : plain evs /\ forall u, holds (cs_slots s n) u -> holds v u).
  { destruct A as [n|n p c f w S|n c want ty d o S|n c want ty d o rs l S|n c want rs l S|n c id b rs l S]; (split;
      [pl|]); auto.
    - intros x (c' & Y & _). rewrite S in Y. discriminate.
    - intros x (c' & Y & Z). rewrite S in Y. inversion Y; subst c'. eexists. split; [reflexivity|exact Z].
    - intros x (c' & Y & Z). rewrite S in Y. inversion Y; subst c'. eexists. split; [reflexivity|exact Z].
    - intros x (c' & Y & _). rewrite S in Y. discriminate.
    - intros x (c' & Y & Z). rewrite S in Y. inversion Y; subst c'. eexists. split; [reflexivity|exact Z]. }
  destruct PE as (PE & HV). rewrite L in C, ND.
  assert (C1 : created k u (cs_log s)).
  { destruct C as (x & y & z & C). apply in_app_or in C as [C|[C|C]]; [|discriminate|].
    - exfalso. unfold deaths in C. apply in_rev, in_flat_map in C as (i & _ & C). unfold death_event in C.
      destruct (cs_slots s1 i) as [[g w [|]| | |c]|]; try (destruct C as [C|[]]; discriminate); destruct C.
    - rewrite G2 in C. apply (plain_created k u evs); [exact PE|]. exists x, y, z. exact C. }
  assert (LV : lives k u (cs_log s)).
  { split; [exact C1|]. intros H. apply ND. apply in_or_app. right. right. rewrite G2. now apply plain_destroyed. }
  apply J in LV as (_ & H). pose proof H as H0. destruct (K G4 k) as (_ & SO). destruct H0 as (c0 & S0 & U0). rewrite S0 in SO.
  assert (H1 : holds (cs_slots s1 k) u) by (rewrite G1; destruct (k =? n) eqn:Q; [apply N.eqb_eq in Q; subst k; now apply HV|exact H]).
  destruct H1 as (c1 & S1 & U1). apply ND. apply in_or_app. left. unfold deaths. apply in_rev. rewrite rev_involutive. apply in_flat_map. exists k.
  split; [apply indexes_in; exact SO|]. unfold death_event. rewrite S1. left. congruence.
Qed.

Lemma holds_same : forall o c c', o = Some (SChan c) -> c_uid c' = c_uid c -> forall u, holds (Some (SChan c')) u <-> holds o u.
Proof.
  intros o c c' -> U u. split; intros (x & X & Y); inversion X; subst x; eexists; (split; [reflexivity|congruence]).
Qed.
Lemma holds_none : forall o o', (forall u, ~ holds o u) -> (forall u, ~ holds o' u) -> forall u, holds o u <-> holds o' u.
Proof. intros o o' A B u. split; intros H; [destruct (A _ H)|destruct (B _ H)]. Qed.
Definition nochan (o : option slot) : bool := match o with Some (SChan _) => false | _ => true end.
Lemma nochan_holds : forall o o', o = o' -> nochan o' = true -> forall u, ~ holds o u.
Proof. intros o o' -> H u (c & -> & _). discriminate. Qed.

Lemma lives_go : forall E P s s' n v evs inc, exact_lives s -> I2 s -> allowed E P s n v evs inc -> goes s s' n v evs inc -> exact_lives s'.
Proof.
  intros E P s s' n v evs inc J K A G.
  destruct A; match goal with
  | |- _ => eapply lives_A; [exact J|exact G|solve [pl]|]; (solve [eapply holds_same; [eassumption|reflexivity] | apply holds_none; eapply nochan_holds; [first [reflexivity|eassumption]|reflexivity|eassumption|reflexivity] | intros; reflexivity | 
       eapply holds_none; [eapply nochan_holds; reflexivity|eapply nochan_holds; [eassumption|reflexivity]]])
  | H : cs_slots s n = Some (SChan _) |- _ => eapply lives_C; [exact J|exact G|exact H|eapply nochan_holds; reflexivity|eexists; split; [reflexivity|pl]]
  | H : cs_slots s n = _ |- _ => eapply lives_B; [exact J|exact K|exact G|reflexivity|eapply nochan_holds; [exact H|reflexivity]|]
  end.
  - exists [Sent n (cs_next s) (CConf peer n (rwin mod pow32) MAXIMUM_PACKET_SIZE)], peer, w, rwin, []. split; [reflexivity|]. split; pl.
  - exists [], (cc_peer_channel c), (cc_initial_window_size c), w, [Factory f FCreate; Received 91 p]. split; [reflexivity|]. split; pl.
Qed.

Definition sound_event (s : cstate) (n : N) (e : cev) : Prop :=
  match e with
  | Created k v _ _ _ => k = n /\ v = cs_next s
  | Called k v _ => holds (cs_slots s k) v
  | _ => True
  end.

Lemma sound_replies : forall s n k u p rs, Forall (sound_event s n) (reply_events k u p rs).
Proof.
  intros. apply Forall_forall. intros e H. unfold reply_events in H. apply in_rev, in_map_iff in H as (b & <- & _). exact Logic.I.
Qed.
Lemma sound_finish : forall s n u id o, Forall (sound_event s n) (finish_events u id o).
Proof. intros s n u id [b| |]; repeat constructor. Qed.

Ltac sound := repeat match goal with
  | |- Forall _ (reply_events _ _ _ _) => apply sound_replies
  | |- Forall _ (finish_events _ _ _) => apply sound_finish
  | |- Forall _ [] => constructor
  | |- Forall _ (_ :: _) => constructor
  | |- Forall _ (_ ++ _) => apply Forall_app; split
  | |- sound_event _ _ (Called _ _ _) => cbn [sound_event]; eexists; split; [eassumption|reflexivity]
  | |- sound_event _ _ (Created _ _ _ _ _) => split; reflexivity
  | |- sound_event _ _ _ => exact Logic.I
  end.

Lemma allowed_sound : forall E P s n v evs inc, allowed E P s n v evs inc -> Forall (sound_event s n) evs.
Proof. intros E P s n v evs inc A. destruct A; sound. Qed.
Lemma allowedD_sound : forall E P s n v evs inc, allowedD E P s n v evs inc -> Forall (sound_event s n) evs.
Proof. intros E P s n v evs inc A. destruct A; sound. Qed.

Record track (s : cstate) : Prop := {
  tr_lives : exact_lives s;
  tr_unique : forall k k' u, created k u (cs_log s) -> created k' u (cs_log s) -> k = k';
  tr_called : forall k u c, In (Called k u c) (cs_log s) -> created k u (cs_log s)
}.

Lemma created_app : forall k u a b, created k u (a ++ b) <-> created k u a \/ created k u b.
Proof.
  intros k u a b. split.
  - intros (x & y & z & H). apply in_app_or in H as [H|H]; [left|right]; exists x, y, z; exact H.
  - intros [(x & y & z & H)|(x & y & z & H)]; exists x, y, z; apply in_or_app; auto.
Qed.

Lemma track_evs : forall s n evs, track s -> I2 s -> cs_dead s = false -> Forall (sound_event s n) evs ->
  (forall k k' u, created k u (evs ++ cs_log s) -> created k' u (evs ++ cs_log s) -> k = k') /\
  (forall k u c, In (Called k u c) (evs ++ cs_log s) -> created k u (evs ++ cs_log s)).
Proof.
  intros s n evs [T1 T2 T3] K D F. rewrite Forall_forall in F.
  assert (NC : forall k, ~ created k (cs_next s) (cs_log s)).
  { intros k (x & y & z & H). pose proof (i2_below _ K) as B. rewrite Forall_forall in B. destruct (B _ H) as (X & _). cbn [tag] in X. lia. }
  assert (NW : forall k u, created k u evs -> k = n /\ u = cs_next s) by (intros k u (x & y & z & H); exact (F _ H)).
  split.
  - intros k k' u H H'. apply created_app in H as [H|H]; apply created_app in H' as [H'|H'].
    + apply NW in H as (-> & _). apply NW in H' as (-> & _). reflexivity.
    + apply NW in H as (-> & ->). destruct (NC _ H').
    + apply NW in H' as (-> & ->). destruct (NC _ H).
    + exact (T2 _ _ _ H H').
  - intros k u c H. apply created_app. right. apply in_app_or in H as [H|H]; [|exact (T3 _ _ _ H)].
    pose proof (F _ H) as X. cbn [sound_event] in X. apply (T1 k u). auto.
Qed.

Lemma track_reach : forall E P s, mreach E P s -> track s.
Proof.
  intros E P s M. induction M as [|s s' M IH ST].
  - split.
    + intros n u. split; [intros ((x & y & z & []) & _)|intros (_ & (c & H & _)); discriminate].
    + intros k k' u (x & y & z & []).
    + intros k u c [].
  - destruct (I2_reach E P s M) as (K1 & K2). destruct ST as [n v evs inc A G|n v evs inc s1 r A G ->].
    + destruct (track_evs s n evs IH K2 (proj1 (proj2 (proj2 (proj2 G)))) (allowed_sound _ _ _ _ _ _ _ A)) as (U & C).
      pose proof (proj1 (proj2 G)) as L. split; [eapply lives_go; [apply IH|exact K2|exact A|exact G]|rewrite L; exact U|rewrite L; exact C].
    + destruct (track_evs s n evs IH K2 (proj1 (proj2 (proj2 (proj2 G)))) (allowedD_sound _ _ _ _ _ _ _ A)) as (U & C).
      pose proof (proj1 (proj2 G)) as L. destruct (die_spec r s1) as (LD & _).
      assert (DC : forall k u, created k u (cs_log (die r s1)) <-> created k u (evs ++ cs_log s)).
      { intros k u. rewrite LD, <- L. change (Died r :: cs_log s1) with ([Died r] ++ cs_log s1). rewrite !created_app. split; [|tauto].
        intros [(x & y & z & H)|[(x & y & z & H)|H]]; [|destruct H as [H|[]]; discriminate|exact H].
        exfalso. unfold deaths in H. apply in_rev, in_flat_map in H as (i & _ & H). unfold death_event in H.
        destruct (cs_slots s1 i) as [[g w [|]| | |c]|]; try (destruct H as [H|[]]; discriminate); destruct H. }
      split.
      * eapply lives_D; [apply IH|exact K1|exact A|exact G].
      * intros k k' u H H'. apply DC in H, H'. eauto.
      * intros k u c H. apply DC. rewrite LD in H. apply in_app_or in H as [H|[H|H]]; [|discriminate|rewrite L in H; eauto].
        exfalso. unfold deaths in H. apply in_rev, in_flat_map in H as (i & _ & H). unfold death_event in H.
        destruct (cs_slots s1 i) as [[g w [|]| | |c']|]; try (destruct H as [H|[]]; discriminate); destruct H.
Qed.

Lemma cruns_track : forall E ops, track (cruns E ops).
Proof. intros E ops. eapply track_reach, cruns_any. Qed.

Lemma cruns_snoc : forall E ops o, cruns E (ops ++ [o]) = cstep E (cruns E ops) o.
Proof. intros. unfold cruns. now rewrite fold_left_app. Qed.

Lemma lives_dec : forall s n u, exact_lives s -> lives n u (cs_log s) \/ ~ lives n u (cs_log s).
Proof.
  intros s n u J. rewrite (J n u). destruct (cs_dead s); [right; intros (X & _); discriminate|].
  destruct (cs_slots s n) as [[| | |c]|] eqn:S; try (right; intros (_ & c' & X & _); discriminate).
  destruct (N.eq_dec (c_uid c) u) as [E|E]; [left; split; [reflexivity|]; exists c; auto|right; intros (_ & c' & X & Y); congruence].
Qed.
Lemma created_dec : forall n u l, created n u l \/ ~ created n u l.
Proof.
  intros n u l. induction l as [|e l IH]; [right; intros (x & y & z & [])|].
  destruct IH as [(x & y & z & H)|H]; [left; exists x, y, z; now right|].
  destruct e as [ | | |m v p w w'| | | | | | | | |]; try (right; intros (x & y & z & [Q|Q]); [discriminate|apply H; exists x, y, z; exact Q]).
  destruct (N.eq_dec m n) as [->|A]; [destruct (N.eq_dec v u) as [->|B]|]; [left; exists p, w, w'; now left| |];
    right; intros (x & y & z & [Q|Q]); try (inversion Q; congruence); apply H; exists x, y, z; exact Q.
Qed.

Lemma calls_in : forall u l, calls u l <> [] -> exists k c, In (Called k u c) l.
Proof.
  intros u l. induction l as [|e l IH]; [intros H; elim H; reflexivity|]. intros H.
  assert (G : forall x, x <> [] -> x = calls u l -> exists k c, In (Called k u c) (e :: l)).
  { intros x X ->. destruct (IH X) as (k & c & I0). exists k, c. now right. }
  destruct e as [ | | | |m v c| | | | | | | |]; cbn [calls] in H; try (eapply G; [exact H|reflexivity]).
  destruct c; try (eapply G; [exact H|reflexivity]); (destruct (v =? u) eqn:E; [apply N.eqb_eq in E; subst v; eexists _, _; left; reflexivity|eapply G; [exact H|reflexivity]]).
Qed.

Lemma spoken_app : forall n a b, spoken n (a ++ b) = spoken n a ++ spoken n b.
Proof. intros. unfold spoken. apply flat_map_app. Qed.
Lemma handed_app : forall a b, handed (a ++ b) = handed a ++ handed b.
Proof. intros. unfold handed. apply flat_map_app. Qed.

Theorem fate : forall E ops n u, created n u (cs_log (cruns E ops)) ->
  exists before o during after, ops = before ++ o :: during ++ after /\
  ~ created n u (cs_log (cruns E before)) /\ created n u (cs_log (cruns E (before ++ [o]))) /\
  calls u (cs_log (cruns E ops)) = spoken n (handed during) /\
  (lives n u (cs_log (cruns E ops)) -> after = []) /\
  (forall x y, after = x :: y -> ~ lives n u (cs_log (cruns E (before ++ o :: during ++ [x])))).
Proof.
  intros E ops n u. induction ops as [|x ops IH] using rev_ind; intros C; [destruct C as (a & b & c & [])|].
  rewrite cruns_snoc in *. destruct (step_calls E (cruns E ops) x) as (evs & M & S1 & S2).
  pose proof (cruns_track E ops) as T. pose proof (cruns_I2 E ops) as K2. pose proof (cruns_I1 E ops) as K1.
  pose proof (cruns_track E (ops ++ [x])) as T'. rewrite cruns_snoc in T'.
  set (s := cruns E ops) in *. set (s' := cstep E s x) in *. unfold more in M.
  assert (CA : calls u (cs_log s') = calls u (cs_log s) ++ calls u evs) by (rewrite M; apply calls_app).
  assert (HC : calls u evs <> [] -> lives n u (cs_log s)).
  { intros H. destruct (S1 u) as [X|(k & c & X1 & X2 & X3)]; [congruence|].
    destruct (cs_dead s) eqn:D; [exfalso; apply H; unfold s', cstep in M; rewrite D in M; change (cs_log s) with ([] ++ cs_log s) in M at 1; apply app_inv_tail in M; now subst evs|].
    assert (LK : lives k u (cs_log s)) by (apply (tr_lives _ T); split; [exact D|]; exists c; auto).
    assert (k = n); [|now subst k]. apply (tr_unique _ T' k n u); [|exact C]. rewrite M. apply created_app. right. apply LK. }
  destruct (created_dec n u (cs_log s)) as [CS|CS].
  - destruct (IH CS) as (b0 & o & d1 & d2 & E0 & N0 & C0 & Q & L & A).
    destruct (lives_dec s n u (tr_lives _ T)) as [LV|LV].
    + specialize (L LV). subst d2. rewrite app_nil_r in E0. pose proof LV as LV0. apply (tr_lives _ T) in LV0 as (D & c & SL & U). subst u.
      assert (SN : n < CHANNELS) by (destruct (proj1 K1 D n) as (_ & SO); rewrite SL in SO; exact SO).
      assert (W : calls (c_uid c) evs = items n x \/ (calls (c_uid c) evs = [] /\ ~ lives n (c_uid c) (cs_log s'))).
      { destruct (S1 (c_uid c)) as [X|(k & c' & X1 & X2 & X3)].
        - destruct (lives_dec s' n (c_uid c) (tr_lives _ T')) as [LV'|LV']; [|right; auto]. left. rewrite X. symmetry.
          eapply S2; [exact SL|exact SN|now apply (tr_lives _ T') in LV'|exact X].
        - left. rewrite X3. f_equal. apply (i2_distinct _ K2 D k n (c_uid c)); [rewrite X1; cbn; now rewrite X2|rewrite SL; reflexivity]. }
      destruct W as [W|(W & NL)].
      * exists b0, o, (d1 ++ [x]), []. split; [rewrite E0, app_nil_r, <- app_assoc; reflexivity|]. split; [exact N0|]. split; [exact C0|].
        split; [rewrite CA, Q, W, handed_app, spoken_app; reflexivity|]. split; [reflexivity|discriminate].
      * exists b0, o, d1, [x]. split; [rewrite E0, <- app_assoc; reflexivity|]. split; [exact N0|]. split; [exact C0|].
        split; [rewrite CA, Q, W, app_nil_r; reflexivity|]. split; [intros H; destruct (NL H)|]. intros y z H. inversion H; subst y z.
        replace (b0 ++ o :: d1 ++ [x]) with (ops ++ [x]) by (rewrite E0, <- app_assoc; reflexivity). rewrite cruns_snoc. exact NL.
    + assert (W : calls u evs = []) by (destruct (calls u evs) eqn:X; [reflexivity|exfalso; apply LV, HC; discriminate]).
      assert (NL : ~ lives n u (cs_log s')).
      { intros (H1 & H2). apply LV. split; [exact CS|]. intros H. apply H2. rewrite M. apply in_or_app. now right. }
      exists b0, o, d1, (d2 ++ [x]). split; [rewrite E0, <- app_assoc; cbn [app]; rewrite <- app_assoc; reflexivity|]. split; [exact N0|]. split; [exact C0|].
      split; [rewrite CA, Q, W, app_nil_r; reflexivity|]. split; [intros H; destruct (NL H)|]. intros y z H. destruct d2 as [|y' d2].
      * inversion H; subst y z. replace (b0 ++ o :: d1 ++ [x]) with (ops ++ [x]) by (rewrite E0, app_nil_r, <- app_assoc; reflexivity). rewrite cruns_snoc. exact NL.
      * inversion H; subst y z. eapply A; reflexivity.
  - exists ops, x, [], []. split; [reflexivity|]. split; [exact CS|]. split; [rewrite cruns_snoc; exact C|].
    assert (Z1 : calls u (cs_log s) = []).
    { destruct (calls u (cs_log s)) eqn:X; [reflexivity|exfalso]. destruct (calls_in u (cs_log s)) as (k & c & H); [rewrite X; discriminate|].
      apply (tr_called _ T) in H. assert (k = n); [|subst k; exact (CS H)]. apply (tr_unique _ T' k n u); [|exact C]. rewrite M. apply created_app. now right. }
    assert (Z2 : calls u evs = []) by (destruct (calls u evs) eqn:X; [reflexivity|exfalso; apply CS, HC; discriminate]).
    split; [rewrite CA, Z1, Z2; reflexivity|]. split; [reflexivity|discriminate].
Qed.
