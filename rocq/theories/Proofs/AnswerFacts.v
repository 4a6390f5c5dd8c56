(** Proofs about requests on a channel and their answers, end to end. *)

From Coq Require Import NArith List Bool Lia String.
From Verif.Base Require Import Bytes.
From Verif.Model Require Import Wire Frame Packets Makers Requests Channels Emit.
From Verif.Spec Require Import WireSpec PacketSpec MessageSpec FrameSpec OutputSpec InputSpec EndToEndSpec ChannelSpec PipelineSpec ReturnSpec AnswerSpec.
From Verif.Proofs Require Import ChannelSteps ChannelStatus ChannelObjects ChannelFacts PipelineFacts MakerFacts KeyFacts WireFacts ReturnFacts.
Import ListNotations.
Open Scope N_scope.

(** ** The fate of what is said on a channel, for any kind of call *)

Section Fate.
Variables (T : Type) (ca : N -> list cev -> list T) (sp : N -> bytes -> list T).
Let itm (n : N) (o : cop) : list T := flat_map (sp n) (handed [o]).
Hypothesis ca_app : forall u a b, ca u (a ++ b) = ca u b ++ ca u a.
Hypothesis ca_in : forall u l, ca u l <> [] -> exists k c, In (Called k u c) l.
Hypothesis ca_nil : forall u, ca u [] = [].
Hypothesis step_ca : forall E s o, exists evs, more s (cstep E s o) evs /\
  (forall u, ca u evs = [] \/ exists n c, cs_slots s n = Some (SChan c) /\ c_uid c = u /\ ca u evs = itm n o) /\
  (forall n c, cs_slots s n = Some (SChan c) -> n < CHANNELS -> cs_dead (cstep E s o) = false -> ca (c_uid c) evs = [] -> itm n o = []).

Theorem fate_of : forall E ops n u, created n u (cs_log (cruns E ops)) ->
  exists before o during after, ops = before ++ o :: during ++ after /\
  ~ created n u (cs_log (cruns E before)) /\ created n u (cs_log (cruns E (before ++ [o]))) /\
  ca u (cs_log (cruns E ops)) = flat_map (sp n) (handed during) /\
  (lives n u (cs_log (cruns E ops)) -> after = []) /\
  (forall x y, after = x :: y -> ~ lives n u (cs_log (cruns E (before ++ o :: during ++ [x])))).
Proof.
  intros E ops n u. induction ops as [|x ops IH] using rev_ind; intros C; [destruct C as (a & b & c & [])|].
  rewrite cruns_snoc in *. destruct (step_ca E (cruns E ops) x) as (evs & M & S1 & S2).
  pose proof (cruns_track E ops) as TR. pose proof (cruns_I2 E ops) as K2. pose proof (cruns_I1 E ops) as K1.
  pose proof (cruns_track E (ops ++ [x])) as T'. rewrite cruns_snoc in T'.
  set (s := cruns E ops) in *. set (s' := cstep E s x) in *. unfold more in M.
  assert (CA : ca u (cs_log s') = ca u (cs_log s) ++ ca u evs) by (rewrite M; apply ca_app).
  assert (HC : ca u evs <> [] -> lives n u (cs_log s)).
  { intros H. destruct (S1 u) as [X|(k & c & X1 & X2 & X3)]; [congruence|].
    destruct (cs_dead s) eqn:D; [exfalso; apply H; unfold s', cstep in M; rewrite D in M; change (cs_log s) with ([] ++ cs_log s) in M at 1; apply app_inv_tail in M; subst evs; apply ca_nil|].
    assert (LK : lives k u (cs_log s)) by (apply (tr_lives _ TR); split; [exact D|]; exists c; auto).
    assert (k = n); [|now subst k]. apply (tr_unique _ T' k n u); [|exact C]. rewrite M. apply created_app. right. apply LK. }
  destruct (created_dec n u (cs_log s)) as [CS|CS].
  - destruct (IH CS) as (b0 & o & d1 & d2 & E0 & N0 & C0 & Q & L & A).
    destruct (lives_dec s n u (tr_lives _ TR)) as [LV|LV].
    + specialize (L LV). subst d2. rewrite app_nil_r in E0. pose proof LV as LV0. apply (tr_lives _ TR) in LV0 as (D & c & SL & U). subst u.
      assert (SN : n < CHANNELS) by (destruct (proj1 K1 D n) as (_ & SO); rewrite SL in SO; exact SO).
      assert (W : ca (c_uid c) evs = itm n x \/ (ca (c_uid c) evs = [] /\ ~ lives n (c_uid c) (cs_log s'))).
      { destruct (S1 (c_uid c)) as [X|(k & c' & X1 & X2 & X3)].
        - destruct (lives_dec s' n (c_uid c) (tr_lives _ T')) as [LV'|LV']; [|right; auto]. left. rewrite X. symmetry.
          eapply S2; [exact SL|exact SN|now apply (tr_lives _ T') in LV'|exact X].
        - left. rewrite X3. f_equal. apply (i2_distinct _ K2 D k n (c_uid c)); [rewrite X1; cbn; now rewrite X2|rewrite SL; reflexivity]. }
      destruct W as [W|(W & NL)].
      * exists b0, o, (d1 ++ [x]), []. split; [rewrite E0, app_nil_r, <- app_assoc; reflexivity|]. split; [exact N0|]. split; [exact C0|].
        split; [rewrite CA, Q, W, handed_app, flat_map_app; reflexivity|]. split; [reflexivity|discriminate].
      * exists b0, o, d1, [x]. split; [rewrite E0, <- app_assoc; reflexivity|]. split; [exact N0|]. split; [exact C0|].
        split; [rewrite CA, Q, W, app_nil_r; reflexivity|]. split; [intros H; destruct (NL H)|]. intros y z H. inversion H; subst y z.
        replace (b0 ++ o :: d1 ++ [x]) with (ops ++ [x]) by (rewrite E0, <- app_assoc; reflexivity). rewrite cruns_snoc. exact NL.
    + assert (W : ca u evs = []) by (destruct (ca u evs) eqn:X; [reflexivity|exfalso; apply LV, HC; discriminate]).
      assert (NL : ~ lives n u (cs_log s')).
      { intros (H1 & H2). apply LV. split; [exact CS|]. intros H. apply H2. rewrite M. apply in_or_app. now right. }
      exists b0, o, d1, (d2 ++ [x]). split; [rewrite E0, <- app_assoc; cbn [app]; rewrite <- app_assoc; reflexivity|]. split; [exact N0|]. split; [exact C0|].
      split; [rewrite CA, Q, W, app_nil_r; reflexivity|]. split; [intros H; destruct (NL H)|]. intros y z H. destruct d2 as [|y' d2].
      * inversion H; subst y z. replace (b0 ++ o :: d1 ++ [x]) with (ops ++ [x]) by (rewrite E0, app_nil_r, <- app_assoc; reflexivity). rewrite cruns_snoc. exact NL.
      * inversion H; subst y z. eapply A; reflexivity.
  - exists ops, x, [], []. split; [reflexivity|]. split; [exact CS|]. split; [rewrite cruns_snoc; exact C|].
    assert (Z1 : ca u (cs_log s) = []).
    { destruct (ca u (cs_log s)) eqn:X; [reflexivity|exfalso]. destruct (ca_in u (cs_log s)) as (k & c & H); [rewrite X; discriminate|].
      apply (tr_called _ TR) in H. assert (k = n); [|subst k; exact (CS H)]. apply (tr_unique _ T' k n u); [|exact C]. rewrite M. apply created_app. now right. }
    assert (Z2 : ca u evs = []) by (destruct (ca u evs) eqn:X; [reflexivity|exfalso; apply CS, HC; discriminate]).
    split; [rewrite CA, Z1, Z2; reflexivity|]. split; [reflexivity|discriminate].
Qed.
End Fate.

(** ** Requests *)

Definition asks_of (u : N) (l : list cev) : list request := map snd (told u l).

Lemma told_app : forall u a b, told u (a ++ b) = told u b ++ told u a.
Proof.
  intros u a b. induction a as [|e a IH]; [cbn; now rewrite app_nil_r|].
  destruct e; cbn [app told]; try exact IH. destruct c; try exact IH; destruct (u0 =? u); rewrite IH; try reflexivity; now rewrite app_assoc.
Qed.
Lemma asks_app : forall u a b, asks_of u (a ++ b) = asks_of u b ++ asks_of u a.
Proof. intros. unfold asks_of. now rewrite told_app, map_app. Qed.
Lemma asks_in : forall u l, asks_of u l <> [] -> exists k c, In (Called k u c) l.
Proof.
  intros u l. induction l as [|e l IH]; [intros H; elim H; reflexivity|]. intros H.
  assert (G : forall x, x <> [] -> x = asks_of u l -> exists k c, In (Called k u c) (e :: l)).
  { intros x X ->. destruct (IH X) as (k & c & I0). exists k, c. now right. }
  unfold asks_of in H. destruct e as [ | | | |m v c| | | | | | | |]; cbn [told] in H; try (eapply G; [exact H|reflexivity]).
  destruct c; try (eapply G; [exact H|reflexivity]). destruct (v =? u) eqn:E; [apply N.eqb_eq in E; subst v; eexists _, _; left; reflexivity|eapply G; [exact H|reflexivity]].
Qed.

Definition mute (evs : list cev) : Prop :=
  Forall (fun e => match e with Called _ _ (CbRequest _ _ _ _) => False | _ => True end) evs.
Lemma told_mute : forall u evs, mute evs -> told u evs = [].
Proof.
  intros u evs H. induction H as [|e t A Ht IH]; [reflexivity|]. destruct e; cbn [told]; try exact IH.
  destruct c; try exact IH; contradiction.
Qed.
Lemma deaths_mute : forall f, mute (deaths f).
Proof.
  intros f. apply Forall_forall. intros e H. unfold deaths in H. apply in_rev, in_flat_map in H as (n & _ & H).
  unfold death_event in H. destruct (f n) as [[g w [|]| | |c]|]; try destruct H as [<-|[]]; try destruct H; exact Logic.I.
Qed.
Definition mutely (s s' : cstate) : Prop := exists evs, more s s' evs /\ mute evs.

Lemma u_refl : forall s s', cs_log s' = cs_log s -> mutely s s'.
Proof. intros s s' H. exists []. split; [exact H|constructor]. Qed.
Lemma u_trans : forall a b c, mutely a b -> mutely b c -> mutely a c.
Proof.
  intros a b c (x & H & S) (y & K & U). exists (y ++ x). split; [eapply more_trans; eassumption|]. apply Forall_app. now split.
Qed.
Lemma u_log : forall s s' e, mutely s s' -> mute [e] -> mutely s (log e s').
Proof. intros s s' e H K. eapply u_trans; [exact H|]. exists [e]. split; [reflexivity|exact K]. Qed.
Lemma u_slot : forall s s' n v, mutely s s' -> mutely s (set_slot n v s').
Proof. intros s s' n v H. eapply u_trans; [exact H|]. now apply u_refl. Qed.
Lemma u_put : forall s s' n t c, mutely s s' -> mutely s (put n t c s').
Proof. intros. now apply u_slot. Qed.
Lemma u_fresh : forall s s', mutely s s' -> mutely s (fresh s').
Proof. intros s s' H. eapply u_trans; [exact H|]. now apply u_refl. Qed.
Lemma u_die : forall s s' r, mutely s s' -> mutely s (die r s').
Proof.
  intros s s' r H. eapply u_trans; [exact H|]. destruct (die_spec r s') as (L & _). exists (deaths (cs_slots s') ++ [Died r]). split.
  - unfold more. rewrite L. now rewrite <- app_assoc.
  - apply Forall_app. split; [apply deaths_mute|repeat constructor].
Qed.
Lemma u_delete : forall s s' n v, mutely s s' -> mutely s (delete_slot n v s').
Proof.
  intros s s' n v H. unfold delete_slot. destruct v as [[f w [|]| | |c]|]; try exact H; apply u_log; try exact H; repeat constructor.
Qed.
Lemma u_replies : forall n c rs s s', mutely s s' -> mutely s (send_replies n c rs s').
Proof.
  intros n c rs. induction rs as [|b t IH]; intros s s' H; cbn [send_replies]; [exact H|].
  apply IH. apply u_log; [exact H|]. repeat constructor.
Qed.
Lemma u_submit : forall n t c x s s', mutely s s' -> mutely s (submit_replies n t c x s').
Proof.
  intros n t c [[rs l] []] s s' H; unfold submit_replies; [apply u_die|]; now apply u_put, u_replies.
Qed.
Lemma u_confirm : forall n peer w r s s', mutely s s' -> mutely s (confirm n peer w r s').
Proof.
  intros. unfold confirm. cbv zeta. apply u_slot. apply u_log; [|repeat constructor]. apply u_log; [|repeat constructor]. now apply u_fresh.
Qed.
Lemma u_onchan : forall n s f, (forall c, mutely s (f c)) -> mutely s (on_chan n s f).
Proof. intros n s f H. unfold on_chan. destruct (cs_slots s n) as [[| | |]|]; try now apply u_refl. apply H. Qed.

Ltac mut :=
  cbv zeta; repeat match goal with
  | |- mutely _ (match ?x with _ => _ end) => destruct x
  | |- mutely _ (submit_replies _ _ _ _ _) => apply u_submit
  | |- mutely _ (confirm _ _ _ _ _) => apply u_confirm
  | |- mutely _ (delete_slot _ _ _) => apply u_delete
  | |- mutely _ (die _ _) => apply u_die
  | |- mutely _ (put _ _ _ _) => apply u_put
  | |- mutely _ (set_slot _ _ _) => apply u_slot
  | |- mutely _ (fresh _) => apply u_fresh
  | |- mutely _ (send_replies _ _ _ _) => apply u_replies
  | |- mutely _ (log _ _) => apply u_log; [|repeat constructor]
  | |- mutely ?s ?s => apply u_refl; reflexivity
  end.

Lemma mute_op : forall E s o, (forall msg p r, o = OpPacket msg p r -> msg <> 98) -> mutely s (cstep E s o).
Proof.
  intros E s o H. unfold cstep. destruct (cs_dead s); [now apply u_refl|]. destruct o as [msg p r| | | | | | | | | | | | |].
  - pose proof (H msg p r eq_refl) as A. unfold HandlePacket. cbv zeta.
    destruct msg as [|m]; [now apply u_refl|].
    do 7 (destruct m as [m|m|]; try now apply u_refl); try (exfalso; now apply A);
    unfold HandleChannelOpen, HandleChannelOpenConfirmation, HandleChannelOpenFailure, HandleChannelWindowAdjust, HandleChannelData, HandleChannelExtendedData, deliver, HandleChannelEof, notify, HandleChannelClose, HandleChannelSuccess, HandleChannelFailure, notify.
    all: mut.
  - unfold OpenChannel. mut.
  - mut.
  - mut.
  - mut.
  - apply u_onchan. intros c. unfold CloseChannel. mut.
  - apply u_onchan. intros c. mut.
  - apply u_onchan. intros c. mut.
  - apply u_onchan. intros c. mut.
  - apply u_onchan. intros c. mut.
  - apply u_onchan. intros c. mut.
  - apply u_onchan. intros c. mut.
  - apply u_onchan. intros c. mut.
  - mut.
Qed.

Lemma read_request : forall n p, request_of n (98 :: p) =
  match ParseChannelRequest p with
  | Some q => if cr_local_channel q =? n then [{| q_name := cr_request_type q; q_want := cr_want_reply q; q_data := cr_data q |}] else []
  | None => []
  end.
Proof.
  intros n p. unfold ParseChannelRequest, ReadString, ReadLengthEncoded, ReadU32, ReadN, ReadBool. destruct p as [|a [|b [|c [|e p]]]]; try reflexivity.
  cbn [obind]. destruct p as [|f [|g [|h [|i p]]]]; try reflexivity. cbn [obind request_of]. cbv zeta.
  destruct (len p <? un_be32 f g h i) eqn:L; cbn [obind].
  - apply N.ltb_lt in L. destruct (N.leb_spec (un_be32 f g h i) (len p)); [lia|]. now rewrite andb_false_r.
  - apply N.ltb_ge in L. destruct (N.leb_spec (un_be32 f g h i) (len p)); [|lia]. rewrite andb_true_r.
    destruct (drop (un_be32 f g h i) p) as [|w t]; cbn [obind cr_local_channel cr_request_type cr_want_reply cr_data]; [now destruct (_ =? n)|reflexivity].
Qed.
Lemma request_other : forall n msg p, msg <> 98 -> request_of n (msg :: p) = [].
Proof.
  intros n msg p A. unfold request_of. destruct msg as [|m]; [reflexivity|].
  do 7 (destruct m as [m|m|]; try reflexivity); exfalso; now apply A.
Qed.

Lemma step_asks : forall E s o, exists evs, more s (cstep E s o) evs /\
  (forall u, asks_of u evs = [] \/ exists n c, cs_slots s n = Some (SChan c) /\ c_uid c = u /\ asks_of u evs = flat_map (request_of n) (handed [o])) /\
  (forall n c, cs_slots s n = Some (SChan c) -> n < CHANNELS -> cs_dead (cstep E s o) = false -> asks_of (c_uid c) evs = [] ->
   flat_map (request_of n) (handed [o]) = []).
Proof.
  intros E s o. destruct (cs_dead s) eqn:D.
  { exists []. unfold cstep. rewrite D. split; [reflexivity|]. split; [now left|]. intros n c _ _ D'. congruence. }
  assert (AM : forall u evs, mute evs -> asks_of u evs = []) by (intros u evs H; unfold asks_of; now rewrite told_mute).
  assert (Q : (forall msg p r, o = OpPacket msg p r -> msg <> 98) \/ exists p r, o = OpPacket 98 p r).
  { destruct o; try (left; discriminate). destruct (N.eq_dec msg 98) as [->|A]; [right; eauto|].
    left. intros ? ? ? X. inversion X; subst; auto. }
  destruct Q as [Q|(p & r & ->)].
  - destruct (mute_op E s o Q) as (evs & M & S). exists evs. split; [exact M|]. split; [intros u; left; now apply AM|].
    intros n c _ _ _ _. destruct o; try reflexivity. pose proof (Q _ _ _ eq_refl). unfold handed. cbn [flat_map app]. now rewrite request_other.
  - assert (IT : forall n, flat_map (request_of n) (handed [OpPacket 98 p r]) = request_of n (98 :: p)) by (intros; unfold handed; cbn [flat_map app]; apply app_nil_r).
    setoid_rewrite IT. setoid_rewrite read_request. unfold cstep. rewrite D. cbn [HandlePacket]. unfold HandleChannelRequest.
    destruct (ParseChannelRequest p) as [q|] eqn:PQ.
    2: { destruct (u_die s (log (Received 98 p) s) MALFORMED) as (evs & M & S); [apply u_log; [now apply u_refl|repeat constructor]|].
         exists evs. split; [exact M|]. split; [intros u; left; now apply AM|]. reflexivity. }
    cbv zeta. destruct (GetChannel (log (Received 98 p) s) (cr_local_channel q)) as [[t c]|] eqn:G.
    2: { destruct (u_die s (log (Received 98 p) s) BAD_CHANNEL) as (evs & M & S); [apply u_log; [now apply u_refl|repeat constructor]|].
         exists evs. split; [exact M|]. split; [intros u; left; now apply AM|]. intros n c _ _ D'.
         destruct (die_spec BAD_CHANNEL (log (Received 98 p) s)) as (_ & _ & X & _). rewrite X in D'. discriminate. }
    destruct (get_chan _ _ _ _ G) as (G2 & G1). cbn [log cs_slots] in G2.
    destruct t.
    + match goal with |- exists evs, more s ?x evs /\ _ => assert (Z : mutely s x) end.
      { mut. all: repeat constructor. }
      destruct Z as (evs & M & S). exists evs. split; [exact M|]. split; [intros u; left; now apply AM|].
      intros n c' S1 S2 _ _. destruct (cr_local_channel q =? n) eqn:X; [|reflexivity]. apply N.eqb_eq in X. subst n. congruence.
    + set (ev := Called (cr_local_channel q) (c_uid c) (CbRequest (cs_next (log (Received 98 p) s)) (cr_want_reply q) (cr_request_type q) (cr_data q))).
      set (s1 := log ev (fresh (log (Received 98 p) s))).
      match goal with |- exists evs, more s ?x evs /\ _ => assert (Z : mutely s1 x) end.
      { mut. }
      destruct Z as (evs & M & S). exists (evs ++ [ev; Received 98 p]).
      split; [eapply more_trans; [|exact M]; reflexivity|].
      assert (TE : forall u, asks_of u (evs ++ [ev; Received 98 p]) =
        if c_uid c =? u then [{| q_name := cr_request_type q; q_want := cr_want_reply q; q_data := cr_data q |}] else []).
      { intros u. rewrite asks_app, (AM u evs S), app_nil_r. unfold asks_of, ev. cbn [told app]. now destruct (c_uid c =? u). }
      split.
      * intros u. rewrite TE. destruct (c_uid c =? u) eqn:X; [|now left].
        apply N.eqb_eq in X. right. exists (cr_local_channel q), c. rewrite N.eqb_refl. auto.
      * intros n c' S1 S2 _ K. rewrite TE in K.
        destruct (cr_local_channel q =? n) eqn:X; [|reflexivity]. apply N.eqb_eq in X. subst n.
        assert (c' = c) by congruence. subst c'. rewrite N.eqb_refl in K. discriminate.
Qed.

Theorem fate_asks : forall E ops n u, created n u (cs_log (cruns E ops)) ->
  exists before o during after, ops = before ++ o :: during ++ after /\
  ~ created n u (cs_log (cruns E before)) /\ created n u (cs_log (cruns E (before ++ [o]))) /\
  map snd (told u (cs_log (cruns E ops))) = requested n (handed during) /\
  (lives n u (cs_log (cruns E ops)) -> after = []) /\
  (forall x y, after = x :: y -> ~ lives n u (cs_log (cruns E (before ++ o :: during ++ [x])))).
Proof. intros E ops n u. apply (fate_of request asks_of request_of); [apply asks_app|apply asks_in|reflexivity|apply step_asks]. Qed.

(** the identifiers *)
Lemma told_asked : forall u l, map (fun x => (fst x, q_want (snd x))) (told u l) = asked u l.
Proof.
  intros u l. induction l as [|e l IH]; [reflexivity|]. destruct e; cbn [told asked]; try exact IH. destruct c; try exact IH.
  destruct (u0 =? u); [|exact IH]. now rewrite map_app, IH.
Qed.
Lemma expected_wanted : forall l, map (fun x => (fst x, q_want (snd x))) (expected l) = wanted (map (fun x => (fst x, q_want (snd x))) l).
Proof.
  induction l as [|(id & r) l IH]; [reflexivity|]. unfold expected, wanted in *. cbn [map filter fst snd].
  change (waits (id, r)) with (q_want r). destruct (q_want r) eqn:W; cbn [map fst snd]; rewrite IH; [now rewrite W|reflexivity].
Qed.

(** ** Replies *)

Definition confirmed (q : N) (l : list cev) : Prop :=
  exists b c, In (Received 91 b) l /\ ParseChannelOpenConfirmation b = Some c /\ cc_peer_channel c = q.
(** the object [v], which the client calls [q], was created for a channel, or
    takes the place of one which we did not want any more *)
Definition owns (v q : N) (l : list cev) : Prop :=
  (exists n, made_as n v q l) \/ (confirmed q l /\ forall n q', ~ made_as n v q' l).

Definition chan_of (o : option slot) : option chan := match o with Some (SChan c) | Some (STomb c) => Some c | _ => None end.

Record answering (s : cstate) : Prop := {
  an_slot : cs_dead s = false -> forall n c, chan_of (cs_slots s n) = Some c -> owns (c_uid c) (c_peer c) (cs_log s);
  an_sent : forall k v q b, In (Sent k v (CReply q b)) (cs_log s) -> owns v q (cs_log s)
}.

(** whose reply it is *)
Definition fair (s : cstate) (e : cev) : Prop :=
  match e with
  | Sent k v (CReply q _) => exists c, chan_of (cs_slots s k) = Some c /\ c_uid c = v /\ c_peer c = q
  | _ => True
  end.
Lemma fair_replies : forall s k c rs, chan_of (cs_slots s k) = Some c -> Forall (fair s) (reply_events k (c_uid c) (c_peer c) rs).
Proof.
  intros. apply Forall_forall. intros e I0. unfold reply_events in I0. apply in_rev, in_map_iff in I0 as (b & <- & _). exists c. auto.
Qed.
Lemma fair_finish : forall s u id o, Forall (fair s) (finish_events u id o).
Proof. intros s u id [b| |]; repeat constructor. Qed.
Ltac fair := repeat match goal with
  | |- Forall _ (reply_events _ _ _ _) => apply fair_replies; match goal with H : cs_slots _ _ = _ |- _ => rewrite H; reflexivity end
  | |- Forall _ (finish_events _ _ _) => apply fair_finish
  | |- Forall _ [] => constructor
  | |- Forall _ (_ :: _) => constructor
  | |- Forall _ (_ ++ _) => apply Forall_app; split
  | |- fair _ _ => exact Logic.I
  end.
Lemma allowed_fair : forall E P s n v evs inc, allowed E P s n v evs inc -> Forall (fair s) evs.
Proof. intros E P s n v evs inc A. destruct A; fair. Qed.
Lemma allowedD_fair : forall E P s n v evs inc, allowedD E P s n v evs inc -> Forall (fair s) evs.
Proof. intros E P s n v evs inc A. destruct A; fair. Qed.

Lemma allowed_chan : forall E P s n v evs inc c, allowed E P s n v evs inc -> chan_of v = Some c ->
  (exists c0, chan_of (cs_slots s n) = Some c0 /\ c_uid c = c_uid c0 /\ c_peer c = c_peer c0) \/
  made_as n (c_uid c) (c_peer c) evs \/
  (c_uid c = cs_next s /\ confirmed (c_peer c) evs /\ forall k q, ~ made_as k (cs_next s) q evs).
Proof.
  intros E P s n v evs inc c A. destruct A; cbn [chan_of]; intros V; try discriminate V; try (injection V as <-);
    try (left; match goal with H : cs_slots _ _ = _ |- _ => rewrite H end; eexists; split; [reflexivity|split; reflexivity]).
  - left. exists c. auto.
  - right. left. eexists _, _. cbn [c_uid c_peer In]. tauto.
  - right. right. cbn [c_uid c_peer]. split; [reflexivity|]. split.
    + exists p, c0. cbn [In]. auto.
    + intros k q (w0 & w1 & I0). cbn [In] in I0. intuition discriminate.
  - right. left. eexists _, _. cbn [c_uid c_peer In]. tauto.
Qed.

Lemma owns_more : forall s n v q evs, Forall (sure s n) evs -> v < cs_next s -> owns v q (cs_log s) -> owns v q (evs ++ cs_log s).
Proof.
  intros s n v q evs F L [(k & H)|((b & c & I0 & B & C) & H)].
  - left. exists k. apply made_app. now right.
  - right. split; [exists b, c; split; [apply in_or_app; now right|auto]|]. intros k q' X. apply made_app in X as [(w & w' & X)|X]; [|exact (H _ _ X)].
    rewrite Forall_forall in F. specialize (F _ X). cbn [sure] in F. lia.
Qed.

Lemma answering_evs : forall s n evs, answering s -> I2 s -> cs_dead s = false -> Forall (sure s n) evs -> Forall (fair s) evs ->
  forall k v q b, In (Sent k v (CReply q b)) (evs ++ cs_log s) -> owns v q (evs ++ cs_log s).
Proof.
  intros s n evs [A1 A2] K D F R k v q b H.
  apply in_app_or in H as [H|H].
  - rewrite Forall_forall in R. destruct (R _ H) as (c & S & <- & <-). eapply owns_more; [exact F| |now apply (A1 D k)].
    apply (i2_uid _ K D k (c_uid c)). unfold chan_of in S. destruct (cs_slots s k) as [[| | |]|]; try discriminate; injection S as ->; reflexivity.
  - eapply owns_more; [exact F| |eapply A2; exact H]. pose proof (i2_below _ K) as B. rewrite Forall_forall in B. apply (B _ H).
Qed.

Lemma answering_reach : forall E P s, mreach E P s -> answering s.
Proof.
  intros E P s M. induction M as [|s s' M IH ST].
  - split; [intros _ n c H; discriminate|intros k v q b []].
  - destruct (I2_reach E P s M) as (K1 & K2). destruct ST as [n v evs inc A G|n v evs inc s1 r A G ->].
    + pose proof G as (G1 & G2 & G3 & G4 & G5).
      pose proof (allowed_sure _ _ _ _ _ _ _ A) as F.
      pose proof (answering_evs s n evs IH K2 G4 F (allowed_fair _ _ _ _ _ _ _ A)) as B.
      assert (OLD : forall k c, chan_of (cs_slots s k) = Some c -> owns (c_uid c) (c_peer c) (evs ++ cs_log s)).
      { intros k c S. eapply owns_more; [exact F| |now apply (an_slot _ IH G4 k)]. apply (i2_uid _ K2 G4 k (c_uid c)).
        unfold chan_of in S. destruct (cs_slots s k) as [[| | |]|]; try discriminate; injection S as ->; reflexivity. }
      split; [|rewrite G2; exact B]. intros _ m c. rewrite G1, G2. destruct (m =? n) eqn:Q; [|apply OLD].
      apply N.eqb_eq in Q. subst m. intros V. destruct (allowed_chan _ _ _ _ _ _ _ c A V) as [(c0 & S & U1 & U2)|[X|(X1 & (b & c0 & I0 & P0) & X3)]].
      * rewrite U1, U2. eapply OLD. exact S.
      * left. exists n. apply made_app. now left.
      * right. split; [exists b, c0; split; [apply in_or_app; now left|exact P0]|]. intros k q Y. rewrite X1 in Y. apply made_app in Y as [Y|Y]; [exact (X3 _ _ Y)|].
        exact (made_below _ _ _ K2 Y).
    + pose proof G as (G1 & G2 & G3 & G4 & G5).
      pose proof (answering_evs s n evs IH K2 G4 (allowedD_sure _ _ _ _ _ _ _ A) (allowedD_fair _ _ _ _ _ _ _ A)) as B.
      destruct (die_spec r s1) as (LD & _ & DD & _).
      assert (ND : forall e, In e (cs_log (die r s1)) -> match e with Created _ _ _ _ _ | Sent _ _ _ => In e (evs ++ cs_log s) | _ => True end).
      { intros e H. rewrite LD in H. apply in_app_or in H as [H|[<-|H]]; [|exact Logic.I|rewrite <- G2; destruct e; auto].
        unfold deaths in H. apply in_rev, in_flat_map in H as (i & _ & H). unfold death_event in H.
        destruct (cs_slots s1 i) as [[g w [|]| | |c]|]; try destruct H as [<-|[]]; try destruct H; exact Logic.I. }
      assert (UP : forall e, In e (evs ++ cs_log s) -> In e (cs_log (die r s1))) by (intros e H; rewrite LD; apply in_or_app; right; right; now rewrite G2).
      split; [rewrite DD; discriminate|].
      intros k u q b H. destruct (B _ _ _ _ (ND _ H)) as [(n0 & w & w' & X)|((b0 & c & X & Y) & Z)].
      * left. exists n0, w, w'. exact (UP _ X).
      * right. split; [exists b0, c; split; [exact (UP _ X)|exact Y]|]. intros n0 q' (w & w' & W). apply (Z n0 q'). exists w, w'. exact (ND _ W).
Qed.
Lemma cruns_answering : forall E ops, answering (cruns E ops).
Proof. intros E ops. eapply answering_reach, cruns_any. Qed.

(** what the client hears of a message, if it listens at [p] *)
Definition replies_to (p : N) (m : cmsg) : list bool := match m with CReply q b => if q =? p then [b] else [] | _ => [] end.

Lemma reply_one : forall u p l,
  (forall k v q b, In (Sent k v (CReply q b)) l -> (q = p <-> v = u)) ->
  flat_map (replies_to p) (transmitted l) = replies u l.
Proof.
  intros u p l. induction l as [|e l IH]; intros H; [reflexivity|].
  assert (IH' : flat_map (replies_to p) (transmitted l) = replies u l) by (apply IH; intros k v q b X; apply (H k v q b); now right).
  destruct e as [n v m| | | | | | | | | | | |]; cbn [transmitted said replies]; try exact IH'.
  all: try (unfold replies; cbn [said]; exact IH').
  rewrite flat_map_snoc, IH'. unfold replies. cbn [said]. destruct (v =? u) eqn:Y; [cbn [rev]; rewrite flat_map_snoc|].
  - f_equal. destruct m; try reflexivity. apply N.eqb_eq in Y. destruct (H _ _ _ _ (or_introl eq_refl)) as (_ & X). cbn [replies_to]. rewrite (X Y), N.eqb_refl. reflexivity.
  - destruct m; cbn [replies_to]; try apply app_nil_r. destruct (peer =? p) eqn:X; [|apply app_nil_r]. apply N.eqb_eq in X. apply N.eqb_neq in Y.
    destruct (H _ _ _ _ (or_introl eq_refl)) as (Z & _). tauto.
Qed.

Lemma known_answered : forall E ops n u p, known_as n u p (cs_log (cruns E ops)) -> own_number p (cs_log (cruns E ops)) ->
  flat_map (replies_to p) (transmitted (cs_log (cruns E ops))) = replies u (cs_log (cruns E ops)).
Proof.
  intros E ops n u p (M & U) O. apply reply_one. intros k v q b H. destruct (cruns_voiced E ops) as [_ _ V3].
  destruct (an_sent _ (cruns_answering E ops) _ _ _ _ H) as [(n0 & X)|((b0 & c & X & Y & Z) & W)].
  - split; [intros ->; destruct X as (w & w' & X); exact (U _ _ _ _ X)|intros ->; exact (V3 _ _ _ _ _ X M)].
  - split; [intros ->; destruct (O _ _ X Y Z)|]. intros ->. destruct (W _ _ M).
Qed.

Lemma answer_emitted : forall p m b, emitted m b -> (forall q x, m = CReply q x -> q < pow32) -> answer_of p b = replies_to p m.
Proof.
  intros p m b (header & s & L & E & ->) Q. destruct (emit_number _ _ _ E) as (t & S & _).
  assert (D : drop 5 s = number m :: t) by (rewrite S, <- L; apply drop_len).
  rewrite D. destruct m; try (cbn [number replies_to answer_of]; reflexivity).
  specialize (Q _ _ eq_refl). cbn [Emit number replies_to] in *.
  assert (M : MakeChannelResponse header success peer = made header (if success then 99 else 100) [FU32 peer])
    by (destruct success; [made (fun h => MakeChannelResponse h true peer)|made (fun h => MakeChannelResponse h false peer)]).
  rewrite M in E. unfold made in E. destruct (_ <=? 65536); [|discriminate].
  injection E as E. rewrite <- E in S. apply app_inv_head in S. unfold message in S.
  assert (TT : t = be32 peer) by (destruct success; injection S as S; unfold enc in S; cbn [map enc_field List.concat] in S; now rewrite app_nil_r in S).
  destruct (be32_read peer Q) as (a & b & c & d & B1 & B2). rewrite B1 in TT. subst t.
  destruct success; cbn [answer_of]; rewrite B2; reflexivity.
Qed.

Lemma answered_channel : forall p ms, answered p (filter channel_message ms) = answered p ms.
Proof.
  intros p ms. induction ms as [|m ms IH]; [reflexivity|]. cbn [filter]. destruct (channel_message m) eqn:C; unfold answered in *; cbn [flat_map]; rewrite IH; [reflexivity|].
  assert (X : answer_of p m = []); [|now rewrite X].
  destruct m as [|b m]; [reflexivity|]. unfold channel_message in C. unfold answer_of. destruct b as [|b]; [reflexivity|].
  do 7 (destruct b as [b|b|]; try reflexivity); discriminate C.
Qed.

Lemma answered_emitted : forall p ms bs, Forall2 emitted ms bs -> (forall q x, In (CReply q x) ms -> q < pow32) ->
  answered p bs = flat_map (replies_to p) ms.
Proof.
  intros p ms bs H. induction H as [|m b ms bs H0 H IH]; intros Q; [reflexivity|]. unfold answered in *. cbn [flat_map].
  rewrite IH; [|intros; eapply Q; right; eassumption].
  f_equal. apply answer_emitted; [exact H0|]. intros q x ->. eapply Q. left. reflexivity.
Qed.

Lemma reply_numbers : forall E ops, numbers (cs_log (cruns E ops)) -> confirmed_numbers (cs_log (cruns E ops)) ->
  forall q x, In (CReply q x) (transmitted (cs_log (cruns E ops))) -> q < pow32.
Proof.
  intros E ops NB CN q x I0. apply in_transmitted in I0 as (k & v & I0).
  destruct (an_sent _ (cruns_answering E ops) _ _ _ _ I0) as [(n0 & w & w' & X)|((b0 & c & X & Y & <-) & _)]; [exact (NB _ _ _ _ _ X)|exact (CN _ _ X Y)].
Qed.

Lemma positive_reach : forall E P s, mreach E P s -> forall k v q w w', In (Created k v q w w') (cs_log s) -> 0 < v.
Proof.
  intros E P s M. induction M as [|s s' M IH ST]; [intros k v q w w' []|].
  destruct (I2_reach E P s M) as (K1 & K2). pose proof (i2_next _ K2) as Z.
  destruct ST as [n v evs inc A G|n v evs inc s1 r A G ->]; pose proof G as (G1 & G2 & G3 & G4 & G5).
  - pose proof (allowed_sure _ _ _ _ _ _ _ A) as F. rewrite Forall_forall in F. intros k u q w w' H. rewrite G2 in H.
    apply in_app_or in H as [H|H]; [pose proof (F _ H) as X; cbn [sure] in X; lia|eauto].
  - pose proof (allowedD_sure _ _ _ _ _ _ _ A) as F. rewrite Forall_forall in F. intros k u q w w' H.
    destruct (die_spec r s1) as (LD & _). rewrite LD in H. apply in_app_or in H as [H|[H|H]]; [|discriminate|].
    + exfalso. unfold deaths in H. apply in_rev, in_flat_map in H as (i & _ & H). unfold death_event in H.
      destruct (cs_slots s1 i) as [[g w0 [|]| | |c]|]; try (destruct H as [H|[]]; discriminate); destruct H.
    + rewrite G2 in H. apply in_app_or in H as [H|H]; [pose proof (F _ H) as X; cbn [sure] in X; lia|eauto].
Qed.
Lemma created_positive : forall E ops n u, created n u (cs_log (cruns E ops)) -> u <> 0.
Proof.
  intros E ops n u (q & w & w' & H). pose proof (positive_reach _ _ _ (cruns_any E ops) _ _ _ _ _ H). lia.
Qed.
