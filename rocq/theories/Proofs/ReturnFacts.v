(** Proofs about the path of data from a program to the client. *)

From Coq Require Import NArith List Bool Lia String.
From Verif.Base Require Import Bytes.
From Verif.Model Require Import Wire Frame Packets Makers Requests Channels ChannelIO Emit.
From Verif.Spec Require Import WireSpec PacketSpec MessageSpec FrameSpec OutputSpec InputSpec EndToEndSpec ChannelSpec FlowSpec ExitSpec PipelineSpec ReturnSpec.
From Verif.Proofs Require Import ChannelSteps ChannelStatus ChannelObjects ChannelFacts PipelineFacts MakerFacts KeyFacts WireFacts FlowFacts ExitFacts.
Import ListNotations.
Open Scope N_scope.

(** ** Who says what *)

Definition peer_of (m : cmsg) : option N := match m with CData q _ | CExt q _ _ | CEof q => Some q | _ => None end.
Definition sure (s : cstate) (n : N) (e : cev) : Prop :=
  match e with
  | Created k v _ _ _ => v = cs_next s
  | Sent k v m => forall q, peer_of m = Some q -> exists c, cs_slots s k = Some (SChan c) /\ c_uid c = v /\ c_peer c = q
  | _ => True
  end.

Lemma sure_replies : forall s n k u p rs, Forall (sure s n) (reply_events k u p rs).
Proof.
  intros. apply Forall_forall. intros e H. unfold reply_events in H. apply in_rev, in_map_iff in H as (b & <- & _). discriminate.
Qed.
Lemma sure_finish : forall s n u id o, Forall (sure s n) (finish_events u id o).
Proof. intros s n u id [b| |]; repeat constructor. Qed.

Ltac sure := repeat match goal with
  | |- Forall _ (reply_events _ _ _ _) => apply sure_replies
  | |- Forall _ (finish_events _ _ _) => apply sure_finish
  | |- Forall _ [] => constructor
  | |- Forall _ (_ :: _) => constructor
  | |- Forall _ (_ ++ _) => apply Forall_app; split
  | |- sure _ _ (Created _ _ _ _ _) => reflexivity
  | |- sure _ _ (Sent _ _ _) => cbn [sure peer_of]; intros ? Q; first [discriminate Q | injection Q as <-; eexists; split; [eassumption|split; reflexivity]]
  | |- sure _ _ _ => exact Logic.I
  end.
Lemma allowed_sure : forall E P s n v evs inc, allowed E P s n v evs inc -> Forall (sure s n) evs.
Proof. intros E P s n v evs inc A. destruct A; sure. Qed.
Lemma allowedD_sure : forall E P s n v evs inc, allowedD E P s n v evs inc -> Forall (sure s n) evs.
Proof. intros E P s n v evs inc A. destruct A; sure. Qed.

Definition made_as (n u q : N) (l : list cev) : Prop := exists w w', In (Created n u q w w') l.

Lemma allowed_made : forall E P s n v evs inc c, allowed E P s n v evs inc -> v = Some (SChan c) ->
  (exists c0, cs_slots s n = Some (SChan c0) /\ c_uid c = c_uid c0 /\ c_peer c = c_peer c0) \/ made_as n (c_uid c) (c_peer c) evs.
Proof.
  intros E P s n v evs inc c A. destruct A; intros V; try discriminate V; try (injection V as <-);
    try (left; eexists; split; [eassumption|split; reflexivity]).
  all: right; eexists _, _; cbn [c_uid c_peer In]; tauto.
Qed.

Record voiced (s : cstate) : Prop := {
  vo_slot : cs_dead s = false -> forall n c, cs_slots s n = Some (SChan c) -> made_as n (c_uid c) (c_peer c) (cs_log s);
  vo_sent : forall k v m q, In (Sent k v m) (cs_log s) -> peer_of m = Some q -> made_as k v q (cs_log s);
  vo_one : forall k k' v q q', made_as k v q (cs_log s) -> made_as k' v q' (cs_log s) -> q = q'
}.

Lemma made_app : forall n u q a b, made_as n u q (a ++ b) <-> made_as n u q a \/ made_as n u q b.
Proof.
  intros. split.
  - intros (x & y & H). apply in_app_or in H as [H|H]; [left|right]; exists x, y; exact H.
  - intros [(x & y & H)|(x & y & H)]; exists x, y; apply in_or_app; auto.
Qed.
Lemma made_below : forall s n q, I2 s -> ~ made_as n (cs_next s) q (cs_log s).
Proof. intros s n q K (x & y & H). pose proof (i2_below _ K) as B. rewrite Forall_forall in B. destruct (B _ H) as (X & _). cbn [tag] in X. lia. Qed.


Definition only (q0 : N) (e : cev) : Prop := match e with Created _ _ q _ _ => q = q0 | _ => True end.
Lemma only_plain : forall q evs, PipelineFacts.plain evs -> Forall (only q) evs.
Proof. intros q evs. apply Forall_impl. intros e H. destruct e; try exact Logic.I. destruct H. Qed.
Lemma allowed_only : forall E P s n v evs inc, allowed E P s n v evs inc -> exists q0, Forall (only q0) evs.
Proof.
  intros E P s n v evs inc A. destruct A; try (exists 0; apply only_plain; solve [pl]).
  all: try (exists 0; solve [repeat (constructor; [exact Logic.I|]); constructor]).
  all: eexists; repeat (constructor; [first [exact Logic.I|reflexivity]|]); constructor.
Qed.
Lemma allowedD_only : forall E P s n v evs inc, allowedD E P s n v evs inc -> exists q0, Forall (only q0) evs.
Proof. intros E P s n v evs inc A. exists 0. destruct A; apply only_plain; pl. Qed.

Lemma voiced_evs : forall s n evs, voiced s -> I2 s -> cs_dead s = false -> Forall (sure s n) evs -> (exists q0, Forall (only q0) evs) ->
  (forall k v m q, In (Sent k v m) (evs ++ cs_log s) -> peer_of m = Some q -> made_as k v q (evs ++ cs_log s)) /\
  (forall k k' v q q', made_as k v q (evs ++ cs_log s) -> made_as k' v q' (evs ++ cs_log s) -> q = q').
Proof.
  intros s n evs [V1 V2 V3] K D F (q0 & O). rewrite Forall_forall in F, O. split.
  - intros k v m q H Q. apply made_app. right. apply in_app_or in H as [H|H]; [|eauto].
    destruct (F _ H q Q) as (c & S & <- & <-). now apply V1.
  - assert (N0 : forall k v q, made_as k v q evs -> v = cs_next s /\ q = q0) by (intros k v q (w & w' & H); split; [exact (F _ H)|exact (O _ H)]).
    intros k k' v q q' H H'. apply made_app in H as [H|H]; apply made_app in H' as [H'|H'].
    + apply N0 in H as (_ & ->). apply N0 in H' as (_ & ->). reflexivity.
    + apply N0 in H as (-> & _). destruct (made_below _ _ _ K H').
    + apply N0 in H' as (-> & _). destruct (made_below _ _ _ K H).
    + exact (V3 _ _ _ _ _ H H').
Qed.

Lemma voiced_reach : forall E P s, mreach E P s -> voiced s.
Proof.
  intros E P s M. induction M as [|s s' M IH ST].
  - split; [intros _ n c H; discriminate|intros k v m q []|intros k k' v q q' (x & y & [])].
  - destruct (I2_reach E P s M) as (K1 & K2). destruct ST as [n v evs inc A G|n v evs inc s1 r A G ->].
    + pose proof G as (G1 & G2 & G3 & G4 & G5).
      destruct (voiced_evs s n evs IH K2 G4 (allowed_sure _ _ _ _ _ _ _ A) (allowed_only _ _ _ _ _ _ _ A)) as (B & C).
      split; [|rewrite G2; exact B|rewrite G2; exact C]. intros _ m c. rewrite G1, G2. destruct (m =? n) eqn:Q.
      * apply N.eqb_eq in Q. subst m. intros V. apply made_app. destruct (allowed_made _ _ _ _ _ _ _ c A V) as [(c0 & S & U1 & U2)|X]; [|now left].
        right. rewrite U1, U2. now apply (vo_slot _ IH).
      * intros S. apply made_app. right. now apply (vo_slot _ IH).
    + pose proof G as (G1 & G2 & G3 & G4 & G5).
      destruct (voiced_evs s n evs IH K2 G4 (allowedD_sure _ _ _ _ _ _ _ A) (allowedD_only _ _ _ _ _ _ _ A)) as (B & C).
      destruct (die_spec r s1) as (LD & _ & DD & _).
      assert (ND : forall e, In e (cs_log (die r s1)) -> match e with Created _ _ _ _ _ | Sent _ _ _ => In e (evs ++ cs_log s) | _ => True end).
      { intros e H. rewrite LD in H. apply in_app_or in H as [H|[<-|H]]; [|exact Logic.I|rewrite <- G2; destruct e; auto].
        unfold deaths in H. apply in_rev, in_flat_map in H as (i & _ & H). unfold death_event in H.
        destruct (cs_slots s1 i) as [[g w [|]| | |c]|]; try destruct H as [<-|[]]; try destruct H; exact Logic.I. }
      assert (UP : forall e, In e (evs ++ cs_log s) -> In e (cs_log (die r s1))) by (intros e H; rewrite LD; apply in_or_app; right; right; now rewrite G2).
      assert (MA : forall k v q, made_as k v q (cs_log (die r s1)) <-> made_as k v q (evs ++ cs_log s)).
      { intros k u q. split; intros (w & w' & H); exists w, w'; [exact (ND _ H)|exact (UP _ H)]. }
      split.
      * rewrite DD. discriminate.
      * intros k u m q H Q. apply MA. exact (B _ _ _ _ (ND _ H) Q).
      * intros k k' u q q' H H'. apply MA in H, H'. eauto.
Qed.
Lemma cruns_voiced : forall E ops, voiced (cruns E ops).
Proof. intros E ops. eapply voiced_reach, cruns_any. Qed.

(** what the client hears of a message, if it listens at [p] *)
Definition tells (p : N) (m : cmsg) : list heard := match peer_of m with Some q => if q =? p then voice m else [] | None => [] end.

Lemma flat_map_snoc : forall A B (f : A -> list B) l x, flat_map f (l ++ [x]) = flat_map f l ++ f x.
Proof. intros. rewrite flat_map_app. cbn. now rewrite app_nil_r. Qed.

Lemma told_one : forall u p l,
  (forall k v m q, In (Sent k v m) l -> peer_of m = Some q -> (q = p <-> v = u)) ->
  flat_map (tells p) (transmitted l) = wrote u l.
Proof.
  intros u p l. induction l as [|e l IH]; intros H; [reflexivity|].
  assert (IH' : flat_map (tells p) (transmitted l) = wrote u l) by (apply IH; intros k v m q X; apply (H k v m q); now right).
  destruct e as [ | | | | | | | | | | | |]; cbn [transmitted said wrote]; try exact IH'.
  all: try (unfold wrote; cbn [said]; exact IH').
  rewrite flat_map_snoc, IH'. unfold wrote. cbn [said]. unfold tells. destruct (peer_of m) as [q|] eqn:Q.
  - specialize (H _ u0 m q (or_introl eq_refl) Q). destruct (q =? p) eqn:X; destruct (u0 =? u) eqn:Y.
    + cbn [rev]. now rewrite flat_map_snoc.
    + apply N.eqb_eq in X. apply N.eqb_neq in Y. tauto.
    + apply N.eqb_neq in X. apply N.eqb_eq in Y. tauto.
    + now rewrite app_nil_r.
  - assert (V : voice m = []) by (destruct m; try reflexivity; discriminate).
    destruct (u0 =? u); [cbn [rev]; now rewrite flat_map_snoc, V|now rewrite app_nil_r].
Qed.

Lemma known_heard : forall E ops n u p, known_as n u p (cs_log (cruns E ops)) ->
  flat_map (tells p) (transmitted (cs_log (cruns E ops))) = wrote u (cs_log (cruns E ops)).
Proof.
  intros E ops n u p (M & U). apply told_one. intros k v m q H Q. destruct (cruns_voiced E ops) as [_ V2 V3].
  pose proof (V2 _ _ _ _ H Q) as X. split.
  - intros ->. destruct X as (w & w' & X). exact (U _ _ _ _ X).
  - intros ->. exact (V3 _ _ _ _ _ X M).
Qed.

(** ** Messages *)

Definition grows (f : serializer -> option serializer) : Prop := forall s s', f s = Some s' -> exists t, s' = s ++ t /\ (len s <= BUFFER_SIZE -> len s' <= BUFFER_SIZE).
Lemma grows_N : forall x, grows (fun s => WriteN s x).
Proof.
  intros x s s' H. pose proof H as H'. unfold WriteN in H. destruct (_ <? _); [discriminate|]. injection H as <-. exists x. split; [reflexivity|].
  intros L. exact (proj2 (WriteN_inv _ _ _ L H')).
Qed.
Lemma grows_chain : forall f g, grows f -> grows g -> grows (fun s => obind (f s) g).
Proof.
  intros f g F G s s' H. destruct (f s) as [s1|] eqn:E; [|discriminate]. destruct (F _ _ E) as (t & -> & A). destruct (G _ _ H) as (t' & -> & B).
  exists (t ++ t'). split; [now rewrite app_assoc|auto].
Qed.
Lemma grows_u32 : forall n, grows (fun s => WriteU32 s n). Proof. intros n. apply grows_N. Qed.
Lemma grows_bool : forall n, grows (fun s => WriteBool s n). Proof. intros n. apply grows_N. Qed.
Lemma grows_string : forall x, grows (fun s => WriteString s x).
Proof. intros x. apply grows_chain; [apply grows_u32|apply grows_N]. Qed.
Ltac grow := repeat match goal with
  | |- grows (fun s => obind _ _) => apply grows_chain
  | |- grows (fun s => WriteU32 s _) => apply grows_u32
  | |- grows (fun s => WriteBool s _) => apply grows_bool
  | |- grows (fun s => WriteString s _) => apply grows_string
  | |- grows (fun s => WriteN s _) => apply grows_N
  | |- grows (WriteString ?s) => idtac
  end.

Definition number (m : cmsg) : N :=
  match m with
  | COpen _ _ _ _ _ => 90 | CConf _ _ _ _ => 91 | COpenFail _ _ _ => 92 | CAdjust _ _ => 93 | CData _ _ => 94 | CExt _ _ _ => 95
  | CEof _ => 96 | CClose _ => 97 | CRequest _ _ _ => 98 | CReply _ b => if b then 99 else 100
  end.
Lemma new_number : forall header n s, n < 256 -> new_packet header n = Some s -> s = header ++ [n] /\ (len header <= BUFFER_SIZE -> len s <= BUFFER_SIZE).
Proof.
  intros header n s L H. split; [|intros X; exact (proj2 (WriteN_inv _ _ _ X H))]. unfold new_packet, WriteU8, WriteN in H. destruct (_ <? _); [discriminate|]. injection H as <-. now rewrite N.mod_small. Qed.

Lemma emit_number : forall header m s, Emit header m = Some s -> exists t, s = header ++ number m :: t /\ (len header <= BUFFER_SIZE -> len s <= BUFFER_SIZE).
Proof.
  assert (G : forall header n s (f : serializer -> option serializer), n < 256 -> grows f -> obind (new_packet header n) f = Some s -> exists t, s = header ++ n :: t /\ (len header <= BUFFER_SIZE -> len s <= BUFFER_SIZE)).
  { intros header n s f L F H. destruct (new_packet header n) as [s1|] eqn:E; [|discriminate]. apply new_number in E as (E & E'); [|exact L]. subst s1.
    destruct (F _ _ H) as (t & -> & A). exists t. split; [now rewrite <- app_assoc|auto]. }
  intros header m s H. destruct m; cbn [Emit number] in *.
  - eapply (G header 90); [reflexivity| |exact H]. grow.
  - eapply (G header 91); [reflexivity| |exact H]. grow.
  - eapply (G header 92); [reflexivity| |exact H]. grow.
  - eapply (G header 93); [reflexivity| |exact H]. grow.
  - eapply (G header 94); [reflexivity| |exact H]. apply grows_chain; [grow|apply grows_string].
  - eapply (G header 95); [reflexivity| |exact H]. apply grows_chain; [grow|]. apply grows_chain; [grow|apply grows_string].
  - eapply (G header 96); [reflexivity| |exact H]. grow.
  - eapply (G header 97); [reflexivity| |exact H]. grow.
  - unfold MakeChannelReqest in H. destruct (new_packet header MSG_CHANNEL_REQUEST) as [s1|] eqn:E; [|discriminate].
    apply (G header 98 s (fun s => obind (let* s := WriteU32 s peer in let* s := WriteString s name in WriteBool s false) (fun s => WriteN s data))); [reflexivity| |].
    + apply grows_chain; [|apply grows_N]. grow.
    + change (new_packet header 98) with (new_packet header MSG_CHANNEL_REQUEST). rewrite E. exact H.
  - destruct success; [eapply (G header 99)|eapply (G header 100)]; try reflexivity; try exact H; grow.
Qed.

Lemma be32_read : forall n, n < pow32 -> exists a b c d, be32 n = [a; b; c; d] /\ un_be32 a b c d = n.
Proof.
  intros n H. pose proof (ReadU32_be32 n [] H) as R. unfold be32 in *. cbn [app] in R. unfold ReadU32, ReadN in R.
  do 4 eexists. split; [reflexivity|]. cbn in R. injection R as R. exact R.
Qed.

Lemma be32_4 : forall n, exists a b c d, be32 n = [a; b; c; d].
Proof. intros n. do 4 eexists. reflexivity. Qed.

Lemma heard_emitted : forall p m b, emitted m b -> (forall q, peer_of m = Some q -> q < pow32) ->
  (forall t d, m = CExt p t d -> t < pow32) -> heard_of p b = tells p m /\ channel_message b = true.
Proof.
  intros p m b (header & s & L & E & ->) Q T. destruct (emit_number _ _ _ E) as (t & S & _).
  assert (D : drop 5 s = number m :: t).
  { rewrite S. unfold drop. change (N.to_nat 5) with 5%nat. destruct header as [|h1 [|h2 [|h3 [|h4 [|h5 [|h6 h]]]]]]; try discriminate L; [reflexivity|].
    exfalso. unfold len in L. cbn [List.length] in L. lia. }
  rewrite D. split.
  2: { unfold channel_message. destruct m; try reflexivity. destruct success; reflexivity. }
  destruct m; try (cbn [number tells peer_of heard_of]; reflexivity).
  - cbn [Emit number tells peer_of voice] in *. specialize (Q peer eq_refl).
    assert (M : MakeChannelData header peer data = made header 94 [FU32 peer; FString data]) by made (fun h => MakeChannelData h peer data).
    rewrite M in E. unfold made in E. destruct (N.leb_spec (5 + len (message 94 [FU32 peer; FString data])) 65536) as [LE|LE]; [|discriminate].
    injection E as E. rewrite <- E in S. apply app_inv_head in S. unfold message in S. injection S as S. unfold enc in S. cbn [map enc_field List.concat] in S.
    assert (LD : len data < pow32) by (unfold message, enc in LE; cbn [map enc_field List.concat] in LE; rewrite len_cons, !len_app, len_string_enc in LE; unfold pow32; lia).
    rewrite app_nil_r in S. unfold string_enc in S.
    destruct (be32_read peer Q) as (a & b & c & d & B1 & B2). destruct (be32_read (len data) LD) as (e & f & g & h & B3 & B4). rewrite B1, B3 in S. cbn [app] in S. subst t.
    cbn [heard_of]. rewrite B2, B4, N.eqb_refl, andb_true_r. reflexivity.
  - cbn [Emit number tells peer_of voice] in *. specialize (Q peer eq_refl).
    assert (M : MakeChannelExtendedData header peer type data = made header 95 [FU32 peer; FU32 type; FString data]) by made (fun h => MakeChannelExtendedData h peer type data).
    rewrite M in E. unfold made in E. destruct (N.leb_spec (5 + len (message 95 [FU32 peer; FU32 type; FString data])) 65536) as [LE|LE]; [|discriminate].
    injection E as E. rewrite <- E in S. apply app_inv_head in S. unfold message in S. injection S as S. unfold enc in S. cbn [map enc_field List.concat] in S.
    assert (LD : len data < pow32) by (unfold message, enc in LE; cbn [map enc_field List.concat] in LE; rewrite len_cons, !len_app, len_string_enc in LE; unfold pow32; lia).
    rewrite app_nil_r in S. unfold string_enc in S.
    destruct (be32_read peer Q) as (a & b & c & d & B1 & B2). destruct (be32_read (len data) LD) as (e & f & g & h & B3 & B4).
    destruct (be32_4 type) as (i & j & k & l & B5). rewrite B1, B3, B5 in S. cbn [app] in S. subst t.
    cbn [heard_of]. rewrite B2, B4, N.eqb_refl, andb_true_r. destruct (peer =? p) eqn:X; [|reflexivity]. apply N.eqb_eq in X. rewrite X in T.
    specialize (T _ _ eq_refl). destruct (be32_read type T) as (i' & j' & k' & l' & B7 & B8). rewrite B5 in B7. injection B7 as <- <- <- <-. now rewrite B8.
  - cbn [Emit number tells peer_of voice] in *. specialize (Q peer eq_refl).
    assert (M : MakeChannelEof header peer = made header 96 [FU32 peer]) by made (fun h => MakeChannelEof h peer).
    rewrite M in E. unfold made in E. destruct (N.leb_spec (5 + len (message 96 [FU32 peer])) 65536) as [LE|LE]; [|discriminate].
    injection E as E. rewrite <- E in S. apply app_inv_head in S. unfold message in S. injection S as S. unfold enc in S. cbn [map enc_field List.concat] in S.
    rewrite app_nil_r in S. destruct (be32_read peer Q) as (a & b & c & d & B1 & B2). rewrite B1 in S. subst t.
    cbn [heard_of]. rewrite B2. reflexivity.
  - destruct success; reflexivity.
Qed.

Lemma hears_channel : forall p ms, hears p (filter channel_message ms) = hears p ms.
Proof.
  intros p ms. induction ms as [|m ms IH]; [reflexivity|]. cbn [filter]. destruct (channel_message m) eqn:C; unfold hears in *; cbn [flat_map]; rewrite IH; [reflexivity|].
  assert (X : heard_of p m = []); [|now rewrite X].
  destruct m as [|b m]; [reflexivity|]. unfold channel_message in C. unfold heard_of. destruct b as [|b]; [reflexivity|].
  do 7 (destruct b as [b|b|]; try reflexivity); discriminate C.
Qed.

Lemma hears_emitted : forall p ms bs, Forall2 emitted ms bs -> (forall m q, In m ms -> peer_of m = Some q -> q < pow32) ->
  (forall t d, In (CExt p t d) ms -> t < pow32) -> hears p bs = flat_map (tells p) ms.
Proof.
  intros p ms bs H. induction H as [|m b ms bs H0 H IH]; intros Q T; [reflexivity|]. unfold hears in *. cbn [flat_map].
  rewrite IH; [|intros; eapply Q; [right; eassumption|assumption]|intros; eapply T; right; eassumption].
  f_equal. apply heard_emitted; [exact H0|intros q; apply Q; now left|]. intros t d ->. eapply T. left. reflexivity.
Qed.

Lemma in_transmitted : forall m l, In m (transmitted l) <-> exists k v, In (Sent k v m) l.
Proof.
  intros m l. induction l as [|e l IH]; [split; [intros []|intros (k & v & [])]|].
  assert (G : (exists k v, In (Sent k v m) (e :: l)) <-> (exists k v, e = Sent k v m) \/ In m (transmitted l)).
  { rewrite IH. split; [intros (k & v & [->|H]); [left|right]; eauto|]. intros [(k & v & ->)|(k & v & H)]; exists k, v; [now left|now right]. }
  rewrite G. destruct e as [k v m'| | | | | | | | | | | |]; cbn [transmitted];
    try (split; [now right|intros [(k0 & v0 & X)|X]; [discriminate|exact X]]).
  rewrite in_app_iff. split; [intros [H|[->|[]]]; [now right|left; eauto]|]. intros [(k0 & v0 & X)|X]; [right; left; congruence|now left].
Qed.

(** ** Sessions *)

Lemma speaks_app : forall a b, speaks (a ++ b) = speaks b ++ speaks a.
Proof.
  intros a b. induction a as [|e a IH]; [cbn; now rewrite app_nil_r|]. destruct e; cbn [app speaks]; try exact IH; rewrite IH; try destruct s; now rewrite <- app_assoc.
Qed.
Lemma on_stdout_app : forall a b, on_stdout (a ++ b) = on_stdout a ++ on_stdout b.
Proof. intros. unfold on_stdout. apply flat_map_app. Qed.
Lemma on_stderr_app : forall a b, on_stderr (a ++ b) = on_stderr a ++ on_stderr b.
Proof. intros. unfold on_stderr. apply flat_map_app. Qed.

Lemma speaks_stderr : forall l, on_stderr (speaks l) = sent Stderr l.
Proof.
  induction l as [|e l IH]; [reflexivity|]. destruct e as [|x d| | | | | | | | | |]; cbn [speaks sent]; try exact IH.
  - destruct x; cbn [src_eqb]; rewrite on_stderr_app, IH; cbn [on_stderr flat_map]; now rewrite ?app_nil_r.
  - rewrite on_stderr_app, IH. cbn. now rewrite app_nil_r.
Qed.
Lemma speaks_stdout : forall l, sent Tty l = [] -> sent Sock l = [] -> on_stdout (speaks l) = sent Stdout l.
Proof.
  induction l as [|e l IH]; [reflexivity|]. destruct e as [|x d| | | | | | | | | |]; cbn [speaks sent]; try exact IH; intros A B.
  - destruct x; cbn [src_eqb] in *; rewrite on_stdout_app; cbn [on_stdout flat_map]; rewrite ?app_nil_r.
    + now rewrite IH.
    + now apply IH.
    + apply app_eq_nil in A as (A & ->). rewrite app_nil_r. now apply IH.
    + apply app_eq_nil in B as (B & ->). rewrite app_nil_r. now apply IH.
  - rewrite on_stdout_app, IH by assumption. cbn. now rewrite app_nil_r.
Qed.
Lemma speaks_tty : forall l, sent Stdout l = [] -> sent Sock l = [] -> on_stdout (speaks l) = sent Tty l.
Proof.
  induction l as [|e l IH]; [reflexivity|]. destruct e as [|x d| | | | | | | | | |]; cbn [speaks sent]; try exact IH; intros A B.
  - destruct x; cbn [src_eqb] in *; rewrite on_stdout_app; cbn [on_stdout flat_map]; rewrite ?app_nil_r.
    + apply app_eq_nil in A as (A & ->). rewrite app_nil_r. now apply IH.
    + now apply IH.
    + now rewrite IH.
    + apply app_eq_nil in B as (B & ->). rewrite app_nil_r. now apply IH.
  - rewrite on_stdout_app, IH by assumption. cbn. now rewrite app_nil_r.
Qed.
Lemma speaks_sock : forall l, sent Stdout l = [] -> sent Tty l = [] -> on_stdout (speaks l) = sent Sock l.
Proof.
  induction l as [|e l IH]; [reflexivity|]. destruct e as [|x d| | | | | | | | | |]; cbn [speaks sent]; try exact IH; intros A B.
  - destruct x; cbn [src_eqb] in *; rewrite on_stdout_app; cbn [on_stdout flat_map]; rewrite ?app_nil_r.
    + apply app_eq_nil in A as (A & ->). rewrite app_nil_r. now apply IH.
    + now apply IH.
    + apply app_eq_nil in B as (B & ->). rewrite app_nil_r. now apply IH.
    + now rewrite IH.
  - rewrite on_stdout_app, IH by assumption. cbn. now rewrite app_nil_r.
Qed.

(** after its CHANNEL_EOF a session says nothing *)
Lemma speaks_eof : forall l, proper_end l -> forall a b, speaks l = a ++ b -> In HEof a -> on_stdout b = [] /\ on_stderr b = [].
Proof.
  induction l as [|e l IH]; intros P a b E H.
  - symmetry in E. apply app_eq_nil in E as (-> & ->). destruct H.
  - destruct P as (P0 & P). assert (NI : In HEof (speaks l) -> In ISentEof l).
    { clear. induction l as [|e l IH]; [intros []|]. destruct e as [|x d| | | | | | | | | |]; cbn [speaks]; intros H; try (right; now apply IH).
      - destruct x; apply in_app_or in H as [H|[H|[]]]; try discriminate; right; now apply IH.
      - now left. }
    assert (S : forall i, speaks (e :: l) = speaks l ++ [i] -> (In ISentEof l -> False) -> on_stdout b = [] /\ on_stderr b = []).
    { intros i X NE. rewrite X in E. destruct b as [|i0 b0] using rev_ind; [split; reflexivity|]. clear IHb0.
      rewrite app_assoc in E. apply app_inj_tail in E as (E & _). exfalso. apply NE, NI. rewrite E. apply in_or_app. now left. }
    destruct e as [|x d| | | | | | | | | |]; cbn [speaks] in E; try (eapply IH; eassumption).
    + destruct P0 as (_ & NE). eapply (S (match x with Stderr => HExt 1 d | _ => HData d end)); [destruct x; reflexivity|exact NE].
    + destruct P0 as (_ & NE). apply (S HEof); [reflexivity|exact NE].
Qed.
Lemma speaks_has_eof : forall l, In HEof (speaks l) -> In ISentEof l.
Proof.
  induction l as [|e l IH]; [intros []|]. destruct e as [|x d| | | | | | | | | |]; cbn [speaks]; intros H; try (right; now apply IH).
  - destruct x; apply in_app_or in H as [H|[H|[]]]; try discriminate; right; now apply IH.
  - now left.
Qed.

(** a source which was never opened *)
Definition unused (x : src) (s : sess) : Prop := so_open (sget s x) = false /\ produced x (ss_log s) = [] /\ sent x (ss_log s) = [].

Definition dumb (x : src) (e : iev) : Prop := match e with IProduced y _ | ISent y _ => y <> x | _ => True end.
Lemma unused_log : forall x e s, dumb x e -> unused x s -> unused x (slog e s).
Proof.
  intros x e s D (A & B & C). split; [destruct x; exact A|]. split; cbn [slog ss_log]; destruct e; cbn [produced sent dumb] in *; rewrite ?(src_eqb_neq _ _ D); assumption.
Qed.
Lemma unused_put : forall x y v s, (y = x -> so_open v = false) -> unused x s -> unused x (sput y v s).
Proof. intros x y v s D (A & B & C). split; [|split; assumption]. destruct x, y; try exact A; exact (D eq_refl). Qed.
Lemma unused_child : forall x c s, unused x s -> unused x (schild c s).
Proof. intros x c s H. destruct x; exact H. Qed.
Lemma unused_block : forall x c s, unused x s -> unused x (sblock c s).
Proof. intros x c s H. destruct x; exact H. Qed.
Lemma unused_closed : forall x s, unused x s -> unused x (sclosed s).
Proof. intros x s H. destruct x; exact H. Qed.
Lemma unused_swin : forall x w s, unused x s -> unused x (sswin w s).
Proof. intros x c s H. destruct x; exact H. Qed.
Lemma unused_source : forall x y c s, unused x s -> unused x (s_close_source y c s).
Proof.
  intros x y c s H. unfold s_close_source. destruct (so_open (sget s y)) eqn:O; [|exact H].
  apply unused_log; [exact Logic.I|]. apply unused_put; [reflexivity|]. destruct (so_data _); [exact H|]. apply unused_log; [exact Logic.I|exact H].
Qed.
Lemma unused_close : forall x c s, unused x s -> unused x (s_close c s).
Proof. intros x c s H. unfold s_close. apply unused_closed, unused_child, unused_log; [exact Logic.I|]. now do 3 apply unused_source. Qed.
Lemma unused_inactive : forall x s, unused x s -> unused x (s_close_if_inactive s).
Proof. intros x s H. unfold s_close_if_inactive. destruct (_ || _); [exact H|]. now apply unused_close. Qed.
Lemma unused_eof : forall x s, unused x s -> unused x (s_maybe_eof s).
Proof. intros x s H. unfold s_maybe_eof. destruct (s_outputs s); [exact H|]. apply unused_inactive, unused_log; [exact Logic.I|exact H]. Qed.
Lemma unused_schedule : forall x s, unused x s -> unused x (s_schedule s).
Proof.
  intros x s H. unfold s_schedule. pose proof (proj1 H) as O.
  repeat (apply unused_put; [intros <-; rewrite (proj2 (schedule_data _)); exact O|]). exact H.
Qed.
Lemma unused_cancel : forall x s, unused x s -> unused x (s_cancel s).
Proof. intros x s H. unfold s_cancel. pose proof (proj1 H) as O. repeat (apply unused_put; [intros <-; exact O|]). exact H. Qed.
Lemma unused_tell : forall x t s, unused x s -> unused x (s_tell t s).
Proof.
  assert (B : forall x s, unused x s -> unused x (s_blocked s)) by (intros x s H; unfold s_blocked; destruct (_ =? 0); [exact H|now apply unused_cancel]).
  assert (U : forall x s, unused x s -> unused x (s_unblocked s)) by (intros x s H; unfold s_unblocked; destruct (_ =? 0); [exact H|now apply unused_schedule]).
  intros x t s H. destruct t; cbn [s_tell]; auto.
Qed.
Lemma unused_read : forall x y s, so_open (sget s y) = true -> unused x s -> unused x (s_read y s).
Proof.
  intros x y s O H. assert (N0 : y <> x) by (intros ->; pose proof (proj1 H); congruence). unfold s_read. destruct (_ =? 0); [apply unused_log; [exact Logic.I|exact H]|].
  destruct (take _ _); [now apply unused_eof, unused_source|]. cbv zeta. set (t := slog _ _).
  assert (T : unused x t). { apply unused_log; [exact N0|]. apply unused_swin, unused_put; [intros X; now apply N0 in X|exact H]. }
  destruct (_ =? 0); [now apply unused_cancel|exact T].
Qed.
Lemma unused_step : forall x s o, x = Sock \/ (x = Tty /\ o <> SPty) -> unused x s -> unused x (sstep s o).
Proof.
  intros x s o X H. unfold sstep. destruct (ss_closed s); [exact H|]. destruct o.
  - destruct (so_open _) eqn:O; [|exact H]. cbn [andb]. destruct (negb _); [|exact H]. assert (N0 : x0 <> x) by (intros ->; pose proof (proj1 H); congruence).
    apply unused_log; [exact N0|]. apply unused_put; [intros Y; now apply N0 in Y|exact H].
  - destruct (so_open _) eqn:O; [|exact H]. apply unused_put; [intros <-; pose proof (proj1 H); congruence|exact H].
  - destruct (so_open _) eqn:O; [|exact H]. cbn [andb]. destruct (so_reg _); [|exact H]. assert (R : unused x (s_read x0 s)) by now apply unused_read.
    destruct x0; try (destruct (so_data _); [destruct (so_eof _)|]; (exact R || exact H)).
    unfold s_tty_ready. destruct (_ && _); [exact R|]. destruct (so_eof _); [|exact H]. now apply unused_eof, unused_source.
  - apply unused_put; [|exact H]. intros <-. unfold schedule_write. pose proof (proj1 H) as A. cbn [sget] in A. now rewrite A.
  - destruct (k =? 0); [exact H|]. cbv zeta. apply unused_swin. assert (L : unused x (slog (IAdjusted k) s)) by (apply unused_log; [exact Logic.I|exact H]).
    destruct (_ =? 0); [now apply unused_schedule|exact L].
  - destruct (_ || _); [exact H|]. apply unused_put; [|exact H]. intros <-. destruct X as [X|(_ & X)]; [discriminate|congruence].
  - destruct (_ || _); [exact H|]. cbv zeta. apply unused_log; [exact Logic.I|]. apply unused_child.
    assert (Y : unused x (if so_open (ss_tty s) then s else sput Stderr (new_source [] false) (sput Stdout (new_source [] false) s))).
    { destruct (so_open _); [exact H|]. repeat (apply unused_put; [intros <-; destruct X as [X|(X & _)]; discriminate|]). exact H. }
    destruct (_ =? 0); [exact Y|now apply unused_schedule].
  - destruct (ss_child s); [|exact H]. apply unused_inactive, unused_log; [exact Logic.I|]. now apply unused_child.
  - cbv zeta. assert (Y : unused x (slog (IProduced Stderr text) (sput Stderr (new_source text true) (schild false (s_close_source Tty LRejected (s_close_source Stderr LRejected (s_close_source Stdout LRejected s))))))).
    { apply unused_log; [destruct X as [->|(-> & _)]; discriminate|]. apply unused_put; [intros <-; destruct X as [X|(X & _)]; discriminate|].
      apply unused_child. now do 3 apply unused_source. }
    destruct (_ =? 0); [exact Y|now apply unused_schedule].
  - destruct (b_rekey _); [exact H|]. cbn [b_kexinit]. apply unused_tell, unused_log; [exact Logic.I|]. now apply unused_block.
  - destruct (b_rekey _); [|exact H]. cbn [b_newkeys]. apply unused_tell, unused_log; [exact Logic.I|]. now apply unused_block.
  - cbn [b_flush]. now apply unused_tell, unused_block.
  - now apply unused_close.
Qed.
Lemma sruns_unused : forall x w b ops, x = Sock \/ (x = Tty /\ ~ In SPty ops) -> unused x (sruns w b ops).
Proof.
  intros x w b ops. induction ops as [|o t IH] using rev_ind; intros X; [repeat split; destruct x; reflexivity|].
  rewrite sruns_snoc. apply unused_step.
  - destruct X as [X|(X & N0)]; [now left|]. right. split; [exact X|]. intros ->. apply N0, in_or_app. right. now left.
  - apply IH. destruct X as [X|(X & N0)]; [now left|]. right. split; [exact X|]. intros I0. apply N0, in_or_app. now left.
Qed.

(** CHANNEL_EOF is sent when everything was sent *)
Lemma closing_step : forall s o x, benign o -> ss_closed s = false -> ss_closed (sstep s o) = true -> so_open (sget (sstep s o) x) = false.
Proof.
  assert (Z : forall c s x, so_open (sget (s_close c s) x) = false).
  { intros c s x. unfold s_close. set (a := s_close_source Stdout c s). set (d := s_close_source Stderr c a). set (e := s_close_source Tty c d).
    assert (P1 : forall y c s, so_open (sget (s_close_source y c s) y) = false).
    { clear. intros y c s. unfold s_close_source. destruct (so_open (sget s y)) eqn:O; [|exact O]. destruct y; reflexivity. }
    assert (P2 : forall y z c s, so_open (sget s z) = false -> so_open (sget (s_close_source y c s) z) = false).
    { clear. intros y z c s O. unfold s_close_source. destruct (so_open (sget s y)) eqn:O2; [|exact O]. destruct (so_data _), y, z; first [reflexivity|exact O]. }
    assert (G : so_open (sget e x) = false). { unfold e, d, a. destruct x; [apply P2, P2, P1|apply P2, P1|apply P1|reflexivity]. }
    destruct x; exact G. }
  assert (I : forall s x, ss_closed s = false -> ss_closed (s_close_if_inactive s) = true -> so_open (sget (s_close_if_inactive s) x) = false).
  { intros s x C. unfold s_close_if_inactive. destruct (_ || _); [congruence|]. intros _. apply Z. }
  assert (M : forall s x, ss_closed s = false -> ss_closed (s_maybe_eof s) = true -> so_open (sget (s_maybe_eof s) x) = false).
  { intros s x C. unfold s_maybe_eof. destruct (s_outputs s); [congruence|]. exact (I (slog ISentEof s) x C). }
  assert (Q : forall y s x, ss_closed s = false -> ss_closed (s_read y s) = true -> so_open (sget (s_read y s) x) = false).
  { intros y s x C. unfold s_read. destruct (_ =? 0); [cbn; congruence|]. destruct (take _ _).
    - apply M. now rewrite (proj1 (close_source_same _ _ _)).
    - cbv zeta. destruct (_ =? 0); cbn; congruence. }
  assert (K : forall t s, ss_closed (s_tell t s) = ss_closed s) by (intros t s; exact (proj1 (alike_tell t s))).
  intros s o x BN C. unfold sstep. rewrite C. destruct o; try destruct BN.
  - destruct (_ && _); cbn; congruence.
  - destruct (so_open _); cbn; congruence.
  - destruct (_ && _); [|congruence]. destruct x0; try (destruct (so_data _); [destruct (so_eof _)|]; (apply Q; exact C) || congruence).
    unfold s_tty_ready. destruct (_ && _); [now apply Q|]. destruct (so_eof _); [|congruence]. apply M. now rewrite (proj1 (close_source_same _ _ _)).
  - cbn; congruence.
  - destruct (k =? 0); [congruence|]. cbv zeta. destruct (_ =? 0); cbn; congruence.
  - destruct (_ || _); cbn; congruence.
  - destruct (_ || _); [congruence|]. cbv zeta. destruct (so_open _); destruct (_ =? 0); cbn; congruence.
  - destruct (ss_child s); [|congruence]. apply I. exact C.
  - destruct (b_rekey _); [congruence|]. cbn [b_kexinit]. rewrite K. cbn. congruence.
  - destruct (b_rekey _); [|congruence]. cbn [b_newkeys]. rewrite K. cbn. congruence.
  - cbn [b_flush]. rewrite K. cbn. congruence.
Qed.
Lemma eof_complete : forall w b ops x, Forall benign ops -> In ISentEof (ss_log (sruns w b ops)) -> so_open (sget (sruns w b ops) x) = false.
Proof.
  intros w b ops x. induction ops as [|o t IH] using rev_ind; intros F H; [destruct H|].
  pose proof (sruns_X w b _ F) as (_ & L). destruct (ss_closed (sruns w b (t ++ [o]))) eqn:C.
  - clear L. revert C H. rewrite sruns_snoc. apply Forall_app in F. destruct F as (F1 & F2). specialize (IH F1). set (s := sruns w b t) in *.
    intros C H. destruct (ss_closed s) eqn:D; [unfold sstep in *; rewrite D in *; now apply IH|]. inversion F2; subst.
    now apply closing_step.
  - destruct (L eq_refl) as (_ & _ & L3 & _). destruct (L3 H) as (O & _). unfold s_outputs in O. apply orb_false_iff in O as (O & O3). apply orb_false_iff in O as (O1 & O2).
    destruct x; cbn [sget]; auto.
Qed.
