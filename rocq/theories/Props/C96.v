(** * C96: global requests and their answers, end to end

    Both directions of a connection ([connected] as in C58: both transports with
    their threads, in any interleaving, and the network) and the layer for global
    requests (Model/Globals.v).  Spec/GlobalAnswerSpec.v says what the client asks
    and which answers it hears, from the bytes of the messages, per RFC 4254.

    The parts are joined as in C95: the GLOBAL_REQUEST messages which the client's
    transport delivers are those handed to this layer after the login ([early] are
    those before it, which the layer refuses), and its replies, one packet each,
    are what the server's transport was given. *)

From Coq Require Import String NArith List Bool Lia.
From Verif.Base Require Import Bytes.
From Verif.Model Require Import Wire Frame Packets Makers Requests Channels Globals Queue Ciphers.
From Verif.Model Require Output Input.
From Verif.Spec Require Import WireSpec FrameSpec CipherSpec OutputSpec InputSpec EndToEndSpec ChannelSpec PipelineSpec AnswerSpec GlobalSpec GlobalAnswerSpec.
From Verif.Proofs Require Import WireFacts FrameFacts CipherFacts EndToEndFacts ChannelRequests ChannelToy AnswerFacts GlobalFacts GlobalAnswerFacts.
From Verif.Proofs Require OutputFacts InputFacts.
From Verif.Props Require C07 C25 C58 C93 C94 C95.
Import ListNotations.
Open Scope N_scope.

(** ** What a message asks *)

Theorem C96_messages :
  forall (w : N) (name data : bytes) (b : bool), len name < pow32 ->
  global_of (80 :: string_enc name ++ w :: data) = [{| q_name := name; q_want := negb (w =? 0); q_data := data |}] /\
  forall header, len header = 5 -> exists s, MakeGlobalResponse header b = Some s /\ verdict_of (drop 5 s) = [b].
Proof.
  intros w name data b L0. split.
  - rewrite read_global. unfold ParseGlobalRequest. rewrite ReadString_enc by exact L0. reflexivity.
  - intros header H. unfold MakeGlobalResponse, new_packet, WriteU8, WriteN. rewrite H.
    match goal with |- context [if ?c then _ else _] => replace c with false by (symmetry; now destruct b) end.
    eexists. split; [reflexivity|]. rewrite drop_app_ge by lia. replace (5 - len header) with 0 by lia. now destruct b.
Qed.
Print Assumptions C96_messages.

(** ** The handler *)

(** The handler is asked exactly what is requested, in this order, as long as the
    connection lives. *)
Theorem C96_asked :
  forall E ops, exists more,
  globals (ghanded ops) = map snd (gtold (gs_log (gruns E ops))) ++ more /\
  (gs_dead (gruns E ops) = false -> more = []).
Proof. exact gruns_told. Qed.
Print Assumptions C96_asked.

(** ** The way back *)

(** What the client hears as answers is the beginning of the layer's replies:
    none is added, changed or reordered. *)
Theorem C96_heard :
  forall P, tags_ok P ->
  forall ops s sub w ops' s' stream seen inflight,
  C58.connected C07.polite P ops s sub w ops' s' stream seen inflight ->
  forall replies, ggives sub replies -> exists later, replies = verdicts (messages seen) ++ later.
Proof.
  intros P T ops s sub w ops' s' stream seen inflight H replies (all & B & F).
  destruct (C93.C93_transport P T _ _ _ _ _ _ _ _ _ H) as (later & B').
  pose proof (C94.bears_fun _ _ B _ B') as ->. exists (verdicts later).
  rewrite <- (verdicts_emitted _ _ F), verdicts_kind. unfold verdicts. now rewrite flat_map_app.
Qed.
Print Assumptions C96_heard.

(** ** Both ways *)

(** Whatever the threads, the network and the listeners do, and however long the
    handlers take: the [k]-th answer which the client hears is the result of the
    [k]-th of its global requests for which it wanted one.  (If handlers of
    requests without "want reply" do not finish synchronously: [gconsiderate].) *)
Theorem C96_order_partial :
  forall P, tags_ok P ->
  forall ops s sub w ops' s' stream seen inflight,
  C58.connected C07.polite P ops s sub w ops' s' stream seen inflight ->
  forall rops rs rsub rw rops' rs' rstream rseen rinflight,
  C58.connected C07.polite P rops rs rsub rw rops' rs' rstream rseen rinflight ->
  forall E gops early unread, let log := gs_log (gruns E gops) in
  filter asks_global (messages seen) = early ++ ghanded gops ++ unread ->
  ggives rsub (greplies log) -> Forall (gconsiderate E) gops ->
  exists all rest, bears sub all /\ filter asks_global all = early ++ rest /\
  (exists more, globals rest = map snd (gtold log) ++ more) /\
  forall k b, nth_error (verdicts (messages rseen)) k = Some b ->
  exists id r, nth_error (expected (gtold log)) k = Some (id, r) /\ gresult id log = Some b.
Proof.
  intros P T ops s sub w ops' s' stream seen inflight H rops rs rsub rw rops' rs' rstream rseen rinflight R E gops early unread log M G C.
  destruct (C93.C93_transport P T _ _ _ _ _ _ _ _ _ H) as (later & B). destruct (gruns_told E gops) as (more & TM & _).
  exists (messages seen ++ later), (ghanded gops ++ unread ++ filter asks_global later). split; [exact B|].
  split; [rewrite filter_app, M, <- !app_assoc; reflexivity|].
  split; [rewrite globals_app, TM, <- app_assoc; eexists; reflexivity|].
  intros k b N0. destruct (C96_heard P T _ _ _ _ _ _ _ _ _ R _ G) as (l2 & L).
  assert (N1 : nth_error (greplies log) k = Some b) by (rewrite L, nth_error_app1; [exact N0|]; apply nth_error_Some; congruence).
  destruct (C25.C25_order_partial E gops C k b N1) as (id & W & RS).
  rewrite <- gtold_gasked, <- expected_wanted, nth_error_map in W. fold log in W. destruct (nth_error (expected (gtold log)) k) as [(i & r)|]; [|discriminate].
  cbn [option_map fst snd] in W. injection W as -> _. exists id, r. auto.
Qed.
Print Assumptions C96_order_partial.

Lemma answers_all : forall l t, (forall id r, In (id, r) t -> gresult id l <> None) ->
  Forall2 (fun x b => gresult (fst x) l = Some b) (expected t) (answers (gres l) (map (fun x => (fst x, q_want (snd x))) t)).
Proof.
  intros l t. induction t as [|(id & r) t IH]; intros H; [constructor|]. cbn [map answers fst snd]. unfold expected. cbn [filter]. change (waits (id, r)) with (q_want r).
  assert (H' : forall id r, In (id, r) t -> gresult id l <> None) by (intros; eapply H; right; eassumption). specialize (IH H').
  unfold gres at 1. destruct (gresult id l) as [b|] eqn:B; [|exfalso; eapply H; [left; reflexivity|exact B]].
  destruct (q_want r); [constructor; [exact B|exact IH]|exact IH].
Qed.

(** If everything has arrived on both ways, the connection lives and all handlers
    have finished, every request of the client has been handled, and the client
    has an answer to each one for which it wanted one. *)
Theorem C96_complete_partial :
  forall P, tags_ok P ->
  forall ops s sub w ops' s' stream seen s2,
  C58.connected C07.polite P ops s sub w ops' s' stream seen [] ->
  w = wire running (out_encrypt P) None 0 sub ->
  padded running run_block_size run_header_excluded sends None sub ->
  Input.i_job running s' = Input.IInitial ->
  Input.istep running run_auth_size (in_header P) (in_payload P) s' (Input.Read running) = Input.IOk running s2 [] ->
  forall rops rs rsub rw rops' rs' rstream rseen rs2,
  C58.connected C07.polite P rops rs rsub rw rops' rs' rstream rseen [] ->
  rw = wire running (out_encrypt P) None 0 rsub ->
  padded running run_block_size run_header_excluded sends None rsub ->
  Input.i_job running rs' = Input.IInitial ->
  Input.istep running run_auth_size (in_header P) (in_payload P) rs' (Input.Read running) = Input.IOk running rs2 [] ->
  forall E gops early, let log := gs_log (gruns E gops) in
  filter asks_global (messages seen) = early ++ ghanded gops ->
  ggives rsub (greplies log) -> Forall (gconsiderate E) gops -> gs_dead (gruns E gops) = false ->
  (forall id r, In (id, r) (gtold log) -> gresult id log <> None) ->
  exists all rest, bears sub all /\ filter asks_global all = early ++ rest /\
  globals rest = map snd (gtold log) /\
  Forall2 (fun x b => gresult (fst x) log = Some b) (expected (gtold log)) (verdicts (messages rseen)).
Proof.
  intros P T ops s sub w ops' s' stream seen s2 H W PD J ST rops rs rsub rw rops' rs' rstream rseen rs2 R RW RPD RJ RST
    E gops early log M (all & B & F) C D FIN.
  pose proof (C58.C58_everything_arrives_partial P T _ _ _ _ _ _ _ _ _ H W PD J ST) as SM. apply C93.same_bears in SM.
  pose proof (C58.C58_everything_arrives_partial P T _ _ _ _ _ _ _ _ _ R RW RPD RJ RST) as RM. apply C93.same_bears in RM.
  destruct (gruns_told E gops) as (more & TM & MN). rewrite (MN D), app_nil_r in TM.
  exists (messages seen), (ghanded gops). split; [exact SM|]. split; [exact M|]. split; [exact TM|].
  pose proof (C94.bears_fun _ _ B _ RM) as ->. rewrite <- verdicts_kind, (verdicts_emitted _ _ F).
  unfold log. rewrite (j_replies _ (gruns_J E gops C)). rewrite <- gtold_gasked. apply answers_all. exact FIN.
Qed.
Print Assumptions C96_complete_partial.

(** ** A connection with all its layers, both ways *)

(** The client sends three global requests, between other messages.  The first
    one takes longer than the third. *)
Definition m_ask (want : bool) : bytes := 80 :: string_enc (bs "x") ++ [if want then 1 else 0].
Definition asking : list bytes := [m_ask true; C95.m_open; m_ask false; m_ask true].
Definition answering : list bytes := [[2; 0; 0; 0; 0]; [81]; [82]].
Definition demo_gops : list gop := C25.gthree.

Example C96_asking : C95.linked asking.
Proof. unfold asking, C95.m_open, m_ask. C95.link. Qed.
Example C96_answering : C95.linked answering.
Proof. unfold answering. C95.link. Qed.

Lemma pk_bears : forall ms, forallb (fun m => (1 <=? len m) && (len m <=? 31)) ms = true -> bears (C95.d_sub ms) ([21] :: ms).
Proof.
  intros ms LN. constructor; [apply C58.pk_carries; vm_compute; discriminate|]. constructor. induction ms as [|m ms IH]; [constructor|].
  cbn [forallb] in LN. apply andb_true_iff in LN as (L1 & L2). apply andb_true_iff in L1 as (L0 & L1). apply N.leb_le in L0, L1.
  constructor; [now apply C58.pk_carries|auto].
Qed.
Lemma one_emitted : forall v, gemitted v [if v then 81 else 82].
Proof. intros v. exists [0; 0; 0; 0; 0], [0; 0; 0; 0; 0; if v then 81 else 82]. destruct v; repeat split. Qed.
Lemma ggives_dec : forall ms rs, forallb (fun m => (1 <=? len m) && (len m <=? 31)) ms = true ->
  filter answers_global ([21] :: ms) = map (fun v : bool => [if v then 81 else 82]) rs -> ggives (C95.d_sub ms) rs.
Proof.
  intros ms rs L F. exists ([21] :: ms). split; [now apply pk_bears|]. rewrite F. clear F. induction rs as [|v rs IH]; [constructor|].
  cbn [map]. constructor; [apply one_emitted|exact IH].
Qed.

Example C96_demo :
  let log := gs_log (gruns dbg demo_gops) in
  filter asks_global (messages (C95.d_seen asking)) = [] ++ ghanded demo_gops ++ [] /\
  ggives (C95.d_sub answering) (greplies log) /\ Forall (gconsiderate dbg) demo_gops /\ gs_dead (gruns dbg demo_gops) = false /\
  (forall id r, In (id, r) (gtold log) -> gresult id log <> None) /\
  map (fun x => (fst x, q_want (snd x))) (gtold log) = [(1, true); (2, false); (3, true)] /\
  verdicts (messages (C95.d_seen answering)) = [true; false].
Proof.
  cbv zeta. split; [vm_compute; reflexivity|]. split; [apply ggives_dec; vm_compute; reflexivity|].
  split; [apply C25.C25_witness|]. split; [vm_compute; reflexivity|]. split; [|split; vm_compute; reflexivity].
  assert (X : forallb (fun x => match gresult (fst x) (gs_log (gruns dbg demo_gops)) with Some _ => true | None => false end) (gtold (gs_log (gruns dbg demo_gops))) = true)
    by (vm_compute; reflexivity).
  rewrite forallb_forall in X. intros id r I0 Q. specialize (X _ I0). cbn [fst] in X. now rewrite Q in X.
Qed.

(** ** What goes wrong *)

(** The claim of [C96_order_partial] without the condition on handlers. *)
Definition C96_full_statement : Prop :=
  forall P, tags_ok P ->
  forall ops s sub w ops' s' stream seen inflight,
  C58.connected C07.polite P ops s sub w ops' s' stream seen inflight ->
  forall E gops, let log := gs_log (gruns E gops) in
  ggives sub (greplies log) ->
  forall k b, nth_error (verdicts (messages seen)) k = Some b ->
  exists id r, nth_error (expected (gtold log)) k = Some (id, r) /\ gresult id log = Some b.

(** The client has asked "no-more-sessions@openssh.com" without "want reply", as
    OpenSSH does, and hears an answer. *)
Definition no_more : gop := GopRequest (string_enc (bs "no-more-sessions@openssh.com") ++ [0]) (RSync true).
Definition confused : list bytes := [[81]].
Lemma confused_link : C95.linked confused.
Proof. unfold confused. C95.link. Qed.

Theorem C96_order_refuted : ~ C96_full_statement.
Proof.
  intros H. destruct confused_link as (s & s' & L & _).
  destruct (H C58.toy C58.toy_ok _ _ _ _ _ _ _ _ _ L rel [no_more]) with (k := 0%nat) (b := true) as (id & r & X & _).
  - apply ggives_dec; vm_compute; reflexivity.
  - vm_compute. reflexivity.
  - assert (Z : nth_error (expected (gtold (gs_log (gruns rel [no_more])))) 0 = None) by (vm_compute; reflexivity). congruence.
Qed.
Print Assumptions C96_order_refuted.
