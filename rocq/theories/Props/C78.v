(** * C78: connections waiting to be forwarded

    A connection accepted on a forwarded port or on the socket of a forwarded
    agent is handed over to a channel or closed, exactly once, and is not used
    after that. *)

From Coq Require Import NArith Arith List Bool Lia String.
From Verif.Base Require Import Bytes.
From Verif.Spec Require Import WireSpec ChannelSpec ForwarderSpec.
From Verif.Model Require Import Wire Frame Packets Requests Channels Forwarders.
From Verif.Proofs Require Import ChannelFactories ChannelFacts ChannelToy ForwarderFacts.
Import ListNotations.
Open Scope N_scope.

Lemma waiting_alive : forall f s, waiting f s <-> alive f s = true.
Proof.
  intros f s. rewrite alive_in. unfold ids. rewrite in_map_iff. split.
  - intros (l & I). exists {| fo_id := f; fo_listener := l |}. split; [reflexivity|exact I].
  - intros ([i l] & E & I). cbn in E. subst. now exists l.
Qed.

Definition C78_full_statement : Prop :=
  forall E ops f, ~ In (FvUseAfterFree f) (fs_log (fruns E ops)).

(** If the client refuses a channel with CHANNEL_OPEN_FAILURE, the waiting
    connection is freed by OnChannelCancel() and then used by
    OnChannelOpenFailure(). *)
Theorem C78_safe_refuted : ~ C78_full_statement.
Proof.
  intros H. apply (H rel [FListen 1; FAccept 1 (bs "forwarded-tcpip") 1000 []; FChan (p_fail 0 1)] 0). vm_compute. now left.
Qed.
Print Assumptions C78_safe_refuted.

(** Otherwise a freed one is never used... *)
Theorem C78_safe_partial :
  forall E ops f, never_refused (fs_chan (fruns E ops)) -> ~ In (FvUseAfterFree f) (fs_log (fruns E ops)).
Proof. intros E ops f H. exact (j_safe _ _ (J_runs E ops H) f). Qed.
Print Assumptions C78_safe_partial.

(** ... and every accepted connection waits, or has been handed over or closed
    exactly once.  Nothing happens to connections which were not accepted. *)
Theorem C78_once_partial :
  forall E ops f, never_refused (fs_chan (fruns E ops)) ->
  let s := fruns E ops in
  (accepts f (fs_log s) <= 1)%nat /\
  (waiting f s -> accepts f (fs_log s) = 1%nat /\ fates f (fs_log s) = O) /\
  (~ waiting f s -> fates f (fs_log s) = accepts f (fs_log s)).
Proof.
  intros E ops f H s. pose proof (J_runs E ops H) as JS. fold s in JS. pose proof (j_acc _ _ JS f) as A. pose proof (j_fate _ _ JS f) as F. rewrite waiting_alive.
  destruct (alive f s); cbn in F; destruct (f <? fs_next s); cbn in A; (split; [lia|]); (split; [intros X; try discriminate; lia|intros X]); try lia; now contradiction X.
Qed.
Print Assumptions C78_once_partial.

(** One which waits has been announced to the client exactly once, the answer
    is still to come, its listener is there and the connection is up: none is
    forgotten.  After the end of the connection, none waits. *)
Theorem C78_waiting_partial :
  forall E ops f l, never_refused (fs_chan (fruns E ops)) ->
  let s := fruns E ops in
  waiting_at f l s ->
  cs_dead (fs_chan s) = false /\ In l (map fst (fs_listeners s)) /\
  count_asked f (cs_log (fs_chan s)) = 1%nat /\ outstanding f (fs_chan s).
Proof.
  intros E ops f l H s W. pose proof (J_runs E ops H) as JS. fold s in JS.
  assert (A : alive f s = true) by (apply waiting_alive; now exists l). destruct (j_live _ _ JS f A) as (A1 & X0).
  assert (D : cs_dead (fs_chan s) = false).
  { destruct (cs_dead (fs_chan s)) eqn:D; [|reflexivity]. destruct (j_dead _ _ JS D) as (L & _). unfold waiting_at in W. rewrite L in W. contradiction. }
  split; [exact D|]. split; [exact (j_home _ _ JS _ W)|]. split; [exact A1|].
  destruct (request_found E (fs_chan s) f (j_ops _ _ JS) D (norej_cnt _ f H) A1 X0) as (n & w & _ & SL). now exists n, w.
Qed.
Print Assumptions C78_waiting_partial.

(** Conversely, every announcement which can still be confirmed belongs to a
    connection which waits. *)
Theorem C78_confirmable_partial :
  forall E ops f, never_refused (fs_chan (fruns E ops)) ->
  let s := fruns E ops in
  cs_dead (fs_chan s) = false -> (exists n w, In n indexes /\ cs_slots (fs_chan s) n = Some (SRequested f w false)) -> waiting f s.
Proof.
  intros E ops f H s D (n & w & IN & SL). pose proof (J_runs E ops H) as JS. fold s in JS. apply waiting_alive. destruct (alive f s) eqn:A; [reflexivity|]. exfalso.
  pose proof (j_gone _ _ JS f A) as X. destruct (j_ops _ _ JS) as (os & O). pose proof (cruns_I4 E os) as (B & _). rewrite <- O in B. specialize (B D f). unfold balance in B.
  pose proof (norej_cnt _ f H) as NR. fold s in NR. rewrite NR in B. assert (P : (1 <= pend f (cs_slots (fs_chan s)) indexes)%nat).
  { unfold pend. clear - IN SL. induction indexes as [|m t IH]; [contradiction|]. cbn [filter]. destruct IN as [->|IN].
    - rewrite SL. cbn [waits]. rewrite N.eqb_refl. cbn. lia.
    - specialize (IH IN). destruct (waits f _); cbn; lia. }
  lia.
Qed.
Print Assumptions C78_confirmable_partial.

(** A connection is handed over only after the client has confirmed its
    channel. *)
Theorem C78_given_partial :
  forall E ops f, never_refused (fs_chan (fruns E ops)) ->
  In (FvGiven f) (fs_log (fruns E ops)) -> In (Factory f FCreate) (cs_log (fs_chan (fruns E ops))).
Proof. intros E ops f H. exact (j_given _ _ (J_runs E ops H) f). Qed.
Print Assumptions C78_given_partial.

(** An accepted connection is announced in a channel of its own, with the
    given type and data.  If there is no free channel it is closed at once. *)
Theorem C78_announced :
  forall E s l type window data, In l (map fst (fs_listeners s)) -> cs_dead (fs_chan s) = false ->
  let s' := fstep E s (FAccept l type window data) in
  (exists n, In n indexes /\ cs_slots (fs_chan s) n = None /\
     cs_log (fs_chan s') = Sent n 0 (COpen type n (window mod 2 ^ 32) MAXIMUM_PACKET_SIZE data) :: Asked (fs_next s) :: cs_log (fs_chan s) /\
     waiting_at (fs_next s) l s') \/
  ((forall n, In n indexes -> cs_slots (fs_chan s) n <> None) /\
   fs_chan s' = fs_chan s /\ fs_log s' = FvClosed (fs_next s) :: FvAccepted (fs_next s) :: fs_log s).
Proof.
  intros E s l type window data I D s'. unfold s'. cbn [fstep]. assert (X : existsb (fun x => fst x =? l) (fs_listeners s) = true).
  { apply in_map_iff in I. destruct I as (x & X & I). apply existsb_exists. exists x. split; [exact I|]. now apply N.eqb_eq. }
  rewrite X. cbn [negb]. cbv zeta. cbn [fs_chan fsay]. destruct (AllocateChannelIndex (fs_chan s)) as [n|] eqn:AL.
  - left. exists n. unfold AllocateChannelIndex in AL. assert (F : forall l, first_free (cs_slots (fs_chan s)) l = Some n -> In n l /\ cs_slots (fs_chan s) n = None).
    { induction l0 as [|m t IH]; cbn; [discriminate|]. destruct (cs_slots (fs_chan s) m) eqn:SM; intros F.
      - destruct (IH F). split; [now right|assumption].
      - injection F as <-. split; [now left|exact SM]. }
    destruct (F _ AL) as (F1 & F2). split; [exact F1|]. split; [exact F2|]. cbn [fs_chan with_chan fsay]. unfold cstep. rewrite D. unfold OpenChannel, AllocateChannelIndex. rewrite AL.
    split; [reflexivity|]. unfold waiting_at. cbn. apply in_or_app. right. now left.
  - right. split; [|split; reflexivity]. unfold AllocateChannelIndex in AL. revert AL. generalize indexes. intros is F m IM. induction is as [|k t IH]; [contradiction|]. cbn in F.
    destruct (cs_slots (fs_chan s) k) eqn:SK; [|discriminate]. destruct IM as [<-|IM]; [congruence|now apply IH].
Qed.
Print Assumptions C78_announced.

(** Five connections: one is handed over, one hangs up, one loses its
    listener, one its session, one the SSH connection. *)
Definition C78_run : list fop :=
  [ FListen 1; FListen 2; FChan (p_open 7 100 50); FAgent 3 1;
    FAccept 1 (bs "forwarded-tcpip") 1000 [1]; FAccept 1 (bs "forwarded-tcpip") 1000 [2]; FAccept 2 (bs "forwarded-tcpip") 1000 [3];
    FAccept 3 (bs "auth-agent@openssh.com") 1000 []; FAccept 1 (bs "forwarded-tcpip") 1000 [4];
    FChan (p_conf 1 20 100); FHangup 1; FStop 2; FChan (p_close 0); FChan (p_conf 3 21 100); FChan (p_data 60 [1]) ].

Example C78_demo :
  let s := fruns rel C78_run in
  forallb (fun e => negb (rejected 0 e || rejected 1 e || rejected 2 e || rejected 3 e || rejected 4 e)) (cs_log (fs_chan s)) = true /\
  filter (fun e => match e with FvAccepted _ => false | _ => true end) (rev (fs_log s)) = [FvGiven 0; FvClosed 1; FvClosed 2; FvClosed 3; FvClosed 4] /\
  cs_dead (fs_chan s) = true /\ fs_live s = [] /\
  fs_live (fruns rel (firstn 12 C78_run)) = [{| fo_id := 3; fo_listener := 3 |}; {| fo_id := 4; fo_listener := 1 |}].
Proof. vm_compute. repeat split. Qed.
