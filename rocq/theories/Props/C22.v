(** * C22: send windows are respected

    Three layers: any user of a channel (Model/Channels.v), and the two
    channel classes of the daemon (Model/ChannelIO.v), whose logs are read
    with Spec/FlowSpec.v: [credit] is the peer's initial window plus all
    adjustments received, [sent_total] the number of data bytes sent,
    [produced] and [sent] the data of one source (stdout, stderr, tty, socket). *)

From Coq Require Import NArith Arith List Bool Lia.
From Verif.Base Require Import Bytes.
From Verif.Spec Require Import ChannelSpec FlowSpec.
From Verif.Model Require Import Wire Channels ChannelIO.
From Verif.Proofs Require Import ChannelSteps ChannelObjects ChannelFacts FlowFacts.
Import ListNotations.
Open Scope N_scope.

(** ** The window is never exceeded *)

(** Whatever the application does with a channel object [u] - the assertion
    in SendData() is a condition on the caller which Model/Channels.v makes
    part of the operation - it sends no more than it was allowed to. *)
Theorem C22_channel :
  forall E ops u, u <> 0 -> sent_bytes u (cs_log (cruns E ops)) <= send_credit u (cs_log (cruns E ops)).
Proof. intros E ops u Hu. exact (proj1 (proj2 (i2_gone _ (cruns_I2 E ops) u Hu))). Qed.
Print Assumptions C22_channel.

(** A session channel.  The window is a 64 bit number, which the peer would
    need 2^32 adjustments to overflow. *)
Theorem C22_session :
  forall w b ops, credit w (ss_log (sruns w b ops)) < pow64 ->
  sent_total (ss_log (sruns w b ops)) <= credit w (ss_log (sruns w b ops)) /\
  ~ In IAssertFailed (ss_log (sruns w b ops)).
Proof.
  intros w b ops H. destruct (sruns_W w b ops H) as (_ & B & C). split; [lia|exact C].
Qed.
Print Assumptions C22_session.

(** A socket channel, unless the peer's initial window is zero. *)
Theorem C22_socket_partial :
  forall dbg w b ops, 0 < w -> credit w (sk_log (kruns dbg w b ops)) < pow64 ->
  sent_total (sk_log (kruns dbg w b ops)) <= credit w (sk_log (kruns dbg w b ops)) /\
  ~ In IAssertFailed (sk_log (kruns dbg w b ops)).
Proof.
  intros dbg w b ops P H. destruct (kruns_KI dbg w b ops P H) as [_ _ C D _ _ _]. split; [lia|exact D].
Qed.
Print Assumptions C22_socket_partial.

(** The missing part: with an initial window of zero the assertion fails. *)
Definition C22_socket_full_statement : Prop :=
  forall dbg w b ops, credit w (sk_log (kruns dbg w b ops)) < pow64 ->
  ~ In IAssertFailed (sk_log (kruns dbg w b ops)).
Definition idle : blocking := {| b_write := false; b_rekey := false |}.
Theorem C22_socket_refuted : ~ C22_socket_full_statement.
Proof.
  intros H. apply (H true 0 idle [KProduce [65]; KReady]); [reflexivity|]. left. reflexivity.
Qed.
Print Assumptions C22_socket_refuted.

(** ** Reading is suspended exactly while the window is zero *)

(** For an open source of a running program, while the connection is able to
    write. *)
Theorem C22_suspended :
  forall w b ops x, let s := sruns w b ops in
  credit w (ss_log s) < pow64 ->
  ss_closed s = false -> so_open (sget s x) = true -> x <> Tty \/ In IStarted (ss_log s) ->
  b_write (ss_block s) = false -> b_rekey (ss_block s) = false ->
  so_read (sget s x) = true <-> sent_total (ss_log s) < credit w (ss_log s).
Proof.
  intros w b ops x s H C O R BW RK. subst s. set (s := sruns w b ops) in *.
  destruct (sruns_W w b ops H) as (A & B & _). fold s in A, B.
  assert (X : x <> Sock) by (intros ->; discriminate).
  destruct (sruns_S w b ops) as (_ & HS). fold s in HS.
  destruct (A x) as (Q & _). split.
  - intros RD. destruct (Q RD). lia.
  - intros LT. apply HS; auto; [lia|]. unfold is_blocked. now rewrite BW, RK.
Qed.
Print Assumptions C22_suspended.

(** and never without a window, blocked or not *)
Theorem C22_never_without_window :
  forall w b ops x, let s := sruns w b ops in
  credit w (ss_log s) < pow64 -> so_read (sget s x) = true -> sent_total (ss_log s) < credit w (ss_log s).
Proof.
  intros w b ops x s H R. subst s. destruct (sruns_W w b ops H) as (A & B & _). destruct (A x) as (Q & _). destruct (Q R). lia.
Qed.
Print Assumptions C22_never_without_window.

Theorem C22_socket_suspended_partial :
  forall dbg w b ops, let k := kruns dbg w b ops in
  0 < w -> credit w (sk_log k) < pow64 -> sk_closed k = false ->
  b_write (sk_block k) = false -> b_rekey (sk_block k) = false ->
  so_read (sk_sock k) = true <-> sent_total (sk_log k) < credit w (sk_log k).
Proof.
  intros dbg w b ops k P H C BW RK. subst k. destruct (kruns_KI dbg w b ops P H) as [A _ W0 _ _ _ G]. split.
  - intros R. destruct (A R). lia.
  - intros LT. apply G; auto; [lia|]. unfold is_blocked. now rewrite BW, RK.
Qed.
Print Assumptions C22_socket_suspended_partial.

(** ** Output is not truncated *)

(** The full claim: without the peer closing the channel, and without an error
    message replacing the output, everything a program writes is sent, in
    order, or still waits to be read. *)
Definition C22_truncated_full_statement : Prop :=
  forall w b ops x, x <> Sock -> Forall benign ops -> credit w (ss_log (sruns w b ops)) < pow64 ->
  produced x (ss_log (sruns w b ops)) = sent x (ss_log (sruns w b ops)) ++ so_data (sget (sruns w b ops) x).

(** It holds for stdout and stderr ... *)
Theorem C22_not_truncated_partial :
  forall w b ops x, x = Stdout \/ x = Stderr -> Forall benign ops ->
  produced x (ss_log (sruns w b ops)) = sent x (ss_log (sruns w b ops)) ++ so_data (sget (sruns w b ops) x).
Proof.
  intros w b ops x X B. assert (X1 : x <> Sock) by (destruct X; congruence). assert (X2 : x <> Tty) by (destruct X; congruence).
  destruct (sruns_K w b ops x X1) as (K0 & _). apply K0. apply L_lost; [|exact X2]. now apply sruns_L.
Qed.
Print Assumptions C22_not_truncated_partial.

(** ... and it is complete once our end was closed. *)
Theorem C22_complete_partial :
  forall w b ops x, x = Stdout \/ x = Stderr -> Forall benign ops ->
  so_open (sget (sruns w b ops) x) = false ->
  produced x (ss_log (sruns w b ops)) = sent x (ss_log (sruns w b ops)).
Proof.
  intros w b ops x X B O. rewrite (C22_not_truncated_partial w b ops x X B).
  assert (X1 : x <> Sock) by (destruct X; congruence).
  destruct (sruns_K w b ops x X1) as (_ & Q). now rewrite (Q O), app_nil_r.
Qed.
Print Assumptions C22_complete_partial.

(** A tty loses output only by a hangup. *)
Theorem C22_tty_partial :
  forall w b ops d c, Forall benign ops -> In (ILost Tty d c) (ss_log (sruns w b ops)) -> c = LHangup.
Proof.
  intros w b ops d c B H. pose proof (sruns_L w b ops B) as HL. unfold L in HL. revert HL H.
  induction (ss_log (sruns w b ops)) as [|e l IH]; intros HL H; [destruct H|]. destruct HL as (A & HL), H as [->|H]; [apply A|auto].
Qed.
Print Assumptions C22_tty_partial.

(** It is false for a tty: the program writes more than the window and exits;
    the HANGUP arrives while reading is suspended, and the rest is discarded. *)
Theorem C22_truncated_refuted : ~ C22_truncated_full_statement.
Proof.
  intros H. specialize (H 2 idle [SPty; SSpawn; SProduce Tty [1; 2; 3]; SReady Tty; SFinish Tty; SReady Tty] Tty).
  vm_compute in H. specialize (H ltac:(discriminate)). 
  discriminate H; [repeat constructor|reflexivity].
Qed.
Print Assumptions C22_truncated_refuted.

Theorem C22_socket_not_truncated_partial :
  forall dbg w b ops, let k := kruns dbg w b ops in
  0 < w -> credit w (sk_log k) < pow64 -> ~ In KPeerClose ops ->
  produced Sock (sk_log k) = sent Sock (sk_log k) ++ so_data (sk_sock k).
Proof.
  intros dbg w b ops k P H N0. subst k. destruct (kruns_KI dbg w b ops P H) as [_ _ _ _ E F _]. apply E.
  clear E. assert (G : forall t, ~ In KPeerClose t -> forall x d, ~ In (ILost x d LPeerClosed) (sk_log (kruns dbg w b t))).
  { clear. induction t as [|o t IH] using rev_ind; intros NP x d; [intros []|]. rewrite kruns_snoc.
    specialize (IH ltac:(intros I; apply NP, in_or_app; now left)). set (k := kruns dbg w b t) in *. clearbody k.
    assert (CL : forall c k, c <> LPeerClosed -> (forall x d, ~ In (ILost x d LPeerClosed) (sk_log k)) -> ~ In (ILost x d LPeerClosed) (sk_log (k_close c k))).
    { intros c k0 C0 IH0. unfold k_close. destruct (so_data (sk_sock k0)); cbn; intros [I|[I|I]]; try discriminate; [exact (IH0 _ _ I)|].
      destruct I as [I|I]; [congruence|exact (IH0 _ _ I)]. }
    unfold kstep. destruct (sk_closed k); [apply IH|]. destruct o.
    - destruct (so_eof _); [apply IH|]. intros [I|I]; [discriminate|exact (IH _ _ I)].
    - apply IH.
    - destruct (so_reg _); [|apply IH]. unfold k_ready. destruct (_ && _); [|apply IH].
      destruct (_ && _); [intros [I|I]; [discriminate|exact (IH _ _ I)]|]. destruct (take _ _); [now apply CL|]. cbv zeta.
      set (k3 := if _ =? 0 then _ else _). assert (H3 : forall x d, ~ In (ILost x d LPeerClosed) (sk_log k3)).
      { intros y e. unfold k3. destruct (_ =? 0); (intros [I|I]; [discriminate|exact (IH _ _ I)]). }
      destruct (_ && _); [apply CL; [discriminate|exact H3]|apply H3].
    - destruct (k0 =? 0); [apply IH|]. cbv zeta. destruct (_ =? 0); (intros [I|I]; [discriminate|exact (IH _ _ I)]).
    - destruct (b_rekey _); [apply IH|]. cbn [b_kexinit]. rewrite ktell_log. intros [I|I]; [discriminate|exact (IH _ _ I)].
    - destruct (b_rekey _); [|apply IH]. cbn [b_newkeys]. rewrite ktell_log. intros [I|I]; [discriminate|exact (IH _ _ I)].
    - cbn [b_flush]. rewrite ktell_log. apply IH.
    - exfalso. apply NP, in_or_app. right. now left. }
  unfold lost. destruct (existsb _ _) eqn:Q; [|reflexivity]. exfalso. apply existsb_exists in Q as (e & I & Q).
  destruct e; try discriminate. rewrite (F _ _ _ I) in I. exact (G ops N0 _ _ I).
Qed.
Print Assumptions C22_socket_not_truncated_partial.

(** With an initial window of zero (and without assertions) it is false:
    reading into an empty buffer looks like end of file. *)
Theorem C22_socket_truncated_refuted :
  exists ops, ~ In KPeerClose ops /\
  produced Sock (sk_log (kruns false 0 idle ops)) = [65] /\
  sent Sock (sk_log (kruns false 0 idle ops)) = [] /\ sk_closed (kruns false 0 idle ops) = true.
Proof.
  exists [KProduce [65]; KReady]. split; [intros [H|[H|[]]]; discriminate|]. repeat split; reflexivity.
Qed.
Print Assumptions C22_socket_truncated_refuted.

(** ** Concrete cases *)

Definition demo : list sop :=
  [SSpawn; SProduce Stdout [1; 2; 3]; SProduce Stderr [9]; SReady Stdout; SReady Stderr; SAdjust 1; SReady Stdout;
   SAdjust 10; SReady Stderr; SFinish Stdout; SFinish Stderr; SExit; SReady Stdout; SReady Stderr].

(** a window of two, then the rest, then EOF, exit status and close *)
Example C22_demo :
  credit 2 (ss_log (sruns 2 idle demo)) < pow64 /\ Forall benign demo /\
  rev (ss_log (sruns 2 idle demo)) =
    [IStarted; IProduced Stdout [1; 2; 3]; IProduced Stderr [9]; ISent Stdout [1; 2]; IAdjusted 1; ISent Stdout [3];
     IAdjusted 10; ISent Stderr [9]; ISentExit; IEnded Stdout; IEnded Stderr; ISentEof; IClosed].
Proof. split; [reflexivity|]. split; [repeat constructor|]. vm_compute. reflexivity. Qed.

Definition kdemo : list kop := [KProduce [1; 2; 3]; KReady; KReady; KAdjust 5; KFinish; KReady].
Example C22_socket_demo :
  credit 2 (sk_log (kruns true 2 idle kdemo)) < pow64 /\
  rev (sk_log (kruns true 2 idle kdemo)) =
    [IProduced Sock [1; 2; 3]; ISent Sock [1; 2]; IAdjusted 5; ISent Sock [3]; IEnded Sock; IClosed].
Proof. split; [reflexivity|vm_compute; reflexivity]. Qed.

(** a state which meets the hypotheses of [C22_suspended], with reading on
    and off *)
Example C22_suspended_witness :
  (let s := sruns 2 idle [SSpawn; SProduce Stdout [1; 2; 3]] in
   credit 2 (ss_log s) < pow64 /\ ss_closed s = false /\ so_open (sget s Stdout) = true /\ so_read (sget s Stdout) = true) /\
  (let s := sruns 2 idle [SSpawn; SProduce Stdout [1; 2; 3]; SReady Stdout] in
   credit 2 (ss_log s) < pow64 /\ ss_closed s = false /\ so_open (sget s Stdout) = true /\ so_read (sget s Stdout) = false).
Proof. repeat split; vm_compute; reflexivity. Qed.
