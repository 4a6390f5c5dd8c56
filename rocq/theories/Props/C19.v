(** * C19: nothing but key exchange messages is sent while rekeying

    [IKexInit] and [INewKeys] in the log are our KEXINIT and NEWKEYS of a
    re-exchange; [rekeying log] (Spec/FlowSpec.v) holds between the two. *)

From Coq Require Import NArith Arith List Bool Lia.
From Verif.Base Require Import Bytes.
From Verif.Spec Require Import FlowSpec.
From Verif.Model Require Import Wire ChannelIO.
From Verif.Proofs Require Import FlowFacts.
Import ListNotations.
Open Scope N_scope.

(** The full claim for channel data: whenever data was sent, no key exchange
    was in progress. *)
Definition C19_full_statement : Prop :=
  forall w b ops, b_rekey b = false -> credit w (ss_log (sruns w b ops)) < pow64 ->
  forall newer x d older, ss_log (sruns w b ops) = newer ++ ISent x d :: older -> rekeying older = false.

(** Proved for calm runs (Spec/FlowSpec.v): while writing is blocked or the
    key exchange is in progress, the peer does not open an exhausted window,
    and no program (or error message) is started. *)
Theorem C19_session_partial :
  forall w b ops, b_rekey b = false -> credit w (ss_log (sruns w b ops)) < pow64 -> calm w b ops ->
  forall newer x d older, ss_log (sruns w b ops) = newer ++ ISent x d :: older -> rekeying older = false.
Proof.
  intros w b ops RK H C newer x d older E. destruct (sruns_Z w b ops RK H C) as (_ & _ & T0). rewrite E in T0.
  clear E. induction newer as [|e t IH]; [apply T0|]. apply IH. apply T0.
Qed.
Print Assumptions C19_session_partial.

(** In such runs, reading from the program is suspended for the whole time of
    the key exchange, *)
Theorem C19_suspended_partial :
  forall w b ops x, b_rekey b = false -> credit w (ss_log (sruns w b ops)) < pow64 -> calm w b ops ->
  rekeying (ss_log (sruns w b ops)) = true -> so_read (sget (sruns w b ops) x) = false.
Proof.
  intros w b ops x RK H C R. destruct (sruns_Z w b ops RK H C) as (A & B & _). apply A.
  rewrite <- B in R. unfold is_blocked. rewrite R. apply orb_true_r.
Qed.
Print Assumptions C19_suspended_partial.

(** and it is resumed by the end of it: after NEWKEYS, every open source is
    read again if the window allows it and the socket accepts data.  No output
    is stuck. *)
Theorem C19_resumed :
  forall w b ops x, let s := sruns w b (ops ++ [SNewKeys]) in
  credit w (ss_log s) < pow64 -> x <> Tty \/ In IStarted (ss_log s) ->
  so_open (sget s x) = true -> ss_closed s = false ->
  b_write (ss_block s) = false -> sent_total (ss_log s) < credit w (ss_log s) ->
  so_read (sget s x) = true.
Proof.
  intros w b ops x s H R O C BW LT. subst s. set (s := sruns w b (ops ++ [SNewKeys])) in *.
  destruct (sruns_W w b _ H) as (_ & B & _). destruct (sruns_S w b (ops ++ [SNewKeys])) as (_ & HS). fold s in B, HS.
  apply HS; auto; [intros ->; discriminate|lia|].
  unfold is_blocked. rewrite BW. cbn [orb]. unfold s in *. rewrite sruns_snoc in *. unfold sstep in *.
  destruct (ss_closed (sruns w b ops)) eqn:CL; [congruence|]. destruct (b_rekey (ss_block (sruns w b ops))) eqn:RK; [|exact RK].
  unfold b_newkeys. rewrite (proj1 (block_tell _ _)). reflexivity.
Qed.
Print Assumptions C19_resumed.

(** The same for forwarded sockets, if the channel was opened while nothing
    was blocked and with a window. *)
Theorem C19_socket_partial :
  forall dbg w b ops, 0 < w -> is_blocked b = false -> credit w (sk_log (kruns dbg w b ops)) < pow64 -> kcalm dbg w b ops ->
  forall newer x d older, sk_log (kruns dbg w b ops) = newer ++ ISent x d :: older -> rekeying older = false.
Proof.
  intros dbg w b ops P F H C newer x d older E. destruct (kruns_KZ dbg w b ops P F H C) as (_ & _ & T0). rewrite E in T0.
  clear E. induction newer as [|e t IH]; [apply T0|]. apply IH. apply T0.
Qed.
Print Assumptions C19_socket_partial.

Definition idle : blocking := {| b_write := false; b_rekey := false |}.

(** The full claim is false: an adjustment of an exhausted window resumes
    reading without regard to the key exchange, ... *)
Theorem C19_refuted : ~ C19_full_statement.
Proof.
  intros H. specialize (H 1 idle [SSpawn; SProduce Stdout [1; 2]; SReady Stdout; SKexInit; SAdjust 5; SReady Stdout] eq_refl eq_refl).
  specialize (H [] Stdout [2] [IAdjusted 5; IKexInit; ISent Stdout [1]; IProduced Stdout [1; 2]; IStarted] eq_refl). discriminate H.
Qed.
Print Assumptions C19_refuted.

(** ... and so does starting a program. *)
Theorem C19_spawn_refuted :
  exists ops newer older d, ss_log (sruns 10 idle ops) = newer ++ ISent Stdout d :: older /\ rekeying older = true /\
  ~ In (SAdjust 5) ops.
Proof.
  exists [SKexInit; SSpawn; SProduce Stdout [1]; SReady Stdout]. exists [], [IProduced Stdout [1]; IStarted; IKexInit], [1].
  split; [reflexivity|]. split; [reflexivity|]. intros H. cbn in H. intuition discriminate.
Qed.
Print Assumptions C19_spawn_refuted.

(** ** A concrete case: output arrives before, during and after a key exchange *)
Definition demo : list sop :=
  [SSpawn; SProduce Stdout [1]; SReady Stdout; SKexInit; SProduce Stdout [2]; SReady Stdout; SFlush true; SAdjust 3; SReady Stdout;
   SNewKeys; SReady Stdout; SFlush false; SReady Stdout].
Example C19_demo :
  calm 10 idle demo /\ credit 10 (ss_log (sruns 10 idle demo)) < pow64 /\
  rev (ss_log (sruns 10 idle demo)) =
    [IStarted; IProduced Stdout [1]; ISent Stdout [1]; IKexInit; IProduced Stdout [2]; IAdjusted 3; INewKeys; ISent Stdout [2]].
Proof.
  split; [|split; [reflexivity|vm_compute; reflexivity]].
  unfold calm, demo. cbn [calm_from]. unfold calm_op. vm_compute. repeat split; intros; try discriminate; exact I || reflexivity.
Qed.
Definition kdemo : list kop := [KProduce [1]; KReady; KKexInit; KProduce [2]; KReady; KNewKeys; KReady].
Example C19_socket_demo :
  kcalm true 10 idle kdemo /\ credit 10 (sk_log (kruns true 10 idle kdemo)) < pow64 /\
  rev (sk_log (kruns true 10 idle kdemo)) =
    [IProduced Sock [1]; ISent Sock [1]; IKexInit; IProduced Sock [2]; INewKeys; ISent Sock [2]].
Proof.
  split; [|split; [reflexivity|vm_compute; reflexivity]].
  unfold kcalm, kdemo. cbn [kcalm_from]. unfold kcalm_op. vm_compute. repeat split; intros; try discriminate; exact I.
Qed.
