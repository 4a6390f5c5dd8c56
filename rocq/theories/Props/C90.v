(** * C90: the counters for connections and packets

    Spec/CounterSpec.v says which events the counters are about. *)

From Coq Require Import NArith List Bool Lia Permutation.
From Verif.Base Require Import Bytes.
From Verif.Model Require Import Accounting ConnCounters.
From Verif.Spec Require Import CounterSpec FrameSpec.
From Verif.Proofs Require Import CounterFacts.
Import ListNotations.
Open Scope N_scope.

(** At any time the counters are the numbers of these events since the start
    of the server. *)
Theorem C90_counts :
  forall c ops, let s := hrun c ops in let n := h_counters s in let l := h_log s in
  n_accepted n = how_many is_arrived l /\
  n_rejected n = how_many is_refused l /\
  n_tarpit n = how_many is_slow l /\
  n_terminated n = how_many is_asked_terminate l /\
  n_unsupported n = how_many is_asked_unsupported l /\
  n_protocol n = how_many is_bad_key l + how_many is_violation l.
Proof. intros c ops s n l. subst n l s. rewrite (exact_run c ops). repeat split. Qed.
Print Assumptions C90_counts.

(** Every arrival is counted, whether the client is refused, held back or
    served. *)
Theorem C90_arrivals :
  forall c ops, n_accepted (h_counters (hrun c ops)) =
  N.of_nat (List.length (List.filter (fun o => match o with HAccept _ _ _ _ => true | _ => false end) ops)).
Proof.
  intros c ops. destruct (C90_counts c ops) as [-> _]. unfold hrun.
  induction ops as [|o t IH] using rev_ind; [reflexivity|]. rewrite fold_left_app, filter_app, app_length. cbn [fold_left].
  set (s := fold_left _ t new_host) in *. revert IH.
  generalize (List.length (List.filter (fun o => match o with HAccept _ _ _ _ => true | _ => false end) t)) as k.
  intros k IH.
  assert (D : forall now id code keep s, how_many is_arrived (h_log (DoDisconnect now id code keep s)) = how_many is_arrived (h_log s)).
  { intros now id code keep s0. destruct (is_dead id s0) eqn:D; [unfold DoDisconnect; now rewrite D|].
    destruct (disconnect_log now id code keep s0 D) as (t' & L & T). unfold disc_log in L. rewrite L, how_many_app.
    destruct T as [-> | ->]; apply N.add_0_r. }
  destruct o; cbn [hstep List.filter List.length].
  - destruct (OnAccept c now peer over fails (h_acc s)) as [r a]. cbv zeta.
    destruct r; cbn [tell count_ set_acc mk_host h_log]; rewrite ?how_many_snoc, IH; cbn [is_arrived]; lia.
  - destruct (find_client id (h_acc s)) as [x|]; [|lia]. destruct (cl_kind x); [|lia]. cbv zeta.
    destruct fails; cbn [tell set_acc mk_host h_log]; rewrite ?how_many_snoc; cbn [is_arrived]; lia.
  - destruct (find_client id (h_acc s)) as [x|]; [|lia]. destruct (cl_kind x); cbn [set_acc mk_host h_log]; lia.
  - cbn [set_acc mk_host h_log]. lia.
  - destruct (served id s) as [x|]; [|lia]. destruct (is_dead id s); [lia|]. cbv zeta.
    destruct (0 <? GetDelay x (h_acc s)); cbn [tell count_ set_acc mk_host h_log]; rewrite ?how_many_snoc; cbn [is_arrived]; lia.
  - destruct (served id s) as [x|]; [|lia]. destruct (is_dead id s); [lia|].
    cbn [tell count_ mk_host h_log]. rewrite how_many_snoc. cbn [is_arrived]. lia.
  - destruct (served id s) as [x|]; [|lia]. destruct (is_dead id s); [lia|]. rewrite D.
    cbn [tell count_ mk_host h_log]. rewrite how_many_snoc. cbn [is_arrived]. lia.
  - destruct (served id s) as [x|]; [|lia]. rewrite D.
    cbn [tell count_ mk_host h_log]. rewrite how_many_snoc. cbn [is_arrived]. lia.
  - destruct (served id s) as [x|]; [|lia]. rewrite D. lia.
  - unfold dispose. destruct (served id s) as [x|]; [|lia].
    cbn [tell set_acc mk_host h_log]. rewrite how_many_snoc. cbn [is_arrived]. lia.
Qed.
Print Assumptions C90_arrivals.

(** The gauge of active connections is the number of connections which were
    opened and have not been closed: no connection is opened twice, closed
    twice, or closed without having been opened. *)
Theorem C90_active :
  forall c ops, let s := hrun c ops in
  NoDup (opened (h_log s)) /\ NoDup (closed (h_log s)) /\ incl (closed (h_log s)) (opened (h_log s)) /\
  active s + N.of_nat (List.length (closed (h_log s))) = N.of_nat (List.length (opened (h_log s))).
Proof.
  intros c ops s. destruct (sound_run c ops) as [I1 I2 I3 I4 I5 I6 I7 I8]. fold s in I1, I2, I3, I4, I5, I6, I7, I8.
  split; [exact I4|]. split.
  - pose proof (Permutation_NoDup I2 I4) as ND.
    revert ND. generalize (closed (h_log s)). generalize (served_ids (h_acc s)) as a. clear.
    induction a as [|x a IH]; intros l ND; [exact ND|]. inversion ND. now apply IH.
  - split.
    + intros id I. apply (Permutation_in _ (Permutation_sym I2)), in_or_app. now right.
    + rewrite active_ids. rewrite (Permutation_length I2), app_length. lia.
Qed.
Print Assumptions C90_active.

(** The server sends DISCONNECT on a connection at most once, and only on
    those which were opened. *)
Theorem C90_once :
  forall c ops, let l := h_log (hrun c ops) in NoDup (disconnected l) /\ incl (disconnected l) (opened l).
Proof.
  intros c ops l. destruct (sound_run c ops) as [I1 I2 I3 I4 I5 I6 I7 I8]. split; [exact I5|]. intros id. apply I6.
Qed.
Print Assumptions C90_once.

(** The full statement about the counters "number of times a SSH connection
    was closed" (lukko_connections_closed, by reason): they do not count a
    connection twice, so that together they are at most the number of
    connections which the server has disconnected. *)
Definition C90_closed_full_statement : Prop :=
  forall c ops, let s := hrun c ops in
  n_terminated (h_counters s) + n_unsupported (h_counters s) + n_protocol (h_counters s)
  <= N.of_nat (List.length (disconnected (h_log s))).

(** It holds if no connection is terminated which is being disconnected
    already and no client has sent a key which cannot be decoded. *)
Theorem C90_closed_partial :
  forall c ops, let s := hrun c ops in plain (h_log s) ->
  n_terminated (h_counters s) + n_unsupported (h_counters s) + n_protocol (h_counters s)
  <= N.of_nat (List.length (disconnected (h_log s))).
Proof.
  intros c ops s P. destruct (C90_counts c ops) as (_ & _ & _ & A1 & A2 & A3). fold s in A1, A2, A3. rewrite A1, A2, A3.
  pose proof (within_run c ops P) as W. fold s in W.
  rewrite <- disconnecting_ids.
  assert (B : how_many is_bad_key (h_log s) = 0); [|lia].
  destruct P as [_ P]. revert P. generalize (h_log s) as l. clear. induction l as [|e l IH]; intros P; [reflexivity|].
  unfold how_many. cbn [List.filter]. destruct (is_bad_key e) eqn:E.
  - exfalso. destruct e; try discriminate. apply (P id). now left.
  - apply IH. intros id I. apply (P id). now right.
Qed.
Print Assumptions C90_closed_partial.

Definition demo_cfg : acfg := {| max_connections := 2; tarpit := false |}.

(** A control packet which arrives again while the first DISCONNECT waits to
    be written counts the same connection again. *)
Theorem C90_closed_refuted : ~ C90_closed_full_statement.
Proof.
  intros H. specialize (H demo_cfg [HAccept 0 (Some 1) false false; HTerminate 5 0 true; HTerminate 6 0 true]).
  vm_compute in H. now apply H.
Qed.
Print Assumptions C90_closed_refuted.

(** So does a key which cannot be decoded, on a connection which stays open. *)
Theorem C90_bad_key_refuted :
  exists c ops, let s := hrun c ops in
  n_protocol (h_counters s) = 1 /\ active s = 1 /\ disconnected (h_log s) = [] /\ closed (h_log s) = [].
Proof. exists demo_cfg, [HAccept 0 (Some 1) false false; HBadKey 0]. repeat split. Qed.
Print Assumptions C90_bad_key_refuted.

(** Two connections, a third one which is refused, one terminated and the
    other one disconnected because of a violation of the protocol. *)
Example C90_demo :
  let ops := [HAccept 0 (Some 1) false false; HAccept 1 (Some 1) false false; HAccept 2 (Some 1) false false;
              HTerminate 3 0 true; HDisconnect 4 1 ProtocolError false; HGone 5 0] in
  let s := hrun demo_cfg ops in
  plain (h_log s) /\
  h_counters s = {| n_accepted := 3; n_rejected := 1; n_tarpit := 0; n_terminated := 1; n_unsupported := 0; n_protocol := 1 |} /\
  active s = 0 /\ active (hrun demo_cfg (firstn 4 ops)) = 2.
Proof.
  cbv zeta. split; [|repeat split]. split.
  - intros before id after E. vm_compute in E.
    do 11 (destruct before as [|? before];
           [first [discriminate E | intros Q; exact Q]|injection E as <- E]).
    destruct before; discriminate E.
  - intros id I. vm_compute in I. repeat destruct I as [I|I]; try discriminate. contradiction.
Qed.

(** ** Packets *)

(** Messages, each with its padding and the binary packet which carries it. *)
Definition packet_ok (x : bytes * bytes * bytes) : Prop :=
  let '(message, padding, packet) := x in framed message padding packet /\ 4 <= len padding.

Definition sender (l : list (bytes * bytes * bytes)) : traffic := fold_left (fun t x => count_sent (snd x) t) l no_traffic.
Definition receiver (l : list (bytes * bytes * bytes)) : traffic :=
  fold_left (fun t x => count_received (fst (fst x)) t) l no_traffic.

Fixpoint total (f : bytes * bytes * bytes -> N) (l : list (bytes * bytes * bytes)) : N :=
  match l with [] => 0 | x :: t => f x + total f t end.

(** What one end counts as sent are binary packets with their headers and
    padding (but without authentication code); what the other end counts as
    received are messages without. *)
Theorem C90_traffic :
  forall l, Forall packet_ok l ->
  packets_sent (sender l) = N.of_nat (List.length l) /\ packets_received (receiver l) = N.of_nat (List.length l) /\
  bytes_sent (sender l) = total (fun x => len (snd x)) l /\
  bytes_received (receiver l) = total (fun x => len (fst (fst x))) l /\
  bytes_received (receiver l) + 9 * N.of_nat (List.length l) <= bytes_sent (sender l).
Proof.
  intros l F.
  assert (TS : forall f l x, total f (l ++ [x]) = total f l + f x).
  { intros f l0 x. induction l0 as [|y l0 IH]; cbn [total app]; [lia|]. rewrite IH. lia. }
  induction l as [|x l IH] using rev_ind; [repeat split; cbn; lia|].
  apply Forall_app in F as [F1 F2]. destruct (IH F1) as (A & B & D & E & G). unfold sender, receiver in *.
  rewrite !fold_left_app, !TS, app_length. cbn [fold_left List.length].
  cbn [count_sent count_received packets_sent packets_received bytes_sent bytes_received].
  inversion F2 as [|? ? PK _]. subst. destruct x as [[m p] k]. cbn [fst snd] in *. destruct PK as [P Q]. unfold framed in P.
  assert (K : len k = 5 + len m + len p) by (subst k; rewrite !len_app; unfold len; cbn [List.length be32]; lia).
  repeat split; lia.
Qed.
Print Assumptions C90_traffic.

Example C90_traffic_demo :
  exists l, List.length l = 2%nat /\ Forall packet_ok l.
Proof.
  exists [([2], [0; 0; 0; 0; 0; 0], be32 8 ++ [6] ++ [2] ++ [0; 0; 0; 0; 0; 0]);
          ([94; 1], [0; 0; 0; 0; 0], be32 8 ++ [5] ++ [94; 1] ++ [0; 0; 0; 0; 0])].
  split; [reflexivity|]. repeat constructor; vm_compute; discriminate.
Qed.
