(** * C56: backpressure in proxy mode does not stall *)

From Coq Require Import NArith List Bool Lia.
From Verif.Base Require Import Bytes.
From Verif.Spec Require Import RelaySpec.
From Verif.Model Require Import Wire Frame Packets Server Relay.
From Verif.Proofs Require Import RelayFacts.
Import ListNotations.
Open Scope N_scope.

(** The full claim: as long as the connections live, whatever was received can
    still be passed on, if the sockets and the peers behave. *)
Definition C56_full_statement : Prop :=
  forall client target ops x, fresh_end client -> fresh_end target ->
  rl_alive (rrun client target ops) = true ->
  exists more, forallb (fun op => negb (ends op)) more = true /\
    let r := rrun client target (ops ++ more) in
    rl_alive r = true /\
    filter is_relayed (arrivals x ops (new_relay client target)) = firstn (List.length (filter is_relayed (arrivals x ops (new_relay client target)))) (passed_on x r).

(** It is false.  Both rekey timers expire (they were started at about the same
    time): each connection blocks reading on the other one until its own key
    exchange is complete, and therefore no answer is ever read.  Nothing which
    can happen resolves this, but the end of the connection. *)
Theorem C56_standstill :
  forall client target ops, fresh_end client -> fresh_end target ->
  ep_write_blocked client = false -> ep_write_blocked target = false ->
  ep_kexinit_sent client = false -> ep_kexinit_received client = false -> ep_newkeys_sent client = false -> ep_newkeys_received client = false ->
  ep_kexinit_sent target = false -> ep_kexinit_received target = false -> ep_newkeys_sent target = false -> ep_newkeys_received target = false ->
  let r := rrun client target ([RRekey Client; RRekey Target] ++ ops) in
  passed_on Client r = [] /\ passed_on Target r = [] /\
  forall x, ep_read_blocked (get x r) = true.
Proof.
  intros c t ops (wb & ks & kr & ns & nr & ->) (wb' & ks' & kr' & ns' & nr' & ->).
  cbn [ep_write_blocked ep_kexinit_sent ep_kexinit_received ep_newkeys_sent ep_newkeys_received new_end mk_end]. intros -> -> -> -> -> -> -> -> -> ->.
  rewrite rrun_app.
  set (r0 := rrun _ _ [RRekey Client; RRekey Target]).
  assert (S : stuck r0) by (intros []; vm_compute; auto).
  assert (E : rl_relayed r0 = []) by (vm_compute; reflexivity).
  destruct (stuck_run ops r0 S) as [X Y]. rewrite E in X. cbv zeta. unfold passed_on. rewrite X.
  split; [reflexivity|]. split; [reflexivity|]. intro x. apply Y.
Qed.
Print Assumptions C56_standstill.

Theorem C56_refuted : ~ C56_full_statement.
Proof.
  intro H.
  set (e := new_end false false false false false).
  assert (FE : fresh_end e) by (do 5 eexists; reflexivity).
  destruct (H e e [RRekey Client; RRekey Target; RReceive Client [[94]]] Client FE FE eq_refl) as (more & _ & A & P).
  change ([RRekey Client; RRekey Target; RReceive Client [[94]]] ++ more) with ([RRekey Client; RRekey Target] ++ (RReceive Client [[94]] :: more)) in P.
  destruct (C56_standstill e e (RReceive Client [[94]] :: more) FE FE) as (Q & _); try reflexivity.
  rewrite Q in P. vm_compute in P. discriminate.
Qed.
Print Assumptions C56_refuted.

(** What holds.  Reading from a connection is blocked only while the other
    connection's socket is full or the other connection is between its KEXINIT
    and its NEWKEYS. *)
Theorem C56_blocked_partial :
  forall client target ops x, fresh_end client -> fresh_end target ->
  let r := rrun client target ops in
  ep_read_blocked (get x r) = true ->
  ep_write_blocked (get (other x) r) = true \/
  (ep_kexinit_sent (get (other x) r) = true /\ ep_newkeys_sent (get (other x) r) = false).
Proof.
  intros c t ops x C T r B. destruct (rrun_steady c t ops C T) as [L _]. specialize (L x B). fold r in L.
  unfold blocked, IsRekeying in L. apply orb_true_iff in L as [L|L]; [auto|]. right. apply andb_true_iff in L as [L1 L2]. split; [exact L1|now apply negb_true_iff].
Qed.
Print Assumptions C56_blocked_partial.

(** No wakeup is ever lost: if reading is not blocked, then the events which
    are already scheduled (the worker thread, its completion, the deferred
    event) lead to everything being passed on and to the socket being read
    again, however often reading was blocked and unblocked before. *)
Theorem C56_wakeup_partial :
  forall client target ops x, fresh_end client -> fresh_end target ->
  ep_read_blocked (get x (rrun client target ops)) = false ->
  let r := rrun client target (ops ++ [RWork x; RDone x; RResume x]) in
  rl_alive r = true ->
  waiting x r = [] /\ ep_reading (get x r) = true /\
  filter is_relayed (arrivals x ops (new_relay client target)) = passed_on x r.
Proof.
  intros c t ops x C T B r A. pose proof (rrun_steady c t ops C T) as S. subst r.
  pose proof (rrun_flows c t (ops ++ [RWork x; RDone x; RResume x]) x C T) as F. cbv zeta in F.
  rewrite rrun_app in *. destruct (drain x _ S B A) as (W & R & _).
  split; [exact W|]. split; [exact R|]. rewrite W in F. cbn [filter] in F. rewrite app_nil_r in F. rewrite <- F.
  replace (ops ++ [RWork x; RDone x; RResume x]) with (((ops ++ [RWork x]) ++ [RDone x]) ++ [RResume x]) by (rewrite <- !app_assoc; reflexivity).
  rewrite !arrivals_snoc, !app_nil_r. reflexivity.
Qed.
Print Assumptions C56_wakeup_partial.

(** If the other connection is not in a key exchange, then its socket becoming
    writable unblocks reading, and everything is passed on. *)
Theorem C56_writable_partial :
  forall client target ops x, fresh_end client -> fresh_end target ->
  let r0 := rrun client target ops in
  (ep_kexinit_sent (get (other x) r0) = true -> ep_newkeys_sent (get (other x) r0) = true) ->
  let r := rrun client target (ops ++ [RWrite (other x) false; RWork x; RDone x; RResume x]) in
  rl_alive r = true ->
  waiting x r = [] /\ filter is_relayed (arrivals x ops (new_relay client target)) = passed_on x r.
Proof.
  intros c t ops x C T r0 K r A. subst r.
  change [RWrite (other x) false; RWork x; RDone x; RResume x] with ([RWrite (other x) false] ++ [RWork x; RDone x; RResume x]) in *.
  rewrite app_assoc in *. destruct (C56_wakeup_partial c t (ops ++ [RWrite (other x) false]) x C T) as (W & _ & P); [|exact A|].
  2:{ split; [exact W|]. rewrite arrivals_snoc, app_nil_r in P. exact P. }
  rewrite rrun_snoc. fold r0.
  assert (A0 : rl_alive r0 = true).
  { assert (X : rl_alive (fold_left (fun r op => rstep op r) [RWrite (other x) false; RWork x; RDone x; RResume x] r0) = true).
    { unfold r0. rewrite <- rrun_app. rewrite <- app_assoc in A. exact A. }
    cbn [fold_left] in X. do 4 apply rstep_alive in X. exact X. }
  destruct (rrun_steady c t ops C T) as [L _]. fold r0 in L.
  assert (NR : IsRekeying (get (other x) r0) = false).
  { unfold IsRekeying. destruct (ep_kexinit_sent (get (other x) r0)); [|reflexivity]. now rewrite K. }
  unfold rstep. rewrite A0. cbn [negb]. rewrite NR. cbn [negb]. rewrite andb_true_r. cbv zeta.
  destruct (ep_write_blocked (get (other x) r0)) eqn:WB.
  - unfold OnWriteUnblocked. autorewrite with relay. reflexivity.
  - autorewrite with relay. destruct (ep_read_blocked (get x r0)) eqn:B; [|reflexivity].
    specialize (L x B). unfold blocked in L. rewrite WB, NR in L. discriminate.
Qed.
Print Assumptions C56_writable_partial.

(** One key exchange does not stall: if the other connection is in a key
    exchange and its own reading is not blocked, then the answers of its peer
    end the exchange, and everything is passed on. *)
Definition C56_answers (y : side) (have_kexinit : bool) : list bytes :=
  (if have_kexinit then [] else [[MSG_KEXINIT]]) ++
  match y with Client => [[MSG_ECDH_KEX_INIT]] | Target => [[MSG_ECDH_KEX_INIT_REPLY]] end.
Theorem C56_rekey_partial :
  forall client target ops x, fresh_end client -> fresh_end target ->
  let r0 := rrun client target ops in
  let y := get (other x) r0 in
  rl_alive r0 = true ->
  ep_kexinit_sent y = true -> ep_newkeys_sent y = false -> ep_newkeys_received y = false ->
  ep_read_blocked y = false -> ep_reading y = true -> waiting (other x) r0 = [] -> ep_write_blocked y = false ->
  let r := rrun client target (ops ++
    [RReceive (other x) (C56_answers (other x) (ep_kexinit_received y)); RWork (other x); RDone (other x)] ++
    [RWork x; RDone x; RResume x]) in
  rl_alive r = true ->
  waiting x r = [] /\ filter is_relayed (arrivals x ops (new_relay client target)) = passed_on x r.
Proof.
  intros c t ops x C T r0 y A0 K1 K2 K3 K4 K5 K6 K7 r A. subst r.
  rewrite app_assoc in *.
  set (l := [RReceive (other x) (C56_answers (other x) (ep_kexinit_received y)); RWork (other x); RDone (other x)]) in *.
  destruct (C56_wakeup_partial c t (ops ++ l) x C T) as (W & _ & P); [|exact A|].
  2:{ split; [exact W|]. rewrite <- P. unfold l.
      change [?a; ?b; ?c] with ([a] ++ [b] ++ [c]). rewrite !app_assoc, !arrivals_snoc, !app_nil_r.
      cbv zeta. replace (same_side x (other x)) with false by (now destruct x). cbn [andb]. now rewrite app_nil_r. }
  rewrite rrun_app. fold r0. clearbody r0. subst l y. clear A C T.
  unfold waiting in K6. apply app_eq_nil in K6 as [K6 K8].
  destruct r0 as [ec et rel han al]. cbn in A0. subst al.
  destruct x; cbn [other get rl_client rl_target] in *.
  - destruct et. cbn in K1, K2, K3, K4, K5, K6, K7, K8. subst.
    destruct ep_kexinit_received; unfold rstep, OnInputReady; cbn; reflexivity.
  - destruct ec. cbn in K1, K2, K3, K4, K5, K6, K7, K8. subst.
    destruct ep_kexinit_received; unfold rstep, OnInputReady; cbn; reflexivity.
Qed.
Print Assumptions C56_rekey_partial.

Example C56_witness_rekey :
  let e := new_end false false false false false in
  let r0 := rrun e e [RRekey Target; RReceive Client [[94; 2]; [96]]; RWork Client; RDone Client] in
  let y := get Target r0 in
  rl_alive r0 = true /\ waiting Client r0 = [[94; 2]; [96]] /\
  ep_kexinit_sent y = true /\ ep_newkeys_sent y = false /\ ep_newkeys_received y = false /\
  ep_read_blocked y = false /\ ep_reading y = true /\ waiting Target r0 = [] /\ ep_write_blocked y = false.
Proof. vm_compute. repeat split; reflexivity. Qed.

(** Blocked, unblocked, blocked again before the deferred event, unblocked. *)
Example C56_witness :
  let e := new_end false false false false false in
  let r := rrun e e [RWrite Target true; RReceive Client [[94; 2]; [96]]; RWork Client; RDone Client;
                     RWrite Target true; RResume Client; RWrite Target false] in
  fresh_end e /\ rl_alive r = true /\ ep_read_blocked (get Client r) = false /\ ep_reading (get Client r) = false /\
  waiting Client r = [[94; 2]; [96]].
Proof. split; [do 5 eexists; reflexivity|]. vm_compute. auto. Qed.
