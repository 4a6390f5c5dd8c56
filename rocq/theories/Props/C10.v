(** * C10: an initiated disconnect is reported to the peer

    [cruns ops s sub w]: any interleaving of the steps of an encrypted
    connection (main thread and worker) from its creation; [sub] is
    everything submitted for sending, [w] everything handed to the socket. *)

From Coq Require Import NArith List Bool Lia.
From Verif.Base Require Import Bytes.
From Verif.Model Require Import Queue Output Closing.
From Verif.Spec Require Import OutputSpec.
From Verif.Proofs Require Import QueueFacts OutputFacts.
From Verif.Props Require Import C07.
Import ListNotations.
Open Scope N_scope.

Section C10.
Variable C : Type.
Variable encrypt : C -> N -> bytes -> option (C * bytes).

Definition csubmits (s : conn C) (o : cop C) : list (submitted C) :=
  match o with
  | Output _ o => submits C (k_out C s) o
  | DoDisconnect _ p => if k_dead C s then [] else [Packet p]
  | OnBufferedWrite _ _ => []
  end.

(** the caller, as in C07; no key exchange goes on after the disconnect
    (nothing is read any more) *)
Definition cpolite (s : conn C) (o : cop C) : Prop :=
  match o with
  | Output _ o => polite (k_out C s) o /\
      match o with SetCipher _ _ | AutoResetSeq _ => k_dead C s = false | _ => True end
  | DoDisconnect _ p => p <> []
  | OnBufferedWrite _ _ => True
  end.

Inductive cruns : list (cop C) -> conn C -> list (submitted C) -> bytes -> Prop :=
| cruns_nil : cruns [] (new_conn C) [] []
| cruns_snoc : forall ops s sub w o s' b,
    cruns ops s sub w -> cpolite s o -> cstep C encrypt s o = COk C s' b ->
    cruns (ops ++ [o]) s' (sub ++ csubmits s o) (w ++ b).

Lemma cruns_output : forall ops s sub w, cruns ops s sub w ->
  (exists ops', runs C encrypt polite ops' (k_out C s) sub w) /\
  (k_dead C s = true -> o_encrypted C (k_out C s) = true) /\
  (k_disposed C s = true -> k_dead C s = true /\ o_error C (k_out C s) = false /\ IsEmpty C (k_out C s) = true).
Proof.
  intros ops s sub w H. induction H as [|ops s sub w o s' b H [[ops' R] [De Di]] P E].
  - split; [exists []; constructor|]. split; discriminate.
  - unfold cstep in E. destruct (k_disposed C s) eqn:D; [discriminate|].
    destruct o as [o|p|k]; cbn [csubmits].
    + assert (X : lift C s (k_dead C s) (step C encrypt (k_out C s) o) = COk C s' b).
      { destruct o; try exact E; try discriminate.
        destruct (k_dead C s) eqn:D2; [discriminate|exact E]. }
      clear E. destruct P as [P _]. unfold lift in X.
      destruct (step C encrypt (k_out C s) o) as [s1 b1| | |] eqn:ES; try discriminate.
      injection X as <- <-. cbn [k_out k_dead k_disposed]. rewrite D. split; [|split; [|discriminate]].
      * eexists. now apply runs_snoc with (s := k_out C s); [exact R| |].
      * intro K. specialize (De K). 
        destruct o as [c| |q|q| | | |]; cbn [step] in ES; unfold do_SetCipher, do_AutoResetSeq, do_Push in ES;
          rewrite ?De in ES.
        -- now injection ES as <- _.
        -- now injection ES as <- _.
        -- destruct (add_job (o_job C (k_out C s)) (o_again C (k_out C s))) as [j a].
           destruct (o_next_cipher C (k_out C s)); now injection ES as <- _.
        -- unfold do_Flush in ES. rewrite De in ES. destruct (_ && _); [discriminate|].
           destruct (sq_Prepare _ _) as [[|v0 v]|]; try discriminate.
           ++ injection ES as <- _. exact De.
           ++ destruct q as [q|]; [|injection ES as <- _; exact De].
              destruct (_ <? _); [discriminate|]. destruct (sq_Consume _ _); [|discriminate].
              injection ES as <- _. exact De.
        -- unfold do_RunBegin in ES. destruct (o_job _ _); try discriminate.
           destruct (o_plain _ _), (o_next_cipher _ _); injection ES as <- _; exact De.
        -- unfold do_RunEncrypt in ES. destruct (o_job _ _) as [| |[|x src] d|]; try discriminate.
           destruct (o_cipher _ _) as [c|]; [|discriminate].
           destruct (encrypt _ _ _) as [[c' y]|]; injection ES as <- _; exact De.
        -- unfold do_RunEnd in ES. destruct (o_job _ _) as [| |[|x src] d|]; try discriminate.
           injection ES as <- _; exact De.
        -- unfold do_Wakeup in ES. destruct (o_job _ _); try discriminate.
           injection ES as <- _; exact De.
    + destruct (k_dead C s) eqn:K.
      * injection E as <- <-. rewrite !app_nil_r. rewrite K. repeat split; eauto; rewrite D in *; discriminate.
      * destruct (o_encrypted C (k_out C s)) eqn:En; [|discriminate]. unfold lift in E.
        destruct (step C encrypt (k_out C s) (Push C p)) as [s1 b1| | |] eqn:ES; try discriminate.
        injection E as <- <-. cbn [k_out k_dead k_disposed]. rewrite D. split; [|split; [|discriminate]].
        -- eexists. apply (runs_snoc C encrypt polite ops' (k_out C s) sub w (Push C p)); [exact R| |exact ES].
           split; [exact P|exact I].
        -- intros _. cbn [step] in ES. unfold do_Push in ES. rewrite En in ES.
           destruct (add_job (o_job C (k_out C s)) (o_again C (k_out C s))) as [j a].
           destruct (o_next_cipher C (k_out C s)); now injection ES as <- _.
    + destruct (step C encrypt (k_out C s) (Flush C k)) as [s1 b1| | |] eqn:ES; try discriminate.
      injection E as <- <-. cbn [k_out k_dead k_disposed].
      assert (Y : o_encrypted C s1 = o_encrypted C (k_out C s) /\ o_error C s1 = o_error C (k_out C s) /\
                  o_encrypted C (k_out C s) && o_error C (k_out C s) = false).
      { cbn [step] in ES. unfold do_Flush in ES. destruct (_ && _) eqn:Y; [discriminate|].
        destruct (if o_encrypted C (k_out C s) then _ else _) as [q enc].
        destruct (sq_Prepare _ _) as [[|v0 v]|]; try discriminate.
        - now injection ES as <- _.
        - destruct k as [k|]; [|now injection ES as <- _].
          destruct (_ <? _); [discriminate|]. destruct (sq_Consume _ _); [|discriminate].
          now injection ES as <- _. }
      destruct Y as (Y1 & Y2 & Y3). split; [|split].
      * eexists. apply (runs_snoc C encrypt polite ops' (k_out C s) sub w (Flush C k)); [exact R| |exact ES].
        split; exact I.
      * intro K. rewrite Y1. now apply De.
      * intro K. apply andb_true_iff in K as [K1 K2]. apply andb_true_iff in K1 as [_ K1].
        rewrite (De K1) in Y3. rewrite Y2. now repeat split.
Qed.

(** Once the connection is dead, the last thing that was submitted is the
    DISCONNECT packet of the first DoDisconnect() call. *)
Lemma cruns_dead : forall ops s sub w, cruns ops s sub w -> k_dead C s = true ->
  exists before p, In (DoDisconnect C p) ops /\ sub = before ++ [Packet p].
Proof.
  intros ops s sub w H. induction H as [|ops s sub w o s' b H IH P E]; [discriminate|].
  intro K. unfold cstep in E. destruct (k_disposed C s) eqn:D; [discriminate|].
  destruct (k_dead C s) eqn:K0.
  - destruct (IH eq_refl) as (before & p & I1 & I2). exists before, p.
    split; [apply in_or_app; now left|].
    assert (Z : csubmits s o = []).
    { destruct o as [o|q|k]; cbn [csubmits]; rewrite ?K0; try reflexivity.
      destruct o; try reflexivity; try discriminate. destruct P as [_ P]. cbn in P. congruence. }
    now rewrite Z, app_nil_r.
  - destruct o as [o|p|k].
    + exfalso. assert (X : lift C s false (step C encrypt (k_out C s) o) = COk C s' b).
      { destruct o; try exact E; discriminate. }
      unfold lift in X. destruct (step _ _ _ _); try discriminate. injection X as <- _. discriminate.
    + exists sub, p. split; [apply in_or_app; right; now left|]. cbn [csubmits]. now rewrite K0.
    + exfalso. destruct (step _ _ _ _); try discriminate. injection E as <- _. discriminate.
Qed.

End C10.

(** Partial: if the worker is not in the middle of encrypting when the
    connection is closed, then everything that was submitted, and the
    DISCONNECT packet [p] as the very last, has been handed to the socket.
    (An encryption error makes the flush throw; then the connection is not
    closed by this path.) *)
Theorem C10_disconnect_sent_partial :
  forall (C : Type) (encrypt : C -> N -> bytes -> option (C * bytes)),
  (forall c n p c' b, encrypt c n p = Some (c', b) -> b <> []) ->
  forall ops s sub w,
  cruns C encrypt ops s sub w ->
  k_disposed C s = true ->
  (forall src dest, o_job C (k_out C s) <> JBusy src dest) ->
  exists before p,
    In (DoDisconnect C p) ops /\
    sub = before ++ [Packet p] /\
    w = wire C encrypt None 0 (before ++ [Packet p]).
Proof.
  intros C encrypt He ops s sub w H D J.
  destruct (cruns_output _ _ _ _ _ _ H) as ([ops' R] & _ & Di). destruct (Di D) as (K & E & Emp).
  destruct (cruns_dead _ _ _ _ _ _ H K) as (before & p & I1 & ->).
  exists before, p. split; [exact I1|]. split; [reflexivity|].
  eapply C07_nothing_lost_partial; eauto.
Qed.
Print Assumptions C10_disconnect_sent_partial.

(** After DISCONNECT no further packet is submitted. *)
Theorem C10_disconnect_last :
  forall (C : Type) (encrypt : C -> N -> bytes -> option (C * bytes)) ops s sub w,
  cruns C encrypt ops s sub w -> k_dead C s = true ->
  exists before p, In (DoDisconnect C p) ops /\ sub = before ++ [Packet p].
Proof. intros. eapply cruns_dead; eauto. Qed.
Print Assumptions C10_disconnect_last.

(** ** Witness and refutation, with the toy cipher of C07 *)
Fixpoint cexec (s : conn N) (sub : list (submitted N)) (w : bytes) (ops : list (cop N))
  : option (conn N * list (submitted N) * bytes) :=
  match ops with
  | [] => Some (s, sub, w)
  | o :: ops =>
      match cstep N toy s o with
      | COk _ s' b => cexec s' (sub ++ csubmits N s o) (w ++ b) ops
      | _ => None
      end
  end.

Fixpoint cexec_ok (s : conn N) (ops : list (cop N)) : Prop :=
  match ops with
  | [] => True
  | o :: ops => cpolite N s o /\
      match cstep N toy s o with
      | COk _ s' _ => cexec_ok s' ops
      | _ => False
      end
  end.

Lemma cexec_runs : forall ops ops0 s0 sub0 w0 s sub w,
  cruns N toy ops0 s0 sub0 w0 -> cexec_ok s0 ops ->
  cexec s0 sub0 w0 ops = Some (s, sub, w) -> cruns N toy (ops0 ++ ops) s sub w.
Proof.
  intros ops. induction ops as [|o ops IH]; intros ops0 s0 sub0 w0 s sub w H A E; simpl in *.
  - injection E as <- <- <-. now rewrite app_nil_r.
  - destruct A as [A1 A2]. destruct (cstep N toy s0 o) as [s1 b| |] eqn:ES; try contradiction.
    replace (ops0 ++ o :: ops) with ((ops0 ++ [o]) ++ ops) by (rewrite <- app_assoc; reflexivity).
    eapply IH; eauto. now apply cruns_snoc with (s := s0).
Qed.

(** the worker encrypts DISCONNECT ([1]) and the main loop writes it *)
Definition closing_ops : list (cop N) :=
  [Output N (Push N [21]); Output N (SetCipher N 100); Output N (Push N [99]);
   DoDisconnect N [1]; OnBufferedWrite N (Some 1); Output N (RunBegin N); Output N (RunEncrypt N);
   Output N (RunEncrypt N); Output N (RunEnd N); Output N (Wakeup N); OnBufferedWrite N (Some 2);
   OnBufferedWrite N (Some 4)].

Example C10_witness :
  exists s sub, cruns N toy closing_ops s sub [21; 100;1;99; 100;2;1] /\
    k_disposed N s = true /\ o_job N (k_out N s) = JInitial /\
    sub = [Packet [21]; NewCipher 100 false; Packet [99]; Packet [1]].
Proof.
  do 2 eexists. split.
  - change closing_ops with ([] ++ closing_ops). eapply cexec_runs; [constructor| |].
    + vm_compute. repeat split; discriminate.
    + vm_compute. reflexivity.
  - repeat split.
Qed.

(** The full claim is false: Output::IsEmpty() does not see the packets
    which the worker has taken out of the lists.  If the main loop handles
    a write event while the worker encrypts, the connection is closed
    although DISCONNECT (and what was queued before it) has not been
    sent. *)
Theorem C10_disconnect_sent_refuted :
  exists ops s sub w,
    cruns N toy ops s sub w /\ k_disposed N s = true /\
    o_error N (k_out N s) = false /\
    w <> wire N toy None 0 sub.
Proof.
  set (ops := [Output N (Push N [21]); Output N (SetCipher N 100); Output N (Push N [99]);
   DoDisconnect N [1]; Output N (RunBegin N); OnBufferedWrite N (Some 1)]).
  exists ops. do 3 eexists. split.
  - change ops with ([] ++ ops). eapply cexec_runs; [constructor| |].
    + vm_compute. repeat split; discriminate.
    + vm_compute. reflexivity.
  - repeat split. vm_compute. discriminate.
Qed.
Print Assumptions C10_disconnect_sent_refuted.
