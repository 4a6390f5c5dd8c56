(** * C98: a connection can be destroyed at any moment

    The objects INPUT and OUTPUT of a connection may be in use by a worker
    thread while the connection is being destroyed.  [safe]
    (Spec/LifetimeSpec.v) says what a trace of memory events must obey;
    [runs] are all interleavings of the main thread, the worker threads and
    the thread queue (Model/Lifetime.v). *)

From Coq Require Import NArith List Bool Lia.
From Verif.Base Require Import Bytes.
From Verif.Model Require Import Lifetime.
From Verif.Model Require Input Output.
From Verif.Spec Require Import LifetimeSpec.
From Verif.Proofs Require Import LifetimeFacts FinishFacts.
From Verif.Proofs Require OutputFacts.
Import ListNotations.
Open Scope N_scope.

(** Nothing is used or freed after it was freed, nothing is freed while a
    worker is inside, nobody calls back into a connection which is gone, and
    no assertion fails. *)
Theorem C98_safe : forall ops w, runs ops w -> safe (w_log w).
Proof. intros ops w H. exact (g_safe w (good_runs ops w H)). Qed.
Print Assumptions C98_safe.

(** While the connection lives, its objects live. *)
Theorem C98_alive : forall ops w, runs ops w -> ~ In Dispose ops -> forall b, ~ In (Free b) (w_log w).
Proof.
  intros ops w H N b. assert (A : w_alive w = true).
  { clear b. induction H as [|ops w o w' H IH Hs]; [reflexivity|]. rewrite in_app_iff in N. cbn [In] in N.
    assert (A : w_alive w = true) by (apply IH; tauto).
    destruct o as [b|b| |b|b|b again|b ready]; cbn [step] in Hs; rewrite ?A in Hs.
    - injection Hs as <-. exact A.
    - injection Hs as <-. destruct b; exact A.
    - exfalso. apply N. right. now left.
    - destruct (x_state _); try discriminate. injection Hs as <-. destruct b; exact A.
    - destruct (x_state _); try discriminate. injection Hs as <-. destruct b; exact A.
    - destruct (x_state _); try discriminate. injection Hs as <-. destruct b; exact A.
    - destruct (x_state _); try discriminate. destruct (x_again _); injection Hs as <-; [destruct b; exact A|].
      unfold Done. destruct (x_postponed _); [destruct b; exact A|]. destruct b; [destruct ready|]; exact A. }
  exact (proj2 (k_live _ _ _ _ (g_obj w (good_runs ops w H) b) A)).
Qed.
Print Assumptions C98_alive.

(** Nothing leaks: once the connection is gone and the thread queue has
    nothing left to do with an object, the object was freed. *)
Theorem C98_freed :
  forall ops w, runs ops w -> In Dispose ops ->
  forall b, (forall o, In o [Begin b; End b false; Wakeup b false] -> step o w = None) ->
  In (Free b) (w_log w).
Proof.
  intros ops w H D b S. pose proof (good_runs ops w H) as G.
  assert (A : w_alive w = false).
  { clear S G b. induction H as [|ops w o w' H IH Hs]; [destruct D|]. apply in_app_or in D.
    assert (E : w_alive w = false \/ o = Dispose) by (destruct D as [D|[D|[]]]; auto).
    destruct o as [b|b| |b|b|b again|b ready]; cbn [step] in Hs;
      try (destruct E as [A|E]; [|discriminate E]; rewrite ?A in Hs; try discriminate;
           repeat (match type of Hs with context [match ?x with _ => _ end] => destruct x end; try discriminate);
           injection Hs as <-; unfold Done;
           repeat match goal with |- context [if ?x then _ else _] => destruct x end; try destruct b; exact A).
    destruct (w_alive w); [|discriminate]. injection Hs as <-. reflexivity. }
  destruct (k_doomed _ _ _ _ (g_obj w G b) A) as [X|[_ X]]; [exact X|exfalso].
  pose proof (S (Begin b) (or_introl eq_refl)) as S1.
  pose proof (S (End b false) (or_intror (or_introl eq_refl))) as S2.
  pose proof (S (Wakeup b false) (or_intror (or_intror (or_introl eq_refl)))) as S3.
  cbn [step] in S1, S2, S3. destruct (x_state (obj b w)); try discriminate; [contradiction|].
  destruct (x_again _); discriminate.
Qed.
Print Assumptions C98_freed.

(** ** This point is reached

    A job which queues itself again and again would keep its object forever.
    From any reachable state on, if the connection does nothing more, any
    sequence of steps of the worker and the thread queue is bounded, and when
    there is no further step, the job is idle. *)
Theorem C98_output_ends :
  forall (C : Type) encrypt allowed ops s sub w, OutputFacts.runs C encrypt allowed ops s sub w ->
  forall more s', winds C encrypt s more s' ->
  (List.length more <= 8 + packets C s)%nat /\
  ((forall o, detached C o -> forall s2 b, Output.step C encrypt s' o <> Output.Ok C s2 b) -> Output.o_job C s' = Output.JInitial).
Proof.
  intros C en al ops s sub w H more s' W. pose proof (sound_runs C en al ops s sub w H) as S.
  destruct (winds_weight C en s more s' W S) as (S' & L). pose proof (weight_bound C s). split; [lia|].
  apply progress. exact S'.
Qed.
Print Assumptions C98_output_ends.

Theorem C98_input_ends :
  forall (C : Type) auth_size dec_header dec_payload,
  (forall c n src c' r, dec_payload c n src = Some (c', r) -> len r + 4 + auth_size c = len src) ->
  (forall c, auth_size c <= 64) ->
  forall s, cruns C auth_size dec_header dec_payload s ->
  forall more s', iwinds C auth_size dec_header dec_payload s more s' ->
  len more <= 8 + 5 * (2 * len (Input.i_raw C s) + len (Input.i_unprot C s)) /\
  ((forall o, idetached C o -> fits C s' o -> forall s2 e, dstep C auth_size dec_header dec_payload s' o <> Input.IOk C s2 e) ->
   Input.i_job C s' = Input.IInitial).
Proof.
  intros C a dh dp K A s H more s' W. pose proof (cruns_sound C a dh dp K A s H) as S.
  destruct (iwinds_weight C a dh dp K A s more s' W S) as (S' & L). split.
  - unfold iweight, iphase in L. destruct (Input.i_job C s) as [| |? ? []|]; destruct (Input.i_again C s); lia.
  - intro X. eapply iprogress; eassumption.
Qed.
Print Assumptions C98_input_ends.

(** ** Witnesses *)

Fixpoint go (ops : list op) (w : world) : option world :=
  match ops with [] => Some w | o :: l => match step o w with Some w' => go l w' | None => None end end.
Lemma go_runs : forall l ops w w', runs ops w -> go l w = Some w' -> runs (ops ++ l) w'.
Proof.
  induction l as [|o l IH]; intros ops w w' R H; cbn [go] in H.
  - injection H as <-. now rewrite app_nil_r.
  - destruct (step o w) as [w1|] eqn:E; [|discriminate]. change (o :: l) with ([o] ++ l). rewrite app_assoc.
    apply (IH _ w1); [eapply runs_snoc; eassumption|exact H].
Qed.

Definition busy_ops : list op := [Queue INPUT; Begin INPUT; Queue OUTPUT; Queue INPUT; Dispose; Work INPUT; End INPUT false;
        Wakeup INPUT true; Begin INPUT; End INPUT false; Wakeup INPUT true].

(** The connection is destroyed while a worker decrypts and another job is
    still waiting: the latter is freed at once, the former when the worker
    has finished, even though it had asked to be run again. *)
Example C98_busy_demo : exists w,
  runs busy_ops w /\
  w_log w = [Use INPUT; Enter INPUT; Use INPUT; Use OUTPUT; Use INPUT;
             Use OUTPUT; Free OUTPUT; Use INPUT; Gone;
             Use INPUT; Use INPUT; Leave INPUT; Use INPUT; Enter INPUT; Use INPUT; Use INPUT; Leave INPUT;
             Use INPUT; Use INPUT; Free INPUT].
Proof.
  destruct (go busy_ops new_world) as [w|] eqn:E; [|vm_compute in E; discriminate E].
  exists w. split; [exact (go_runs busy_ops [] new_world w runs_nil E)|]. vm_compute in E. injection E as <-. reflexivity.
Qed.

Definition callback_ops : list op := [Queue INPUT; Begin INPUT; End INPUT false; Wakeup INPUT true; Dispose].

(** The connection destroys itself in the callback from Done(). *)
Example C98_callback_demo : exists w,
  runs callback_ops w /\
  w_log w = [Use INPUT; Enter INPUT; Use INPUT; Use INPUT; Leave INPUT; Use INPUT; Use INPUT; Callback INPUT;
             Use OUTPUT; Free OUTPUT; Use INPUT; Free INPUT; Gone].
Proof.
  destruct (go callback_ops new_world) as [w|] eqn:E; [|vm_compute in E; discriminate E].
  exists w. split; [exact (go_runs callback_ops [] new_world w runs_nil E)|]. vm_compute in E. injection E as <-. reflexivity.
Qed.

(** A worker which finds a new cipher after the old packets runs once more,
    then it is idle. *)
Definition toy_encrypt (c n : N) (p : bytes) : option (N * bytes) := Some (c, c :: p).
Fixpoint ogo (ops : list (Output.op N)) (s : Output.ostate N) : option (Output.ostate N) :=
  match ops with
  | [] => Some s
  | o :: l => match Output.step N toy_encrypt s o with Output.Ok _ s' _ => ogo l s' | _ => None end
  end.
Lemma ogo_runs : forall l ops s sub w s', OutputFacts.runs N toy_encrypt (fun _ _ => True) ops s sub w -> ogo l s = Some s' ->
  exists sub' w', OutputFacts.runs N toy_encrypt (fun _ _ => True) (ops ++ l) s' sub' w'.
Proof.
  induction l as [|o l IH]; intros ops s sub w s' R H; cbn [ogo] in H.
  - injection H as <-. rewrite app_nil_r. eauto.
  - destruct (Output.step N toy_encrypt s o) as [s1 b| | |] eqn:E; try discriminate. change (o :: l) with ([o] ++ l). rewrite app_assoc.
    eapply IH; [eapply OutputFacts.runs_snoc; [exact R|exact Logic.I|exact E]|exact H].
Qed.
Definition two_ciphers : list (Output.op N) :=
  [Output.SetCipher N 7; Output.Push N [1]; Output.RunBegin N; Output.RunEncrypt N; Output.RunEnd N; Output.Wakeup N;
   Output.Push N [2]; Output.SetCipher N 8; Output.Push N [3]].
Example C98_output_demo : exists s more s',
  (exists sub w, OutputFacts.runs N toy_encrypt (fun _ _ => True) two_ciphers s sub w) /\
  winds N toy_encrypt s more s' /\ List.length more = 8%nat /\
  Output.o_job N s = Output.JWaiting /\ Output.o_plain N s = [[2]] /\ Output.o_next_plain N s = [[3]] /\
  Output.o_job N s' = Output.JInitial.
Proof.
  destruct (ogo two_ciphers (Output.new_output N)) as [s|] eqn:E; [|vm_compute in E; discriminate E].
  exists s, [Output.RunBegin N; Output.RunEncrypt N; Output.RunEnd N; Output.Wakeup N;
          Output.RunBegin N; Output.RunEncrypt N; Output.RunEnd N; Output.Wakeup N].
  destruct (ogo [Output.RunBegin N; Output.RunEncrypt N; Output.RunEnd N; Output.Wakeup N;
          Output.RunBegin N; Output.RunEncrypt N; Output.RunEnd N; Output.Wakeup N] s) as [s'|] eqn:E';
    [|vm_compute in E; injection E as <-; vm_compute in E'; discriminate E'].
  exists s'. split; [exact (ogo_runs two_ciphers [] _ [] [] s (OutputFacts.runs_nil _ _ _) E)|].
  vm_compute in E. injection E as <-. vm_compute in E'. injection E' as <-.
  split; [|repeat split].
  repeat (eapply winds_cons; [exact Logic.I|vm_compute; reflexivity|]). apply winds_nil.
Qed.

(** The input of a connection goes encrypted and is then left with half a
    header. *)
Definition toy_header (c n : N) (h : bytes) : option (N * bytes) := Some (c, h).
Definition toy_payload (c n : N) (src : bytes) : option (N * bytes) :=
  if len src <? 4 then None else Some (c, drop 4 src).
Definition newkeys_packet : bytes := [0; 0; 0; 12; 10; 21; 0; 0; 0; 0; 0; 0; 0; 0; 0; 0].
Notation tstep := (Input.istep N (fun _ => 0) toy_header toy_payload).
Fixpoint igo (ops : list (Input.iop N)) (s : Input.istate N) : option (Input.istate N) :=
  match ops with
  | [] => Some s
  | o :: l => match tstep s o with Input.IOk _ s' _ => igo l s' | _ => None end
  end.
(** (none of these steps moves data between the buffers) *)
Definition main_only (o : Input.iop N) : bool :=
  match o with Input.RunBegin _ _ | Input.RunEnd _ _ => false | _ => true end.
Lemma igo_cruns : forall l s s', cruns N (fun _ => 0) toy_header toy_payload s -> forallb main_only l = true ->
  igo l s = Some s' -> cruns N (fun _ => 0) toy_header toy_payload s'.
Proof.
  induction l as [|o l IH]; intros s s' R M H; cbn [igo forallb] in H, M.
  - injection H as <-. exact R.
  - apply andb_true_iff in M as [M1 M2]. destruct (tstep s o) as [s1 e| | |] eqn:E; try discriminate.
    apply (IH s1); [|exact M2|exact H]. eapply cruns_snoc; [exact R| |exact E]. destruct o; try exact Logic.I; discriminate M1.
Qed.
Definition half_header : list (Input.iop N) :=
  [Input.Feed N newkeys_packet; Input.Read N; Input.SetCipher N 7; Input.Consume N; Input.Feed N [0; 0]].

Example C98_input_demo : exists s s',
  (forall c n src c' r, toy_payload c n src = Some (c', r) -> len r + 4 + 0 = len src) /\
  cruns N (fun _ => 0) toy_header toy_payload s /\
  Input.i_job N s = Input.IWaiting /\ Input.i_raw N s = [0; 0] /\
  iwinds N (fun _ => 0) toy_header toy_payload s
    [Input.RunBegin N 2; Input.RunLoop N; Input.RunEnd N 0; Input.Wakeup N] s' /\ Input.i_job N s' = Input.IInitial.
Proof.
  destruct (igo half_header (Input.new_input N)) as [s|] eqn:E; [|vm_compute in E; discriminate E].
  destruct (igo [Input.RunBegin N 2; Input.RunLoop N; Input.RunEnd N 0; Input.Wakeup N] s) as [s'|] eqn:E';
    [|vm_compute in E; injection E as <-; vm_compute in E'; discriminate E'].
  exists s, s'. split; [|split].
  - intros c n src c' r H. unfold toy_payload in H. destruct (len src <? 4) eqn:L; [discriminate|]. apply N.ltb_ge in L.
    injection H as <- <-. rewrite len_drop. lia.
  - apply (igo_cruns half_header (Input.new_input N)); [apply cruns_nil|reflexivity|exact E].
  - vm_compute in E. injection E as <-. vm_compute in E'. injection E' as <-.
    split; [reflexivity|]. split; [reflexivity|]. split; [|reflexivity].
    eapply iwinds_cons; [exact Logic.I| |vm_compute; reflexivity|].
    { cbn [fits]. unfold moves. vm_compute. repeat split; try discriminate. }
    eapply iwinds_cons; [exact Logic.I|exact Logic.I|vm_compute; reflexivity|].
    eapply iwinds_cons; [exact Logic.I| |vm_compute; reflexivity|].
    { cbn [fits]. unfold moves. vm_compute. repeat split; try discriminate. intros _. now left. }
    eapply iwinds_cons; [exact Logic.I|exact Logic.I|vm_compute; reflexivity|]. apply iwinds_nil.
Qed.
