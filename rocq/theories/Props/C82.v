(** * C82: the counters for authentication requests count what happened *)

From Coq Require Import NArith List Bool Lia String.
From Verif.Base Require Import Bytes.
From Verif.Spec Require Import WireSpec KeySpec AuthSpec AuthDemo MetricsSpec.
From Verif.Model Require Import Wire Packets StringList KeyOptions Auth Session Server Metrics.
From Verif.Proofs Require Import AuthFacts ServerFacts MetricsFacts.
Import ListNotations.
Open Scope N_scope.

Local Arguments bs : simpl never.

(** The requests which were answered, what they said and their answers.  What
    a request says is determined by its bytes. *)
Definition answers (i : minst) (l : list (form * answer)) : Prop :=
  Forall2 (fun x y => says (fst x) (fst y) /\ snd x = snd y) (mi_answered i) l.
Definition arrivals (i : minst) (l : list form) : Prop := Forall2 says (mi_arrived i) l.

Lemma answers_unique : forall i l l', answers i l -> answers i l' -> l = l'.
Proof.
  intros i l l' A. unfold answers in *. revert l'. induction A as [|x y t u [S E] _ IH]; intros l' B; inversion B as [|x' y' t' u' [S' E'] B']; subst; [reflexivity|].
  f_equal; [|now apply IH]. destruct y as [f a], y' as [f' a']. cbn in *. subst. f_equal. eapply says_unique; eauto.
Qed.

Lemma answers_exist : forall i forms, Forall2 says (map fst (mi_answered i)) forms -> answers i (combine forms (map snd (mi_answered i))).
Proof.
  intros i. unfold answers. generalize (mi_answered i). induction l as [|x t IH]; intros forms F; inversion F; subst; cbn; constructor; auto.
Qed.

Definition ok_ops_of (ops : list (N * vop)) : Prop := Forall (fun x => op_ok (snd x)) ops.

(** ** The full claim *)

(** "accepted": as many as the requests which have logged in a client *)
Definition C82_accepted_full_statement : Prop := forall cfg sid peers ops l, ok_ops_of ops ->
  let i := mi_run cfg sid peers ops in answers i l -> accepted_total (mi_notes i) = how_many was_accepted l.

(** "failed": as many as the requests which were refused, other than those of
    the method "none", with which clients ask for the list of methods. *)
Definition C82_failed_full_statement : Prop := forall cfg sid peers ops l, ok_ops_of ops ->
  let i := mi_run cfg sid peers ops in answers i l ->
  failed_total (mi_notes i) = how_many (fun x => was_refused x && negb (by_method (bs "none") x)) l.

(** ** What holds *)

(** Every request which can be read is received. *)
Theorem C82_received : forall cfg sid peers ops forms, ok_ops_of ops ->
  let i := mi_run cfg sid peers ops in arrivals i forms -> value Received (mi_notes i) = how_many readable forms.
Proof.
  intros cfg sid peers ops forms F i A. destruct (co_arrived _ _ (counted_run cfg sid peers ops F)) as (forms' & A' & V). fold i in A', V.
  replace forms with forms'; [exact V|]. clear -A A'. unfold arrivals in A. revert forms A. induction A' as [|x y t u S _ IH]; intros forms A; inversion A; subst; [reflexivity|].
  f_equal; [eapply says_unique; eauto|now apply IH].
Qed.
Print Assumptions C82_received.

Lemma sums_of : forall cfg sid peers ops l, ok_ops_of ops ->
  let i := mi_run cfg sid peers ops in answers i l -> sums (passwords_needed ops) l (mi_notes i).
Proof.
  intros cfg sid peers ops l F i A. destruct (co_answered _ _ (counted_run cfg sid peers ops F)) as (forms & S & H). fold i in S, H.
  now rewrite (answers_unique _ _ _ A (answers_exist _ _ S)).
Qed.

(** Every login is counted; logins with keys, and of hosts, exactly once as what
    they are. *)
Theorem C82_accepted_partial : forall cfg sid peers ops l, ok_ops_of ops ->
  let i := mi_run cfg sid peers ops in answers i l ->
  value PublickeyAccepted (mi_notes i) = how_many (fun x => was_accepted x && by_method PUBLICKEY x) l /\
  value HostbasedAccepted (mi_notes i) = how_many (fun x => was_accepted x && by_method HOSTBASED x) l /\
  (how_many was_accepted l <= accepted_total (mi_notes i))%nat /\
  (passwords_needed ops ->
   value PasswordAccepted (mi_notes i) = how_many (fun x => was_accepted x && by_method PASSWORD x) l /\
   accepted_total (mi_notes i) = how_many was_accepted l).
Proof.
  intros cfg sid peers ops l F i A. destruct (sums_of cfg sid peers ops l F A). auto.
Qed.
Print Assumptions C82_accepted_partial.

(** Only refused requests are counted as failed, each at most once and under
    its own method; of the requests for this service all but those of the
    method "none", and requests to change a password, are counted. *)
Theorem C82_failed_partial : forall cfg sid peers ops l, ok_ops_of ops ->
  let i := mi_run cfg sid peers ops in answers i l ->
  (failed_total (mi_notes i) <= how_many was_refused l)%nat /\
  (value PasswordFailed (mi_notes i) <= how_many (fun x => was_refused x && by_method PASSWORD x) l)%nat /\
  (value PublickeyFailed (mi_notes i) <= how_many (fun x => was_refused x && by_method PUBLICKEY x) l)%nat /\
  (value HostbasedFailed (mi_notes i) <= how_many (fun x => was_refused x && by_method HOSTBASED x) l)%nat /\
  (value UnsupportedFailed (mi_notes i) <=
     how_many (fun x => was_refused x && negb (by_method PUBLICKEY x) && negb (by_method HOSTBASED x) && negb (by_method (bs "none") x)) l)%nat /\
  (how_many (fun x => was_refused x && for_connection x && negb (by_method (bs "none") x)) l <=
     failed_total (mi_notes i) + value Unsupported (mi_notes i))%nat /\
  (value Unsupported (mi_notes i) <= how_many (fun x => was_refused x && by_method PASSWORD x) l)%nat /\
  (failed_total (mi_notes i) + value Unsupported (mi_notes i) <= how_many was_refused l)%nat.
Proof.
  intros cfg sid peers ops l F i A. destruct (sums_of cfg sid peers ops l F A) as [X1 X2 X3 X4 X5 X6 X7 X8 X9 X10 X11].
  cbv zeta. fold i in X1, X2, X3, X4, X5, X6, X7, X8, X9, X10, X11. repeat apply conj; first [assumption|lia].
Qed.
Print Assumptions C82_failed_partial.

(** Connections do not disturb each other: each one is in the state in which
    it would be alone. *)
Theorem C82_alone : forall cfg sid peers ops c,
  mi_servers (mi_run cfg sid peers ops) c = vrun cfg (sid c) (peers c) (map snd (filter (fun x => fst x =? c) ops)).
Proof. exact mi_alone. Qed.
Print Assumptions C82_alone.

(** ** What does not *)

Definition demo_ids (_ : N) : bytes := demo_session_id.
Definition demo_peers (_ : N) : bytes := bs "192.0.2.1".
Definition on (c : N) (ops : list vop) : list (N * vop) := map (pair c) ops.

Lemma ok_demo : forall ops, forallb (fun x => ok_op (snd x)) ops = true -> ok_ops_of ops.
Proof.
  intros ops H. unfold ok_ops_of. rewrite forallb_forall in H. apply Forall_forall. intros x I. specialize (H x I).
  pose proof (ok_ops [snd x]) as O. cbn [forallb] in O. rewrite H in O. specialize (O eq_refl). now inversion O.
Qed.

(** The account carol needs no password; a request with a forged signature
    is refused, and counted as an accepted password. *)
Theorem C82_accepted_refuted : ~ C82_accepted_full_statement.
Proof.
  intro H. set (ops := on 0 (demo_start ++ demo_attempt (demo_bad_signature (bs "carol") (bs "KEY")))).
  assert (F : ok_ops_of ops) by (apply ok_demo; vm_compute; reflexivity).
  destruct (co_answered _ _ (counted_run (demo_config true) demo_ids demo_peers ops F)) as (forms & S & _).
  specialize (H (demo_config true) demo_ids demo_peers ops _ F (answers_exist _ _ S)). cbv zeta in H.
  assert (N : accepted_total (mi_notes (mi_run (demo_config true) demo_ids demo_peers ops)) = 1%nat) by (vm_compute; reflexivity).
  assert (M : map snd (mi_answered (mi_run (demo_config true) demo_ids demo_peers ops)) = [Refused]) by (vm_compute; reflexivity).
  rewrite N, M in H. clear -H. destruct forms as [|f [|g t]]; cbn in H; discriminate.
Qed.
Print Assumptions C82_accepted_refuted.

(** A request to change a password is refused, and not counted as failed. *)
Definition change_request : bytes :=
  enc [FString (bs "alice"); FString CONNECTION; FString PASSWORD; FByte 1; FString (bs "old")].
Definition other_service_request : bytes :=
  enc [FString (bs "alice"); FString (bs "ssh-other"); FString PASSWORD; FByte 0; FString (bs "secret")].

Lemma says_change : says change_request (Form CONNECTION PASSWORD).
Proof. exists (bs "alice"), (enc [FByte 1; FString (bs "old")]). repeat split; vm_compute; reflexivity. Qed.
Lemma says_other : says other_service_request (Form (bs "ssh-other") PASSWORD).
Proof. exists (bs "alice"), (enc [FByte 0; FString (bs "secret")]). repeat split; vm_compute; reflexivity. Qed.

Theorem C82_failed_refuted : ~ C82_failed_full_statement.
Proof.
  intro H. set (ops := on 0 (demo_start ++ demo_attempt change_request)).
  assert (F : ok_ops_of ops) by (apply ok_demo; vm_compute; reflexivity).
  specialize (H (demo_config true) demo_ids demo_peers ops [(Form CONNECTION PASSWORD, Refused)] F). cbv zeta in H.
  assert (A : answers (mi_run (demo_config true) demo_ids demo_peers ops) [(Form CONNECTION PASSWORD, Refused)]).
  { unfold answers.
    assert (E : mi_answered (mi_run (demo_config true) demo_ids demo_peers ops) = [(change_request, Refused)]) by (vm_compute; reflexivity).
    rewrite E. constructor; [|constructor]. split; [exact says_change|reflexivity]. }
  specialize (H A).
  assert (N : failed_total (mi_notes (mi_run (demo_config true) demo_ids demo_peers ops)) = 0%nat) by (vm_compute; reflexivity).
  rewrite N in H. vm_compute in H. discriminate.
Qed.
Print Assumptions C82_failed_refuted.

(** ** Examples *)

(** Three connections: alice with a wrong and then the right password; alice
    with a query and a signature by the listed key, after the method "none";
    a host for alice.  The events are interleaved. *)
Definition demo_ops : list (N * vop) :=
  on 0 demo_start ++ on 1 demo_start ++ on 2 demo_start ++
  on 1 (demo_attempt (demo_none_request (bs "alice"))) ++
  on 0 (demo_attempt (demo_password_request (bs "alice") (bs "wrong"))) ++
  on 1 (demo_attempt (demo_query (bs "alice") (bs "KEY"))) ++
  on 1 (demo_attempt (demo_bad_signature (bs "alice") (bs "KEY"))) ++
  on 2 (demo_attempt (demo_host_request (bs "alice"))) ++
  on 1 (demo_attempt (demo_key_request (bs "alice") (bs "KEY"))) ++
  on 0 (demo_attempt (demo_password_request (bs "alice") (bs "secret"))).

Example C82_example : ok_ops_of demo_ops /\
  let i := mi_run (demo_config true) demo_ids demo_peers demo_ops in
  map snd (mi_answered i) = [Refused; Refused; Continue; Refused; LoggedIn; LoggedIn; LoggedIn] /\
  map (fun m => value m (mi_notes i))
    [Received; PasswordAccepted; PublickeyAccepted; HostbasedAccepted; PasswordFailed; PublickeyFailed; HostbasedFailed; UnknownFailed] =
    [7; 1; 1; 1; 1; 1; 0; 0]%nat.
Proof. split; [apply ok_demo; vm_compute; reflexivity|]. vm_compute. auto. Qed.

(** Forms exist for the requests of every run. *)
Example C82_forms : forall cfg sid peers ops, ok_ops_of ops ->
  exists l forms, answers (mi_run cfg sid peers ops) l /\ arrivals (mi_run cfg sid peers ops) forms.
Proof.
  intros cfg sid peers ops F. destruct (co_answered _ _ (counted_run cfg sid peers ops F)) as (forms & S & _).
  destruct (co_arrived _ _ (counted_run cfg sid peers ops F)) as (fa & A & _). eexists. exists fa. split; [exact (answers_exist _ _ S)|exact A].
Qed.

(** A world which meets the last condition of [C82_accepted_partial] *)
Definition careful_world : world := {|
  w_translate := fun user password => Some (if bytes_eqb password (bs "secret") || is_nil password then demo_response else demo_refused);
  w_getpwnam := fun _ => None; w_open := fun _ => NotOpened; w_delegate := fun _ => None |}.
Definition careful_ops : list (N * vop) :=
  on 0 (demo_start ++ [OPacket MSG_USERAUTH_REQUEST (demo_password_request (bs "alice") (bs "secret")) demo_env; OAuth careful_world]).
Example C82_careful : passwords_needed careful_ops /\
  map snd (mi_answered (mi_run (demo_config true) demo_ids demo_peers careful_ops)) = [LoggedIn].
Proof.
  split; [|vm_compute; reflexivity]. intros c w I user password r E.
  assert (w = careful_world).
  { clear E. unfold careful_ops, on, demo_start in I. cbn [map app In] in I.
    destruct I as [I|[I|[I|[I|[]]]]]; apply (f_equal snd) in I; cbn [snd] in I; try discriminate I. now injection I as <-. }
  subst w. cbn in E. destruct (bytes_eqb password (bs "secret") || is_nil password); injection E as <-; reflexivity.
Qed.

(** Neither is a request for another service. *)
Example C82_other_service :
  let i := mi_run (demo_config true) demo_ids demo_peers (on 0 (demo_start ++ demo_attempt other_service_request)) in
  map snd (mi_answered i) = [Refused] /\ failed_total (mi_notes i) = 0%nat /\ value Received (mi_notes i) = 1%nat.
Proof. vm_compute. auto. Qed.
