(** * C51: client-side authentication state machine

    [crun ops] is an outgoing connection after [ops] (events of the transport
    and packets of the server), [cl_log] what it has done. *)

From Coq Require Import NArith List Bool Lia String.
From Verif.Base Require Import Bytes.
From Verif.Spec Require Import WireSpec ClientSpec.
From Verif.Model Require Import Wire Packets AuthClient.
From Verif.Proofs Require Import WireFacts AuthClientFacts.
Import ListNotations.
Open Scope N_scope.

(** The connection is authenticated only after encryption was switched on, the
    service request was accepted and the server reported success, in this
    order; our two requests were sent before. *)
Theorem C51_authenticated :
  forall ops, Forall cop_ok ops -> cl_authenticated (crun ops) = true ->
  happened [encrypted; service_accepted; success] ops /\
  exists fin, milestones (cl_log (crun ops)) = [CSendServiceRequest; CSendRequest; CAuthenticated] ++ fin.
Proof.
  intros ops F A. destruct (crun_phase ops F) as (n & N & P). apply (ph_authenticated _ _ _ P) in A. subst n.
  split; [exact (ph_ops _ _ _ P)|]. destruct (ph_milestones _ _ _ P) as (fin & M & _). exists fin. exact M.
Qed.
Print Assumptions C51_authenticated.

(** Whatever the server sends: the steps are taken in order, each at most
    once; a connection which lives has done nothing else; one which has ended
    did so by an error, or because the server has refused our request. *)
Theorem C51_steps :
  forall ops, Forall cop_ok ops -> exists n fin,
  milestones (cl_log (crun ops)) = firstn n [CSendServiceRequest; CSendRequest; CAuthenticated] ++ fin /\
  (cl_alive (crun ops) = true -> fin = []) /\
  (fin = [] \/ fin = [CDisconnect] \/ fin = [CError] /\ n = 1%nat \/ fin = [CFailure] /\ n = 2%nat) /\
  (cl_authenticated (crun ops) = true <-> n = 3%nat) /\ (n <= 3)%nat.
Proof.
  intros ops F. destruct (crun_phase ops F) as (n & N & P). destruct (ph_milestones _ _ _ P) as (fin & M & AL & X).
  exists n, fin. split; [exact M|]. split; [exact AL|]. split; [exact X|]. split; [exact (ph_authenticated _ _ _ P)|exact N].
Qed.
Print Assumptions C51_steps.

(** No packet is forwarded to the real client before that. *)
Theorem C51_nothing_forwarded :
  forall ops before msg after, Forall cop_ok ops ->
  cl_log (crun ops) = before ++ CRelay msg :: after -> In CAuthenticated before.
Proof.
  intros ops before msg after F L. destruct (crun_phase ops F) as (n & N & P).
  destruct (ph_relay _ _ _ P) as [[(a & b & L' & Q) _]|Q].
  - rewrite L' in L. clear L' P. assert (X : exists c, before = a ++ CAuthenticated :: c).
    { revert before L. induction a as [|e a IH]; intros before L.
      - destruct before as [|e before]; cbn in L; [discriminate|]. injection L as <- L. exists before. reflexivity.
      - destruct before as [|e' before]; cbn in L.
        + injection L as -> L. exfalso. apply (Q msg). now left.
        + injection L as <- L. destruct (IH (fun m I => Q m (or_intror I)) before L) as (c & ->). exists c. reflexivity. }
    destruct X as (c & ->). apply in_or_app. right. now left.
  - exfalso. apply (Q msg). rewrite L. apply in_or_app. right. now left.
Qed.
Print Assumptions C51_nothing_forwarded.

(** After the start of authentication, until it has succeeded: a message of
    the connection protocol ends the connection. *)
Theorem C51_early_message :
  forall ops sendable msg payload, Forall cop_ok ops ->
  let c := crun ops in let c' := cstep (COPacket sendable msg payload) c in
  cl_alive c = true -> In CSendServiceRequest (cl_log c) -> cl_authenticated c = false ->
  connection_message msg ->
  cl_alive c' = false /\ cl_log c' = cl_log c ++ [CDisconnect] /\ cl_authenticated c' = false.
Proof.
  intros ops sendable msg payload F c c' AL I A CM. destruct (crun_phase ops F) as (n & N & P). fold c in P.
  assert (X : n = 1%nat \/ n = 2%nat).
  { destruct n as [|[|[|[|n]]]]; auto; [|rewrite (proj2 (ph_authenticated _ _ _ P) eq_refl) in A; discriminate|lia].
    exfalso. destruct (ph_milestones _ _ _ P) as (fin & M & E & _). rewrite (E AL) in M. cbn in M.
    assert (Y : In CSendServiceRequest (milestones (cl_log c))) by (apply filter_In; auto). rewrite M in Y. destruct Y. }
  pose proof (ph_user_auth _ _ _ P AL) as U.
  assert (X' : c' = cl_disconnect c).
  { subst c'. unfold cstep. rewrite AL. cbn [negb]. unfold ClientPacket.
    assert (msg <> MSG_SERVICE_ACCEPT /\ msg <> MSG_USERAUTH_FAILURE /\ msg <> MSG_USERAUTH_SUCCESS) as (N1 & N2 & N3)
      by (unfold connection_message in CM; unfold MSG_SERVICE_ACCEPT, MSG_USERAUTH_FAILURE, MSG_USERAUTH_SUCCESS; repeat split; lia).
    apply N.eqb_neq in N1, N2, N3. rewrite N1, N2, N3, (proj2 (IsConnectionMessage_spec msg) CM).
    destruct X as [-> | ->]; cbn in U; rewrite U; reflexivity. }
  rewrite X'. cbn. auto.
Qed.
Print Assumptions C51_early_message.

(** So does an unexpected reply: a second SERVICE_ACCEPT or one for another
    service, success or failure before we have sent a request. *)
Theorem C51_unexpected_reply :
  forall ops sendable msg payload, Forall cop_ok ops ->
  let c := crun ops in let c' := cstep (COPacket sendable msg payload) c in
  cl_alive c = true -> In CSendServiceRequest (cl_log c) -> cl_authenticated c = false ->
  (msg = 6 /\ (In CSendRequest (cl_log c) \/ bytes_ok payload /\ payload <> enc [FString (bs "ssh-userauth")]) \/
   (msg = 51 \/ msg = 52) /\ ~ In CSendRequest (cl_log c)) ->
  cl_alive c' = false /\ cl_log c' = cl_log c ++ [CDisconnect] /\ cl_authenticated c' = false.
Proof.
  intros ops sendable msg payload F c c' AL I A CM. destruct (crun_phase ops F) as (n & N & P). fold c in P.
  assert (X : n = 1%nat /\ ~ In CSendRequest (cl_log c) \/ n = 2%nat /\ In CSendRequest (cl_log c)).
  { destruct (ph_milestones _ _ _ P) as (fin & M & E & _). rewrite (E AL), app_nil_r in M.
    assert (Y : forall e, milestone e = true -> (In e (firstn n steps) <-> In e (cl_log c))).
    { intros e ME. rewrite <- M. unfold milestones. rewrite filter_In. intuition. }
    destruct n as [|[|[|[|n]]]]; [| | |rewrite (proj2 (ph_authenticated _ _ _ P) eq_refl) in A; discriminate|lia].
    - apply Y in I; [destruct I|reflexivity].
    - left. split; [reflexivity|]. intro J. apply Y in J; [|reflexivity]. destruct J as [J|[]]. discriminate.
    - right. split; [reflexivity|]. apply Y; [reflexivity|]. cbn. auto. }
  pose proof (ph_user_auth _ _ _ P AL) as U.
  assert (X' : c' = cl_disconnect c).
  { subst c'. unfold cstep. rewrite AL. cbn [negb]. unfold ClientPacket.
    destruct X as [[-> NR]|[-> R]]; cbn in U; rewrite U.
    - destruct CM as [[-> [R|[OK NP]]]|[[-> | ->] _]]; [contradiction| |reflexivity..].
      change (6 =? MSG_SERVICE_ACCEPT) with true. cbn iota. unfold HandleServiceAccept.
      destruct (ParseServiceAccept payload) as [name|] eqn:PA; [|reflexivity]. rewrite U.
      destruct (bytes_eqb name (bs "ssh-userauth")) eqn:B; [|reflexivity]. apply bytes_eqb_eq in B. subst name.
      apply ParseServiceAccept_inv in PA; [contradiction|assumption].
    - destruct CM as [[-> _]|[_ NR]]; [|contradiction]. change (6 =? MSG_SERVICE_ACCEPT) with true. cbn iota. unfold HandleServiceAccept.
      destruct (ParseServiceAccept payload) as [name|]; [rewrite U|]; reflexivity. }
  rewrite X'. cbn. auto.
Qed.
Print Assumptions C51_unexpected_reply.

(** All other packets of that time are left to the transport layer. *)
Theorem C51_other_messages :
  forall ops sendable msg payload,
  let c := crun ops in let c' := cstep (COPacket sendable msg payload) c in
  cl_alive c = true -> cl_authenticated c = false -> ~ connection_message msg -> ~ In msg [6; 51; 52] ->
  cl_log c' = cl_log c ++ [CTransport msg] /\ cl_alive c' = true /\ cl_authenticated c' = false /\
  cl_user_auth c' = cl_user_auth c.
Proof.
  intros ops sendable msg payload c c' AL A NC NI.
  assert (X : c' = NotConsumed msg c).
  { subst c'. unfold cstep. rewrite AL. cbn [negb]. unfold ClientPacket. destruct (cl_user_auth c) as [st|]; [|reflexivity].
    assert (N1 : msg <> MSG_SERVICE_ACCEPT) by (intro; apply NI; subst; cbn; auto).
    assert (N2 : msg <> MSG_USERAUTH_FAILURE) by (intro; apply NI; subst; cbn; auto).
    assert (N3 : msg <> MSG_USERAUTH_SUCCESS) by (intro; apply NI; subst; cbn; auto).
    apply N.eqb_neq in N1, N2, N3. rewrite N1, N2, N3.
    destruct (IsConnectionMessage msg) eqn:E; [apply IsConnectionMessage_spec in E; contradiction|reflexivity]. }
  rewrite X. unfold NotConsumed. rewrite A. cbn. auto.
Qed.
Print Assumptions C51_other_messages.

(** Success, a premature SUCCESS and a premature channel message. *)
Definition accept_service : cop := COPacket true 6 (enc [FString (bs "ssh-userauth")]).
Example C51_demo :
  cl_log (crun [COEncrypted; COPacket true 2 []; accept_service; COPacket true 52 []; COPacket true 91 []]) =
    [CSendServiceRequest; CTransport 2; CSendRequest; CAuthenticated; CRelay 91] /\
  cl_authenticated (crun [COEncrypted; accept_service; COPacket true 52 []]) = true /\
  cl_log (crun [COEncrypted; COPacket true 52 []; accept_service]) = [CSendServiceRequest; CDisconnect] /\
  cl_log (crun [COEncrypted; accept_service; COPacket true 90 []; COPacket true 52 []]) =
    [CSendServiceRequest; CSendRequest; CDisconnect] /\
  cl_log (crun [COEncrypted; accept_service; accept_service]) = [CSendServiceRequest; CSendRequest; CDisconnect] /\
  cl_log (crun [COEncrypted; accept_service; COPacket true 51 []]) = [CSendServiceRequest; CSendRequest; CFailure] /\
  cl_log (crun [COPacket true 52 []; COPacket true 90 []]) = [CTransport 52; CTransport 90].
Proof. repeat split; vm_compute; reflexivity. Qed.

Example C51_demo_ok : Forall cop_ok [COEncrypted; accept_service; COPacket true 52 []].
Proof.
  apply Forall_cons; [exact Logic.I|]. apply Forall_cons; [|apply Forall_cons; [apply Forall_nil|apply Forall_nil]].
  apply Forall_forall. intros b H. assert (X : forallb (fun b => b <? 256) (enc [FString (bs "ssh-userauth")]) = true) by (vm_compute; reflexivity).
  rewrite forallb_forall in X. now apply N.ltb_lt, X.
Qed.
