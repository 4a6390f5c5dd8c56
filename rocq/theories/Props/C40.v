(** * C40: no-port-forwarding is enforced *)

From Coq Require Import NArith List Bool Lia String.
From Verif.Base Require Import Bytes.
From Verif.Spec Require Import WireSpec PacketSpec KeySpec AuthSpec SessionSpec AuthDemo.
From Verif.Model Require Import Wire Packets StringList KeyOptions Auth Session Server.
From Verif.Proofs Require Import WireFacts PacketFacts KeyFacts AuthFacts ServerFacts SessionFacts RestrictFacts StepFacts AuthClientFacts.
Import ListNotations.
Open Scope N_scope.

Local Arguments bs : simpl never.

(** Forwarding: connections to TCP ports and to local sockets, and binding
    listeners. *)
Definition tcp_forwarding (e : vevent) : Prop :=
  match e with VConnectTcp _ _ | VBind _ _ => True | _ => False end.
Definition forwarding (e : vevent) : Prop :=
  match e with VConnectLocal _ => True | _ => tcp_forwarding e end.

(** While the option is in force (the options of the key with which the client
    has logged in, see C33) nothing is forwarded. *)
Definition C40_full_statement : Prop :=
  forall cfg session_id peer_address ops op events e, Forall op_ok ops ->
  let s := vrun cfg session_id peer_address ops in
  sv_log (vstep cfg session_id op s) = sv_log s ++ events -> In e events ->
  ko_no_port_forwarding (ac_options (sv_account s)) = true -> ~ forwarding e.

(** It is false: local sockets can be connected (direct-streamlocal). *)
Definition demo_local : vop :=
  demo_open (bs "direct-streamlocal@openssh.com") (enc [FString (bs "/run/docker.sock"); FString []; FU32 0]) 0.

Theorem C40_refuted : ~ C40_full_statement.
Proof.
  intro H.
  apply (H (demo_config true) demo_session_id (bs "192.0.2.1")
    (demo_start ++ demo_attempt (demo_key_request (bs "alice") (bs "KEY"))) demo_local
    [VConnectLocal (bs "/run/docker.sock")] (VConnectLocal (bs "/run/docker.sock"))).
  - apply ok_ops; vm_compute; reflexivity.
  - vm_compute. reflexivity.
  - left. reflexivity.
  - vm_compute. reflexivity.
  - exact Logic.I.
Qed.
Print Assumptions C40_refuted.

(** What holds: no TCP connection is made and no listener is bound. *)
Theorem C40_tcp_partial :
  forall cfg session_id peer_address ops op events e, Forall op_ok ops ->
  let s := vrun cfg session_id peer_address ops in
  sv_log (vstep cfg session_id op s) = sv_log s ++ events -> In e events ->
  ko_no_port_forwarding (ac_options (sv_account s)) = true -> ~ tcp_forwarding e.
Proof.
  intros cfg sid peer ops op events e F s L I NP T.
  assert (P : privileged e /\ (forall x, e <> VConnectProxy x)) by (destruct e; try contradiction T; split; try exact Logic.I; discriminate).
  destruct (privileged_step cfg sid peer ops op e events F L I (proj1 P) (proj2 P)) as (_ & _ & N). fold s in N.
  destruct e; try contradiction T; destruct N as (_ & _ & N); unfold IsForwardingAllowed in N; rewrite NP in N; discriminate.
Qed.
Print Assumptions C40_tcp_partial.

(** In terms of the login, and during the whole life of the connection: a
    client who has logged in with such a key gets no TCP connection, no
    listener, and no connection from a listener. *)
Lemma no_listeners : forall cfg sid peer ops more, Forall op_ok (ops ++ more) ->
  let a := sv_account (vrun cfg sid peer ops) in
  ac_authenticated a = true -> ko_no_port_forwarding (ac_options a) = true ->
  sv_binds (vrun cfg sid peer ops) = [] -> sv_listeners (vrun cfg sid peer ops) = [] ->
  sv_binds (vrun cfg sid peer (ops ++ more)) = [] /\ sv_listeners (vrun cfg sid peer (ops ++ more)) = [] /\
  ac_authenticated (sv_account (vrun cfg sid peer (ops ++ more))) = true /\
  ko_no_port_forwarding (ac_options (sv_account (vrun cfg sid peer (ops ++ more)))) = true.
Proof.
  intros cfg sid peer ops more F a A NP B LI. induction more as [|op t IH] using rev_ind; [rewrite app_nil_r; auto|].
  rewrite app_assoc in *. apply Forall_app in F as [F _]. destruct (IH F) as (B' & L' & A' & NP'). rewrite vrun_snoc.
  set (s := vrun cfg sid peer (ops ++ t)) in *. pose proof (vrun_good cfg sid peer _ F) as G. fold s in G.
  destruct (options_after cfg sid op s G A') as ((_ & AL & _) & _ & _).
  split; [|split; [|split; [|auto]]].
  3:{ destruct (after_login cfg sid op s G A') as (o & ->). exact A'. }
  all: destruct (is_oauth op) as [[w ->]|NA].
  1,3: destruct (sv_alive s) eqn:AS; [|rewrite vstep_dead by exact AS; assumption];
    (rewrite oauth_idle; [assumption|]); intros p X; destruct (proj2 G AS) as [LB _ _]; rewrite X in LB; destruct LB; congruence.
  - destruct (list_nil_dec (sv_binds (vstep cfg sid op s))) as [X|X]; [exact X|]. exfalso.
    destruct (q_binds _ _ _ _ (vstep_quiet cfg sid op s NA) X) as [Y|(_ & _ & Y)]; [contradiction|].
    unfold IsForwardingAllowed in Y. rewrite NP' in Y. discriminate.
  - destruct (sv_listeners (vstep cfg sid op s)) as [|y l] eqn:E; [reflexivity|]. exfalso.
    destruct (q_listeners _ _ _ _ (vstep_quiet cfg sid op s NA) y) as [Y|Y]; [rewrite E; left; reflexivity|rewrite L' in Y; destruct Y|contradiction].
Qed.

Definition any_tcp (e : vevent) : Prop := match e with VForwarded _ _ => True | _ => tcp_forwarding e end.

Theorem C40_login_partial :
  forall cfg session_id peer_address ops, Forall op_ok ops ->
  let s := vrun cfg session_id peer_address ops in
  ac_authenticated (sv_account s) = true ->
  exists before w payload user c src,
    login_request cfg session_id peer_address ops before w payload user c src /\
    forall blob o, c = CKey blob o \/ c = CHost blob o -> ko_no_port_forwarding o = true ->
    forall e, In e (sv_log s) -> ~ any_tcp e.
Proof.
  intros cfg sid peer ops F s A.
  destruct (login_origin cfg sid peer ops F A) as (before & w & payload & user & c & src & after & LO).
  exists before, w, payload, user, c, src. split; [eapply login_request_of; eauto|]. intros blob o C NP e J T.
  destruct (event_origin _ _ _ _ _ F J) as (t & op & rest & events & O & L & I').
  assert (FT : Forall op_ok t) by (rewrite O in F; apply Forall_app in F; apply F).
  assert (P : privileged e /\ (forall x, e <> VConnectProxy x)) by (destruct e; try contradiction T; split; try exact Logic.I; discriminate).
  destruct (privileged_step cfg sid peer t op e events FT L I' (proj1 P) (proj2 P)) as (_ & A' & N).
  destruct (login_prefix _ _ _ _ _ _ _ _ _ _ _ _ _ _ F LO O A') as (mid & ->).
  pose proof (lo_login _ _ _ _ _ _ _ _ _ _ _ LO) as LG. pose proof (lg_auth _ _ _ _ _ _ _ _ LG) as AU.
  pose proof (lg_options _ _ _ _ _ _ _ _ LG) as GO.
  assert (NP0 : ko_no_port_forwarding (ac_options (sv_account (vrun cfg sid peer (before ++ [OAuth w])))) = true)
    by (destruct C as [-> | ->]; rewrite GO; exact NP).
  assert (E : before ++ OAuth w :: mid = (before ++ [OAuth w]) ++ mid) by (now rewrite <- app_assoc). rewrite E in *.
  assert (FB : Forall op_ok before) by (rewrite <- app_assoc in FT; apply Forall_app in FT; apply FT).
  pose proof (vrun_good cfg sid peer before FB) as G.
  assert (BL : sv_binds (vrun cfg sid peer (before ++ [OAuth w])) = [] /\ sv_listeners (vrun cfg sid peer (before ++ [OAuth w])) = []).
  { pose proof (lo_alive _ _ _ _ _ _ _ _ _ _ _ LO) as AL. pose proof (lo_busy _ _ _ _ _ _ _ _ _ _ _ LO) as B.
    destruct (proj2 G AL) as [_ LBE _]. destruct (LBE (lo_before _ _ _ _ _ _ _ _ _ _ _ LO)) as (_ & _ & (_ & _ & _ & NB & NL & _) & _).
    rewrite vrun_snoc. unfold vstep. rewrite AL, B. cbn [negb].
    destruct (OnUserAuthRequest cfg w sid payload (sv_account (vrun cfg sid peer before))) as [a out].
    destruct out as [m|al bl| |[ad|]]; cbn; auto. }
  destruct BL as [B0 L0].
  destruct (no_listeners cfg sid peer (before ++ [OAuth w]) mid FT AU NP0 B0 L0) as (B1 & L1 & _ & NP1).
  destruct e; try contradiction T; cbn in N.
  1,2: destruct N as (_ & _ & N); unfold IsForwardingAllowed in N; rewrite NP1 in N; discriminate.
  rewrite L1 in N. exact N.
Qed.
Print Assumptions C40_login_partial.

(** With the demo key: TCP is refused; with a plain key it is not. *)
Definition demo_tcp : list vop :=
  [demo_open (bs "direct-tcpip") (enc [FString (bs "host"); FU32 80; FString (bs "me"); FU32 1]) 0;
   demo_global (bs "tcpip-forward") (enc [FString (bs "*"); FU32 8080])].

Example C40_demo :
  let s k := demo_run true (demo_attempt (demo_key_request (bs "alice") (bs k)) ++ demo_tcp) in
  Forall op_ok (demo_start ++ demo_attempt (demo_key_request (bs "alice") (bs "KEY")) ++ demo_tcp) /\
  ac_authenticated (sv_account (s "KEY"%string)) = true /\ ko_no_port_forwarding demo_options = true /\
  existsb (fun e => match e with VConnectTcp _ _ | VBind _ _ => true | _ => false end) (sv_log (s "KEY"%string)) = false /\
  In (VConnectTcp (bs "host") 80) (sv_log (s "PLAIN"%string)) /\ In (VBind (bs "*") 8080) (sv_log (s "PLAIN"%string)).
Proof.
  cbv zeta. split; [apply ok_ops; vm_compute; reflexivity|]. repeat (split; [vm_compute; auto 20|]). vm_compute. auto 20.
Qed.
