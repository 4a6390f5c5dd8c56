(** * C71: a forwarded port accepts connections from its request to its cancellation *)

From Coq Require Import NArith List Bool Lia String.
From Verif.Base Require Import Bytes.
From Verif.Spec Require Import WireSpec PacketSpec KeySpec AuthSpec SessionSpec AuthDemo NetworkSpec.
From Verif.Model Require Import Wire Packets StringList KeyOptions Auth Session Server Network.
From Verif.Proofs Require Import WireFacts PacketFacts KeyFacts AuthFacts ServerFacts SessionFacts RestrictFacts StepFacts NetworkFacts ListenerFacts.
Import ListNotations.
Open Scope N_scope.

Local Arguments bs : simpl never.

(** The client gets a connection from a port of the server only if it has asked
    for this listener, and has not cancelled it since it was bound. *)
Theorem C71_only_requested :
  forall cfg session_id peer_address ops op events address port, Forall op_ok ops ->
  let s := vrun cfg session_id peer_address ops in
  sv_log (vstep cfg session_id op s) = sv_log s ++ events -> In (VForwarded address port) events ->
  bound_since ops (address, port).
Proof.
  intros cfg sid peer ops op events address port F s L I.
  destruct (privileged_step cfg sid peer ops op (VForwarded address port) events F L I Logic.I) as (_ & _ & N); [discriminate|].
  cbn [needs] in N. exact (proj2 (lk_listeners _ _ (vrun_listeners cfg sid peer ops F) _ N)).
Qed.
Print Assumptions C71_only_requested.

(** And it gets every one: after the server has said that the port is bound,
    until the client cancels it or the connection ends. *)
Theorem C71_accepts :
  forall cfg session_id peer_address before x after, Forall op_ok (before ++ OBound x true :: after) ->
  let run := vrun cfg session_id peer_address in
  sv_log (run (before ++ [OBound x true])) = sv_log (run before) ++ [VGlobalAnswer true] ->
  (forall op, In op after -> ~ asks_cancel op x) ->
  let s := run (before ++ OBound x true :: after) in
  sv_alive s = true ->
  sv_log (vstep cfg session_id (OAccept x) s) = sv_log s ++ [VForwarded (fst x) (snd x)].
Proof.
  intros cfg sid peer before x after F run L NC s AL.
  assert (B : In x (sv_listeners (run (before ++ [OBound x true])))).
  { unfold run in *. rewrite vrun_snoc in *. unfold vstep in *. destruct (negb (sv_alive (vrun cfg sid peer before))).
    - apply (f_equal (@List.length vevent)) in L. rewrite app_length in L. cbn in L. lia.
    - destruct (existsb (same_address x) (sv_binds (vrun cfg sid peer before))).
      + cbn. apply in_or_app. right. now left.
      + apply (f_equal (@List.length vevent)) in L. rewrite app_length in L. cbn in L. lia. }
  assert (I : In x (sv_listeners s)).
  { unfold s in *. clear s L. change (OBound x true :: after) with ([OBound x true] ++ after) in *. rewrite app_assoc in *. revert F NC AL.
    generalize (before ++ [OBound x true]) as pre, B. clear B before. intros pre B.
    induction after as [|op after IH] using rev_ind; intros F NC AL; [now rewrite app_nil_r in *|].
    rewrite app_assoc in *. apply Forall_app in F as [F FO]. inversion FO as [|? ? OK _]; subst. unfold run in *. rewrite vrun_snoc in *.
    assert (AL0 : sv_alive (vrun cfg sid peer (pre ++ after)) = true).
    { destruct (sv_alive (vrun cfg sid peer (pre ++ after))) eqn:X; [reflexivity|]. rewrite vstep_dead in AL by exact X. congruence. }
    apply listener_stays; [exact OK| |apply NC; apply in_or_app; right; now left|exact AL].
    apply IH; [exact F|intros o I; apply NC; apply in_or_app; now left|exact AL0]. }
  unfold vstep. rewrite AL. cbn [negb].
  assert (E : existsb (same_address x) (sv_listeners s) = true) by (apply existsb_exists; exists x; split; [exact I|now apply same_address_eq]).
  rewrite E. reflexivity.
Qed.
Print Assumptions C71_accepts.

(** A request to cancel is answered with success exactly if there was such a
    listener; then it is gone. *)
Theorem C71_cancel :
  forall cfg session_id peer_address ops want address port env, Forall op_ok ops ->
  let op := OPacket 80 (enc [FString (bs "cancel-tcpip-forward"); FByte want; FString address; FU32 port]) env in
  let s := vrun cfg session_id peer_address ops in
  let s' := vstep cfg session_id op s in
  len address < 2^32 -> port < 2^32 ->
  sv_channels s = true -> sv_alive s' = true ->
  exists ok : bool, sv_log s' = sv_log s ++ [VGlobal (bs "cancel-tcpip-forward") (enc [FString address; FU32 port]); VGlobalAnswer ok] /\
    (ok = true <-> sv_log (vstep cfg session_id (OAccept (address, port)) s) = sv_log s ++ [VForwarded address port]) /\
    vstep cfg session_id (OAccept (address, port)) s' = s'.
Proof.
  intros cfg sid peer ops want address port env F op s s' L1 L2 CH AL'.
  assert (AL : sv_alive s = true). { destruct (sv_alive s) eqn:X; [reflexivity|]. unfold s' in AL'. rewrite vstep_dead in AL' by exact X. congruence. }
  assert (AU : ac_authenticated (sv_account s) = true).
  { destruct (ac_authenticated (sv_account s)) eqn:X; [reflexivity|]. exfalso.
    destruct (proj2 (vrun_good cfg sid peer ops F) AL) as [_ LBE _]. destruct (LBE X) as (_ & _ & (Y & _) & _). fold s in Y. congruence. }
  assert (LN : len (bs "cancel-tcpip-forward") < pow32) by (vm_compute; reflexivity).
  destruct (parse_cancel (bs "cancel-tcpip-forward") want address port LN L1 L2) as [P1 P2].
  destruct (global_executed cfg sid _ env _ s AL CH AU P1) as [E|E]; [|unfold s' in AL'; fold op in E; congruence].
  assert (E' : s' = HandleGlobalRequest (bs "cancel-tcpip-forward") (enc [FString address; FU32 port]) s) by exact E. clear E.
  unfold HandleGlobalRequest in E'. cbv zeta in E'.
  assert (X1 : bytes_eqb (bs "cancel-tcpip-forward") (bs "tcpip-forward") = false) by reflexivity.
  rewrite X1, bytes_eqb_refl, P2 in E'. exists (existsb (same_address (address, port)) (sv_listeners s)).
  split; [rewrite E'; cbn [sv_log emit with_listeners mk_server]; now rewrite <- app_assoc|]. split.
  - unfold vstep. rewrite AL. cbn [negb]. destruct (existsb (same_address (address, port)) (sv_listeners s)); split; intro H; try reflexivity; try discriminate.
    apply (f_equal (@List.length vevent)) in H. rewrite app_length in H. cbn in H. lia.
  - unfold vstep. rewrite AL'. cbn [negb].
    assert (N : existsb (same_address (address, port)) (sv_listeners s') = false).
    { rewrite E'. cbn [sv_listeners emit with_listeners mk_server]. apply not_true_iff_false. intro X. apply existsb_exists in X as (y & I & Y).
      apply filter_In in I as [_ I]. change (negb (same_address (address, port) y) = true) in I. rewrite Y in I. discriminate. }
    now rewrite N.
Qed.
Print Assumptions C71_cancel.

(** A port is bound, used, cancelled, and not used any more. *)
Definition listener_demo : list vop :=
  [demo_global (bs "tcpip-forward") (enc [FString (bs "localhost"); FU32 8080]); OAccept (bs "localhost", 8080);
   OBound (bs "localhost", 8080) true; OAccept (bs "localhost", 8080);
   demo_global (bs "cancel-tcpip-forward") (enc [FString (bs "localhost"); FU32 8080]); OAccept (bs "localhost", 8080)].
Example C71_demo :
  let s := demo_run true (demo_attempt (demo_key_request (bs "alice") (bs "PLAIN")) ++ listener_demo) in
  sv_alive s = true /\
  filter (fun e => match e with VForwarded _ _ | VGlobalAnswer _ | VBind _ _ => true | _ => false end) (sv_log s) =
    [VBind (bs "localhost") 8080; VGlobalAnswer true; VForwarded (bs "localhost") 8080; VGlobalAnswer true].
Proof. vm_compute. split; reflexivity. Qed.
