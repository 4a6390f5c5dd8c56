(** Facts about listeners of port forwarding (C71). *)

From Coq Require Import NArith List Bool Lia String.
From Verif.Base Require Import Bytes.
From Verif.Spec Require Import WireSpec PacketSpec KeySpec AuthSpec SessionSpec NetworkSpec.
From Verif.Model Require Import Wire Packets StringList KeyOptions Auth Session Server Network.
From Verif.Proofs Require Import WireFacts PacketFacts KeyFacts AuthFacts ServerFacts SessionFacts RestrictFacts StepFacts NetworkFacts.
Import ListNotations.
Open Scope N_scope.

Local Arguments bs : simpl never.

Definition same_lists (s s' : server) : Prop := sv_binds s' = sv_binds s /\ sv_listeners s' = sv_listeners s /\ sv_alive s' = sv_alive s.

(** What a step does to the lists. *)
Inductive listening (s : server) : vop -> server -> Prop :=
| L_same : forall op s', same_lists s s' -> listening s op s'
| L_dead : forall op s', sv_alive s' = false -> sv_binds s' = [] -> sv_listeners s' = [] -> listening s op s'
| L_bind : forall payload env g x s', sv_channels s = true ->
    ParseGlobalRequest payload = Some g -> gr_request_name g = bs "tcpip-forward" -> parse_bind (gr_data g) = Some x ->
    sv_alive s' = sv_alive s -> sv_binds s' = sv_binds s ++ [x] -> sv_listeners s' = sv_listeners s ->
    listening s (OPacket MSG_GLOBAL_REQUEST payload env) s'
| L_cancel : forall payload env g x s', sv_channels s = true ->
    ParseGlobalRequest payload = Some g -> gr_request_name g = bs "cancel-tcpip-forward" -> parse_bind (gr_data g) = Some x ->
    sv_alive s' = sv_alive s -> sv_binds s' = sv_binds s -> sv_listeners s' = filter (fun y => negb (same_address x y)) (sv_listeners s) ->
    listening s (OPacket MSG_GLOBAL_REQUEST payload env) s'
| L_bound : forall x (ok : bool) s', existsb (same_address x) (sv_binds s) = true ->
    sv_alive s' = sv_alive s -> sv_binds s' = remove_first x (sv_binds s) -> sv_listeners s' = (if ok then sv_listeners s ++ [x] else sv_listeners s) ->
    listening s (OBound x ok) s'.

Lemma same_lists_refl : forall s, same_lists s s. Proof. repeat split. Qed.

Ltac dead := apply L_dead; reflexivity.
Ltac keep := apply L_same; repeat split; reflexivity.

Lemma session_step_lists : forall cfg n op s o, listening s o (session_step cfg n op s).
Proof.
  intros cfg n op s o. unfold session_step. destruct (find_session _ _); [|keep]. destruct (sstep _ _ _ _) as [x l].
  destruct (existsb _ l); [dead|keep].
Qed.

Lemma HandleGlobalRequest_lists : forall payload env g s, sv_channels s = true -> ParseGlobalRequest payload = Some g ->
  listening s (OPacket MSG_GLOBAL_REQUEST payload env) (HandleGlobalRequest (gr_request_name g) (gr_data g) s).
Proof.
  intros payload env g s C P. unfold HandleGlobalRequest. cbv zeta.
  destruct (bytes_eqb (gr_request_name g) (bs "tcpip-forward")) eqn:N1.
  { apply bytes_eqb_eq in N1. destruct (negb _); [keep|]. destruct (parse_bind (gr_data g)) as [[h q]|] eqn:D; [|dead].
    eapply L_bind; eauto; reflexivity. }
  destruct (bytes_eqb (gr_request_name g) (bs "cancel-tcpip-forward")) eqn:N2.
  { apply bytes_eqb_eq in N2. destruct (parse_bind (gr_data g)) as [x|] eqn:D; [|dead]. eapply L_cancel; eauto; reflexivity. }
  destruct (bytes_eqb (gr_request_name g) (bs "no-more-sessions@openssh.com")); [keep|].
  destruct (bytes_eqb (gr_request_name g) AUTHORIZED_KEY_OPTIONS_REQUEST); [|keep]. destruct (negb _); [keep|]. destruct (DeserializeAuthorizedKeyOptions _) as [o|]; [|dead].
  destruct (Restrict _ o); keep.
Qed.

Lemma CreateChannel_lists : forall t d env s o, listening s o (CreateChannel t d env s).
Proof.
  intros t d env s o. unfold CreateChannel.
  repeat (match goal with |- context [if ?b then _ else _] => destruct b
      | |- context [match find_session ?a ?b with _ => _ end] => destruct (find_session a b)
      | |- context [match parse_direct_tcpip ?d with _ => _ end] => destruct (parse_direct_tcpip d) as [[? ?]|]
      | |- context [match ReadString ?d with _ => _ end] => destruct (ReadString d) as [[? ?]|]
      end); (dead || keep).
Qed.

Lemma Packet_lists : forall cfg msg payload env s, listening s (OPacket msg payload env) (Packet cfg msg payload env s).
Proof.
  intros cfg msg payload env s. unfold Packet. cbv zeta.
  match goal with |- listening _ _ (if _ then match _ with _ => _ end else ?t) => assert (CH : listening s (OPacket msg payload env) t) end.
  { destruct (sv_channels s && ac_authenticated (sv_account s)) eqn:C.
    - apply andb_true_iff in C as [C A]. destruct (N.eqb_spec msg MSG_GLOBAL_REQUEST) as [->|_].
      { destruct (ParseGlobalRequest payload) as [g|] eqn:P; [now apply HandleGlobalRequest_lists|dead]. }
      destruct (msg =? MSG_CHANNEL_OPEN). { destruct (ParseChannelOpen payload); [apply CreateChannel_lists|dead]. }
      destruct (msg =? MSG_CHANNEL_REQUEST). { destruct (ParseChannelRequest payload); [apply session_step_lists|dead]. }
      destruct (ShouldProxy msg); [keep|]. destruct (sv_proxy s && _); [keep|]. destruct (msg =? MSG_DISCONNECT); [dead|]. destruct (existsb _ _); keep.
    - destruct (sv_proxy s && _); [keep|]. destruct (msg =? MSG_DISCONNECT); [dead|]. destruct (existsb _ _); keep. }
  destruct (sv_user_auth s); [|exact CH]. unfold UserAuthPacket.
  destruct (busy_now s && negb (IsAllowedWhileOccupied msg)); [dead|].
  destruct (msg =? MSG_SERVICE_REQUEST).
  { destruct (ParseServiceRequest payload) as [name|]; [|dead]. destruct (bytes_eqb name (bs "ssh-userauth")); [keep|dead]. }
  destruct (msg =? MSG_USERAUTH_REQUEST); [|exact CH].
  destruct (ac_authenticated (sv_account s)); [keep|]. destruct (negb (sv_service s)); [dead|keep].
Qed.

Lemma vstep_lists : forall cfg sid op s, listening s op (vstep cfg sid op s).
Proof.
  intros cfg sid op s. unfold vstep. destruct (negb (sv_alive s)); [keep|].
  destruct op as [|msg payload env|w|ok| | |msg payload| | | |x ok|x|n op|n].
  - destruct (sv_user_auth s || _); keep.
  - apply Packet_lists.
  - destruct (sv_busy s); try keep. destruct (OnUserAuthRequest cfg w sid payload (sv_account s)) as [a out].
    destruct out as [m|al bl| |[ad|]]; (dead || keep).
  - destruct (sv_busy s); try keep. destruct ok; [keep|dead].
  - destruct (sv_outgoing s && _); keep.
  - destruct (sv_outgoing s && _); keep.
  - destruct (sv_proxy s && _); keep.
  - destruct (sv_outgoing s); [dead|keep].
  - destruct (sv_timeout s); [dead|keep].
  - dead.
  - destruct (existsb (same_address x) (sv_binds s)) eqn:E; [|keep]. destruct ok; (apply L_bound; [exact E| | |]; reflexivity).
  - destruct (existsb _ _); keep.
  - destruct op; try keep; apply session_step_lists.
  - keep.
Qed.

(** ** Packets *)

Lemma parsed_bind : forall payload g x, bytes_ok payload -> ParseGlobalRequest payload = Some g -> parse_bind (gr_data g) = Some x ->
  exists want, payload = enc [FString (gr_request_name g); FByte want; FString (fst x); FU32 (snd x)].
Proof.
  intros payload g [h q] B P D. destruct g as [name want data]. cbn [gr_request_name gr_data fst snd] in *.
  apply ParseGlobalRequest_exact in P as (w & _ & F & ->); [|exact B].
  destruct (bind_layout _ _ _ (raw_ok [FString name; FByte w] data B) D) as (_ & ->). exists w.
  exact (enc_raw [FString name; FByte w] [FString h; FU32 q]).
Qed.

Lemma same_address_eq : forall x y, same_address x y = true <-> x = y.
Proof.
  intros [a p] [b q]. unfold same_address. cbn [fst snd]. rewrite andb_true_iff, N.eqb_eq. split.
  - intros [A ->]. apply bytes_eqb_eq in A. now subst.
  - intro E. injection E as -> ->. split; [apply bytes_eqb_refl|reflexivity].
Qed.

(** A cancel request for an address which is parsed back. *)
Lemma parse_cancel : forall name want h q, len name < pow32 -> len h < pow32 -> q < pow32 ->
  ParseGlobalRequest (enc [FString name; FByte want; FString h; FU32 q]) =
    Some {| gr_request_name := name; gr_want_reply := negb (want =? 0); gr_data := enc [FString h; FU32 q] |} /\
  parse_bind (enc [FString h; FU32 q]) = Some (h, q).
Proof.
  intros name want h q L1 L2 L3. split.
  - change (enc [FString name; FByte want; FString h; FU32 q]) with (enc ([FString name; FByte want] ++ [FString h; FU32 q])).
    rewrite enc_app2. generalize (enc [FString h; FU32 q]) as data. intro data. unfold ParseGlobalRequest, enc.
    cbn [map List.concat enc_field]. rewrite app_nil_r, <- !app_assoc. rewrite ReadString_enc by exact L1. reflexivity.
  - unfold parse_bind, enc. cbn [map List.concat enc_field]. rewrite app_nil_r.
    rewrite ReadString_enc by exact L2. cbn [obind]. rewrite ReadU32_be32_end by exact L3. reflexivity.
Qed.

(** A request which the server understands is executed, or it dies. *)
Lemma global_executed : forall cfg sid payload env g s, sv_alive s = true -> sv_channels s = true -> ac_authenticated (sv_account s) = true ->
  ParseGlobalRequest payload = Some g ->
  vstep cfg sid (OPacket 80 payload env) s = HandleGlobalRequest (gr_request_name g) (gr_data g) s \/
  sv_alive (vstep cfg sid (OPacket 80 payload env) s) = false.
Proof.
  intros cfg sid payload env g s AL CH AU P. unfold vstep. rewrite AL. cbn [negb]. unfold Packet. cbv zeta.
  rewrite CH, AU. cbn [andb]. change (80 =? MSG_GLOBAL_REQUEST) with true. cbv iota. rewrite P.
  destruct (sv_user_auth s); [|left; reflexivity]. unfold UserAuthPacket.
  destruct (busy_now s && _); [right; reflexivity|]. change (80 =? MSG_SERVICE_REQUEST) with false. change (80 =? MSG_USERAUTH_REQUEST) with false.
  left. cbv iota beta. now rewrite CH, AU.
Qed.

(** ** Histories *)

Record listeners_ok (ops : list vop) (s : server) : Prop := {
  lk_dead : sv_alive s = false -> sv_binds s = [] /\ sv_listeners s = [];
  lk_channels : sv_alive s = true -> sv_binds s <> [] \/ sv_listeners s <> [] -> sv_channels s = true;
  lk_binds : forall x, In x (sv_binds s) -> (len (fst x) < pow32 /\ snd x < pow32) /\ exists op, In op ops /\ asks_bind op (fst x) (snd x);
  lk_listeners : forall x, In x (sv_listeners s) -> (len (fst x) < pow32 /\ snd x < pow32) /\ bound_since ops x }.

Lemma remove_first_In : forall x y l, In y (remove_first x l) -> In y l.
Proof. intros x y l. induction l as [|z l IH]; [auto|]. cbn [remove_first]. destruct (same_address x z); [now right|]. intros [H|H]; [now left|right; auto]. Qed.

Lemma not_nil : forall A (l : list A), l <> [] -> exists x, In x l.
Proof. intros A [|x l] H; [congruence|]. exists x. now left. Qed.

Lemma bound_more : forall t op x, bound_since t x -> ~ asks_cancel op x -> bound_since (t ++ [op]) x.
Proof.
  intros t op x (pre & post & -> & B & C) N. exists pre, (post ++ [op]). rewrite <- app_assoc. split; [reflexivity|]. split; [exact B|].
  intros o I. apply in_app_or in I as [I|[<-|[]]]; auto.
Qed.

Lemma vrun_listeners : forall cfg sid peer ops, Forall op_ok ops -> listeners_ok ops (vrun cfg sid peer ops).
Proof.
  intros cfg sid peer ops. induction ops as [|op t IH] using rev_ind; intro F.
  { constructor; cbn; [discriminate|intros _ [H|H]; congruence|intros x []|intros x []]. }
  apply Forall_app in F as [F FO]. inversion FO as [|? ? OK _]; subst. destruct (IH F) as [DE CH BI LI]. rewrite vrun_snoc.
  pose proof (vrun_good cfg sid peer t F) as G. set (s := vrun cfg sid peer t) in *.
  assert (BI' : forall x, In x (sv_binds s) -> (len (fst x) < pow32 /\ snd x < pow32) /\ exists o, In o (t ++ [op]) /\ asks_bind o (fst x) (snd x)).
  { intros x I. destruct (BI x I) as (L & o & I' & A). split; [exact L|]. exists o. split; [apply in_or_app; now left|exact A]. }
  assert (GONE : forall x, In x (sv_listeners s) -> asks_cancel op x -> ~ In x (sv_listeners (vstep cfg sid op s))).
  { intros x I (env & want & ->) I'. destruct (LI x I) as ((L1 & L2) & _).
    assert (AL : sv_alive s = true). { destruct (sv_alive s) eqn:AL; [reflexivity|]. destruct (DE eq_refl) as [_ X]. rewrite X in I. destruct I. }
    assert (C : sv_channels s = true) by (apply CH; [exact AL|right; intro X; rewrite X in I; destruct I]).
    assert (AU : ac_authenticated (sv_account s) = true).
    { destruct (ac_authenticated (sv_account s)) eqn:X; [reflexivity|]. destruct (proj2 G AL) as [_ LBE _]. destruct (LBE X) as (_ & _ & (Y & _) & _). congruence. }
    assert (LN : len (bs "cancel-tcpip-forward") < pow32) by (vm_compute; reflexivity).
    destruct (parse_cancel (bs "cancel-tcpip-forward") want (fst x) (snd x) LN L1 L2) as [P1 P2].
    destruct (global_executed cfg sid _ env _ s AL C AU P1) as [E|E].
    - rewrite E in I'. unfold HandleGlobalRequest in I'. cbv zeta in I'. cbn [gr_request_name gr_data] in I'.
      assert (X1 : bytes_eqb (bs "cancel-tcpip-forward") (bs "tcpip-forward") = false) by reflexivity.
      rewrite X1, bytes_eqb_refl, P2 in I'. cbn [sv_listeners emit with_listeners mk_server] in I'. apply filter_In in I' as [_ I'].
      assert (X2 : same_address (fst x, snd x) x = true) by (apply same_address_eq; now destruct x). cbv beta in I'. change (negb (same_address (fst x, snd x) x) = true) in I'. rewrite X2 in I'. discriminate.
    - pose proof (vstep_lists cfg sid (OPacket 80 (enc [FString (bs "cancel-tcpip-forward"); FByte want; FString (fst x); FU32 (snd x)]) env) s) as ST.
      inversion ST as [? ? (A & B & D)|? ? A B D|? ? ? ? ? A B D E' H|? ? ? ? ? A B D E' H|]; subst; try congruence.
      rewrite D in I'. destruct I'. }
  assert (LI' : forall x, In x (sv_listeners s) -> In x (sv_listeners (vstep cfg sid op s)) ->
    (len (fst x) < pow32 /\ snd x < pow32) /\ bound_since (t ++ [op]) x).
  { intros x I I'. destruct (LI x I) as (L & B). split; [exact L|]. apply bound_more; [exact B|]. intro C. exact (GONE x I C I'). }
  assert (CH' : sv_channels s = true -> sv_alive (vstep cfg sid op s) = true -> sv_channels (vstep cfg sid op s) = true).
  { intros C A. exact (channels_stay cfg sid op s G C A). }
  destruct (sv_alive s) eqn:ALS.
  2:{ rewrite vstep_dead in * by exact ALS. constructor; [auto|congruence|exact BI'|]. intros x I. exact (LI' x I I). }
  pose proof (vstep_lists cfg sid op s) as ST. destruct ST as [op s' (B & L & A)|op s' A B L|payload env g x s' C P N D A B L|payload env g x s' C P N D A B L|x ok s' E A B L].
  - constructor.
    + congruence.
    + intros AL H. rewrite B, L in H. apply CH'; [apply CH; congruence|exact AL].
    + rewrite B. exact BI'.
    + intros x I. apply LI'; [now rewrite L in I|exact I].
  - constructor; [auto|congruence|rewrite B; intros x []|rewrite L; intros x []].
  - cbn [op_ok] in OK. destruct (parsed_bind payload g x OK P D) as (want & ->).
    assert (AK : asks_bind (OPacket MSG_GLOBAL_REQUEST (enc [FString (gr_request_name g); FByte want; FString (fst x); FU32 (snd x)]) env) (fst x) (snd x)).
    { exists env, want. rewrite N. reflexivity. }
    assert (LX : len (fst x) < pow32 /\ snd x < pow32).
    { destruct x as [h q]. cbn [fst snd] in *. destruct g as [name w data]. cbn [gr_data gr_request_name] in *.
      assert (BD : bytes_ok data). { apply ParseGlobalRequest_exact in P as (w' & _ & _ & E); [|exact OK]. rewrite E in OK. exact (raw_ok [FString name; FByte w'] data OK). }
      destruct (bind_layout data h q BD D) as (FF & _). inversion FF as [|? ? F1 FF1]; subst. inversion FF1 as [|? ? F2 _]; subst. cbn [field_ok] in *. tauto. }
    constructor.
    + congruence.
    + intros AL _. apply CH'; assumption.
    + rewrite B. intros y I. apply in_app_or in I as [I|[<-|[]]]; [exact (BI' y I)|]. split; [exact LX|]. eexists. split; [apply in_or_app; right; left; reflexivity|exact AK].
    + intros y I. apply LI'; [now rewrite L in I|exact I].
  - constructor.
    + congruence.
    + intros AL _. apply CH'; assumption.
    + rewrite B. exact BI'.
    + intros y I. apply LI'; [|exact I]. rewrite L in I. apply filter_In in I. apply I.
  - constructor.
    + congruence.
    + intros AL _. apply CH'; [|exact AL]. apply CH; [congruence|]. left. intro X. rewrite X in E. discriminate.
    + rewrite B. intros y I. apply remove_first_In in I. exact (BI' y I).
    + intros y I. assert (X : In y (sv_listeners s) \/ (ok = true /\ y = x)).
      { rewrite L in I. destruct ok; [|now left]. apply in_app_or in I as [I|[<-|[]]]; auto. }
      destruct X as [X|[-> ->]]; [apply LI'; assumption|]. apply existsb_exists in E as (z & IZ & EZ). apply same_address_eq in EZ. subst z.
      destruct (BI x IZ) as (LX & o & IO & AO). split; [exact LX|]. exists t, []. split; [reflexivity|]. split; [eauto|intros ? []].
Qed.

(** A listener stays until it is cancelled or the connection ends. *)
Lemma listener_stays : forall cfg sid s x op, op_ok op -> In x (sv_listeners s) -> ~ asks_cancel op x -> sv_alive (vstep cfg sid op s) = true ->
  In x (sv_listeners (vstep cfg sid op s)).
Proof.
  intros cfg sid s x op OK I NC AL. pose proof (vstep_lists cfg sid op s) as ST. revert AL.
  destruct ST as [op s' (B & L & A)|op s' A B L|payload env g y s' C P N D A B L|payload env g y s' C P N D A B L|y ok s' E A B L]; intro AL.
  - now rewrite L.
  - congruence.
  - now rewrite L.
  - rewrite L. apply filter_In. split; [exact I|]. destruct (same_address y x) eqn:E; [|reflexivity]. apply same_address_eq in E. subst y.
    exfalso. apply NC. destruct (parsed_bind payload g x OK P D) as (want & ->). exists env, want. rewrite N. reflexivity.
  - rewrite L. destruct ok; [apply in_or_app; now left|exact I].
Qed.
