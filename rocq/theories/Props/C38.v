(** * C38: key options survive the trip to the target server *)

From Coq Require Import NArith List Bool Lia String.
From Verif.Base Require Import Bytes.
From Verif.Spec Require Import WireSpec PacketSpec KeySpec.
From Verif.Model Require Import Wire Frame Packets KeyOptions.
From Verif.Proofs Require Import WireFacts KeyFacts.
Import ListNotations.
Open Scope N_scope.

Local Arguments bs : simpl never.

(** The target accepts a request if and only if it is a list of names and
    values, all of which are acceptable options (Spec/KeySpec.v); it then
    has exactly the options which the list denotes. *)
Theorem C38_exact :
  forall payload o, bytes_ok payload ->
  (DeserializeAuthorizedKeyOptions payload = Some o <->
   exists l, payload = options_payload l /\ Forall (fun i => len (fst i) < pow32 /\ len (snd i) < pow32) l /\
     Forall acceptable l /\ o = denote l).
Proof.
  intros payload o B. unfold DeserializeAuthorizedKeyOptions. rewrite deserialize_sets by (auto; lia). split.
  - intros (l & E & F & S). apply sets_iff in S as [A ->]. eauto.
  - intros (l & E & F & A & ->). exists l. repeat split; auto. now apply sets_iff.
Qed.
Print Assumptions C38_exact.

(** What the proxy sends is a global request with a payload which the target
    reads back as the same options. *)
Theorem C38_round_trip :
  forall junk o packet, len junk = 5 -> bytes_ok (ko_command o) ->
  MakeOptionsRequest junk o = Some packet ->
  exists payload data,
    packet = junk ++ [MSG_GLOBAL_REQUEST] ++ payload /\
    ParseGlobalRequest payload = Some {| gr_request_name := AUTHORIZED_KEY_OPTIONS_REQUEST; gr_want_reply := false; gr_data := data |} /\
    DeserializeAuthorizedKeyOptions data = Some o.
Proof.
  intros junk o packet J C M. unfold MakeOptionsRequest, MakeGlobalRequest, new_packet, WriteU8 in M.
  change (MSG_GLOBAL_REQUEST mod 256) with MSG_GLOBAL_REQUEST in M.
  rewrite WriteN_Some in M by (rewrite J; vm_compute; discriminate). cbn [obind] in M.
  set (req := AUTHORIZED_KEY_OPTIONS_REQUEST) in *.
  assert (LR : len req = 39) by reflexivity.
  rewrite WriteString_spec in M by (rewrite len_app, J; vm_compute; discriminate).
  rewrite len_app, J, len_string_enc, LR in M. change (len [MSG_GLOBAL_REQUEST]) with 1 in M.
  change (5 + 1 + (4 + 39) <=? BUFFER_SIZE) with true in M. cbn [obind] in M.
  unfold WriteBool, WriteU8 in M. change (0 mod 256) with 0 in M.
  rewrite WriteN_Some in M by (rewrite !len_app, J, len_string_enc, LR; vm_compute; discriminate). cbn [obind] in M.
  rewrite Serialize_spec in M by (rewrite !len_app, J, len_string_enc, LR; vm_compute; discriminate).
  set (data := options_payload (options_list o)) in *.
  destruct (_ <=? BUFFER_SIZE) eqn:L in M; [|discriminate]. injection M as <-.
  exists (string_enc req ++ [0] ++ data), data. split; [now rewrite <- !app_assoc|].
  split.
  - unfold ParseGlobalRequest. rewrite ReadString_enc by (rewrite LR; vm_compute; reflexivity). cbn [obind app ReadBool].
    reflexivity.
  - apply C38_exact.
    + unfold data, options_payload, options_list. clear L data.
      assert (ST : forall s, bytes_ok s -> bytes_ok (string_enc s)) by (intros s B; apply bytes_ok_app; split; [apply be32_ok|exact B]).
      assert (BS : forall s, bytes_ok (bs s)).
      { intro s. unfold bytes_ok, bs. apply Forall_forall. intros x X. apply in_map_iff in X as (a & <- & _).
        apply Ascii.N_ascii_bounded. }
      assert (PL : forall l, Forall (fun i : item => bytes_ok (fst i) /\ bytes_ok (snd i)) l -> bytes_ok (options_payload l)).
      { induction 1 as [|[n v] l [A B] _ IH]; [constructor|]. rewrite options_payload_cons. apply bytes_ok_app.
        split; [now apply ST|]. apply bytes_ok_app. split; [now apply ST|exact IH]. }
      apply PL. rewrite !Forall_app. repeat split; [destruct (is_nil (ko_command o))|destruct (ko_no_port_forwarding o)|
        destruct (ko_no_pty o)|destruct (ko_home_read_only o)]; repeat constructor; cbn [fst snd]; auto; try apply BS.
    + destruct (options_list_ok o) as [A D]. exists (options_list o). split; [reflexivity|]. split; [|split; [exact A|now rewrite D]].
      apply N.leb_le in L. assert (LD : len data <= BUFFER_SIZE) by lia. clear L. unfold BUFFER_SIZE in LD.
      assert (LC : len (ko_command o) < pow32).
      { unfold data, options_list in LD. destruct (ko_command o) as [|x c] eqn:E; [vm_compute; reflexivity|].
        rewrite options_payload_app, len_app in LD. cbn [is_nil] in LD. rewrite options_payload_1, len_app, !len_string_enc in LD.
        unfold pow32. lia. }
      unfold options_list. rewrite !Forall_app. repeat split; [destruct (is_nil (ko_command o))|destruct (ko_no_port_forwarding o)|
        destruct (ko_no_pty o)|destruct (ko_home_read_only o)]; repeat constructor; cbn [fst snd];
        try exact LC; vm_compute; reflexivity.
Qed.
Print Assumptions C38_round_trip.

(** The proxy can send all options, unless the forced command is too long
    for a packet. *)
Theorem C38_sent :
  forall junk o, len junk = 5 -> len (ko_command o) <= 65000 -> exists packet, MakeOptionsRequest junk o = Some packet.
Proof.
  intros junk o J C. unfold MakeOptionsRequest, MakeGlobalRequest, new_packet, WriteU8.
  change (MSG_GLOBAL_REQUEST mod 256) with MSG_GLOBAL_REQUEST.
  rewrite WriteN_Some by (rewrite J; vm_compute; discriminate). cbn [obind].
  set (req := AUTHORIZED_KEY_OPTIONS_REQUEST) in *.
  assert (LR : len req = 39) by reflexivity.
  rewrite WriteString_spec by (rewrite len_app, J; vm_compute; discriminate).
  rewrite len_app, J, len_string_enc, LR. change (len [MSG_GLOBAL_REQUEST]) with 1.
  change (5 + 1 + (4 + 39) <=? BUFFER_SIZE) with true. cbn [obind].
  unfold WriteBool, WriteU8. change (0 mod 256) with 0.
  rewrite WriteN_Some by (rewrite !len_app, J, len_string_enc, LR; vm_compute; discriminate). cbn [obind].
  rewrite Serialize_spec by (rewrite !len_app, J, len_string_enc, LR; vm_compute; discriminate).
  match goal with |- context [?a <=? BUFFER_SIZE] => assert (L : a <= BUFFER_SIZE) end.
  { rewrite !len_app, J, len_string_enc, LR. unfold options_list. rewrite !options_payload_app, !len_app.
    assert (A1 : len (options_payload (if is_nil (ko_command o) then [] else [(bs "command", ko_command o)])) <= 65015).
    { destruct (is_nil (ko_command o)); [vm_compute; discriminate|]. rewrite options_payload_1, len_app, !len_string_enc.
      change (len (bs "command")) with 7. lia. }
    assert (A2 : len (options_payload (if ko_no_port_forwarding o then [(bs "no-port-forwarding", [])] else [])) <= 26)
      by (destruct (ko_no_port_forwarding o); vm_compute; discriminate).
    assert (A3 : len (options_payload (if ko_no_pty o then [(bs "no-pty", [])] else [])) <= 14)
      by (destruct (ko_no_pty o); vm_compute; discriminate).
    assert (A4 : len (options_payload (if ko_home_read_only o then [(bs "home-read-only", [])] else [])) <= 22)
      by (destruct (ko_home_read_only o); vm_compute; discriminate).
    change (len [MSG_GLOBAL_REQUEST]) with 1. change (len [0]) with 1. unfold BUFFER_SIZE.
    apply (N.le_trans _ (5 + 1 + (4 + 39) + 1 + (65015 + (26 + (14 + 22))))); [|vm_compute; discriminate].
    apply N.add_le_mono; [apply N.le_refl|]. apply N.add_le_mono; [exact A1|]. apply N.add_le_mono; [exact A2|].
    apply N.add_le_mono; [exact A3|exact A4]. }
  apply N.leb_le in L. rewrite L. eauto.
Qed.
Print Assumptions C38_sent.

(** One bad option rejects the whole request. *)
Theorem C38_rejected :
  forall l, bytes_ok (options_payload l) ->
  Forall (fun i => len (fst i) < pow32 /\ len (snd i) < pow32) l -> ~ Forall acceptable l ->
  DeserializeAuthorizedKeyOptions (options_payload l) = None.
Proof.
  intros l B F N. destruct (DeserializeAuthorizedKeyOptions (options_payload l)) as [o|] eqn:D; [|reflexivity].
  apply C38_exact in D as (l' & E & F' & A & _); [|exact B]. exfalso. apply N.
  replace l with l'; [exact A|]. clear - E F F'. revert l F E F'.
  induction l' as [|[n' v'] l' IH]; intros [|[n v] l] F E F'; rewrite ?options_payload_cons in E; try discriminate; try reflexivity.
  inversion F as [|? ? [L1 L2] F1]; subst. inversion F' as [|? ? [L1' L2'] F1']; subst. cbn [fst snd] in *.
  pose proof (f_equal ReadString E) as R. rewrite !ReadString_enc in R by assumption.
  assert (R1 : string_enc v ++ options_payload l = string_enc v' ++ options_payload l' /\ n = n') by (split; congruence).
  destruct R1 as [R1 ->]. apply (f_equal ReadString) in R1. rewrite !ReadString_enc in R1 by assumption.
  assert (R2 : options_payload l = options_payload l' /\ v = v') by (split; congruence). destruct R2 as [R2 ->].
  f_equal. apply IH; auto.
Qed.
Print Assumptions C38_rejected.

(** ** Examples *)
Definition demo_options : key_options :=
  {| ko_command := bs "/bin/backup --now"; ko_no_port_forwarding := true; ko_no_pty := false; ko_home_read_only := true |}.

Example C38_demo :
  match MakeOptionsRequest [0; 0; 0; 0; 0] demo_options with
  | Some packet =>
      match ParseGlobalRequest (drop 6 packet) with
      | Some g => DeserializeAuthorizedKeyOptions (gr_data g)
      | None => None
      end
  | None => None
  end = Some demo_options.
Proof. vm_compute. reflexivity. Qed.

Example C38_demo_rejected :
  DeserializeAuthorizedKeyOptions (options_payload [(bs "no-pty", []); (bs "unknown", [])]) = None.
Proof. vm_compute. reflexivity. Qed.
