(** The invariant of the key exchange machine. *)

From Coq Require Import NArith List Bool Lia String.
From Verif.Base Require Import Bytes.
From Verif.Spec Require Import WireSpec PacketSpec NamesSpec KexSpec.
From Verif.Model Require Import Wire WireSchema Frame Packets StringList Negotiate KexKeys KexMachine.
From Verif.Proofs Require Import WireFacts PacketFacts NamesFacts KexKeysFacts.
Import ListNotations.
Open Scope N_scope.

Local Arguments bs : simpl never.
Local Arguments take : simpl never.

(** ** Histories *)

Lemma xsteps_app : forall role a b ph,
  xsteps role ph (a ++ b) = match xsteps role ph a with Some ph => xsteps role ph b | None => None end.
Proof.
  induction a as [|e a IH]; intros b ph; cbn [app xsteps]; [reflexivity|].
  destruct (xstep role ph e); [apply IH|reflexivity].
Qed.

Lemma history_snoc : forall role l e,
  history role (l ++ [e]) = match history role l with Some ph => xstep role ph e | None => None end.
Proof.
  intros. unfold history. rewrite xsteps_app. destruct (xsteps role (XRun (idle [])) l) as [ph|]; [|reflexivity].
  cbn [xsteps]. now destruct (xstep role ph e).
Qed.

(** events without a condition of their own *)
Definition plain_event (e : kevent) : Prop :=
  match e with ESecret _ | EOutCipher _ | EInCipher _ => False | _ => True end.

Section Inv.

Variable E : kenv.
Variable role : Role.
Hypothesis H32 : forall x, len (e_digest E x) = 32.

Definition good_event (sid : bytes) (ph : phase) (e : kevent) : Prop :=
  match e with
  | ESecret k => exists x h sig, ph = XRun x /\ exchanged role (e_version E) x h sig /\ K h = k /\
      secret_shared E role h /\
      match role with CLIENT => server_verified E h sig | SERVER => server_signed E h sig end
  | EOutCipher c => exists x h sig, ph = XRun x /\ sid <> [] /\
      exchanged role (e_version E) x h sig /\ x_secret x = Some (K h) /\
      negotiated_cipher role OUTGOING x c /\
      derived_cipher (e_digest E) (flow_of role OUTGOING) h sid c
  | EInCipher c => exists x h sig, ph = XRun x /\ sid <> [] /\
      exchanged role (e_version E) x h sig /\ x_secret x = Some (K h) /\
      negotiated_cipher role INCOMING x c /\
      derived_cipher (e_digest E) (flow_of role INCOMING) h sid c
  | _ => True
  end.

Definition good_log (sid : bytes) (log : list kevent) : Prop :=
  forall pre e post, log = pre ++ e :: post ->
  exists ph, history role pre = Some ph /\ good_event sid ph e.

Definition sid_ok (sid : bytes) (log : list kevent) : Prop :=
  (sid = [] /\ forall k, ~ In (ESecret k) log) \/
  (sid <> [] /\ exists pre k post x h sig, log = pre ++ ESecret k :: post /\
     (forall k', ~ In (ESecret k') pre) /\ history role pre = Some (XRun x) /\
     exchanged role (e_version E) x h sig /\ K h = k /\ sid = e_digest E (hash_input h)).

Definition good (s : kstate) : Prop :=
  good_log (k_session_id s) (k_log s) /\ sid_ok (k_session_id s) (k_log s).

Lemma snoc_split : forall A (l pre post : list A) e f, l ++ [e] = pre ++ f :: post ->
  (l = pre /\ e = f /\ post = []) \/ exists post', post = post' ++ [e] /\ l = pre ++ f :: post'.
Proof.
  intros A l pre post e f H. destruct post as [|p post _] using rev_ind.
  - left. apply app_inj_tail in H as [-> ->]. auto.
  - right. exists post. rewrite app_comm_cons, app_assoc in H. apply app_inj_tail in H as [-> ->].
    split; reflexivity.
Qed.

Lemma good_log_snoc : forall sid l e ph, good_log sid l -> history role l = Some ph ->
  good_event sid ph e -> good_log sid (l ++ [e]).
Proof.
  intros sid l e ph G H He pre f post Hl. apply snoc_split in Hl as [(-> & -> & ->)|(post' & -> & ->)].
  - eauto.
  - eapply G. reflexivity.
Qed.

Lemma plain_good : forall sid ph e, plain_event e -> good_event sid ph e.
Proof. intros sid ph [] H; try exact I; destruct H. Qed.

Lemma sid_ok_plain : forall sid l e, sid_ok sid l -> (forall k, e <> ESecret k) -> sid_ok sid (l ++ [e]).
Proof.
  intros sid l e [(-> & H)|(Hs & pre & k & post & x & h & sig & -> & R)] He.
  - left. split; [reflexivity|]. intros k Hin. apply in_app_or in Hin as [Hin|[Hin|[]]]; [now apply H in Hin|].
    now apply He in Hin.
  - right. split; [assumption|]. exists pre, k, (post ++ [e]), x, h, sig. split; [|exact R].
    now rewrite <- app_assoc.
Qed.

(** a later secret does not change the session id *)
Lemma sid_ok_later : forall sid l e, sid <> [] -> sid_ok sid l -> sid_ok sid (l ++ [e]).
Proof.
  intros sid l e Hs [(-> & H)|(_ & pre & k & post & x & h & sig & -> & R)]; [contradiction|].
  right. split; [assumption|]. exists pre, k, (post ++ [e]), x, h, sig. split; [|exact R].
  now rewrite <- app_assoc.
Qed.

Lemma good_log_sid : forall l sid, good_log [] l -> good_log sid l.
Proof.
  intros l sid G pre e post Hl. destruct (G pre e post Hl) as (ph & Hh & Ge). exists ph. split; [assumption|].
  destruct e; try exact Ge.
  - destruct Ge as (? & ? & ? & ? & Hs & _). contradiction.
  - destruct Ge as (? & ? & ? & ? & Hs & _). contradiction.
Qed.

(** ** The relation between the state and the history *)

Definition my_kex_algorithms : bytes :=
  if is_server role then all_server_kex_algorithms else all_client_kex_algorithms.

Definition my_layout (body : bytes) : Prop :=
  exists host, kexinit_layout body my_kex_algorithms host
    all_encryption_algorithms all_encryption_algorithms all_mac_algorithms all_mac_algorithms false.

Definition peer_layout (s : kstate) : Prop :=
  exists kex host fol, kexinit_layout (k_peer_kexinit s) kex host
    (k_enc_ctos s) (k_enc_stoc s) (k_mac_ctos s) (k_mac_stoc s) fol.

Definition kex_rel (x : progress) (s : kstate) : Prop :=
  let f := k_flags s in
  match k_kex s with
  | Some (alg, sec) =>
      kexinit_sent f = true /\ kexinit_received f = true /\ newkeys_sent f = false /\
      x_reply x = None /\
      match role with
      | CLIENT => x_init x = Some (30 :: string_enc (e_public E alg sec))
      | SERVER => x_init x = None /\ exists hk alg, k_host_key s = Some (hk, alg)
      end
  | None => kexinit_received f = newkeys_sent f
  end.

Definition keys_rel (x : progress) (s : kstate) : Prop :=
  exists h sig, exchanged role (e_version E) x h sig /\ x_secret x = Some (K h) /\
    k_session_id s <> [] /\
    k_new_keys s =
      {| nk_incoming := dir_keys (e_digest E) (flow_of role INCOMING) (K h) (e_digest E (hash_input h)) (k_session_id s);
         nk_outgoing := dir_keys (e_digest E) (flow_of role OUTGOING) (K h) (e_digest E (hash_input h)) (k_session_id s) |}.

Record Rel (x : progress) (s : kstate) : Prop := {
  r_ver : x_version x = k_peer_version s;
  r_fresh : k_version_exchanged s = false -> k_flags s = no_flags /\ k_out_encrypted s = false;
  r_tx20 : x_tx20 x = if kexinit_sent (k_flags s) then Some (20 :: k_my_kexinit s) else None;
  r_tx20l : kexinit_sent (k_flags s) = true -> my_layout (k_my_kexinit s);
  r_rx20 : x_rx20 x = if kexinit_received (k_flags s) then Some (20 :: k_peer_kexinit s) else None;
  r_rx20l : kexinit_received (k_flags s) = true -> peer_layout s;
  r_tx21 : x_tx21 x = newkeys_sent (k_flags s);
  r_out : x_out x = newkeys_sent (k_flags s);
  r_rx21 : x_rx21 x = false;
  r_nr : newkeys_received (k_flags s) = false;
  r_sec : is_some (x_secret x) = newkeys_sent (k_flags s);
  r_ns : newkeys_sent (k_flags s) = true ->
         kexinit_sent (k_flags s) = true /\ kexinit_received (k_flags s) = true /\
         is_some (x_init x) = true /\ is_some (x_reply x) = true /\ keys_rel x s;
  r_idle : kexinit_received (k_flags s) = false -> x_init x = None /\ x_reply x = None;
  r_kex : kex_rel x s;
  r_enc : k_in_encrypted s = true -> k_out_encrypted s = true;
  r_half : k_out_encrypted s = true -> k_in_encrypted s = false -> newkeys_sent (k_flags s) = true;
  r_nsout : newkeys_sent (k_flags s) = true -> k_out_encrypted s = true
}.

Definition St (x : progress) (s : kstate) : Prop :=
  history role (k_log s) = Some (XRun x) /\ good s /\ k_status s = Running.

Definition Inv (s : kstate) : Prop := exists x, St x s /\ Rel x s.

(** what is left when an exception was thrown *)
Definition disconnects (e : exn) : Prop :=
  e = XMalformed \/ exists reason msg, e = XDisconnect reason msg.

Definition Thrown (e : exn) (s : kstate) : Prop :=
  (exists ph, history role (k_log s) = Some ph /\ ph <> XEnd /\ (ph = XBad -> disconnects e)) /\
  good s /\ k_status s = Running.

Definition Post (A : Prop) (r : res) : Prop :=
  match r with
  | Ret s => Inv s
  | Throw e s => Thrown e s /\ (e = XAssert -> A)
  end.

Ltac ks := cbn [emit set_version set_my_kexinit set_peer_kexinit set_keys set_kex set_host_key
  set_in_encrypted set_out_encrypted set_flags set_ext_info set_strict set_first set_ignore_next
  set_authenticated set_timer set_status set_lists SendPacket upd_self upd
  k_version_exchanged k_peer_version k_my_kexinit k_peer_kexinit k_enc_ctos k_enc_stoc k_mac_ctos
  k_mac_stoc k_session_id k_new_keys k_kex k_host_key k_in_encrypted k_out_encrypted k_flags
  k_ext_info k_strict k_first_packet_was_kexinit k_ignore_next k_authenticated k_timer k_status k_log
  kexinit_sent kexinit_received newkeys_sent newkeys_received IsIdle IsComplete
  check bind Post negb andb orb is_server
  MSG_KEXINIT MSG_NEWKEYS MSG_ECDH_KEX_INIT MSG_ECDH_KEX_INIT_REPLY
  ki_kex_algorithms ki_server_host_key_algorithms ki_encryption_ctos ki_encryption_stoc
  ki_mac_ctos ki_mac_stoc ki_first_kex_packet_follows
  kr_server_host_key_blob kr_server_ephemeral_public_key kr_signature] in *.

Lemma St_Thrown : forall x s e, St x s -> Thrown e s.
Proof.
  intros x s e (H & G & R). split; [|split; assumption]. exists (XRun x). split; [assumption|].
  split; discriminate.
Qed.

Lemma emit_St : forall x x' s e, St x s -> plain_event e -> xstep role (XRun x) e = Some (XRun x') ->
  St x' (emit e s).
Proof.
  intros x x' s e (H & (G1 & G2) & R) P X. split; [|split; [split|exact R]].
  - cbn [emit upd_self upd k_log]. rewrite history_snoc, H. exact X.
  - eapply good_log_snoc; [exact G1|exact H|now apply plain_good].
  - apply sid_ok_plain; [exact G2|]. intros k ->. exact P.
Qed.

Lemma send_St : forall x x' s p, St x s -> xstep role (XRun x) (ETx p) = Some (XRun x') ->
  St x' (SendPacket p s).
Proof. intros x x' s p H X. exact (emit_St x x' s (ETx p) H I X). Qed.

(** ** The own KEXINIT *)

Lemma write_fields_some : forall fs w w', len w <= BUFFER_SIZE ->
  Forall (fun f => match f with FByte b => b < 256 | FU32 n => n < pow32 | _ => True end) fs ->
  write_fields w fs = Some w' ->
  w' = w ++ enc fs /\ len w' <= BUFFER_SIZE /\ Forall field_ok fs.
Proof.
  induction fs as [|f fs IH]; intros w w' Hw Hf H.
  - cbn in H. injection H as <-. unfold enc. cbn. rewrite app_nil_r. auto.
  - inversion Hf; subst. cbn [write_fields] in H. rewrite write_field_spec in H;
      [|assumption|destruct f; auto].
    destruct (len w + len (enc_field f) <=? BUFFER_SIZE) eqn:El; [|discriminate].
    apply N.leb_le in El. cbn [obind] in H. apply IH in H as (-> & Hl & Hfs);
      [|rewrite len_app; lia|assumption].
    split; [|split; [assumption|constructor; [|assumption]]].
    + unfold enc. cbn [map List.concat]. now rewrite <- app_assoc.
    + destruct f; cbn [field_ok]; auto. cbn [enc_field] in El. unfold string_enc in El.
      rewrite len_app, len_be32 in El. unfold BUFFER_SIZE, pow32 in *. lia.
Qed.

Lemma obind_Some : forall A (m : option A), obind m Some = m.
Proof. now intros A []. Qed.

Lemma SerializeKex_layout : forall cookie body, len cookie = 16 ->
  SerializeKex E role cookie = Some body -> my_layout body.
Proof.
  intros cookie body Hc H.
  assert (W : write_fields new_serializer
    [FRaw cookie; FString my_kex_algorithms; FString (e_host_key_algorithms E);
     FString all_encryption_algorithms; FString all_encryption_algorithms;
     FString all_mac_algorithms; FString all_mac_algorithms;
     FString (bs "none"); FString (bs "none"); FString []; FString []; FBool false; FU32 0] = Some body).
  { rewrite <- H. cbn [write_fields write_field]. unfold SerializeKex, my_kex_algorithms.
    repeat match goal with
    | |- obind (WriteU32 ?w 0) _ = _ => apply (obind_Some _ (WriteU32 w 0))
    | |- obind ?m _ = obind ?m _ => destruct m; cbn [obind]; [|reflexivity]
    end. }
  apply write_fields_some in W as (-> & _ & F).
  - exists (e_host_key_algorithms E), cookie, (bs "none"), (bs "none"), [], [], 0, 0.
    split; [assumption|]. split; [split; [lia|split; [discriminate|intro X; now destruct X]]|].
    split; [|reflexivity]. repeat (apply Forall_cons_iff in F as [? F]; constructor; [assumption|]).
    exact F.
  - unfold new_serializer. rewrite len_nil. unfold BUFFER_SIZE. lia.
  - repeat constructor; unfold pow32; lia.
Qed.

Lemma SendKexInit_cases : forall rnd s, len (rnd_cookie rnd) = 16 ->
  kexinit_sent (k_flags s) = false -> newkeys_sent (k_flags s) = false ->
  newkeys_received (k_flags s) = false ->
  SendKexInit E role rnd s = Throw XError s \/
  exists body, my_layout body /\ SendKexInit E role rnd s =
    Ret (SendPacket (20 :: body)
          (set_flags {| kexinit_sent := true; kexinit_received := kexinit_received (k_flags s);
                        newkeys_sent := false; newkeys_received := false |} (set_my_kexinit body s))).
Proof.
  intros rnd s Hc H1 H2 H3. unfold SendKexInit. rewrite H1, H2, H3. cbn [negb andb check bind].
  destruct (SerializeKex E role (rnd_cookie rnd)) as [body|] eqn:Eb; [|now left].
  right. exists body. split; [eapply SerializeKex_layout; eassumption|reflexivity].
Qed.


Lemma wle : forall w pub body, len w <= BUFFER_SIZE -> WriteLengthEncoded w pub = Some body ->
  body = w ++ string_enc pub /\ len body <= BUFFER_SIZE.
Proof.
  intros w pub body Hw H. assert (W : write_fields w [FString pub] = Some body).
  { cbn [write_fields write_field]. change WriteString with WriteLengthEncoded. now rewrite obind_Some. }
  apply write_fields_some in W as (-> & Hl & _); [|assumption|repeat constructor].
  unfold enc in *. cbn [map List.concat enc_field] in *. rewrite app_nil_r in Hl |- *. auto.
Qed.


Lemma xstep_tx20 : forall x p, x_tx20 x = None ->
  xstep role (XRun x) (ETx (20 :: p)) = Some (XRun (with_tx20 (20 :: p) x)).
Proof. intros x p H. cbn [xstep]. unfold is_none, is_some. now rewrite H. Qed.

Lemma xstep_rx20 : forall x p, x_rx20 x = None ->
  xstep role (XRun x) (ERx (20 :: p)) = Some (XRun (with_rx20 (20 :: p) x)).
Proof. intros x p H. cbn [xstep]. unfold is_none, is_some. now rewrite H. Qed.

Lemma xstep_rx : forall x p, exists ph, xstep role (XRun x) (ERx p) = Some ph /\ ph <> XEnd.
Proof.
  intros x p. cbn [xstep]. unfold expect.
  repeat match goal with
  | |- context [match ?p with [] => _ | _ :: _ => _ end] => destruct p
  | |- context [match ?p with N0 => _ | Npos _ => _ end] => destruct p
  | |- context [match ?p with xH => _ | xI _ => _ | xO _ => _ end] => destruct p
  | |- context [if ?b then _ else _] => destruct b
  end; eexists; (split; [reflexivity|discriminate]).
Qed.

Lemma rx_Thrown : forall x s p e, St x s -> disconnects e -> Thrown e (emit (ERx p) s).
Proof.
  intros x s p e (H & (G1 & G2) & R) Hd. destruct (xstep_rx x p) as (ph & X & Ne).
  split; [|split; [split|exact R]].
  - exists ph. split; [|split; [exact Ne|intros _; exact Hd]]. cbn [emit upd_self upd k_log]. rewrite history_snoc, H. exact X.
  - eapply good_log_snoc; [exact G1|exact H|exact I].
  - apply sid_ok_plain; [exact G2|discriminate].
Qed.

Definition same_core (s s' : kstate) : Prop :=
  k_log s' = k_log s /\ k_session_id s' = k_session_id s /\ k_status s' = k_status s.

Lemma same_St : forall x s s', same_core s s' -> St x s -> St x s'.
Proof.
  intros x s s' (L & I & T) (H & G & R). unfold St, good in *. rewrite L, I, T. auto.
Qed.

Lemma same_Thrown : forall e s s', same_core s s' -> Thrown e s -> Thrown e s'.
Proof.
  intros e s s' (L & I & T) (H & G & R). unfold Thrown, good in *. rewrite L, I, T. auto.
Qed.

Ltac ht :=
  match goal with
  | HT : forall e, disconnects e -> _ |- _ =>
      apply HT; first [left; reflexivity | right; eexists _, _; reflexivity]
  | S : St _ ?s |- Thrown _ ?s => exact (St_Thrown _ _ _ S)
  end.

Ltac same := repeat split; reflexivity.

(** ** KEXINIT from the peer *)

Record Mid (x : progress) (s : kstate) : Prop := {
  m_ver : x_version x = k_peer_version s;
  m_vex : k_version_exchanged s = true;
  m_tx20 : x_tx20 x = if kexinit_sent (k_flags s) then Some (20 :: k_my_kexinit s) else None;
  m_tx20l : kexinit_sent (k_flags s) = true -> my_layout (k_my_kexinit s);
  m_rx20 : x_rx20 x = Some (20 :: k_peer_kexinit s);
  m_rx20l : peer_layout s;
  m_flags : k_flags s = {| kexinit_sent := kexinit_sent (k_flags s); kexinit_received := true;
                           newkeys_sent := false; newkeys_received := false |};
  m_x : x = {| x_version := x_version x; x_tx20 := x_tx20 x; x_rx20 := x_rx20 x;
               x_init := None; x_reply := None; x_secret := None;
               x_tx21 := false; x_out := false; x_rx21 := false |};
  m_kex : k_kex s <> None;
  m_host : is_server role = true -> k_host_key s <> None;
  m_enc : k_in_encrypted s = k_out_encrypted s
}.

(** sending our KEXINIT if it was not sent yet *)
Lemma Mid_send : forall x s rnd, St x s -> Mid x s -> len (rnd_cookie rnd) = 16 ->
  match (if kexinit_sent (k_flags s) then Ret s else SendKexInit E role rnd s) with
  | Throw e s' => e = XError /\ Thrown e s'
  | Ret s' => exists x', St x' s' /\ Mid x' s' /\ kexinit_sent (k_flags s') = true
  end.
Proof.
  intros x s rnd HS HM Hc. destruct (kexinit_sent (k_flags s)) eqn:Es; [eauto|].
  pose proof (m_flags _ _ HM) as Hf. pose proof (m_tx20 _ _ HM) as Ht. rewrite Es in Ht.
  destruct (SendKexInit_cases rnd s) as [->|(body & Hl & ->)]; [assumption|assumption| | | |].
  - now rewrite Hf.
  - now rewrite Hf.
  - split; [reflexivity|]. exact (St_Thrown _ _ _ HS).
  - exists (with_tx20 (20 :: body) x). split; [|split; [|reflexivity]].
    + eapply send_St; [eapply same_St; [|exact HS]; same|]. now apply xstep_tx20.
    + destruct HM. constructor; ks; try assumption; try reflexivity.
      * intro. exact Hl.
      * rewrite Hf. reflexivity.
      * rewrite m_x0. reflexivity.
Qed.

Lemma Mid_server : forall x s, is_server role = true -> St x s -> Mid x s ->
  kexinit_sent (k_flags s) = true -> forall v, Inv (set_ignore_next v s).
Proof.
  intros x s Hr HS HM Hs v. exists x. split; [eapply same_St; [|exact HS]; same|].
  destruct HM as [V VX T TL R RL F X K H N]. rewrite Hs in *. rewrite X in V, T, R |- *.
  cbn [x_version x_tx20 x_rx20] in V, T, R.
  constructor; ks; rewrite ?F; ks;
    cbn [x_version x_tx20 x_rx20 x_init x_reply x_secret x_tx21 x_out x_rx21];
    try assumption; try reflexivity; try discriminate; try congruence; auto.
  red. ks. rewrite F. ks. cbn [x_version x_tx20 x_rx20 x_init x_reply x_secret x_tx21 x_out x_rx21].
  destruct (k_kex s) as [[alg sec]|]; [|congruence].
  repeat split. destruct role; [|discriminate]. split; [reflexivity|].
  destruct (k_host_key s) as [[hk ha]|]; [eauto|]. now destruct H.
Qed.

Lemma Mid_client : forall x s, is_server role = false -> St x s -> Mid x s ->
  kexinit_sent (k_flags s) = true -> Post False (SendECDHKexInit E role s).
Proof.
  intros x s Hr HS HM Hs. destruct HM as [V VX T TL R RL F X K H N].
  unfold SendECDHKexInit. rewrite Hr, F, Hs. ks.
  destruct (k_kex s) as [[alg sec]|] eqn:Ek; [|now destruct K].
  destruct (WriteLengthEncoded new_serializer (e_public E alg sec)) as [body|] eqn:Eb;
    [|split; [exact (St_Thrown _ _ _ HS)|discriminate]].
  apply wle in Eb as [-> _]; [|unfold new_serializer; rewrite len_nil; unfold BUFFER_SIZE; lia].
  unfold new_serializer. cbn [app]. rewrite Hs in T.
  exists (with_init (30 :: string_enc (e_public E alg sec)) x). split.
  - eapply send_St; [exact HS|]. cbn [xstep]. unfold both20. rewrite X, T, R, Hr. reflexivity.
  - rewrite X in V, T, R |- *. cbn [x_version x_tx20 x_rx20] in V, T, R. rewrite Hs in F.
    constructor; ks; rewrite ?F; ks;
    cbn [with_init x_version x_tx20 x_rx20 x_init x_reply x_secret x_tx21 x_out x_rx21];
    try assumption; try reflexivity; try discriminate; try congruence; auto.
    red. ks. rewrite F, Ek. ks.
    cbn [with_init x_version x_tx20 x_rx20 x_init x_reply x_secret x_tx21 x_out x_rx21].
    repeat split. destruct role; [discriminate|reflexivity].
Qed.

Lemma HandleKexInit_ok : forall x s payload rnd, St x s -> Rel x s -> bytes_ok payload ->
  len (rnd_cookie rnd) = 16 -> k_version_exchanged s = true ->
  Post False (HandleKexInit E role payload rnd (emit (ERx (20 :: payload)) s)).
Proof.
  intros x s payload rnd HS HR Hb Hc Hv. unfold HandleKexInit.
  assert (HT : forall e, disconnects e -> Thrown e (emit (ERx (20 :: payload)) s)) by (intros e He; eapply rx_Thrown; [exact HS|exact He]).
  destruct (kexinit_received (k_flags s)) eqn:Er.
  { ks. rewrite Er. ks. split; [|discriminate]. ht. }
  assert (Ens : newkeys_sent (k_flags s) = false).
  { destruct (newkeys_sent (k_flags s)) eqn:En; [|reflexivity].
    destruct (r_ns _ _ HR En) as (_ & X & _). congruence. }
  pose proof (r_nr _ _ HR) as Enr. pose proof (r_rx20 _ _ HR) as Hrx. rewrite Er in Hrx.
  pose proof (emit_St _ _ _ (ERx (20 :: payload)) HS I (xstep_rx20 x payload Hrx)) as S1.
  set (x1 := with_rx20 (20 :: payload) x) in *.
  ks. rewrite Er, Ens, Enr. ks.
  destruct (ParseKexInit payload) as [[kex host ec es mc ms fol]|] eqn:Ep;
    [|split; [ht|discriminate]].
  apply ParseKexInit_exact in Ep; [|assumption]. ks.
  match goal with |- context [MakeKex ?n] => set (neg := n); destruct (MakeKex neg) as [alg|] end;
    [|split; [ht|discriminate]].
  match goal with |- context [if negb (IsEncrypted ?s0) then ?a else ?b] =>
    set (s2 := if negb (IsEncrypted s0) then a else b) end.
  assert (C2 : same_core (emit (ERx (20 :: payload)) s) s2 /\
     k_peer_version s2 = k_peer_version s /\ k_version_exchanged s2 = true /\
     k_my_kexinit s2 = k_my_kexinit s /\ k_peer_kexinit s2 = payload /\
     k_enc_ctos s2 = ec /\ k_enc_stoc s2 = es /\ k_mac_ctos s2 = mc /\ k_mac_stoc s2 = ms /\
     k_kex s2 = Some (alg, rnd_secret rnd) /\
     k_flags s2 = {| kexinit_sent := kexinit_sent (k_flags s); kexinit_received := true;
                     newkeys_sent := false; newkeys_received := false |} /\
     k_in_encrypted s2 = k_in_encrypted s /\ k_out_encrypted s2 = k_out_encrypted s).
  { subst s2. destruct (negb (IsEncrypted _)); ks; rewrite Hv; repeat split. }
  clearbody s2. destruct C2 as (C2 & P).
  destruct (k_strict s2 && negb (k_first_packet_was_kexinit s2)).
  { split; [|discriminate]. exact (same_Thrown _ _ _ C2 (St_Thrown _ _ _ S1)). }
  assert (S2 : St x1 s2) by (eapply same_St; [exact C2|exact S1]).
  set (s3 := if k_strict s2 then emit EOutReset (emit EInReset s2) else s2).
  assert (S3 : St x1 s3).
  { subst s3. destruct (k_strict s2); [|assumption].
    eapply emit_St; [|exact I|reflexivity]. eapply emit_St; [exact S2|exact I|reflexivity]. }
  assert (P3 : k_peer_version s3 = k_peer_version s /\ k_version_exchanged s3 = true /\
     k_my_kexinit s3 = k_my_kexinit s /\ k_peer_kexinit s3 = payload /\
     k_enc_ctos s3 = ec /\ k_enc_stoc s3 = es /\ k_mac_ctos s3 = mc /\ k_mac_stoc s3 = ms /\
     k_kex s3 = Some (alg, rnd_secret rnd) /\
     k_flags s3 = {| kexinit_sent := kexinit_sent (k_flags s); kexinit_received := true;
                     newkeys_sent := false; newkeys_received := false |} /\
     k_in_encrypted s3 = k_in_encrypted s /\ k_out_encrypted s3 = k_out_encrypted s).
  { subst s3. destruct (k_strict s2); ks; exact P. }
  clearbody s3. clear P S2 C2 s2 HT.
  assert (M : forall s4, same_core s3 s4 -> k_peer_version s4 = k_peer_version s3 ->
     k_version_exchanged s4 = k_version_exchanged s3 ->
     k_my_kexinit s4 = k_my_kexinit s3 -> k_peer_kexinit s4 = k_peer_kexinit s3 ->
     k_enc_ctos s4 = k_enc_ctos s3 -> k_enc_stoc s4 = k_enc_stoc s3 ->
     k_mac_ctos s4 = k_mac_ctos s3 -> k_mac_stoc s4 = k_mac_stoc s3 ->
     k_kex s4 = k_kex s3 -> k_flags s4 = k_flags s3 -> k_in_encrypted s4 = k_in_encrypted s3 ->
     k_out_encrypted s4 = k_out_encrypted s3 ->
     (is_server role = true -> k_host_key s4 <> None) -> Mid x1 s4).
  { intros s4 _ E1 E2 E3 E4 E5 E6 E7 E8 E9 E10 E11 E12 HK.
    destruct P3 as (P1 & P2 & P3 & P4 & P5 & P6 & P7 & P8 & P9 & P10 & P11 & P12).
    destruct HR as [V FR T TL R RL TX O RX NR SC NS ID KX EN HF NO]. subst x1.
    assert (Hki : x_init x = None /\ x_reply x = None) by (apply ID; exact Er).
    assert (Hsec : x_secret x = None).
    { rewrite Ens in SC. destruct (x_secret x); [discriminate|reflexivity]. }
    constructor; rewrite ?E1, ?E2, ?E3, ?E4, ?E9, ?E10, ?E11, ?E12, ?P1, ?P2, ?P3, ?P4, ?P9, ?P10, ?P11, ?P12; ks;
      unfold with_rx20; cbn [x_version x_tx20 x_rx20];
      try assumption; try reflexivity; try congruence.
    - exists kex, host, fol. rewrite E4, E5, E6, E7, E8, P4, P5, P6, P7, P8. exact Ep.
    - destruct Hki as [-> ->]. rewrite Hsec, RX, TX, O, Ens. reflexivity.
    - destruct (k_in_encrypted s) eqn:Ei; [symmetry; now apply EN|].
      destruct (k_out_encrypted s) eqn:Eo; [|reflexivity]. specialize (HF eq_refl eq_refl). congruence. }
  destruct (is_server role) eqn:Hrole.
  - destruct (e_choose E host) as [[hk ha]|]; [|split; [eapply same_Thrown; [|exact (St_Thrown _ _ _ S3)]; same|discriminate]].
    assert (S4 : St x1 (set_host_key (Some (hk, ha)) s3)) by (eapply same_St; [|exact S3]; same).
    assert (M4 : Mid x1 (set_host_key (Some (hk, ha)) s3)) by (apply M; try reflexivity; [same|intros _; discriminate]).
    pose proof (Mid_send _ _ rnd S4 M4 Hc) as Q.
    revert Q. match goal with |- match ?m with Ret _ => _ | Throw _ _ => _ end -> Post _ (bind ?m' _) =>
      change m' with m; destruct m as [s5|e s5] end; intro Q.
    + destruct Q as (x5 & S5 & M5 & F5). cbn [bind Post]. eapply Mid_server; eassumption.
    + destruct Q as [-> Q]. cbn [bind Post]. split; [exact Q|discriminate].
  - assert (M4 : Mid x1 s3) by (apply M; try reflexivity; [same|discriminate]).
    pose proof (Mid_send _ _ rnd S3 M4 Hc) as Q.
    revert Q. match goal with |- match ?m with Ret _ => _ | Throw _ _ => _ end -> Post _ (bind ?m' _) =>
      change m' with m; destruct m as [s5|e s5] end; intro Q.
    + destruct Q as (x5 & S5 & M5 & F5). cbn [bind]. eapply Mid_client; eassumption.
    + destruct Q as [-> Q]. cbn [bind Post]. split; [exact Q|discriminate].
Qed.


(** ** Ciphers *)

Lemma negotiated_list : forall d mine ec es r,
  FindNegotiatedAlgorithm role d mine ec es = r -> r <> [] ->
  on_list role mine (per_flow (flow_of role d) ec es) r /\ split 44 r = [r].
Proof.
  intros d mine ec es r H Hr. unfold FindNegotiatedAlgorithm in H.
  assert (G : GetPeerAlgorithms role d ec es = per_flow (flow_of role d) ec es)
    by (destruct role, d; reflexivity).
  rewrite G in H. set (peers := per_flow (flow_of role d) ec es) in *.
  assert (Hs : forall c s, first_common (split 44 c) s r -> split 44 r = [r]).
  { intros c s (a & b & Hc & _). apply split_single. pose proof (split_no_comma c) as F.
    change COMMA with 44 in F. rewrite Hc in F. apply Forall_app in F as [_ F]. now inversion F. }
  unfold on_list. destruct role; cbn [is_server] in H; apply FindCommon_nonempty in H; try assumption;
    (split; [exists (split 44 mine), (split 44 peers); split; [apply name_list_split|];
             split; [apply name_list_split|exact H]|eapply Hs; exact H]).
Qed.

Lemma MakeCipher_ok : forall d f k h sid ec es mc ms,
  let keys := {| nk_incoming := dir_keys (e_digest E) (flow_of role INCOMING) k h sid;
                 nk_outgoing := dir_keys (e_digest E) (flow_of role OUTGOING) k h sid |} in
  f = flow_of role d ->
  let r := KexState_MakeCipher keys
    (FindNegotiatedAlgorithm role d all_encryption_algorithms ec es)
    (FindNegotiatedAlgorithm role d all_mac_algorithms mc ms) d in
  r = Some None \/ exists c, r = Some (Some c) /\
    c_encrypt c = match d with OUTGOING => true | INCOMING => false end /\
    on_list role all_encryption_algorithms (per_flow f ec es) (c_alg c) /\
    ((aead (c_alg c) /\ c_mac c = None /\ c_auth_size c = 16) \/
     (~ aead (c_alg c) /\ c_auth_size c = 32 /\ exists mac, c_mac c = Some mac /\
       on_list role all_mac_algorithms (per_flow f mc ms) mac)) /\
    In (c_alg c, (len (c_key c), len (c_iv c))) cipher_sizes /\
    (c_mac c <> None -> len (c_mac_key c) = 32) /\
    (c_mac c = None -> c_mac_key c = []) /\
    (let '(iv, key, mac) := letters f in
     derived_key (e_digest E) k h sid iv (c_iv c) /\
     derived_key (e_digest E) k h sid key (c_key c) /\
     derived_key (e_digest E) k h sid mac (c_mac_key c)).
Proof.
  intros d f k h sid ec es mc ms keys -> r. subst r. unfold KexState_MakeCipher.
  set (nk := match d with INCOMING => nk_incoming keys | OUTGOING => nk_outgoing keys end).
  assert (Hnk : nk = dir_keys (e_digest E) (flow_of role d) k h sid) by (destruct d; reflexivity).
  clearbody nk. subst nk keys. unfold dir_keys.
  destruct (letters (flow_of role d)) as [[liv lkey] lmac]. cbn [enc_iv enc_key mac_key].
  set (enc := FindNegotiatedAlgorithm role d all_encryption_algorithms ec es).
  set (mac := FindNegotiatedAlgorithm role d all_mac_algorithms mc ms).
  set (en := match d with OUTGOING => true | INCOMING => false end).
  unfold MakeCipher.
  destruct (MakeEnc_cases (split 44 enc) (key2 (e_digest E) k h sid lkey)
              (key2 (e_digest E) k h sid liv) en _ (len_key2 _ H32 _ _ _ _) (len_key2 _ H32 _ _ _ _) eq_refl)
    as [->|(c & -> & Hin & Hen & Hm & Hmk & Hsz & (n1 & Hk) & (n2 & Hi) & Ha)]; [now left|].
  assert (Hne : enc <> []).
  { intro H0. rewrite H0 in Hin. cbn in Hin. destruct Hin as [Hin|[]]. rewrite <- Hin in Hsz.
    vm_compute in Hsz. repeat (destruct Hsz as [Hsz|Hsz]; [discriminate|]). exact Hsz. }
  destruct (negotiated_list d all_encryption_algorithms ec es enc eq_refl Hne) as [Hl Hs].
  rewrite Hs in Hin. destruct Hin as [Hin|[]].
  assert (Hd : derived_key (e_digest E) k h sid liv (c_iv c) /\ derived_key (e_digest E) k h sid lkey (c_key c)).
  { rewrite Hk, Hi. split; apply derived_take. }
  destruct (c_auth_size c =? 0) eqn:Ez.
  - destruct (MakeMac_cases (split 44 mac) c (key2 (e_digest E) k h sid lmac) _ (len_key2 _ H32 _ _ _ _) eq_refl)
      as [(-> & _)|(Hmac & ->)]; [now left|]. right. eexists. split; [reflexivity|].
    cbn [c_alg c_mac c_mac_key c_key c_iv c_auth_size c_encrypt]. apply N.eqb_eq in Ez.
    split; [exact Hen|].
    destruct Ha as [[_ Ha]|[_ Ha]]; [|rewrite Ha in Ez; discriminate].
    assert (Hne2 : mac <> []).
    { intro H0. rewrite H0 in Hmac. vm_compute in Hmac. destruct Hmac as [Hmac|[]]. discriminate. }
    destruct (negotiated_list d all_mac_algorithms mc ms mac eq_refl Hne2) as [Hl2 Hs2].
    rewrite Hs2 in Hmac. destruct Hmac as [Hmac|[]].
    split; [now rewrite <- Hin|]. split; [right; split; [exact Ha|]; split; [rewrite Ez; reflexivity|]; exists (bs "hmac-sha2-256"); split; [reflexivity|now rewrite <- Hmac]|].
    split; [assumption|]. split; [intros _; apply len_take; rewrite len_key2 by assumption; lia|].
    split; [discriminate|]. split; [apply Hd|]. split; [apply Hd|apply derived_take].
  - right. exists c. split; [reflexivity|]. apply N.eqb_neq in Ez. destruct Ha as [[Ha _]|[Ha Ha2]]; [contradiction|].
    split; [exact Hen|]. split; [now rewrite <- Hin|]. split; [left; auto|]. split; [assumption|].
    split; [rewrite Hm; congruence|]. split; [intros _; exact Hmk|]. split; [apply Hd|]. split; [apply Hd|]. rewrite Hmk. apply derived_nil.
Qed.

(** ** NEWKEYS *)

Record Ready (x : progress) (s : kstate) : Prop := {
  y_ver : x_version x = k_peer_version s;
  y_vex : k_version_exchanged s = true;
  y_tx20 : x_tx20 x = Some (20 :: k_my_kexinit s);
  y_tx20l : my_layout (k_my_kexinit s);
  y_rx20 : x_rx20 x = Some (20 :: k_peer_kexinit s);
  y_rx20l : peer_layout s;
  y_flags : k_flags s = {| kexinit_sent := true; kexinit_received := true;
                           newkeys_sent := false; newkeys_received := false |};
  y_init : is_some (x_init x) = true;
  y_reply : is_some (x_reply x) = true;
  y_keys : keys_rel x s;
  y_x : x_tx21 x = false /\ x_out x = false /\ x_rx21 x = false;
  y_kex : k_kex s = None;
  y_enc : k_in_encrypted s = k_out_encrypted s
}.

Lemma emit_good : forall x x' s e, St x s -> good_event (k_session_id s) (XRun x) e ->
  (forall k, e <> ESecret k) -> xstep role (XRun x) e = Some (XRun x') ->
  St x' (emit e s).
Proof.
  intros x x' s e (H & (G1 & G2) & R) P Hs X. split; [|split; [split|exact R]].
  - cbn [emit upd_self upd k_log]. rewrite history_snoc, H. exact X.
  - eapply good_log_snoc; [exact G1|exact H|exact P].
  - apply sid_ok_plain; [exact G2|exact Hs].
Qed.

Lemma peer_lists : forall s s', peer_layout s -> k_peer_kexinit s' = k_peer_kexinit s ->
  k_enc_ctos s' = k_enc_ctos s -> k_enc_stoc s' = k_enc_stoc s ->
  k_mac_ctos s' = k_mac_ctos s -> k_mac_stoc s' = k_mac_stoc s -> peer_layout s'.
Proof. intros s s' P E1 E2 E3 E4 E5. unfold peer_layout in *. now rewrite E1, E2, E3, E4, E5. Qed.

Lemma cipher_event : forall x s d c, my_layout (k_my_kexinit s) -> peer_layout s ->
  x_tx20 x = Some (20 :: k_my_kexinit s) -> x_rx20 x = Some (20 :: k_peer_kexinit s) ->
  keys_rel x s ->
  KexState_MakeCipher (k_new_keys s)
    (FindNegotiatedAlgorithm role d all_encryption_algorithms (k_enc_ctos s) (k_enc_stoc s))
    (FindNegotiatedAlgorithm role d all_mac_algorithms (k_mac_ctos s) (k_mac_stoc s)) d = Some (Some c) ->
  exists h sig, k_session_id s <> [] /\ exchanged role (e_version E) x h sig /\ x_secret x = Some (K h) /\
    negotiated_cipher role d x c /\
    derived_cipher (e_digest E) (flow_of role d) h (k_session_id s) c.
Proof.
  intros x s d c ML PL T R (h & sig & HX & HSec & Hsid & HK) H.
  exists h, sig. split; [assumption|]. split; [assumption|]. split; [assumption|]. rewrite HK in H.
  destruct (MakeCipher_ok d (flow_of role d) (K h) (e_digest E (hash_input h)) (k_session_id s)
    (k_enc_ctos s) (k_enc_stoc s) (k_mac_ctos s) (k_mac_stoc s) eq_refl) as [H0|(c' & H0 & HE & L1 & L2 & SZ & ML32 & D)];
    cbv zeta in H0; rewrite H in H0; [discriminate|]. apply Some_inj in H0. apply Some_inj in H0. subst c'.
  split.
  - split; [exact HE|]. destruct ML as (host1 & ML). destruct PL as (kex2 & host2 & fol2 & PL).
    exists (k_my_kexinit s), (k_peer_kexinit s). do 7 eexists. do 7 eexists.
    split; [exact T|]. split; [exact ML|]. split; [exact R|]. split; [exact PL|].
    assert (P : forall f a, per_flow f a a = a) by now intros [] a. rewrite !P. split; assumption.
  - unfold derived_cipher. destruct (letters (flow_of role d)) as [[liv lkey] lmac].
    split; [assumption|]. split; [assumption|]. exact D.
Qed.

Lemma MakeCipher_total : forall x s d, keys_rel x s ->
  KexState_MakeCipher (k_new_keys s)
    (FindNegotiatedAlgorithm role d all_encryption_algorithms (k_enc_ctos s) (k_enc_stoc s))
    (FindNegotiatedAlgorithm role d all_mac_algorithms (k_mac_ctos s) (k_mac_stoc s)) d <> None.
Proof.
  intros x s d (h & sig & HX & HSec & Hsid & HK). rewrite HK.
  destruct (MakeCipher_ok d (flow_of role d) (K h) (e_digest E (hash_input h)) (k_session_id s)
    (k_enc_ctos s) (k_enc_stoc s) (k_mac_ctos s) (k_mac_stoc s) eq_refl) as [->|(c' & -> & _)]; discriminate.
Qed.

Ltac xs := cbn [with_tx20 with_rx20 with_init with_reply with_secret with_tx21 with_out with_rx21 with_version
   x_version x_tx20 x_rx20 x_init x_reply x_secret x_tx21 x_out x_rx21] in *.

Lemma keys_rel_ext : forall x s x' s', keys_rel x s ->
  x_init x' = x_init x -> x_reply x' = x_reply x -> x_tx20 x' = x_tx20 x -> x_rx20 x' = x_rx20 x ->
  x_secret x' = x_secret x -> x_version x' = x_version x ->
  k_session_id s' = k_session_id s -> k_new_keys s' = k_new_keys s -> keys_rel x' s'.
Proof.
  intros x s x' s' (h & sig & HX & HSec & Hsid & HK) E1 E2 E3 E4 E5 E6 E7 E8.
  exists h, sig. unfold exchanged in *. now rewrite E1, E2, E3, E4, E5, E6, E7, E8.
Qed.

Ltac view1 p s2 s := try (let H := fresh "P" in assert (H : p s2 = p s) by reflexivity).
Ltac view s2 s :=
  view1 k_version_exchanged s2 s; view1 k_peer_version s2 s; view1 k_my_kexinit s2 s;
  view1 k_peer_kexinit s2 s; view1 k_enc_ctos s2 s; view1 k_enc_stoc s2 s; view1 k_mac_ctos s2 s;
  view1 k_mac_stoc s2 s; view1 k_session_id s2 s; view1 k_new_keys s2 s; view1 k_kex s2 s;
  view1 k_host_key s2 s; view1 k_in_encrypted s2 s; view1 k_out_encrypted s2 s; view1 k_flags s2 s.
Ltac use_view s2 :=
  unfold peer_layout, kex_rel in *;
  repeat match goal with H : ?p s2 = _ |- context [?p s2] => rewrite H end.

Lemma SendNewKeys_ok : forall x s, St x s -> Ready x s -> Post False (SendNewKeys role s).
Proof.
  intros x s HS HY. destruct HY as [V VX T TL R RL F IN RE KR (X1 & X2 & X3) KX EN].
  unfold SendNewKeys. rewrite F. ks.
  set (s1 := set_flags _ _).
  assert (Hsec : is_some (x_secret x) = true) by (destruct KR as (? & ? & _ & -> & _); reflexivity).
  assert (S1 : St (with_tx21 x) s1).
  { assert (S0 : St (with_tx21 x) (SendPacket [21] (set_timer false s))).
    { eapply send_St; [eapply same_St; [|exact HS]; same|]. cbn [xstep]. rewrite Hsec, X1. reflexivity. }
    eapply same_St; [|exact S0]. same. }
  change (k_out_encrypted s) with (k_out_encrypted s1).
  destruct (KexState_MakeCipher _ _ _ _) as [[c|]|] eqn:Ec.
  2:{ cbn [Post]. split; [exact (St_Thrown _ _ _ S1)|discriminate]. }
  2:{ exfalso. eapply (MakeCipher_total (with_tx21 x) s1 OUTGOING); [|exact Ec].
      eapply keys_rel_ext; [exact KR|..]; reflexivity. }
  cbn [Post].
  destruct (cipher_event (with_tx21 x) s1 OUTGOING c) as (h & sig & Hsid & HX & HK & Hn & Hd); try assumption.
  assert (S2 : St (with_out (with_tx21 x)) (set_out_encrypted (emit (EOutCipher c) s1))).
  { assert (S0 : St (with_out (with_tx21 x)) (emit (EOutCipher c) s1)).
    { eapply emit_good; [exact S1| |discriminate|].
      - exists (with_tx21 x), h, sig. repeat (split; [first [reflexivity|assumption]|]). assumption.
      - cbn [xstep]. unfold must. xs. rewrite X2. reflexivity. }
    eapply same_St; [|exact S0]. same. }
  assert (HR2 : Rel (with_out (with_tx21 x)) (set_out_encrypted (emit (EOutCipher c) s1))).
  { set (s2 := set_out_encrypted (emit (EOutCipher c) s1)).
    view s2 s.
    assert (Po : k_out_encrypted s2 = true) by reflexivity.
    assert (Pf : k_flags s2 = {| kexinit_sent := true; kexinit_received := true;
                                 newkeys_sent := true; newkeys_received := false |}) by reflexivity.
    assert (KR2 : keys_rel (with_out (with_tx21 x)) s2)
      by (eapply keys_rel_ext; [exact KR|..]; reflexivity).
    clearbody s2. clear S2 S1 Ec HX HK Hn Hd Hsid HS. clear s1.
    constructor; use_view s2; xs; ks; try assumption; try reflexivity; try congruence; auto.
    rewrite KX. reflexivity. }
  assert (Hr : forall z, ResetIfComplete (set_out_encrypted (emit (EOutCipher c) s1)) = z -> z =
     set_out_encrypted (emit (EOutCipher c) s1)).
  { intros z <-. reflexivity. }
  rewrite (Hr _ eq_refl).
  destruct (negb (k_out_encrypted s1) && IsEncrypted _).
  - exists (with_out (with_tx21 x)). split; [eapply emit_St; [exact S2|exact I|reflexivity]|].
    destruct HR2. constructor; assumption.
  - exists (with_out (with_tx21 x)). split; assumption.
Qed.

Lemma HandleNewKeys_ok : forall x s r, St x s -> Rel x s -> k_version_exchanged s = true ->
  Post False (HandleNewKeys role (emit (ERx (21 :: r)) s)).
Proof.
  intros x s r HS HR Hv. unfold HandleNewKeys.
  assert (HT : forall e, disconnects e -> Thrown e (emit (ERx (21 :: r)) s)) by (intros e He; eapply rx_Thrown; [exact HS|exact He]).
  ks. match goal with |- context [if ?b then _ else _] => destruct b eqn:Ef end.
  { split; [ht|discriminate]. }
  repeat (apply orb_false_iff in Ef as [Ef ?]). apply negb_false_iff in Ef, H0, H1.
  destruct (k_flags s) as [f1 f2 f3 f4] eqn:F. ks. subst.
  destruct HR as [V FR T TL R RL TX O RX NR SC NS ID KX EN HF NO].
  rewrite F in *. ks. destruct (NS eq_refl) as (_ & _ & IN & RE & KR).
  set (s1 := set_flags _ _).
  assert (S1 : St (with_rx21 x) s1).
  { assert (S0 : St (with_rx21 x) (emit (ERx (21 :: r)) s)).
    { eapply emit_St; [exact HS|exact I|]. cbn [xstep]. unfold expect. rewrite O, RX. reflexivity. }
    eapply same_St; [|exact S0]. same. }
  destruct (len (k_session_id s) =? 0).
  { split; [exact (St_Thrown _ _ _ S1)|discriminate]. }
  destruct (KexState_MakeCipher _ _ _ _) as [[c|]|] eqn:Ec.
  2:{ split; [exact (St_Thrown _ _ _ S1)|discriminate]. }
  2:{ exfalso. eapply (MakeCipher_total (with_rx21 x) s1 INCOMING); [|exact Ec].
      eapply keys_rel_ext; [exact KR|..]; reflexivity. }
  destruct (cipher_event (with_rx21 x) s1 INCOMING c) as (h & sig & Hsid & HX & HK & Hn & Hd); try assumption.
  { exact (TL eq_refl). }
  { exact (RL eq_refl). }
  assert (S2 : St (idle (x_version x)) (emit (EInCipher c) s1)).
  { eapply emit_good; [exact S1| |discriminate|].
    - exists (with_rx21 x), h, sig. repeat (split; [first [reflexivity|assumption]|]). assumption.
    - reflexivity. }
  set (s3 := ResetIfComplete (set_in_encrypted (emit (EInCipher c) s1))).
  assert (E3 : s3 = set_timer true (set_flags no_flags (set_in_encrypted (emit (EInCipher c) s1)))) by reflexivity.
  assert (S3 : St (idle (x_version x)) s3).
  { rewrite E3. eapply same_St; [|exact S2]. same. }
  assert (R3 : Rel (idle (x_version x)) s3).
  { clear S2 S1 Ec HX HK Hn Hd Hsid HS HT S3. rewrite E3 in *. clear E3.
    set (s4 := set_timer true _) in *. view s4 s.
    assert (Pi : k_in_encrypted s4 = true) by reflexivity.
    assert (Pf : k_flags s4 = no_flags) by reflexivity.
    clearbody s4. clear s1 s3. unfold no_flags in Pf.
    constructor; use_view s4; unfold idle; xs; ks; try assumption; try reflexivity; try congruence; auto; try discriminate.
    rewrite F in KX. destruct (k_kex s) as [[a b]|]; [|reflexivity].
    destruct KX as (_ & _ & KX & _). discriminate. }
  destruct (negb (k_in_encrypted s) && IsEncrypted s3).
  - exists (idle (x_version x)). split; [eapply emit_St; [exact S3|exact I|reflexivity]|].
    destruct R3. constructor; assumption.
  - exists (idle (x_version x)). split; assumption.
Qed.


(** ** The shared secret *)

Definition new_sid (sid : bytes) (h : handshake) : bytes :=
  if len sid =? 0 then e_digest E (hash_input h) else sid.

Lemma digest_nonempty : forall b, e_digest E b <> [].
Proof. intros b H. specialize (H32 b). rewrite H in H32. discriminate. Qed.

Lemma new_sid_nonempty : forall sid h, new_sid sid h <> [].
Proof.
  intros sid h. unfold new_sid. destruct (len sid =? 0) eqn:El; [apply digest_nonempty|].
  intro H. rewrite H in El. discriminate.
Qed.

Lemma secret_St : forall x s h sig nk, St x s -> exchanged role (e_version E) x h sig ->
  secret_shared E role h ->
  match role with CLIENT => server_verified E h sig | SERVER => server_signed E h sig end ->
  x_secret x = None ->
  St (with_secret (K h) x)
     (set_keys (new_sid (k_session_id s) h) nk (emit (ESecret (K h)) s)).
Proof.
  intros x s h sig nk (H & (G1 & G2) & R) HX HSh HV HN.
  assert (X : xstep role (XRun x) (ESecret (K h)) = Some (XRun (with_secret (K h) x))).
  { cbn [xstep]. unfold must. destruct HX as (_ & -> & _). rewrite HN. reflexivity. }
  assert (GE : forall sid, good_event sid (XRun x) (ESecret (K h))).
  { intro sid. exists x, h, sig. auto. }
  split; [|split; [split|exact R]].
  - ks. rewrite history_snoc, H. exact X.
  - ks. eapply good_log_snoc; [|exact H|apply GE]. unfold new_sid.
    destruct (len (k_session_id s) =? 0) eqn:El; [|exact G1].
    apply N.eqb_eq in El. apply len_0 in El. rewrite El in G1. now apply good_log_sid.
  - ks. unfold new_sid. destruct (len (k_session_id s) =? 0) eqn:El.
    + apply N.eqb_eq in El. apply len_0 in El. rewrite El in G2.
      destruct G2 as [(_ & G2)|(G2 & _)]; [|contradiction].
      right. split; [apply digest_nonempty|].
      exists (k_log s), (K h), [], x, h, sig. repeat (split; [first [reflexivity|assumption]|]). reflexivity.
    + apply N.eqb_neq in El. apply sid_ok_later; [|exact G2]. intro H0. now rewrite H0 in El.
Qed.

Lemma xstep_other : forall x p, app_message p -> xstep role (XRun x) (ETx p) = Some (XRun x).
Proof.
  intros x p (m & r & -> & H1 & H20 & H21 & H30 & H31). cbn [xstep].
  destruct m as [|m]; [reflexivity|].
  do 5 (try (destruct m as [m|m|]; try reflexivity; try congruence)).
Qed.

Lemma Rel_ext : forall x s s', Rel x s ->
  k_version_exchanged s' = k_version_exchanged s -> k_peer_version s' = k_peer_version s ->
  k_my_kexinit s' = k_my_kexinit s -> k_peer_kexinit s' = k_peer_kexinit s ->
  k_enc_ctos s' = k_enc_ctos s -> k_enc_stoc s' = k_enc_stoc s ->
  k_mac_ctos s' = k_mac_ctos s -> k_mac_stoc s' = k_mac_stoc s ->
  k_session_id s' = k_session_id s -> k_new_keys s' = k_new_keys s ->
  k_kex s' = k_kex s -> k_host_key s' = k_host_key s ->
  k_in_encrypted s' = k_in_encrypted s -> k_out_encrypted s' = k_out_encrypted s ->
  k_flags s' = k_flags s -> Rel x s'.
Proof.
  intros x s s' [] E1 E2 E3 E4 E5 E6 E7 E8 E9 E10 E11 E12 E13 E14 E15.
  unfold kex_rel, keys_rel, peer_layout in *.
  constructor; unfold kex_rel, keys_rel, peer_layout;
    rewrite ?E1, ?E2, ?E3, ?E4, ?E5, ?E6, ?E7, ?E8, ?E9, ?E10, ?E11, ?E12, ?E13, ?E14, ?E15; assumption.
Qed.

Lemma Inv_send : forall s p, Inv s -> app_message p -> Inv (SendPacket p s).
Proof.
  intros s p (x & HS & HR) Hp. exists x. split.
  - eapply send_St; [exact HS|now apply xstep_other].
  - eapply Rel_ext; [exact HR|..]; reflexivity.
Qed.

Lemma SendExtInfo_ok : forall s, Inv s -> Post False (SendExtInfo s).
Proof.
  intros s HI. unfold SendExtInfo.
  match goal with |- context [match ?m with Some _ => _ | None => _ end] => destruct m as [body|] end.
  - cbn [Post]. apply Inv_send; [exact HI|]. exists 7, body. repeat split; discriminate.
  - cbn [Post]. split; [|discriminate]. destruct HI as (x & HS & _). exact (St_Thrown _ _ _ HS).
Qed.

(** what is common to both roles once the secret is known *)
Lemma secret_Ready : forall x s h sig alg sec, St x s ->
  x_version x = k_peer_version s -> k_version_exchanged s = true ->
  x_tx20 x = Some (20 :: k_my_kexinit s) -> my_layout (k_my_kexinit s) ->
  x_rx20 x = Some (20 :: k_peer_kexinit s) -> peer_layout s ->
  k_flags s = {| kexinit_sent := true; kexinit_received := true;
                 newkeys_sent := false; newkeys_received := false |} ->
  x_secret x = None -> x_tx21 x = false -> x_out x = false -> x_rx21 x = false ->
  k_kex s = Some (alg, sec) -> k_in_encrypted s = k_out_encrypted s ->
  exchanged role (e_version E) x h sig -> secret_shared E role h ->
  match role with CLIENT => server_verified E h sig | SERVER => server_signed E h sig end ->
  exists sid nk,
    DeriveKeys (e_digest E) (k_session_id s) (e_digest E (hash_input h)) (K h) role
      (len (k_session_id s) =? 0) = Some (sid, nk) /\
    let s' := set_kex None (set_keys sid nk (emit (ESecret (K h)) s)) in
    St (with_secret (K h) x) s' /\ Ready (with_secret (K h) x) s'.
Proof.
  intros x s h sig alg sec HS V VX T TL R RL F X0 X1 X2 X3 KX EN HX HSh HV.
  rewrite (DeriveKeys_ok _ H32) by apply digest_nonempty. cbv zeta.
  change (if len (k_session_id s) =? 0 then e_digest E (hash_input h) else k_session_id s)
    with (new_sid (k_session_id s) h).
  match goal with |- context [Some (_, ?n) = _] => set (nk := n) end.
  exists (new_sid (k_session_id s) h), nk. split; [reflexivity|]. split.
  - eapply same_St; [|eapply (secret_St x s h sig nk); eassumption]. same.
  - set (s' := set_kex _ _). view s' s.
    assert (Pk : k_kex s' = None) by reflexivity.
    assert (KR : keys_rel (with_secret (K h) x) s').
    { exists h, sig. split; [exact HX|]. split; [reflexivity|]. split; [apply new_sid_nonempty|reflexivity]. }
    clearbody s'. destruct HX as (HI & HRp & _).
    constructor; use_view s'; xs; try assumption; try reflexivity.
    + now rewrite HI.
    + now rewrite HRp.
    + auto.
Qed.

Lemma HandleECDHKexInit_ok : forall x s payload, St x s -> Rel x s -> bytes_ok payload ->
  k_version_exchanged s = true ->
  Post False (HandleECDHKexInit E role payload (emit (ERx (30 :: payload)) s)).
Proof.
  intros x s payload HS HR Hb Hv. unfold HandleECDHKexInit.
  assert (HT : forall e, disconnects e -> Thrown e (emit (ERx (30 :: payload)) s)) by (intros e He; eapply rx_Thrown; [exact HS|exact He]).
  destruct (is_server role) eqn:Hr; cbn [negb]; [|split; [ht|discriminate]].
  change (k_flags (emit (ERx (30 :: payload)) s)) with (k_flags s).
  change (k_kex (emit (ERx (30 :: payload)) s)) with (k_kex s).
  match goal with |- context [if ?b then Throw _ _ else _] => destruct b eqn:Ef end.
  { split; [ht|discriminate]. }
  repeat (apply orb_false_iff in Ef as [Ef ?]). apply negb_false_iff in Ef, H2.
  destruct (k_flags s) as [f1 f2 f3 f4] eqn:F.
  cbn [kexinit_sent kexinit_received newkeys_sent newkeys_received] in *. subst.
  destruct (k_kex s) as [[alg sec]|] eqn:Ek; [|discriminate]. clear H.
  destruct HR as [V FR T TL R RL TX O RX NR SC NS ID KX EN HF NO].
  rewrite F in *. cbn [kexinit_sent kexinit_received newkeys_sent newkeys_received] in *.
  unfold kex_rel in KX. rewrite Ek, F in KX. destruct KX as (_ & _ & _ & Hrep & KX).
  assert (Role : role = SERVER) by (destruct role; [reflexivity|discriminate]).
  rewrite Role in KX. destruct KX as (Hini & hk & ha & Hhk).
  assert (Hsec : x_secret x = None) by (destruct (x_secret x); [discriminate|reflexivity]).
  assert (S1 : St (with_init (30 :: payload) x) (emit (ERx (30 :: payload)) s)).
  { eapply emit_St; [exact HS|exact I|]. cbn [xstep]. unfold both20. rewrite T, R, Hini, Hr. reflexivity. }
  destruct (ParseECDHKexInit payload) as [pub|] eqn:Ep; [|split; [ht|discriminate]].
  apply ParseECDHKexInit_exact in Ep; [|assumption]. destruct Ep as [_ Ep]. unfold enc in Ep.
  cbn [map List.concat enc_field] in Ep. rewrite app_nil_r in Ep.
  unfold SendECDHKexInitReply.
  change (k_flags (emit (ERx (30 :: payload)) s)) with (k_flags s). rewrite F, Hr.
  cbn [kexinit_sent kexinit_received newkeys_sent newkeys_received negb andb check bind].
  change (k_kex (emit (ERx (30 :: payload)) s)) with (k_kex s).
  change (k_host_key (emit (ERx (30 :: payload)) s)) with (k_host_key s). rewrite Ek, Hhk.
  destruct (e_shared E alg sec pub) as [shared|] eqn:Esh; [|split; [ht|discriminate]].
  change (k_peer_version (emit (ERx (30 :: payload)) s)) with (k_peer_version s).
  change (k_peer_kexinit (emit (ERx (30 :: payload)) s)) with (k_peer_kexinit s).
  change (k_my_kexinit (emit (ERx (30 :: payload)) s)) with (k_my_kexinit s).
  rewrite KexHashInput_spec. set (h := {| V_C := _ |}).
  destruct (e_sign E hk (e_digest E (hash_input h)) ha) as [sig|] eqn:Esig; [|split; [ht|discriminate]].
  match goal with |- context [match ?m with Some _ => _ | None => _ end] => destruct m as [body|] eqn:Eb end;
    [|split; [ht|discriminate]].
  assert (Hbody : body = string_enc (e_blob E hk) ++ string_enc (e_public E alg sec) ++ string_enc sig).
  { destruct (WriteLengthEncoded new_serializer (e_blob E hk)) as [w1|] eqn:W1; [|discriminate].
    cbn [obind] in Eb. apply wle in W1 as [-> L1];
      [|unfold new_serializer; rewrite len_nil; unfold BUFFER_SIZE; lia].
    destruct (WriteLengthEncoded _ (e_public E alg sec)) as [w2|] eqn:W2; [|discriminate].
    cbn [obind] in Eb. apply wle in W2 as [-> L2]; [|assumption].
    apply wle in Eb as [-> _]; [|assumption]. unfold new_serializer. cbn [app]. now rewrite <- app_assoc. }
  set (s1 := SendPacket _ _).
  set (x2 := with_reply (31 :: body) (with_init (30 :: payload) x)).
  assert (S2 : St x2 s1).
  { eapply send_St; [exact S1|]. cbn [xstep]. unfold must. xs. rewrite Hrep, Hr. reflexivity. }
  assert (HX : exchanged role (e_version E) x2 h sig).
  { unfold exchanged. subst x2 h. xs. cbn [Q_C Q_S K_S V_C V_S I_C I_S]. rewrite Hbody, Ep, Role.
    repeat split; first [assumption|symmetry; assumption]. }
  destruct (secret_Ready x2 s1 h sig alg sec) as (sid & nk & Hd & S3 & Y3); try assumption;
    try (rewrite ?TX, ?O, ?RX; reflexivity).
  - exact (TL eq_refl).
  - exact (RL eq_refl).
  - destruct (k_in_encrypted s) eqn:Ei.
    + change (k_in_encrypted s1) with (k_in_encrypted s). change (k_out_encrypted s1) with (k_out_encrypted s).
      rewrite Ei. symmetry. now apply EN.
    + change (k_in_encrypted s1) with (k_in_encrypted s). change (k_out_encrypted s1) with (k_out_encrypted s).
      rewrite Ei. destruct (k_out_encrypted s); [|reflexivity]. now specialize (HF eq_refl eq_refl).
  - unfold secret_shared. rewrite Role. exists alg, sec. split; [reflexivity|exact Esh].
  - rewrite Role. exists hk, ha. split; [reflexivity|exact Esig].
  - change (k_session_id s1) with (k_session_id s1) in Hd. change shared with (K h). rewrite Hd. cbn [bind].
    pose proof (SendNewKeys_ok _ _ S3 Y3) as Q.
    match goal with |- Post _ (bind ?m _) => match type of Q with Post _ ?m' => change m with m'; destruct m' as [s4|e s4] end end.
    + cbn [bind]. destruct (k_ext_info s4); [now apply SendExtInfo_ok|exact Q].
    + exact Q.
Qed.

Lemma HandleECDHKexInitReply_ok : forall x s payload, St x s -> Rel x s -> bytes_ok payload ->
  k_version_exchanged s = true ->
  Post False (HandleECDHKexInitReply E role payload (emit (ERx (31 :: payload)) s)).
Proof.
  intros x s payload HS HR Hb Hv. unfold HandleECDHKexInitReply.
  assert (HT : forall e, disconnects e -> Thrown e (emit (ERx (31 :: payload)) s)) by (intros e He; eapply rx_Thrown; [exact HS|exact He]).
  destruct (is_server role) eqn:Hr; cbn [negb]; [split; [ht|discriminate]|].
  change (k_flags (emit (ERx (31 :: payload)) s)) with (k_flags s).
  change (k_kex (emit (ERx (31 :: payload)) s)) with (k_kex s).
  match goal with |- context [if ?b then Throw _ _ else _] => destruct b eqn:Ef end.
  { split; [ht|discriminate]. }
  repeat (apply orb_false_iff in Ef as [Ef ?]). apply negb_false_iff in Ef, H1.
  destruct (k_flags s) as [f1 f2 f3 f4] eqn:F.
  cbn [kexinit_sent kexinit_received newkeys_sent newkeys_received] in *. subst.
  destruct (k_kex s) as [[alg sec]|] eqn:Ek; [|split; [ht|discriminate]].
  destruct HR as [V FR T TL R RL TX O RX NR SC NS ID KX EN HF NO].
  rewrite F in *. cbn [kexinit_sent kexinit_received newkeys_sent newkeys_received] in *.
  unfold kex_rel in KX. rewrite Ek, F in KX. destruct KX as (_ & _ & _ & Hrep & KX).
  assert (Role : role = CLIENT) by (destruct role; [discriminate|reflexivity]).
  rewrite Role in KX.
  assert (Hsec : x_secret x = None) by (destruct (x_secret x); [discriminate|reflexivity]).
  set (x2 := with_reply (31 :: payload) x).
  set (s1 := emit (ERx (31 :: payload)) s) in *.
  assert (S1 : St x2 s1).
  { eapply emit_St; [exact HS|exact I|]. cbn [xstep]. rewrite KX, Hrep, Hr. reflexivity. }
  destruct (ParseECDHKexInitReply payload) as [[blob eph sig]|] eqn:Ep; [|split; [ht|discriminate]].
  apply ParseECDHKexInitReply_exact in Ep; [|assumption]. destruct Ep as [_ Ep]. unfold enc in Ep.
  cbn [map List.concat enc_field] in Ep. rewrite app_nil_r in Ep.
  cbn [kr_server_host_key_blob kr_server_ephemeral_public_key kr_signature].
  destruct (e_verify_host_key E) as [v|] eqn:Ev; [|split; [ht|discriminate]].
  destruct (v blob) eqn:Evb; cbn [negb]; [|split; [ht|discriminate]].
  destruct (e_shared E alg sec eph) as [shared|] eqn:Esh; [|split; [ht|discriminate]].
  change (k_peer_version s1) with (k_peer_version s).
  change (k_peer_kexinit s1) with (k_peer_kexinit s).
  change (k_my_kexinit s1) with (k_my_kexinit s).
  rewrite KexHashInput_spec. set (h := {| V_C := _ |}).
  destruct (e_verify_signature E blob (e_digest E (hash_input h)) sig) as [[]|] eqn:Esig;
    cbn [negb]; try (split; [ht|discriminate]).
  assert (HX : exchanged role (e_version E) x2 h sig).
  { unfold exchanged. subst x2 h. xs. cbn [Q_C Q_S K_S V_C V_S I_C I_S]. rewrite Role.
    repeat split; try assumption; try (symmetry; assumption). now rewrite Ep. }
  destruct (secret_Ready x2 s1 h sig alg sec) as (sid & nk & Hd & S3 & Y3); try assumption;
    try (rewrite ?TX, ?O, ?RX; reflexivity).
  - exact (TL eq_refl).
  - exact (RL eq_refl).
  - destruct (k_in_encrypted s) eqn:Ei.
    + change (k_in_encrypted s1) with (k_in_encrypted s). change (k_out_encrypted s1) with (k_out_encrypted s).
      rewrite Ei. symmetry. now apply EN.
    + change (k_in_encrypted s1) with (k_in_encrypted s). change (k_out_encrypted s1) with (k_out_encrypted s).
      rewrite Ei. destruct (k_out_encrypted s); [|reflexivity]. now specialize (HF eq_refl eq_refl).
  - unfold secret_shared. rewrite Role. exists alg, sec. split; [reflexivity|exact Esh].
  - rewrite Role. exists v. split; [exact Ev|]. split; [exact Evb|exact Esig].
  - change shared with (K h). rewrite Hd.
    exact (SendNewKeys_ok _ _ S3 Y3).
Qed.


(** ** All packets *)

Lemma xstep_rx_other : forall x m r, m <> 20 -> m <> 21 -> m <> 30 -> m <> 31 ->
  xstep role (XRun x) (ERx (m :: r)) = Some (XRun x).
Proof.
  intros x m r H20 H21 H30 H31. cbn [xstep].
  destruct m as [|m]; [reflexivity|].
  do 5 (try (destruct m as [m|m|]; try reflexivity; try congruence)).
Qed.

Lemma SetAuthenticated_ok : forall s, Inv s ->
  Post (IsEncrypted s && negb (k_authenticated s) = false) (SetAuthenticated s).
Proof.
  intros s (x & HS & HR). unfold SetAuthenticated.
  destruct (IsEncrypted s && negb (k_authenticated s)); cbn [check bind Post].
  - exists x. split; [|eapply Rel_ext; [exact HR|..]; reflexivity].
    eapply same_St; [|eapply (emit_St x x (set_authenticated s) EAuthenticated);
      [eapply same_St; [|exact HS]; same|exact I|reflexivity]]. same.
  - split; [exact (St_Thrown _ _ _ HS)|]. reflexivity.
Qed.

Definition authenticates (l : list handler_action) : Prop := In HAuthenticated l.

Lemma Post_weak : forall (A B : Prop) r, (A -> B) -> Post A r -> Post B r.
Proof. intros A B [s|e s] H P; [exact P|]. cbn [Post] in *. tauto. Qed.

Lemma run_actions_ok : forall l s, Forall action_ok l -> Inv s ->
  Post (authenticates l) (run_actions l s).
Proof.
  induction l as [|a l IH]; intros s Hl HI; cbn [run_actions]; [exact HI|].
  inversion Hl; subst. destruct a as [p|].
  - eapply Post_weak; [|apply IH; [assumption|now apply Inv_send]]. intro. now right.
  - pose proof (SetAuthenticated_ok s HI) as P. destruct (SetAuthenticated s) as [s'|e s']; cbn [bind].
    + eapply Post_weak; [|apply IH; [assumption|exact P]]. intro. now right.
    + cbn [Post] in *. split; [tauto|]. intro. now left.
Qed.

Lemma HandleCore_ok : forall x s msg payload seq rnd, St x s -> Rel x s -> bytes_ok payload ->
  len (rnd_cookie rnd) = 16 -> k_version_exchanged s = true ->
  Post False (HandleCore E role msg payload seq rnd (emit (ERx (msg :: payload)) s)).
Proof.
  intros x s msg payload seq rnd HS HR Hb Hc Hv. unfold HandleCore.
  assert (HT : forall e, disconnects e -> Thrown e (emit (ERx (msg :: payload)) s)) by (intros e He; eapply rx_Thrown; [exact HS|exact He]).
  assert (HO : msg <> 20 -> msg <> 21 -> msg <> 30 -> msg <> 31 -> Inv (emit (ERx (msg :: payload)) s)).
  { intros. exists x. split; [eapply emit_St; [exact HS|exact I|now apply xstep_rx_other]|].
    eapply Rel_ext; [exact HR|..]; reflexivity. }
  destruct (msg =? MSG_DISCONNECT) eqn:Ed.
  { unfold HandleDisconnect. destruct (ParseDisconnect payload); (split; [|discriminate]); [|ht].
    apply N.eqb_eq in Ed. destruct HO as (x' & HS' & _); try (rewrite Ed; discriminate). exact (St_Thrown _ _ _ HS'). }
  destruct ((msg =? MSG_IGNORE) || (msg =? MSG_UNIMPLEMENTED)) eqn:E1.
  { cbn [Post]. apply HO; intros ->; discriminate. }
  destruct (msg =? MSG_KEXINIT) eqn:E20.
  { apply N.eqb_eq in E20. subst msg. now apply (HandleKexInit_ok x). }
  destruct (msg =? MSG_NEWKEYS) eqn:E21.
  { apply N.eqb_eq in E21. subst msg. now apply (HandleNewKeys_ok x). }
  destruct (msg =? MSG_ECDH_KEX_INIT) eqn:E30.
  { apply N.eqb_eq in E30. subst msg. now apply (HandleECDHKexInit_ok x). }
  destruct (msg =? MSG_ECDH_KEX_INIT_REPLY) eqn:E31.
  { apply N.eqb_eq in E31. subst msg. now apply (HandleECDHKexInitReply_ok x). }
  apply N.eqb_neq in E20, E21, E30, E31. cbn [Post]. apply Inv_send; [now apply HO|].
  eexists _, _. split; [reflexivity|]. repeat split; discriminate.
Qed.

Definition answer_authenticates (h : handler_answer) : Prop :=
  match h with HDone l => authenticates l | _ => False end.

Lemma HandlePacket_ok : forall x s msg payload seq rnd h, St x s -> Rel x s -> bytes_ok payload ->
  len (rnd_cookie rnd) = 16 -> k_version_exchanged s = true -> answer_ok h ->
  Post (answer_authenticates h) (HandlePacket E role msg payload seq rnd h s).
Proof.
  intros x s msg payload seq rnd h HS HR Hb Hc Hv Hh. unfold HandlePacket.
  set (go := fun s0 : kstate =>
    let s1 := emit (ERx (msg :: payload)) s0 in
    if IsEncrypted s1 && negb (core_message msg) then
      match h with
      | HPass => HandleCore E role msg payload seq rnd s1
      | HDone actions => run_actions actions s1
      | HThrow e => Throw e s1
      end
    else HandleCore E role msg payload seq rnd s1).
  assert (G : forall s', St x s' -> Rel x s' -> k_version_exchanged s' = true ->
    Post (answer_authenticates h) (go s')).
  { intros s' HS' HR' Hv'. subst go. cbv beta zeta.
    assert (HC : Post (answer_authenticates h)
              (HandleCore E role msg payload seq rnd (emit (ERx (msg :: payload)) s'))).
    { eapply Post_weak; [|eapply HandleCore_ok; eassumption]. tauto. }
    destruct (IsEncrypted _ && negb (core_message msg)) eqn:Ec; [|exact HC].
    apply andb_true_iff in Ec as [_ Ec]. apply negb_true_iff in Ec.
    destruct h as [|l|e]; [exact HC| |].
    - cbn [answer_authenticates]. apply run_actions_ok; [exact Hh|].
      exists x. split; [|eapply Rel_ext; [exact HR'|..]; reflexivity].
      eapply emit_St; [exact HS'|exact I|]. apply xstep_rx_other; intros ->; discriminate.
    - cbn [Post]. split; [|intro H; now destruct Hh]. eapply (St_Thrown x). eapply emit_St; [exact HS'|exact I|].
      apply xstep_rx_other; intros ->; discriminate. }
  destruct (k_in_encrypted s); cbn [negb]; [now apply G|].
  destruct (kexinit_received (k_flags s)); cbn [negb].
  2:{ destruct (msg =? MSG_KEXINIT); [now apply G|]. apply G; [eapply same_St; [|exact HS]; same| |exact Hv].
      eapply Rel_ext; [exact HR|..]; reflexivity. }
  destruct (k_ignore_next s).
  - destruct (IsKex msg).
    + cbn [Post]. exists x. split; [|eapply Rel_ext; [exact HR|..]; reflexivity].
      eapply emit_St; [eapply same_St; [|exact HS]; same|exact I|reflexivity].
    + apply G; [eapply same_St; [|exact HS]; same| |exact Hv]. eapply Rel_ext; [exact HR|..]; reflexivity.
  - destruct (k_strict s && negb (IsAllowedKexMessage role msg)); [|now apply G].
    cbn [Post]. split; [|discriminate]. eapply rx_Thrown; [exact HS|]. right. eexists _, _. reflexivity.
Qed.

Lemma HandleRawPacket_ok : forall x s payload seq rnd h, St x s -> Rel x s -> bytes_ok payload ->
  len (rnd_cookie rnd) = 16 -> k_version_exchanged s = true -> answer_ok h ->
  Post (answer_authenticates h) (HandleRawPacket E role payload seq rnd h s).
Proof.
  intros x s payload seq rnd h HS HR Hb Hc Hv Hh. unfold HandleRawPacket.
  destruct payload as [|msg payload]; [split; [exact (St_Thrown _ _ _ HS)|discriminate]|].
  inversion Hb; subst.
  pose proof (HandlePacket_ok x s msg payload seq rnd h HS HR H2 Hc Hv Hh) as P.
  destruct (HandlePacket E role msg payload seq rnd h s) as [s'|[] s']; try exact P.
  cbn [Post] in *. destruct P as [((ph & Hp & Hn & _) & G) _]. split; [|discriminate].
  split; [|exact G]. exists ph. split; [exact Hp|]. split; [exact Hn|]. intros _. right. eexists _, _. reflexivity.
Qed.

(** ** Steps and runs *)

Definition Fin (s : kstate) : Prop :=
  good s /\
  match k_status s with
  | Running => Inv s
  | Dead => history role (k_log s) = Some XEnd
  | AssertFailed => exists ph, history role (k_log s) = Some ph /\ ph <> XEnd
  end.

Lemma end_good : forall s e, good s -> (exists ph, history role (k_log s) = Some ph) -> plain_event e ->
  good (emit e s).
Proof.
  intros s e (G1 & G2) (ph & H) P. split.
  - eapply good_log_snoc; [exact G1|exact H|now apply plain_good].
  - apply sid_ok_plain; [exact G2|]. intros k ->. exact P.
Qed.

Lemma Thrown_end : forall s exn e, Thrown exn s ->
  (e = EClosed /\ ~ disconnects exn \/ exists r, e = ETx (1 :: r)) ->
  good (emit e s) /\ history role (k_log (emit e s)) = Some XEnd.
Proof.
  intros s exn e ((ph & H & Hne & Hd) & G & R) He. split.
  - apply end_good; [assumption|eauto|]. destruct He as [(-> & _)|(r & ->)]; exact I.
  - cbn [emit upd_self upd k_log]. rewrite history_snoc, H.
    destruct He as [(-> & He)|(r & ->)]; destruct ph; try reflexivity; try contradiction.
    destruct He. now apply Hd.
Qed.

Lemma Disconnect_Fin : forall s exn reason msg, Thrown exn s -> Fin (DoDisconnect reason msg s).
Proof.
  intros s exn reason msg HT. unfold DoDisconnect. pose proof HT as (_ & _ & R). rewrite R.
  destruct (Thrown_end s _ (ETx (MSG_DISCONNECT :: put_u32 reason ++ put_u32 (len msg) ++ msg ++ put_u32 2 ++ bs "en")) HT)
    as [G H]; [right; eexists; reflexivity|].
  split; [exact G|exact H].
Qed.

Lemma Close_Fin : forall s exn, Thrown exn s -> ~ disconnects exn -> Fin (set_status Dead (emit EClosed s)).
Proof.
  intros s exn HT Hd. destruct (Thrown_end s exn EClosed HT) as [G H]; [now left|]. split; [exact G|exact H].
Qed.

Definition not_malformed (r : res) : Prop := match r with Throw XMalformed _ => False | _ => True end.

Lemma finish_Fin : forall A r, Post A r -> not_malformed r ->
  Fin (finish r) /\ (k_status (finish r) = AssertFailed -> A).
Proof.
  intros A [s|e s] P Nm; cbn [Post finish] in *.
  - destruct P as (x & HS & HR). pose proof HS as (H & G & R). split.
    + split; [exact G|]. rewrite R. exists x. auto.
    + rewrite R. discriminate.
  - destruct P as [HT HA]. destruct e; try contradiction.
    + split; [now apply (Disconnect_Fin _ (XDisconnect reason_code msg))|].
      unfold DoDisconnect. destruct HT as (_ & _ & R). rewrite R. discriminate.
    + split; [|discriminate]. apply (Close_Fin _ _ HT). intros [H|(? & ? & H)]; discriminate.
    + split; [|discriminate]. apply (Close_Fin _ _ HT). intros [H|(? & ? & H)]; discriminate.
    + split; [|intros _; now apply HA]. destruct HT as ((ph & H & Hn & _) & G & R).
      split; [exact G|]. exists ph. auto.
Qed.

Lemma SendKexInit_nm : forall rnd s, not_malformed (SendKexInit E role rnd s).
Proof.
  intros rnd s. unfold SendKexInit, check. destruct (negb _ && _ && _); [|exact I]. cbn [bind].
  destruct (SerializeKex _ _ _); exact I.
Qed.

Lemma HandleRawPacket_nm : forall p seq rnd h s, not_malformed (HandleRawPacket E role p seq rnd h s).
Proof.
  intros p seq rnd h s. unfold HandleRawPacket. destruct p as [|m p]; [exact I|].
  destruct (HandlePacket E role m p seq rnd h s) as [s'|[] s']; exact I.
Qed.

Lemma SendKexInit_Inv : forall s rnd, Inv s -> IsIdle (k_flags s) = true ->
  k_version_exchanged s = true -> len (rnd_cookie rnd) = 16 -> Post False (SendKexInit E role rnd s).
Proof.
  intros s rnd (x & HS & HR) Hi Hv Hc.
  destruct (k_flags s) as [f1 f2 f3 f4] eqn:F. unfold IsIdle in Hi.
  cbn [kexinit_sent kexinit_received newkeys_sent newkeys_received] in Hi.
  repeat (apply andb_true_iff in Hi as [Hi ?]). apply negb_true_iff in Hi, H, H0, H1. subst.
  destruct (SendKexInit_cases rnd s) as [->|(body & Hl & ->)]; try assumption; try (rewrite F; reflexivity).
  - cbn [Post]. split; [exact (St_Thrown _ _ _ HS)|discriminate].
  - cbn [Post]. exists (with_tx20 (20 :: body) x). pose proof (r_tx20 _ _ HR) as T. rewrite F in T. split.
    + eapply send_St; [eapply same_St; [|exact HS]; same|]. now apply xstep_tx20.
    + rewrite F. cbn [kexinit_received]. set (s' := SendPacket _ _). view s' s.
      assert (Pm : k_my_kexinit s' = body) by reflexivity.
      assert (Pf : k_flags s' = {| kexinit_sent := true; kexinit_received := false;
                                   newkeys_sent := false; newkeys_received := false |}) by reflexivity.
      clearbody s'. destruct HR as [V FR T' TL R RL TX O RX NR SC NS ID KX EN HF NO]. rewrite F in *.
      constructor; use_view s'; xs; ks; try assumption; try reflexivity; try congruence; auto.
      rewrite F in KX. destruct (k_kex s) as [[]|]; [|reflexivity]. destruct KX as (? & ? & _). discriminate.
Qed.

Lemma Version_Inv : forall s v, Inv s -> k_version_exchanged s = false ->
  Inv (emit (EVersion v) (set_version v s)) /\ k_flags s = no_flags.
Proof.
  intros s v (x & HS & HR) Hv. destruct (r_fresh _ _ HR Hv) as [F Ho]. split; [|exact F].
  exists (with_version v x). split.
  - eapply emit_St; [eapply same_St; [|exact HS]; same|exact I|].
    cbn [xstep]. rewrite (r_tx20 _ _ HR), (r_rx20 _ _ HR), F. reflexivity.
  - set (s' := emit _ _). view s' s.
    assert (Pv : k_peer_version s' = v) by reflexivity.
    assert (Pe : k_version_exchanged s' = true) by reflexivity.
    clearbody s'. destruct HR as [V FR T' TL R RL TX O RX NR SC NS ID KX EN HF NO]. rewrite F in *.
    constructor; use_view s'; xs; rewrite ?F; ks; try assumption; try reflexivity; try congruence; auto.
    + discriminate.
    + rewrite F in KX. destruct (k_kex s) as [[]|]; [|reflexivity]. destruct KX as (? & ? & _). discriminate.
Qed.

(** what an operation can do wrong *)
Definition op_asserts (op : kop) (s : kstate) : Prop :=
  match op with
  | OpRekeyTimer _ => IsEncrypted s && k_authenticated s = false
  | OpAuthenticated => IsEncrypted s && negb (k_authenticated s) = false
  | OpPacket _ _ _ h => answer_authenticates h
  | _ => False
  end.

Lemma kstep_Fin : forall s op s', Fin s -> op_ok op -> kstep E role op s = Some s' ->
  Fin s' /\ (k_status s' = AssertFailed -> op_asserts op s).
Proof.
  intros s op s' (G & HF) Ho H. unfold kstep in H.
  destruct (k_status s) eqn:Est; try discriminate.
  assert (HT : Thrown XError s) by (destruct HF as (x & HS & _); exact (St_Thrown _ _ _ HS)).
  destruct op as [v rnd|payload seq rnd h|rnd|p| |reason msg|]; cbn [op_ok] in Ho.
  - destruct (k_version_exchanged s) eqn:Ev; [discriminate|]. injection H as <-.
    destruct (Version_Inv s v HF Ev) as [HI F].
    apply finish_Fin; [|destruct (is_server role); [exact I|apply SendKexInit_nm]].
    destruct (is_server role); [exact HI|].
    eapply SendKexInit_Inv; [exact HI| |reflexivity|exact Ho].
    change (k_flags (emit (EVersion v) (set_version v s))) with (k_flags s). now rewrite F.
  - destruct (k_version_exchanged s) eqn:Ev; [|discriminate]. injection H as <-.
    destruct HF as (x & HS & HR). destruct Ho as (Hb & Hc & Hh).
    apply finish_Fin; [now apply (HandleRawPacket_ok x)|apply HandleRawPacket_nm].
  - destruct (k_timer s); [|discriminate]. injection H as <-. apply finish_Fin.
    2:{ unfold check. destruct (IsEncrypted (set_timer false s) && _); [|exact I]. cbn [bind].
        destruct (IsIdle _); [apply SendKexInit_nm|exact I]. }
    change (IsEncrypted (set_timer false s)) with (IsEncrypted s).
    change (k_authenticated (set_timer false s)) with (k_authenticated s).
    assert (HI : Inv (set_timer false s)).
    { destruct HF as (x & HS & HR). exists x. split; [eapply same_St; [|exact HS]; same|].
      eapply Rel_ext; [exact HR|..]; reflexivity. }
    destruct (IsEncrypted s && k_authenticated s) eqn:Ea; cbn [check bind].
    + destruct (IsIdle (k_flags (set_timer false s))) eqn:Ei; [|exact HI].
      eapply Post_weak; [|apply SendKexInit_Inv; [exact HI|exact Ei| |exact Ho]]; [tauto|].
      change (k_version_exchanged (set_timer false s)) with (k_version_exchanged s).
      destruct (k_version_exchanged s) eqn:Ev; [reflexivity|]. destruct HF as (x & _ & HR).
      destruct (r_fresh _ _ HR Ev) as [_ Hoe]. unfold IsEncrypted in Ea. rewrite Hoe, andb_false_r in Ea. discriminate.
    + cbn [Post]. split; [|intros _; exact Ea]. destruct HI as (x & HS & _). exact (St_Thrown _ _ _ HS).
  - injection H as <-. pose proof (Inv_send s p HF Ho) as (x & HS & HR). pose proof HS as (Hh & Hg & Hst).
    split; [|rewrite Hst; discriminate]. split; [exact Hg|]. rewrite Hst. exists x. auto.
  - injection H as <-. apply finish_Fin; [now apply SetAuthenticated_ok|].
    unfold SetAuthenticated, check. destruct (IsEncrypted s && _); exact I.
  - injection H as <-. split; [now apply (Disconnect_Fin _ XError)|]. unfold DoDisconnect. rewrite Est. discriminate.
  - injection H as <-. split; [|discriminate]. apply (Close_Fin _ _ HT). intros [H|(? & ? & H)]; discriminate.
Qed.

Lemma new_Fin : forall u, Fin (new_connection u).
Proof.
  intro u. assert (G : good (new_connection u)).
  { split.
    - intros pre e post H. destruct pre; discriminate.
    - left. split; [reflexivity|]. intros k []. }
  split; [exact G|]. cbn [k_status new_connection]. exists (idle []). split.
  - split; [reflexivity|]. split; [exact G|reflexivity].
  - constructor; cbn; try reflexivity; try discriminate; auto.
Qed.

Theorem kruns_Fin : forall u ops s, kruns E role u ops s -> Forall op_ok ops -> Fin s.
Proof.
  intros u ops s H. induction H as [|ops s op s' H IH Hs]; intro Ho; [apply new_Fin|].
  apply Forall_app in Ho as [Ho1 Ho2]. inversion Ho2; subst.
  exact (proj1 (kstep_Fin s op s' (IH Ho1) H2 Hs)).
Qed.

End Inv.
