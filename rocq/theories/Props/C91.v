(** * C91: a login by key cannot be relayed by somebody in between

    Spec/LoginSpec.v: [endpoint], [modest], [first_exchange], [collision].
    Spec/KexSpec.v: [server_verified] (the client has accepted the host key
    and verified the signature), [server_signed] (the server has signed with
    one of its host keys).  Spec/AuthSpec.v: what is signed by a client. *)

From Coq Require Import NArith List Bool Lia String.
From Verif.Base Require Import Bytes.
From Verif.Spec Require Import WireSpec PacketSpec NamesSpec KexSpec LoginSpec KeySpec AuthSpec SessionSpec AuthDemo.
From Verif.Model Require Import Wire Frame Packets StringList Negotiate KexKeys KexMachine KeyOptions Auth Session Server.
From Verif.Proofs Require Import WireFacts PacketFacts NamesFacts KexKeysFacts KexFacts KexFrame KexStrict KexLog KexAuth KexToy LoginFacts.
From Verif.Props Require Import C13 C15 C16 C54 C53 C30 C31.
Import ListNotations.
Open Scope N_scope.

(** ** The session id names the server

    Two ends which have the same session id have exchanged the same versions,
    the same KEXINIT packets, the same host key, the same public values and
    have the same shared secret, and the client has verified that this is the
    host key of the server: or somebody has found a collision of the hash
    function. *)
Lemma first_of : forall E role s, (forall x, len (e_digest E x) = 32) -> endpoint E role s -> k_session_id s <> [] ->
  exists x h g, first_exchange E role s x h g /\ k_session_id s = e_digest E (hash_input h).
Proof.
  intros E role s H32 (u & ops & R & O) NE.
  destruct (C13_first_exchange_hash E role H32 u ops s R O) as [[Z _]|(pre & k & post & x & h & g & L & N & H & X & EK & D)];
    [contradiction|].
  exists x, h, g. split; [|exact D]. exists pre, post. rewrite EK. auto.
Qed.

Theorem C91_same_session :
  forall HASH, (forall x, len (HASH x) = 32) ->
  forall EC c ES s,
  endpoint EC CLIENT c -> e_digest EC = HASH -> modest EC c ->
  endpoint ES SERVER s -> e_digest ES = HASH -> modest ES s ->
  k_session_id s <> [] -> k_session_id c = k_session_id s ->
  exists xc hc gc xs hs gs,
    first_exchange EC CLIENT c xc hc gc /\ server_verified EC hc gc /\
    first_exchange ES SERVER s xs hs gs /\ server_signed ES hs gs /\
    (hc = hs \/ collision HASH (hash_input hc) (hash_input hs)).
Proof.
  intros HASH H32 EC c ES s Sc Dc Mc Ss Ds Ms NE EQ.
  assert (Hc : forall x, len (e_digest EC x) = 32) by (rewrite Dc; exact H32).
  assert (Hs : forall x, len (e_digest ES x) = 32) by (rewrite Ds; exact H32).
  destruct (first_of EC CLIENT c Hc Sc ltac:(congruence)) as (xc & hc & gc & Fc & Ic).
  destruct (first_of ES SERVER s Hs Ss NE) as (xs & hs & gs & Fs & Is).
  exists xc, hc, gc, xs, hs, gs.
  pose proof Fc as (pc & tc & Lc & Nc & Hxc & Xc). pose proof Fs as (ps & ts & Ls & Ns & Hxs & Xs).
  pose proof (exchanged_little _ _ _ _ _ _ _ _ Mc Lc Hxc Xc) as Sm.
  pose proof (exchanged_little _ _ _ _ _ _ _ _ Ms Ls Hxs Xs) as Sm'.
  pose proof Sc as (uc & oc & Rc & Oc). pose proof Ss as (us & os & Rs & Os).
  split; [exact Fc|]. split.
  { destruct (kruns_Fin EC CLIENT Hc uc oc c Rc Oc) as ((G & _) & _).
    destruct (G _ _ _ Lc) as (ph & Hh & (z & h' & g' & -> & X' & EK & _ & P)).
    rewrite Hxc in Hh. injection Hh as <-.
    pose proof (exchanged_little _ _ _ _ _ _ _ _ Mc Lc Hxc X') as S1.
    destruct (exchanged_unique _ _ _ _ _ _ _ S1 Sm X' Xc EK) as [-> ->]. exact P. }
  split; [exact Fs|]. split.
  { destruct (kruns_Fin ES SERVER Hs us os s Rs Os) as ((G & _) & _).
    destruct (G _ _ _ Ls) as (ph & Hh & (z & h' & g' & -> & X' & EK & _ & P)).
    rewrite Hxs in Hh. injection Hh as <-.
    pose proof (exchanged_little _ _ _ _ _ _ _ _ Ms Ls Hxs X') as S1.
    destruct (exchanged_unique _ _ _ _ _ _ _ S1 Sm' X' Xs EK) as [-> ->]. exact P. }
  rewrite Ic, Is, Dc, Ds in EQ.
  destruct (list_eq_dec N.eq_dec (hash_input hc) (hash_input hs)) as [E|NQ]; [left|right; split; assumption].
  apply C15_injective; [| |exact E];
    [destruct Sm as (? & ? & ? & ? & ? & ? & ? & _)|destruct Sm' as (? & ? & ? & ? & ? & ? & ? & _)];
    unfold small; auto 10.
Qed.
Print Assumptions C91_same_session.

(** ... and with the same handshake, the ciphers of the first exchange are the
    same at both ends. *)
Theorem C91_same_ciphers :
  forall HASH, (forall x, len (HASH x) = 32) ->
  forall EC c ES s,
  endpoint EC CLIENT c -> e_digest EC = HASH -> modest EC c ->
  endpoint ES SERVER s -> e_digest ES = HASH -> modest ES s ->
  k_session_id s <> [] -> k_session_id c = k_session_id s ->
  (forall xc hc gc xs hs gs, first_exchange EC CLIENT c xc hc gc -> first_exchange ES SERVER s xs hs gs ->
     ~ collision HASH (hash_input hc) (hash_input hs)) ->
  (* packets consist of bytes *)
  (forall p, In (ERx p) (k_log c) \/ In (ETx p) (k_log c) -> bytes_ok p) ->
  forall f c1 c2 pre1 post1 pre2 post2,
  k_log c = pre1 ++ (match f with client_to_server => EOutCipher c1 | server_to_client => EInCipher c1 end) :: post1 ->
  k_log s = pre2 ++ (match f with client_to_server => EInCipher c2 | server_to_client => EOutCipher c2 end) :: post2 ->
  in_first_exchange pre1 -> in_first_exchange pre2 ->
  c_alg c1 = c_alg c2 /\ c_mac c1 = c_mac c2 /\ c_auth_size c1 = c_auth_size c2 /\
  c_key c1 = c_key c2 /\ c_iv c1 = c_iv c2 /\ c_mac_key c1 = c_mac_key c2 /\
  c_encrypt c1 = negb (c_encrypt c2).
Proof.
  intros HASH H32 EC c ES s Sc Dc Mc Ss Ds Ms NE EQ NC BO f c1 c2 pre1 post1 pre2 post2 L1 L2 I1 I2.
  assert (Hc : forall x, len (e_digest EC x) = 32) by (rewrite Dc; exact H32).
  assert (Hs : forall x, len (e_digest ES x) = 32) by (rewrite Ds; exact H32).
  destruct (C91_same_session HASH H32 EC c ES s Sc Dc Mc Ss Ds Ms NE EQ)
    as (xc & hc & gc & xs & hs & gs & Fc & _ & Fs & _ & [Eh|Co]); [|exfalso; exact (NC _ _ _ _ _ _ Fc Fs Co)].
  pose proof Sc as (uc & oc & Rc & Oc). pose proof Ss as (us & os & Rs & Os).
  destruct (kruns_Fin EC CLIENT Hc uc oc c Rc Oc) as ((G1 & _) & _).
  destruct (kruns_Fin ES SERVER Hs us os s Rs Os) as ((G2 & _) & _).
  assert (A : exists x1 g1, history CLIENT pre1 = Some (XRun x1) /\ exchanged CLIENT (e_version EC) x1 hc g1 /\
    negotiated_cipher CLIENT (match f with client_to_server => OUTGOING | _ => INCOMING end) x1 c1 /\
    derived_cipher HASH f hc (k_session_id c) c1).
  { destruct (G1 _ _ _ L1) as (ph1 & P1 & E1).
    destruct f; cbn [good_event] in E1; destruct E1 as (y1 & h1 & s1 & -> & _ & EX1 & K1 & N1 & D1);
      destruct (first_cipher EC CLIENT c Hc Sc Mc _ _ _ _ _ _ L1 I1 P1 K1 EX1) as (y & FE);
      destruct (first_exchange_unique _ _ _ _ _ _ _ _ _ Mc FE Fc) as (_ & -> & ->);
      exists y1, gc; rewrite Dc in D1; auto. }
  assert (B : exists x2 g2, history SERVER pre2 = Some (XRun x2) /\ exchanged SERVER (e_version ES) x2 hs g2 /\
    negotiated_cipher SERVER (match f with client_to_server => INCOMING | _ => OUTGOING end) x2 c2 /\
    derived_cipher HASH f hs (k_session_id s) c2).
  { destruct (G2 _ _ _ L2) as (ph2 & P2 & E2).
    destruct f; cbn [good_event] in E2; destruct E2 as (y2 & h2 & s2 & -> & _ & EX2 & K2 & N2 & D2);
      destruct (first_cipher ES SERVER s Hs Ss Ms _ _ _ _ _ _ L2 I2 P2 K2 EX2) as (y & FE);
      destruct (first_exchange_unique _ _ _ _ _ _ _ _ _ Ms FE Fs) as (_ & -> & ->);
      exists y2, gs; rewrite Ds in D2; auto. }
  destruct A as (x1 & g1 & P1 & X1 & N1 & D1). destruct B as (x2 & g2 & P2 & X2 & N2 & D2).
  subst hs. rewrite <- EQ in D2.
  assert (T1 : x_tx20 x1 = x_rx20 x2) by (destruct X1 as (_ & _ & _ & _ & -> & _), X2 as (_ & _ & _ & _ & _ & ->); reflexivity).
  assert (T2 : x_rx20 x1 = x_tx20 x2) by (destruct X1 as (_ & _ & _ & _ & _ & ->), X2 as (_ & _ & _ & _ & -> & _); reflexivity).
  assert (RP : forall p, field x1 p -> bytes_ok p /\ len p < pow32).
  { intros p Fp. destruct (history_source _ _ _ P1) as (_ & S2).
    assert (I : In (ERx p) (k_log c) \/ In (ETx p) (k_log c)).
    { destruct (S2 p Fp); [left|right]; rewrite L1; apply in_or_app; now left. }
    split; [exact (BO p I)|]. destruct Mc as [_ ML]. destruct I as [I|I]; exact (ML _ I). }
  assert (R1 : real_payload (x_tx20 x1)) by (intros p Hp; apply RP; unfold field; auto).
  assert (R2 : real_payload (x_rx20 x1)) by (intros p Hp; apply RP; unfold field; auto).
  destruct f.
  - eapply (same_cipher _ client_to_server x1 x2 hc _ c1 c2 OUTGOING INCOMING); try eassumption; reflexivity.
  - eapply (same_cipher _ server_to_client x1 x2 hc _ c1 c2 INCOMING OUTGOING); try eassumption; reflexivity.
Qed.
Print Assumptions C91_same_ciphers.

(** ** Logging in

    [signed_by blob session_id r]: the owner of the secret key for [blob] has
    signed the request [r] in the session [session_id].  [owner blob EC c]: a
    client of this owner has been at the end [c] of a connection.  Suppose
    signatures cannot be forged, and the owner's client signs only in its own
    sessions.
    Then somebody who logs in by a key signature is at the end of a connection
    whose other end is a client of the owner: the owner's client has verified
    the host key of this server and shares the secret with it. *)
Theorem C91_no_relay :
  forall HASH, (forall x, len (HASH x) = 32) ->
  forall ES s, endpoint ES SERVER s -> e_digest ES = HASH -> modest ES s -> k_session_id s <> [] ->
  forall cfg peer_address ops op user (signed_by : bytes -> bytes -> signed_request -> Prop)
    (owner : bytes -> kenv -> kstate -> Prop),
  Forall AuthSpec.op_ok ops -> Forall op_small ops ->
  (* signatures are not forged *)
  (forall blob message signature, cf_verify cfg blob message signature = Some true ->
     exists session_id' r, len session_id' < pow32 /\ Forall field_ok (request_fields r) /\
       signed_by blob session_id' r /\ message = signed_data session_id' (request_fields r)) ->
  (* who owns a key signs in their own sessions *)
  (forall blob session_id' r, signed_by blob session_id' r ->
     exists EC c, owner blob EC c /\ endpoint EC CLIENT c /\ e_digest EC = HASH /\ modest EC c /\ k_session_id c = session_id') ->
  let v := vrun cfg (k_session_id s) peer_address ops in
  let v' := vstep cfg (k_session_id s) op v in
  forall events, sv_log v' = sv_log v ++ events -> In (VAuthenticated user) events ->
  exists w payload, op = OAuth w /\ sv_busy v = Checking payload /\
   ((exists r signature EC c xc hc gc xs hs gs,
      payload = enc (request_fields r ++ [FString signature]) /\
      request_user r = user /\ signed_by (request_key r) (k_session_id s) r /\
      owner (request_key r) EC c /\ endpoint EC CLIENT c /\ k_session_id c = k_session_id s /\
      first_exchange EC CLIENT c xc hc gc /\ server_verified EC hc gc /\
      first_exchange ES SERVER s xs hs gs /\ server_signed ES hs gs /\
      (hc = hs \/ collision HASH (hash_input hc) (hash_input hs))) \/
    proves cfg (k_session_id s) w (ac_log (sv_account v')) payload user CPassword \/
    proves cfg (k_session_id s) w (ac_log (sv_account v')) payload user CWaived).
Proof.
  intros HASH H32 ES s Ss Ds Ms NE cfg peer ops op user signed_by owner O SM UF OWN v v' events L I.
  assert (Hs : forall x, len (e_digest ES x) = 32) by (rewrite Ds; exact H32).
  destruct (first_of ES SERVER s Hs Ss NE) as (x0 & h0 & g0 & _ & I0).
  assert (LS : len (k_session_id s) < pow32) by (rewrite I0, Hs; reflexivity).
  destruct (C31_no_replay cfg (k_session_id s) peer ops op user signed_by O SM LS UF events L I)
    as (w & payload & Eo & Eb & [(r & sg & EP & EU & SB)|[P|P]]);
    exists w, payload; (split; [exact Eo|]); (split; [exact Eb|]); [left|right; left; exact P|right; right; exact P].
  destruct (OWN _ _ _ SB) as (EC & c & Ow & Sc & Dc & Mc & Ec).
  destruct (C91_same_session HASH H32 EC c ES s Sc Dc Mc Ss Ds Ms NE Ec)
    as (xc & hc & gc & xs & hs & gs & Fc & Vc & Fs & Gs & X).
  exists r, sg, EC, c, xc, hc, gc, xs, hs, gs. auto 14.
Qed.
Print Assumptions C91_no_relay.

(** What a client has signed for another server does not help: if none of the
    owners' clients accepts a host key of this server, nobody logs
    in by a key signature, unless a collision was found. *)
Theorem C91_other_server :
  forall HASH, (forall x, len (HASH x) = 32) ->
  forall ES s, endpoint ES SERVER s -> e_digest ES = HASH -> modest ES s -> k_session_id s <> [] ->
  forall cfg peer_address ops op user (signed_by : bytes -> bytes -> signed_request -> Prop)
    (owner : bytes -> kenv -> kstate -> Prop),
  Forall AuthSpec.op_ok ops -> Forall op_small ops ->
  (forall blob message signature, cf_verify cfg blob message signature = Some true ->
     exists session_id' r, len session_id' < pow32 /\ Forall field_ok (request_fields r) /\
       signed_by blob session_id' r /\ message = signed_data session_id' (request_fields r)) ->
  (forall blob session_id' r, signed_by blob session_id' r ->
     exists EC c, owner blob EC c /\ endpoint EC CLIENT c /\ e_digest EC = HASH /\ modest EC c /\ k_session_id c = session_id') ->
  (* no client accepts a host key of this server *)
  (forall blob EC c accept key, owner blob EC c -> e_verify_host_key EC = Some accept -> accept (e_blob ES key) = false) ->
  (forall blob EC c xc hc gc xs hs gs, owner blob EC c ->
     first_exchange EC CLIENT c xc hc gc -> first_exchange ES SERVER s xs hs gs ->
     ~ collision HASH (hash_input hc) (hash_input hs)) ->
  let v := vrun cfg (k_session_id s) peer_address ops in
  let v' := vstep cfg (k_session_id s) op v in
  forall events, sv_log v' = sv_log v ++ events -> In (VAuthenticated user) events ->
  exists w payload, op = OAuth w /\ sv_busy v = Checking payload /\
   (proves cfg (k_session_id s) w (ac_log (sv_account v')) payload user CPassword \/
    proves cfg (k_session_id s) w (ac_log (sv_account v')) payload user CWaived).
Proof.
  intros HASH H32 ES s Ss Ds Ms NE cfg peer ops op user signed_by owner O SM UF OWN NA NC v v' events L I.
  destruct (C91_no_relay HASH H32 ES s Ss Ds Ms NE cfg peer ops op user signed_by owner O SM UF OWN events L I)
    as (w & payload & Eo & Eb & [H|H]); exists w, payload; (split; [exact Eo|]); (split; [exact Eb|]); [|exact H].
  exfalso. destruct H as (r & sg & EC & c & xc & hc & gc & xs & hs & gs & _ & _ & _ & Ow & _ & _ & Fc & (acc & Ea & Aa & _) & Fs & (key & alg & EK & _) & [<- | X]).
  - rewrite EK in Aa. rewrite (NA _ EC c acc key Ow Ea) in Aa. discriminate.
  - exact (NC _ _ _ _ _ _ _ _ _ Ow Fc Fs X).
Qed.
Print Assumptions C91_other_server.

(** ** A concrete case

    The client and the server of Proofs/KexToy.v; alice has signed once, in
    this session. *)
Definition end_of (role : Role) (ops : list kop) : kstate :=
  match krun role ops with Some s => s | None => new_connection false end.
Definition demo_client : kstate := end_of CLIENT client_ops.
Definition demo_server : kstate := end_of SERVER server_ops.

Definition honest (sid : bytes) : config :=
  let cfg := demo_config true in
  {| cf_translation_server := true; cf_authorized_host_keys := []; cf_global_keys := cf_global_keys cfg;
    cf_accept_client_address := false; cf_exec_reject_stderr := false; cf_verbose_errors := false;
    cf_proxy_to := cf_proxy_to cfg; cf_openssl := true; cf_base64 := cf_base64 cfg; cf_parse_key := cf_parse_key cfg;
    cf_verify := fun blob m sg => Some (bytes_eqb sg [1] && bytes_eqb blob (bs "KEY") &&
      bytes_eqb m (signed_data sid (request_fields (KeyRequest (bs "alice") 1 (bs "ssh-ed25519") (bs "KEY")))));
    cf_parse_address := cf_parse_address cfg |}.

Definition modestb (s : kstate) : bool :=
  forallb (fun e => match e with EVersion p | ERx p | ETx p => len p <? 65536 | _ => true end) (k_log s).
Lemma modestb_ok : forall E s, (len (e_version E) <? 65536) && modestb s = true -> modest E s.
Proof.
  intros E s H. apply andb_prop in H as [H1 H2]. split; [apply N.ltb_lt in H1; lia|].
  intros e I. unfold modestb in H2. rewrite forallb_forall in H2. specialize (H2 e I).
  destruct e; try exact Logic.I; apply N.ltb_lt in H2; lia.
Qed.

Lemma demo_ends : endpoint toy CLIENT demo_client /\ endpoint toy SERVER demo_server /\
  modest toy demo_client /\ modest toy demo_server /\
  k_session_id demo_server <> [] /\ k_session_id demo_client = k_session_id demo_server.
Proof.
  split; [|split; [|split; [|split; [|split]]]].
  - exists false, client_ops. split; [|okops]. apply krun_runs. vm_compute. reflexivity.
  - exists false, server_ops. split; [|okops]. apply krun_runs. vm_compute. reflexivity.
  - apply modestb_ok. vm_compute. reflexivity.
  - apply modestb_ok. vm_compute. reflexivity.
  - vm_compute. discriminate.
  - vm_compute. reflexivity.
Qed.

(** alice's signature logs them in at this server, and not in the session of
    another one *)
Definition alice_request : bytes :=
  enc (key_request (bs "alice") 1 (bs "ssh-ed25519") (bs "KEY") ++ [FString [1]]).

Example C91_demo :
  let sid := k_session_id demo_server in
  let signed_by blob sid' r := r = KeyRequest (bs "alice") 1 (bs "ssh-ed25519") blob /\ sid' = sid in
  let owner (blob : bytes) E c := E = toy /\ c = demo_client in
  (forall blob message signature, cf_verify (honest sid) blob message signature = Some true ->
     exists session_id' r, len session_id' < pow32 /\ Forall field_ok (request_fields r) /\
       signed_by blob session_id' r /\ message = signed_data session_id' (request_fields r)) /\
  (forall blob session_id' r, signed_by blob session_id' r ->
     exists EC c, owner blob EC c /\ endpoint EC CLIENT c /\ e_digest EC = e_digest toy /\ modest EC c /\
       k_session_id c = session_id') /\
  ac_authenticated (sv_account (vrun (honest sid) sid (bs "192.0.2.1") (demo_start ++ demo_attempt alice_request))) = true /\
  ac_authenticated (sv_account (vrun (honest sid) (bs "another") (bs "192.0.2.1") (demo_start ++ demo_attempt alice_request))) = false.
Proof.
  cbv zeta. split; [|split; [|split; vm_compute; reflexivity]].
  - intros blob m sg H. unfold honest in H. cbn [cf_verify] in H. apply Some_inj in H.
    apply andb_true_iff in H as [X M]. apply andb_true_iff in X as [_ X].
    apply bytes_eqb_eq in X. apply bytes_eqb_eq in M. subst blob.
    exists (k_session_id demo_server), (KeyRequest (bs "alice") 1 (bs "ssh-ed25519") (bs "KEY")).
    split; [vm_compute; reflexivity|]. split; [|split; [split; reflexivity|exact M]].
    cbn [request_fields]. unfold key_request. repeat (apply Forall_cons; [vm_compute; reflexivity|]). apply Forall_nil.
  - intros blob sid r [_ ->]. exists toy, demo_client. destruct demo_ends as (A & _ & B & _ & _ & C).
    split; [split; reflexivity|]. split; [exact A|]. split; [reflexivity|]. split; [exact B|exact C].
Qed.

(** the handshake of both is the same: there is no collision; the ciphers of
    the first exchange are in use *)
Definition demo_handshake : handshake := {|
  V_C := bs "SSH-2.0-toy"; V_S := bs "SSH-2.0-toy"; I_C := client_kexinit; I_S := server_kexinit;
  K_S := [7]; Q_C := [9; 3; 4]; Q_S := [9; 5; 6]; K := string_enc [18] |}.

Fixpoint cut (log : list kevent) : list kevent * list kevent :=
  match log with
  | [] => ([], [])
  | ESecret k :: post => ([], post)
  | e :: log => let '(a, b) := cut log in (e :: a, b)
  end.

Lemma cut_none : forall log k, ~ In (ESecret k) (fst (cut log)).
Proof.
  induction log as [|e log IH]; intro k; [intros []|]. cbn [cut].
  destruct (cut log) as [a b]. cbn [fst] in IH.
  destruct e; cbn [fst In]; try (intros [X|X]; [discriminate X|exact (IH k X)]). intros [].
Qed.

Lemma demo_first : forall role s, (role = CLIENT /\ s = demo_client) \/ (role = SERVER /\ s = demo_server) ->
  exists x g, first_exchange toy role s x demo_handshake g.
Proof.
  intros role s H.
  assert (L : k_log s = fst (cut (k_log s)) ++ ESecret (K demo_handshake) :: snd (cut (k_log s))).
  { destruct H as [[-> ->]|[-> ->]]; vm_compute; reflexivity. }
  assert (X : exists x, history role (fst (cut (k_log s))) = Some (XRun x) /\
     exchanged role (e_version toy) x demo_handshake (7 :: k_session_id s)).
  { destruct H as [[-> ->]|[-> ->]]; eexists; (split; [vm_compute; reflexivity|]);
      (split; [vm_compute; reflexivity|split; [vm_compute; reflexivity|]]);
      split; try (vm_compute; reflexivity); split; try (vm_compute; reflexivity); split; vm_compute; reflexivity. }
  destruct X as (x & X1 & X2). exists x, (7 :: k_session_id s).
  exists (fst (cut (k_log s))), (snd (cut (k_log s))). split; [exact L|]. split; [|auto].
  intro k. apply cut_none.
Qed.

Lemma byte_log : forall log,
  forallb (fun e => match e with ERx p | ETx p => forallb (fun b => b <? 256) p | _ => true end) log = true ->
  forall p, In (ERx p) log \/ In (ETx p) log -> bytes_ok p.
Proof.
  intros log B p I. rewrite forallb_forall in B.
  destruct I as [I|I]; specialize (B _ I); cbn beta iota in B;
    apply Forall_forall; intros b J; rewrite forallb_forall in B; now apply N.ltb_lt, B.
Qed.

Definition is_secret (e : kevent) : bool := match e with ESecret _ => true | _ => false end.
Definition once (log : list kevent) : bool := Nat.eqb (List.length (filter is_secret log)) 1.
Lemma none_left : forall log, filter is_secret log = [] -> forall k, ~ In (ESecret k) log.
Proof.
  intros log H k I. assert (X : In (ESecret k) (filter is_secret log)) by (apply filter_In; auto). rewrite H in X. exact X.
Qed.
Lemma once_first : forall log, once log = true -> in_first_exchange log.
Proof.
  unfold once. induction log as [|e log IH]; intro H; [discriminate H|]. cbn [filter] in H.
  destruct (is_secret e) eqn:Ee.
  - destruct e; try discriminate Ee. cbn in H. apply PeanoNat.Nat.eqb_eq, length_zero_iff_nil in H.
    eexists [], _, log. split; [reflexivity|]. split; [intros k' []|]. now apply none_left.
  - destruct (IH H) as (a & k & b & -> & N1 & N2). exists (e :: a), k, b. split; [reflexivity|]. split; [|exact N2].
    intros k' [-> | I]; [discriminate Ee|exact (N1 k' I)].
Qed.
Lemma once_out : forall log, match find_out [] log with Some (a, _, _) => once a | None => false end = true ->
  exists c a b, log = a ++ EOutCipher c :: b /\ in_first_exchange a.
Proof.
  intros log H. destruct (find_out [] log) as [[[a c] b]|] eqn:F; [|discriminate].
  exists c, a, b. split; [exact (find_out_ok _ _ _ _ _ F)|now apply once_first].
Qed.
Lemma once_in : forall log, match find_in [] log with Some (a, _, _) => once a | None => false end = true ->
  exists c a b, log = a ++ EInCipher c :: b /\ in_first_exchange a.
Proof.
  intros log H. destruct (find_in [] log) as [[[a c] b]|] eqn:F; [|discriminate].
  exists c, a, b. split; [exact (find_in_ok _ _ _ _ _ F)|now apply once_first].
Qed.

Example C91_ciphers_demo :
  (forall xc hc gc xs hs gs, first_exchange toy CLIENT demo_client xc hc gc -> first_exchange toy SERVER demo_server xs hs gs ->
     ~ collision (e_digest toy) (hash_input hc) (hash_input hs)) /\
  (forall p, In (ERx p) (k_log demo_client) \/ In (ETx p) (k_log demo_client) -> bytes_ok p) /\
  exists c1 c2 pre1 post1 pre2 post2, k_log demo_client = pre1 ++ EOutCipher c1 :: post1 /\
    k_log demo_server = pre2 ++ EInCipher c2 :: post2 /\ in_first_exchange pre1 /\ in_first_exchange pre2.
Proof.
  destruct demo_ends as (_ & _ & Mc & Ms & _). split; [|split].
  - intros xc hc gc xs hs gs Fc Fs [N _].
    destruct (demo_first CLIENT demo_client ltac:(auto)) as (x & g & F1).
    destruct (demo_first SERVER demo_server ltac:(auto)) as (x' & g' & F2).
    destruct (first_exchange_unique _ _ _ _ _ _ _ _ _ Mc Fc F1) as (_ & -> & _).
    destruct (first_exchange_unique _ _ _ _ _ _ _ _ _ Ms Fs F2) as (_ & -> & _). now apply N.
  - apply byte_log. vm_compute. reflexivity.
  - destruct (once_out (k_log demo_client)) as (c1 & a & b & L1 & O1); [vm_compute; reflexivity|].
    destruct (once_in (k_log demo_server)) as (c2 & a' & b' & L2 & O2); [vm_compute; reflexivity|].
    exists c1, c2, a, b, a', b'. split; [exact L1|]. split; [exact L2|]. split; [exact O1|exact O2].
Qed.

(** alice's client has been connected to another server, has accepted its host
    key and has signed there; this does not help at our server. *)
Definition toy' : kenv := {|
  e_digest := e_digest toy; e_version := e_version toy; e_host_key_algorithms := e_host_key_algorithms toy;
  e_choose := e_choose toy; e_blob := fun k => [k; k]; e_sign := fun k h alg => Some (k :: k :: h);
  e_verify_host_key := Some (fun b => bytes_eqb b [7; 7]);
  e_verify_signature := e_verify_signature toy; e_public := e_public toy; e_shared := e_shared toy |}.

Fixpoint kexec' (role : Role) (ops : list kop) (s : kstate) : kstate :=
  match ops with
  | [] => s
  | op :: ops => match kstep toy' role op s with Some s => kexec' role ops s | None => s end
  end.
Lemma kexec'_runs : forall role u ops pre s, kruns toy' role u pre s ->
  forallb (fun n => match kstep toy' role (nth n ops OpClose) (kexec' role (firstn n ops) s) with Some _ => true | None => false end)
    (seq 0 (List.length ops)) = true ->
  kruns toy' role u (pre ++ ops) (kexec' role ops s).
Proof.
  intros role u ops. induction ops as [|op ops IH]; intros pre s R H; cbn [kexec'].
  - now rewrite app_nil_r.
  - cbn [List.length seq forallb nth firstn kexec'] in H. apply andb_prop in H as [H1 H2].
    destruct (kstep toy' role op s) as [t|] eqn:Et; [|discriminate].
    replace (pre ++ op :: ops) with ((pre ++ [op]) ++ ops) by (rewrite <- app_assoc; reflexivity).
    apply IH; [eapply kruns_snoc; eassumption|].
    rewrite <- seq_shift in H2. apply forallb_forall. intros n I. rewrite forallb_forall in H2.
    specialize (H2 (Datatypes.S n) (in_map Datatypes.S _ _ I)). cbn [nth firstn kexec'] in H2. now rewrite Et in H2.
Qed.

Definition other_server : kstate := kexec' SERVER server_ops (new_connection false).
Definition other_client_ops : list kop :=
  OpVersion (bs "SSH-2.0-toy") (rnd 3) :: map cpkt (sent (k_log other_server)).
Definition other_client : kstate := kexec' CLIENT other_client_ops (new_connection false).

Lemma first_id : forall E role s x h g, (forall x, len (e_digest E x) = 32) -> endpoint E role s -> modest E s ->
  first_exchange E role s x h g -> k_session_id s <> [] -> k_session_id s = e_digest E (hash_input h).
Proof.
  intros E role s x h g H32 S M F NE. destruct (first_of E role s H32 S NE) as (x' & h' & g' & F' & ->).
  now destruct (first_exchange_unique _ _ _ _ _ _ _ _ _ M F F') as (_ & -> & _).
Qed.

Example C91_other_demo :
  let sid := k_session_id demo_server in
  let sid' := k_session_id other_client in
  let signed_by blob id r := r = KeyRequest (bs "alice") 1 (bs "ssh-ed25519") blob /\ id = sid' in
  let owner (blob : bytes) E c := E = toy' /\ c = other_client in
  (forall blob message signature, cf_verify (honest sid') blob message signature = Some true ->
     exists session_id' r, len session_id' < pow32 /\ Forall field_ok (request_fields r) /\
       signed_by blob session_id' r /\ message = signed_data session_id' (request_fields r)) /\
  (forall blob session_id' r, signed_by blob session_id' r ->
     exists EC c, owner blob EC c /\ endpoint EC CLIENT c /\ e_digest EC = e_digest toy /\ modest EC c /\
       k_session_id c = session_id') /\
  (forall blob EC c accept key, owner blob EC c -> e_verify_host_key EC = Some accept -> accept (e_blob toy key) = false) /\
  (forall blob EC c xc hc gc xs hs gs, owner blob EC c ->
     first_exchange EC CLIENT c xc hc gc -> first_exchange toy SERVER demo_server xs hs gs ->
     ~ collision (e_digest toy) (hash_input hc) (hash_input hs)) /\
  map (fun p => ac_authenticated (sv_account (vrun (honest sid') sid (bs "192.0.2.1") (demo_start ++ demo_attempt p))))
    [demo_password_request (bs "alice") (bs "secret"); alice_request] = [true; false] /\
  ac_authenticated (sv_account (vrun (honest sid') sid' (bs "192.0.2.1") (demo_start ++ demo_attempt alice_request))) = true.
Proof.
  assert (R : endpoint toy' CLIENT other_client).
  { exists false, other_client_ops. split; [|okops].
    apply (kexec'_runs CLIENT false other_client_ops [] _ (kruns_nil _ _ _)). vm_compute. reflexivity. }
  assert (M : modest toy' other_client) by (apply modestb_ok; vm_compute; reflexivity).
  assert (NE : k_session_id other_client <> []) by (vm_compute; discriminate).
  assert (DI : k_session_id other_client <> k_session_id demo_server) by (vm_compute; discriminate).
  destruct demo_ends as (_ & Ss & _ & Ms & NE' & _).
  cbv zeta. split; [|split; [|split; [|split; [|split; vm_compute; reflexivity]]]].
  - intros blob m sg H. unfold honest in H. cbn [cf_verify] in H. apply Some_inj in H.
    apply andb_true_iff in H as [X Q]. apply andb_true_iff in X as [_ X].
    apply bytes_eqb_eq in X. apply bytes_eqb_eq in Q. subst blob.
    exists (k_session_id other_client), (KeyRequest (bs "alice") 1 (bs "ssh-ed25519") (bs "KEY")).
    split; [vm_compute; reflexivity|]. split; [|split; [split; reflexivity|exact Q]].
    cbn [request_fields]. unfold key_request. repeat (apply Forall_cons; [vm_compute; reflexivity|]). apply Forall_nil.
  - intros blob id r [_ ->]. exists toy', other_client.
    split; [split; reflexivity|]. split; [exact R|]. split; [reflexivity|]. split; [exact M|reflexivity].
  - intros blob EC c acc key [-> _] A. cbn [toy' e_verify_host_key] in A. apply Some_inj in A. subst acc.
    cbn. now rewrite andb_false_r.
  - intros blob EC c xc hc gc xs hs gs [-> ->] Fc Fs [_ D].
    apply (first_id toy' _ _ _ _ _ toy32 R M) in Fc; [|exact NE]. apply (first_id _ _ _ _ _ _ toy32 Ss Ms) in Fs; [|exact NE'].
    change (e_digest toy') with (e_digest toy) in Fc. apply DI. now rewrite Fc, Fs.
Qed.
