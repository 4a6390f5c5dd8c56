(** * C53: both ends of a handshake put the same ciphers into use *)

From Coq Require Import NArith Arith List Bool Lia String.
From Verif.Base Require Import Bytes.
From Verif.Spec Require Import WireSpec PacketSpec NamesSpec KexSpec.
From Verif.Model Require Import Wire Frame Packets StringList Negotiate KexKeys KexMachine.
From Verif.Proofs Require Import WireFacts PacketFacts NamesFacts KexKeysFacts KexFacts KexFrame KexStrict KexLog KexAuth KexToy.
Import ListNotations.
Open Scope N_scope.

(** The messages of the exchange arrived as they were sent: [xc] is the
    exchange as the client saw it, [xs] as the server saw it. *)
Record same_exchange (my_version_c my_version_s : bytes) (xc xs : progress) : Prop := {
  se_vc : x_version xs = my_version_c;
  se_vs : x_version xc = my_version_s;
  se_ic : x_tx20 xc = x_rx20 xs;
  se_is : x_rx20 xc = x_tx20 xs;
  se_init : x_init xc = x_init xs;
  se_reply : x_reply xc = x_reply xs;
  se_secret : x_secret xc = x_secret xs
}.

(** payloads are bytes and not larger than 4 GB *)
Definition real_payload (o : option bytes) : Prop :=
  forall p, o = Some p -> bytes_ok p /\ len p < pow32.

(** ** Everything is determined by the exchange *)

Lemma first_common_unique : forall c s a b, first_common c s a -> first_common c s b -> a = b.
Proof.
  intros c s a b (u & v & -> & Ha & Hu) (u' & v' & E & Hb & Hu').
  revert u' E Hu'. induction u as [|x u IH]; intros [|y u'] E Hu'; cbn in E.
  - congruence.
  - injection E as -> E. exfalso. eapply Hu'; [now left|exact Ha].
  - injection E as -> E. exfalso. eapply Hu; [now left|exact Hb].
  - injection E as -> E. apply (IH ltac:(intros n Hn; apply Hu; now right) u' E).
    intros n Hn. apply Hu'. now right.
Qed.

Lemma on_list_swap : forall a b x y, on_list CLIENT a b x -> on_list SERVER b a y -> x = y.
Proof.
  intros a b x y (n1 & n2 & A1 & A2 & F1) (m1 & m2 & B1 & B2 & F2).
  rewrite (name_list_unique _ _ A1), (name_list_unique _ _ A2) in F1.
  rewrite (name_list_unique _ _ B1), (name_list_unique _ _ B2) in F2.
  eapply first_common_unique; eassumption.
Qed.

Lemma stream_grows : forall HASH k h sid l d n, (0 < n)%nat ->
  exists r, key_stream HASH k h sid l (n + d) = key_stream HASH k h sid l n ++ r.
Proof.
  intros HASH k h sid l d n Hn. induction d as [|d IH].
  - exists []. now rewrite Nat.add_0_r, app_nil_r.
  - destruct IH as (r & IH). rewrite Nat.add_succ_r.
    destruct (n + d)%nat as [|m] eqn:E; [lia|]. rewrite <- E in *.
    exists (r ++ HASH (k ++ h ++ key_stream HASH k h sid l (n + d))).
    replace (key_stream HASH k h sid l (S (n + d))) with
      (key_stream HASH k h sid l (n + d) ++ HASH (k ++ h ++ key_stream HASH k h sid l (n + d)))
      by (rewrite E; reflexivity).
    rewrite IH at 1. now rewrite <- app_assoc.
Qed.

Lemma prefix_same : forall A (a b r r' : list A), len a = len b -> a ++ r = b ++ r' -> a = b.
Proof. intros A a b r r' H E. now apply app_inj_len in E as [-> _]. Qed.

Lemma derived_unique : forall HASH k h sid l a b, len a = len b ->
  derived_key HASH k h sid l a -> derived_key HASH k h sid l b -> a = b.
Proof.
  intros HASH k h sid l a b Hl (n & r & Ha) (m & t & Hb).
  destruct n as [|n].
  { cbn in Ha. symmetry in Ha. apply app_eq_nil in Ha as [-> _]. rewrite len_nil in Hl.
    destruct b; [reflexivity|rewrite len_cons in Hl; lia]. }
  destruct m as [|m].
  { cbn in Hb. symmetry in Hb. apply app_eq_nil in Hb as [-> _]. rewrite len_nil in Hl.
    destruct a; [reflexivity|rewrite len_cons in Hl; lia]. }
  destruct (stream_grows HASH k h sid l (S m) (S n) ltac:(lia)) as (r1 & E1).
  destruct (stream_grows HASH k h sid l (S n) (S m) ltac:(lia)) as (r2 & E2).
  rewrite Nat.add_comm in E2. rewrite E1, Ha, Hb, <- !app_assoc in E2.
  eapply prefix_same; eassumption.
Qed.

Lemma sizes_unique : forall alg a b c d, In (alg, (a, b)) cipher_sizes -> In (alg, (c, d)) cipher_sizes -> a = c /\ b = d.
Proof.
  intros alg a b c d H1 H2. unfold cipher_sizes in H1. cbn [In] in H1.
  repeat (destruct H1 as [H1|H1]; [apply pair_equal_spec in H1 as [<- H1]; injection H1 as <- <-; vm_compute in H2;
    repeat (destruct H2 as [H2|H2]; [try discriminate; injection H2 as <- <-; split; reflexivity|]); destruct H2|]).
  destruct H1.
Qed.

Lemma layout_unique : forall raw a1 a2 a3 a4 a5 a6 a7 b1 b2 b3 b4 b5 b6 b7, bytes_ok raw ->
  kexinit_layout raw a1 a2 a3 a4 a5 a6 a7 -> kexinit_layout raw b1 b2 b3 b4 b5 b6 b7 ->
  a3 = b3 /\ a4 = b4 /\ a5 = b5 /\ a6 = b6.
Proof.
  intros raw a1 a2 a3 a4 a5 a6 a7 b1 b2 b3 b4 b5 b6 b7 Hb H1 H2.
  apply (ParseKexInit_exact _ _ _ _ _ _ _ _ Hb) in H1. apply (ParseKexInit_exact _ _ _ _ _ _ _ _ Hb) in H2.
  rewrite H1 in H2. injection H2 as <- <- <- <- <- <- <-. auto.
Qed.

Lemma len_string_enc : forall s, len (string_enc s) = 4 + len s.
Proof. intro s. unfold string_enc. now rewrite len_app, len_be32. Qed.

Lemma reply_unique : forall p a b c a' b' c', len p < pow32 ->
  p = 31 :: string_enc a ++ string_enc b ++ string_enc c ->
  p = 31 :: string_enc a' ++ string_enc b' ++ string_enc c' -> a = a' /\ b = b' /\ c = c'.
Proof.
  intros p a b c a' b' c' Hp H1 H2.
  assert (L1 := f_equal (@len N) H1). assert (L2 := f_equal (@len N) H2).
  rewrite len_cons, !len_app, !len_string_enc in L1, L2.
  rewrite H2 in H1. apply (f_equal (@tl N)) in H1. cbn [tl] in H1.
  apply string_enc_inj in H1 as [-> H1]; [|lia|lia].
  apply string_enc_inj in H1 as [-> H1]; [|lia|lia].
  rewrite <- (app_nil_r (string_enc c')), <- (app_nil_r (string_enc c)) in H1.
  apply string_enc_inj in H1 as [-> _]; [auto|lia|lia].
Qed.

Lemma init_unique : forall p a a', len p < pow32 ->
  p = 30 :: string_enc a -> p = 30 :: string_enc a' -> a = a'.
Proof.
  intros p a a' Hp H1 H2.
  assert (L1 := f_equal (@len N) H1). assert (L2 := f_equal (@len N) H2).
  rewrite len_cons, len_string_enc in L1, L2. rewrite H2 in H1. apply (f_equal (@tl N)) in H1. cbn [tl] in H1.
  rewrite <- (app_nil_r (string_enc a')), <- (app_nil_r (string_enc a)) in H1.
  apply string_enc_inj in H1 as [-> _]; [auto|lia|lia].
Qed.

(** client and server have exchanged the same *)
Lemma same_handshake : forall vc vs xc xs hc sc hs ss,
  same_exchange vc vs xc xs -> real_payload (x_init xc) -> real_payload (x_reply xc) ->
  exchanged CLIENT vc xc hc sc -> exchanged SERVER vs xs hs ss ->
  x_secret xc = Some (K hc) -> x_secret xs = Some (K hs) -> hc = hs /\ sc = ss.
Proof.
  intros vc vs xc xs hc sc hs ss [V1 V2 I1 I2 In Re Se] Ri Rr (A1 & A2 & A3 & A4 & A5 & A6) (B1 & B2 & B3 & B4 & B5 & B6) S1 S2.
  rewrite In, B1 in A1. apply Some_inj in A1. rewrite Re, B2 in A2. apply Some_inj in A2.
  rewrite I1, B6 in A5. apply Some_inj in A5. rewrite I2, B5 in A6. apply Some_inj in A6.
  rewrite Se, S2 in S1. apply Some_inj in S1. rewrite V1 in B4. rewrite V2 in A4.
  destruct (Ri (30 :: string_enc (Q_C hs))) as [_ L1]; [now rewrite In|].
  destruct (Rr (31 :: string_enc (K_S hs) ++ string_enc (Q_S hs) ++ string_enc ss)) as [_ L2]; [now rewrite Re|].
  pose proof (init_unique _ _ _ L1 eq_refl A1) as Q1.
  destruct (reply_unique _ _ _ _ _ _ _ L2 eq_refl A2) as (Q2 & Q3 & Q4).
  destruct hc, hs. cbn in *. split; congruence.
Qed.

(** what one end may use for a flow is what the other end may use *)
Lemma same_cipher : forall HASH f xc xs h sid c1 c2 d1 d2,
  x_tx20 xc = x_rx20 xs -> x_rx20 xc = x_tx20 xs -> real_payload (x_tx20 xc) -> real_payload (x_rx20 xc) ->
  flow_of CLIENT d1 = f -> flow_of SERVER d2 = f ->
  negotiated_cipher CLIENT d1 xc c1 -> negotiated_cipher SERVER d2 xs c2 ->
  derived_cipher HASH f h sid c1 -> derived_cipher HASH f h sid c2 ->
  c_alg c1 = c_alg c2 /\ c_mac c1 = c_mac c2 /\ c_auth_size c1 = c_auth_size c2 /\
  c_key c1 = c_key c2 /\ c_iv c1 = c_iv c2 /\ c_mac_key c1 = c_mac_key c2 /\
  c_encrypt c1 = negb (c_encrypt c2).
Proof.
  intros HASH f xc xs h sid c1 c2 d1 d2 I1 I2 R1 R2 F1 F2 N1 N2 D1 D2.
  unfold negotiated_cipher in N1, N2. rewrite F1 in N1. rewrite F2 in N2.
  destruct N1 as (N0 & N1). destruct N2 as (M0 & N2).
  destruct N1 as (m1 & p1 & a1 & a2 & a3 & a4 & a5 & a6 & a7 & b1 & b2 & b3 & b4 & b5 & b6 & b7 & T1 & L1 & P1 & L2 & O1 & A1).
  destruct N2 as (m2 & p2 & s1 & s2 & s3 & s4 & s5 & s6 & s7 & t1 & t2 & t3 & t4 & t5 & t6 & t7 & T2 & K1 & P2 & K2 & O2 & A2).
  rewrite I1, P2 in T1. injection T1 as ->. rewrite I2, T2 in P1. injection P1 as ->.
  assert (B1 : bytes_ok m1) by (destruct (R1 _ (eq_trans I1 P2)) as [B _]; now apply Forall_inv_tail in B).
  assert (B2 : bytes_ok p1) by (destruct (R2 _ (eq_trans I2 T2)) as [B _]; now apply Forall_inv_tail in B).
  destruct (layout_unique _ _ _ _ _ _ _ _ _ _ _ _ _ _ _ B1 L1 K2) as (-> & -> & -> & ->).
  destruct (layout_unique _ _ _ _ _ _ _ _ _ _ _ _ _ _ _ B2 L2 K1) as (-> & -> & -> & ->).
  pose proof (on_list_swap _ _ _ _ O1 O2) as EA.
  assert (EM : c_mac c1 = c_mac c2 /\ c_auth_size c1 = c_auth_size c2).
  { destruct A1 as [(A1 & M1 & Z1)|(A1 & Z1 & mac1 & M1 & OM1)], A2 as [(A2 & M2 & Z2)|(A2 & Z2 & mac2 & M2 & OM2)].
    - split; congruence.
    - exfalso. apply A2. now rewrite <- EA.
    - exfalso. apply A1. now rewrite EA.
    - split; [|congruence]. rewrite M1, M2. f_equal. eapply on_list_swap; eassumption. }
  destruct EM as [EM EZ].
  unfold derived_cipher in D1, D2. destruct (letters f) as [[li lk] lm].
  destruct D1 as (S1 & Q1 & Q1' & X1 & X2 & X3). destruct D2 as (S2 & Q2 & Q2' & Y1 & Y2 & Y3).
  rewrite EA in S1. destruct (sizes_unique _ _ _ _ _ S1 S2) as [Lk Li].
  repeat split; try assumption.
  - eapply derived_unique; eassumption.
  - eapply derived_unique; eassumption.
  - eapply derived_unique; [|eassumption|eassumption].
    destruct (c_mac c1) as [mm|] eqn:E1.
    + rewrite Q1 by discriminate. rewrite Q2 by congruence. reflexivity.
    + rewrite Q1', Q2' by congruence. reflexivity.
  - rewrite N0, M0. destruct d1, d2; cbn in F1, F2; try reflexivity; congruence.
Qed.

(** ** The theorem *)

(** If the messages of an exchange arrive unchanged and both sides compute
    the same shared secret and have the same session id, then what the
    client uses for sending is what the server uses for receiving and vice
    versa: the same algorithms with the same keys. *)
Theorem C53_ciphers_match :
  forall Ec Es, e_digest Ec = e_digest Es -> (forall x, len (e_digest Ec x) = 32) ->
  forall uc us opc ops cl sv,
  kruns Ec CLIENT uc opc cl -> Forall op_ok opc -> kruns Es SERVER us ops sv -> Forall op_ok ops ->
  k_session_id cl = k_session_id sv ->
  forall f c1 c2 pre1 post1 pre2 post2 x1 x2,
  k_log cl = pre1 ++ (match f with client_to_server => EOutCipher c1 | server_to_client => EInCipher c1 end) :: post1 ->
  k_log sv = pre2 ++ (match f with client_to_server => EInCipher c2 | server_to_client => EOutCipher c2 end) :: post2 ->
  history CLIENT pre1 = Some (XRun x1) -> history SERVER pre2 = Some (XRun x2) ->
  same_exchange (e_version Ec) (e_version Es) x1 x2 ->
  real_payload (x_tx20 x1) -> real_payload (x_rx20 x1) -> real_payload (x_init x1) -> real_payload (x_reply x1) ->
  c_alg c1 = c_alg c2 /\ c_mac c1 = c_mac c2 /\ c_auth_size c1 = c_auth_size c2 /\
  c_key c1 = c_key c2 /\ c_iv c1 = c_iv c2 /\ c_mac_key c1 = c_mac_key c2 /\
  c_encrypt c1 = negb (c_encrypt c2).
Proof.
  intros Ec Es ED H32 uc us opc ops cl sv Hc Oc Hs Os Hsid f c1 c2 pre1 post1 pre2 post2 x1 x2 L1 L2 X1 X2 SE R1 R2 R3 R4.
  destruct (kruns_Fin Ec CLIENT H32 uc opc cl Hc Oc) as ((G1 & _) & _).
  destruct (kruns_Fin Es SERVER ltac:(rewrite <- ED; exact H32) us ops sv Hs Os) as ((G2 & _) & _).
  destruct (G1 _ _ _ L1) as (ph1 & P1 & E1). destruct (G2 _ _ _ L2) as (ph2 & P2 & E2).
  rewrite X1 in P1. injection P1 as <-. rewrite X2 in P2. injection P2 as <-.
  destruct f; cbn [good_event] in E1, E2;
  destruct E1 as (y1 & h1 & s1 & Y1 & _ & EX1 & K1 & N1 & D1); injection Y1 as <-;
  destruct E2 as (y2 & h2 & s2 & Y2 & _ & EX2 & K2 & N2 & D2); injection Y2 as <-;
  destruct (same_handshake _ _ _ _ _ _ _ _ SE R3 R4 EX1 EX2 K1 K2) as [<- _];
  rewrite <- ED, <- Hsid in D2.
  - eapply (same_cipher _ client_to_server x1 x2 h1 _ c1 c2 OUTGOING INCOMING); try eassumption; try reflexivity; apply SE.
  - eapply (same_cipher _ server_to_client x1 x2 h1 _ c1 c2 INCOMING OUTGOING); try eassumption; try reflexivity; apply SE.
Qed.
Print Assumptions C53_ciphers_match.

(** The session ids agree if the first exchange was the same. *)
Theorem C53_session_ids_match :
  forall Ec Es, e_digest Ec = e_digest Es -> (forall x, len (e_digest Ec x) = 32) ->
  forall uc us opc ops cl sv,
  kruns Ec CLIENT uc opc cl -> Forall op_ok opc -> kruns Es SERVER us ops sv -> Forall op_ok ops ->
  (* the first derivation of keys on each side *)
  forall pre1 k1 post1 pre2 k2 post2 x1 x2,
  k_log cl = pre1 ++ ESecret k1 :: post1 -> (forall k, ~ In (ESecret k) pre1) ->
  k_log sv = pre2 ++ ESecret k2 :: post2 -> (forall k, ~ In (ESecret k) pre2) ->
  history CLIENT pre1 = Some (XRun x1) -> history SERVER pre2 = Some (XRun x2) ->
  same_exchange (e_version Ec) (e_version Es) (with_secret k1 x1) (with_secret k2 x2) ->
  real_payload (x_init x1) -> real_payload (x_reply x1) ->
  k_session_id cl = k_session_id sv.
Proof.
  intros Ec Es ED H32 uc us opc ops cl sv Hc Oc Hs Os pre1 k1 post1 pre2 k2 post2 x1 x2 L1 F1 L2 F2 X1 X2 SE R3 R4.
  assert (U : forall log pre k post pre' k' post', log = pre ++ ESecret k :: post -> (forall k, ~ In (ESecret k) pre) ->
     log = pre' ++ ESecret k' :: post' -> (forall k, ~ In (ESecret k) pre') -> pre = pre' /\ k = k').
  { clear. intros log pre k post. revert log. induction pre as [|e pre IH]; intros log [|e' pre'] k' post' -> N E N'; cbn in E.
    - injection E as -> _. auto.
    - injection E as <- _. exfalso. eapply N'. now left.
    - injection E as -> _. exfalso. eapply N. now left.
    - injection E as -> E. destruct (IH _ pre' k' post' eq_refl) with (2 := E) as [-> ->]; [| |auto].
      + intros q Hq. eapply N. right. exact Hq.
      + intros q Hq. eapply N'. right. exact Hq. }
  assert (V : forall E role u ops s, (forall x, len (e_digest E x) = 32) -> kruns E role u ops s -> Forall op_ok ops ->
    forall pre k post x, k_log s = pre ++ ESecret k :: post -> (forall k, ~ In (ESecret k) pre) ->
    history role pre = Some (XRun x) ->
    exists h sig, exchanged role (e_version E) x h sig /\ K h = k /\ k_session_id s = e_digest E (hash_input h)).
  { intros E role u o s H Hr Ho pre k post x L F X.
    destruct (kruns_Fin E role H u o s Hr Ho) as ((_ & [(_ & S)|(_ & pre' & k' & post' & x' & h & sig & L' & F' & X' & EX & EK & ES)]) & _).
    - exfalso. apply (S k). rewrite L. apply in_or_app. right. now left.
    - destruct (U _ _ _ _ _ _ _ L F L' F') as [<- <-]. rewrite X in X'. injection X' as <-. exists h, sig. auto. }
  destruct (V _ _ _ _ _ H32 Hc Oc _ _ _ _ L1 F1 X1) as (h1 & s1 & EX1 & K1 & ->).
  destruct (V _ _ _ _ _ ltac:(rewrite <- ED; exact H32) Hs Os _ _ _ _ L2 F2 X2) as (h2 & s2 & EX2 & K2 & ->).
  assert (EX1' : exchanged CLIENT (e_version Ec) (with_secret k1 x1) h1 s1) by exact EX1.
  assert (EX2' : exchanged SERVER (e_version Es) (with_secret k2 x2) h2 s2) by exact EX2.
  destruct (same_handshake _ _ _ _ _ _ _ _ SE R3 R4 EX1' EX2') as [-> _]; [cbn; congruence|cbn; congruence|].
  now rewrite ED.
Qed.
Print Assumptions C53_session_ids_match.

(** Witness: a client and a server of one exchange. *)
Fixpoint find_out (pre log : list kevent) : option (list kevent * cipher * list kevent) :=
  match log with
  | [] => None
  | EOutCipher c :: l => Some (pre, c, l)
  | e :: l => find_out (pre ++ [e]) l
  end.
Fixpoint find_in (pre log : list kevent) : option (list kevent * cipher * list kevent) :=
  match log with
  | [] => None
  | EInCipher c :: l => Some (pre, c, l)
  | e :: l => find_in (pre ++ [e]) l
  end.

Lemma find_out_ok : forall log pre a c b, find_out pre log = Some (a, c, b) -> pre ++ log = a ++ EOutCipher c :: b.
Proof.
  induction log as [|e l IH]; intros pre a c b H; [discriminate|].
  destruct e; cbn in H; try (apply IH in H; rewrite <- app_assoc in H; exact H). injection H as -> -> ->. reflexivity.
Qed.
Lemma find_in_ok : forall log pre a c b, find_in pre log = Some (a, c, b) -> pre ++ log = a ++ EInCipher c :: b.
Proof.
  induction log as [|e l IH]; intros pre a c b H; [discriminate|].
  destruct e; cbn in H; try (apply IH in H; rewrite <- app_assoc in H; exact H). injection H as -> -> ->. reflexivity.
Qed.

Lemma real_payload_check : forall o, match o with None => true | Some p => forallb (fun b => b <? 256) p && (len p <? pow32) end = true ->
  real_payload o.
Proof.
  intros o H p ->. apply andb_prop in H as [H1 H2]. split; [|now apply N.ltb_lt].
  apply Forall_forall. intros x Hx. rewrite forallb_forall in H1. apply N.ltb_lt, (H1 x Hx).
Qed.

Example C53_witness : exists cl sv c1 c2 pre1 post1 pre2 post2 x1 x2,
  kruns toy CLIENT false client_ops cl /\ kruns toy SERVER false server_ops sv /\
  Forall op_ok client_ops /\ Forall op_ok server_ops /\ k_session_id cl = k_session_id sv /\
  k_log cl = pre1 ++ EOutCipher c1 :: post1 /\ k_log sv = pre2 ++ EInCipher c2 :: post2 /\
  history CLIENT pre1 = Some (XRun x1) /\ history SERVER pre2 = Some (XRun x2) /\
  same_exchange (e_version toy) (e_version toy) x1 x2 /\
  real_payload (x_tx20 x1) /\ real_payload (x_rx20 x1) /\ real_payload (x_init x1) /\ real_payload (x_reply x1).
Proof.
  destruct (krun CLIENT client_ops) as [cl|] eqn:E1; [|vm_compute in E1; discriminate].
  destruct (krun SERVER server_ops) as [sv|] eqn:E2; [|vm_compute in E2; discriminate].
  assert (R1 := krun_runs _ _ _ E1). assert (R2 := krun_runs _ _ _ E2).
  vm_compute in E1. vm_compute in E2. injection E1 as E1. injection E2 as E2.
  destruct (find_out [] (k_log cl)) as [[[a c1] b]|] eqn:F1; [|rewrite <- E1 in F1; vm_compute in F1; discriminate].
  destruct (find_in [] (k_log sv)) as [[[a' c2] b']|] eqn:F2; [|rewrite <- E2 in F2; vm_compute in F2; discriminate].
  pose proof (find_out_ok _ _ _ _ _ F1) as L1. pose proof (find_in_ok _ _ _ _ _ F2) as L2. cbn [app] in L1, L2.
  assert (Q1 : exists x1, history CLIENT a = Some (XRun x1) /\
     x1 = match history CLIENT a with Some (XRun x) => x | _ => idle [] end).
  { rewrite <- E1 in F1. vm_compute in F1. injection F1 as <- _ _. eexists. split; vm_compute; reflexivity. }
  assert (Q2 : exists x2, history SERVER a' = Some (XRun x2) /\
     x2 = match history SERVER a' with Some (XRun x) => x | _ => idle [] end).
  { rewrite <- E2 in F2. vm_compute in F2. injection F2 as <- _ _. eexists. split; vm_compute; reflexivity. }
  destruct Q1 as (x1 & H1 & V1). destruct Q2 as (x2 & H2 & V2).
  exists cl, sv, c1, c2, a, b, a', b', x1, x2.
  split; [exact R1|]. split; [exact R2|]. split; [okops|]. split; [okops|].
  rewrite <- E1 in F1. vm_compute in F1. injection F1 as <- _ _. rewrite <- E2 in F2. vm_compute in F2. injection F2 as <- _ _.
  vm_compute in V1. vm_compute in V2.
  split; [rewrite <- E1, <- E2; reflexivity|]. split; [exact L1|]. split; [exact L2|]. split; [exact H1|]. split; [exact H2|].
  subst x1 x2. split; [constructor; vm_compute; reflexivity|].
  split; [|split; [|split]]; apply real_payload_check; vm_compute; reflexivity.
Qed.
