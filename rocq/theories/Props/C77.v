(** * C77: both ends of a key exchange compute the same secret *)

From Coq Require Import NArith Arith List Bool Lia String.
From Verif.Base Require Import Bytes.
From Verif.Spec Require Import WireSpec PacketSpec NamesSpec KexSpec CurveSpec.
From Verif.Model Require Import Wire Frame Packets StringList Negotiate KexKeys KexMachine Keys KexSecret.
From Verif.Proofs Require Import WireFacts PacketFacts NamesFacts BignumFacts KeyFormatFacts KexKeysFacts KexFacts KexFrame KexStrict KexLog KexAuth KexToy.
From Verif.Props Require Import C53.
Import ListNotations.
Open Scope N_scope.
Local Arguments string_enc : simpl never.

Lemma is_zero_value : forall z, bytes_ok z -> (sodium_is_zero z = true <-> be_value z = 0).
Proof.
  induction z as [|b z IH]; intros O; [split; reflexivity|]. inversion O as [|? ? B O']; subst. cbn [sodium_is_zero forallb]. rewrite be_value_cons, andb_true_iff.
  fold (sodium_is_zero z). rewrite (IH O'), N.eqb_eq. assert (P : 256 ^ len z <> 0) by (apply N.pow_nonzero; discriminate). nia.
Qed.

Lemma mpint_len : forall z, len (mpint z) <= 1 + len z.
Proof.
  intros z. pose proof (Count_len z). unfold mpint. destruct (LeadingMsb _); rewrite ?len_cons; lia.
Qed.

Lemma nested_mpint : forall f z, len z <= 32 ->
  (forall t, len t <= 8 -> f t = Some (t ++ mpint z)) -> WriteNested new_serializer f = Some (string_enc (mpint z)).
Proof.
  intros f z L F. pose proof (mpint_len z). change (Some (string_enc (mpint z))) with (Some ([] ++ string_enc (mpint z))).
  apply nested_some; [change (len (@nil N)) with 0; unfold BUFFER_SIZE; lia|unfold pow32; lia|]. apply F. cbn. lia.
Qed.

(** The secret is the number on which the curves agree, as an mpint (RFC 8731,
    RFC 5656): exactly this, and public keys of a wrong size and those which
    lead to the all-zero secret are rejected. *)
Theorem C77_secret : forall C, curve_laws C -> forall alg secret peer k,
  GenerateSharedSecret C alg secret peer = Some k <->
  exists n, agreed C alg secret peer n /\ is_mpint_string n k.
Proof.
  intros C W alg secret peer k.
  assert (U : forall z, len z = 32 /\ bytes_ok z -> is_mpint_string (be_value z) (string_enc (mpint z)) /\
            forall k', is_mpint_string (be_value z) k' -> k' = string_enc (mpint z)).
  { intros z (L & O). destruct (mpint_is_canonical z O) as (A & B). split; [now exists (mpint z)|].
    intros k' (m & M & V & ->). f_equal. apply canonical_unique; [assumption|assumption|congruence]. }
  destruct alg; cbn [GenerateSharedSecret agreed].
  - unfold KexCurve25519CalcSharedKey. destruct (N.eqb_spec (len peer) 32) as [L|L]; cbn [negb]; [|split; [discriminate|intros (n & (X & _) & _); contradiction]].
    destruct (cv_mult C secret peer) as [z|] eqn:M; cbn [obind]; [|split; [discriminate|intros (n & (_ & z & X & _) & _); discriminate]].
    pose proof (mult_size C W _ _ _ M) as S. pose proof (is_zero_value z (proj2 S)) as Z. destruct (U z S) as (U1 & U2).
    destruct (sodium_is_zero z).
    + split; [discriminate|]. intros (n & (_ & z' & X & V & N0) & _). injection X as <-. destruct N0. rewrite <- V. now apply Z.
    + rewrite (nested_mpint _ z) by (try lia; intros t T; rewrite WriteBignum2_spec by (unfold BUFFER_SIZE; lia);
        pose proof (mpint_len z); assert (Q : len t + len (mpint z) <=? BUFFER_SIZE = true) by (apply N.leb_le; unfold BUFFER_SIZE; lia); now rewrite Q).
      split.
      * intros E. injection E as <-. exists (be_value z). split; [|exact U1]. split; [exact L|]. exists z. split; [reflexivity|]. split; [reflexivity|].
        intros V. apply Z in V. discriminate.
      * intros (n & (_ & z' & X & V & _) & I). injection X as <-. subst n. f_equal. symmetry. now apply U2.
  - destruct (cv_derive C secret peer) as [z|] eqn:M.
    + pose proof (derive_size C W _ _ _ M) as S. destruct (U z S) as (U1 & U2).
      rewrite (nested_mpint _ z).
      * split; [intros E; injection E as <-; exists (be_value z); split; [exists z; now split|exact U1]|].
        intros (n & (z' & X & V) & I). injection X as <-. subst n. f_equal. symmetry. now apply U2.
      * lia.
      * intros t T. unfold EVP_PKEY_derive. rewrite M. cbn [obind]. rewrite WriteN_Some by (unfold BUFFER_SIZE; lia). cbn [obind].
        rewrite CommitBignum2_spec by (unfold BUFFER_SIZE; lia).
        pose proof (mpint_len z). assert (Q : len t + len (mpint z) <=? BUFFER_SIZE = true) by (apply N.leb_le; unfold BUFFER_SIZE; lia). now rewrite Q.
    + split; [|intros (n & (z & X & _) & _); discriminate].
      unfold WriteNested, EVP_PKEY_derive, PrepareLength. rewrite M. cbn [obind]. destruct (WriteU32 new_serializer 0); discriminate.
Qed.
Print Assumptions C77_secret.

(** Two secrets, each with the public key of the other: the same result. *)
Theorem C77_same : forall C, curve_laws C -> forall alg a b,
  GenerateSharedSecret C alg a (SerializeEphemeralPublicKey C alg b) = GenerateSharedSecret C alg b (SerializeEphemeralPublicKey C alg a).
Proof.
  intros C W [|] a b; cbn [GenerateSharedSecret SerializeEphemeralPublicKey].
  - rewrite !(base_size C W), (N.eqb_refl 32). cbn [negb]. unfold KexCurve25519CalcSharedKey. now rewrite (mult_same C W a b).
  - unfold WriteNested, EVP_PKEY_derive. now rewrite (derive_same C W a b).
Qed.
Print Assumptions C77_same.

(** What the client and the server compute from the same two public keys,
    whatever algorithm each of them uses: the same secret. *)
Lemma shared_same : forall C, curve_laws C -> forall Ec Es hc hs,
  secret_shared (with_curves C Ec) CLIENT hc -> secret_shared (with_curves C Es) SERVER hs ->
  Q_C hc = Q_C hs -> Q_S hc = Q_S hs -> K hc = K hs.
Proof.
  intros C W Ec Es hc hs (ac & sc & P1 & K1) (as_ & ss & P2 & K2) E1 E2. cbn [with_curves e_public e_shared] in *.
  rewrite E2, P2 in K1. rewrite <- E1, P1 in K2.
  destruct ac, as_.
  - rewrite (C77_same C W) in K1. congruence.
  - exfalso. cbn [GenerateSharedSecret SerializeEphemeralPublicKey] in K1. rewrite (public_size C W) in K1. discriminate.
  - exfalso. cbn [GenerateSharedSecret SerializeEphemeralPublicKey] in K2. rewrite (public_size C W) in K2. discriminate.
  - rewrite (C77_same C W) in K1. congruence.
Qed.

(** The messages of the exchange arrived as they were sent. *)
Record same_messages (my_version_c my_version_s : bytes) (xc xs : progress) : Prop := {
  sm_vc : x_version xs = my_version_c;
  sm_vs : x_version xc = my_version_s;
  sm_ic : x_tx20 xc = x_rx20 xs;
  sm_is : x_rx20 xc = x_tx20 xs;
  sm_init : x_init xc = x_init xs;
  sm_reply : x_reply xc = x_reply xs
}.

Lemma messages_same : forall vc vs xc xs hc sc hs ss,
  same_messages vc vs xc xs -> real_payload (x_init xc) -> real_payload (x_reply xc) ->
  exchanged CLIENT vc xc hc sc -> exchanged SERVER vs xs hs ss -> Q_C hc = Q_C hs /\ Q_S hc = Q_S hs.
Proof.
  intros vc vs xc xs hc sc hs ss [V1 V2 I1 I2 In Re] Ri Rr (A1 & A2 & _) (B1 & B2 & _).
  rewrite In, B1 in A1. apply Some_inj in A1. rewrite Re, B2 in A2. apply Some_inj in A2.
  destruct (Ri (30 :: string_enc (Q_C hs))) as [_ L1]; [now rewrite In|].
  destruct (Rr (31 :: string_enc (K_S hs) ++ string_enc (Q_S hs) ++ string_enc ss)) as [_ L2]; [now rewrite Re|].
  pose proof (init_unique _ _ _ L1 eq_refl A1) as Q1. destruct (reply_unique _ _ _ _ _ _ _ L2 eq_refl A2) as (Q2 & Q3 & Q4).
  split; congruence.
Qed.

Lemma same_exchange_of : forall vc vs xc xs, same_messages vc vs xc xs -> x_secret xc = x_secret xs -> same_exchange vc vs xc xs.
Proof. intros vc vs xc xs [A B C D E F] S. now constructor. Qed.

(** From the messages alone: if what each side has sent is what the other has
    received, they have the same session identifier ... *)
Theorem C77_session_ids : forall C, curve_laws C ->
  forall Ec Es, e_digest Ec = e_digest Es -> (forall x, len (e_digest Ec x) = 32) ->
  forall uc us opc ops cl sv,
  kruns (with_curves C Ec) CLIENT uc opc cl -> Forall op_ok opc -> kruns (with_curves C Es) SERVER us ops sv -> Forall op_ok ops ->
  forall pre1 k1 post1 pre2 k2 post2 x1 x2,
  k_log cl = pre1 ++ ESecret k1 :: post1 -> (forall k, ~ In (ESecret k) pre1) ->
  k_log sv = pre2 ++ ESecret k2 :: post2 -> (forall k, ~ In (ESecret k) pre2) ->
  history CLIENT pre1 = Some (XRun x1) -> history SERVER pre2 = Some (XRun x2) ->
  same_messages (e_version Ec) (e_version Es) x1 x2 ->
  real_payload (x_init x1) -> real_payload (x_reply x1) ->
  k1 = k2 /\ k_session_id cl = k_session_id sv.
Proof.
  intros C W Ec Es ED H32 uc us opc ops cl sv Hc Oc Hs Os pre1 k1 post1 pre2 k2 post2 x1 x2 L1 F1 L2 F2 X1 X2 SM R3 R4.
  assert (KE : k1 = k2).
  { destruct (kruns_Fin (with_curves C Ec) CLIENT H32 uc opc cl Hc Oc) as ((G1 & _) & _).
    destruct (kruns_Fin (with_curves C Es) SERVER ltac:(cbn; rewrite <- ED; exact H32) us ops sv Hs Os) as ((G2 & _) & _).
    destruct (G1 _ _ _ L1) as (ph1 & P1 & E1). destruct (G2 _ _ _ L2) as (ph2 & P2 & E2).
    rewrite X1 in P1. injection P1 as <-. rewrite X2 in P2. injection P2 as <-. cbn [good_event] in E1, E2.
    destruct E1 as (y1 & h1 & s1 & Y1 & EX1 & <- & SS1 & _); injection Y1 as <-. destruct E2 as (y2 & h2 & s2 & Y2 & EX2 & <- & SS2 & _); injection Y2 as <-.
    destruct (messages_same _ _ _ _ _ _ _ _ SM R3 R4 EX1 EX2) as (Q1 & Q2). exact (shared_same C W Ec Es h1 h2 SS1 SS2 Q1 Q2). }
  split; [exact KE|].
  apply (C53_session_ids_match (with_curves C Ec) (with_curves C Es) ED H32 uc us opc ops cl sv Hc Oc Hs Os pre1 k1 post1 pre2 k2 post2 x1 x2); try assumption.
  destruct SM as [A B D E F G]. constructor; cbn; try assumption. now rewrite KE.
Qed.
Print Assumptions C77_session_ids.

(** ... and what one side uses for sending is what the other uses for receiving:
    the same algorithms with the same keys. *)
Theorem C77_ciphers : forall C, curve_laws C ->
  forall Ec Es, e_digest Ec = e_digest Es -> (forall x, len (e_digest Ec x) = 32) ->
  forall uc us opc ops cl sv,
  kruns (with_curves C Ec) CLIENT uc opc cl -> Forall op_ok opc -> kruns (with_curves C Es) SERVER us ops sv -> Forall op_ok ops ->
  k_session_id cl = k_session_id sv ->
  forall f c1 c2 pre1 post1 pre2 post2 x1 x2,
  k_log cl = pre1 ++ (match f with client_to_server => EOutCipher c1 | server_to_client => EInCipher c1 end) :: post1 ->
  k_log sv = pre2 ++ (match f with client_to_server => EInCipher c2 | server_to_client => EOutCipher c2 end) :: post2 ->
  history CLIENT pre1 = Some (XRun x1) -> history SERVER pre2 = Some (XRun x2) ->
  same_messages (e_version Ec) (e_version Es) x1 x2 ->
  real_payload (x_tx20 x1) -> real_payload (x_rx20 x1) -> real_payload (x_init x1) -> real_payload (x_reply x1) ->
  c_alg c1 = c_alg c2 /\ c_mac c1 = c_mac c2 /\ c_auth_size c1 = c_auth_size c2 /\
  c_key c1 = c_key c2 /\ c_iv c1 = c_iv c2 /\ c_mac_key c1 = c_mac_key c2 /\
  c_encrypt c1 = negb (c_encrypt c2).
Proof.
  intros C W Ec Es ED H32 uc us opc ops cl sv Hc Oc Hs Os Hsid f c1 c2 pre1 post1 pre2 post2 x1 x2 L1 L2 X1 X2 SM R1 R2 R3 R4.
  apply (C53_ciphers_match (with_curves C Ec) (with_curves C Es) ED H32 uc us opc ops cl sv Hc Oc Hs Os Hsid f c1 c2 pre1 post1 pre2 post2 x1 x2 L1 L2 X1 X2); try assumption.
  apply same_exchange_of; [exact SM|].
  destruct (kruns_Fin (with_curves C Ec) CLIENT H32 uc opc cl Hc Oc) as ((G1 & _) & _).
  destruct (kruns_Fin (with_curves C Es) SERVER ltac:(cbn; rewrite <- ED; exact H32) us ops sv Hs Os) as ((G2 & _) & _).
  assert (N1 : x_secret x1 <> None).
  { destruct (G1 _ _ _ L1) as (ph1 & P1 & E1). rewrite X1 in P1. injection P1 as <-. destruct f; cbn [good_event] in E1;
      destruct E1 as (y1 & h1 & s1 & Y1 & _ & EX1 & K1 & _); injection Y1 as <-; rewrite K1; discriminate. }
  assert (N2 : x_secret x2 <> None).
  { destruct (G2 _ _ _ L2) as (ph2 & P2 & E2). rewrite X2 in P2. injection P2 as <-. destruct f; cbn [good_event] in E2;
      destruct E2 as (y2 & h2 & s2 & Y2 & _ & EX2 & K2 & _); injection Y2 as <-; rewrite K2; discriminate. }
  assert (G1' : good_log (with_curves C Ec) CLIENT (k_session_id cl) pre1).
  { intros a e b E. destruct (G1 a e (b ++ (match f with client_to_server => EOutCipher c1 | server_to_client => EInCipher c1 end) :: post1)) as (ph & P & Q); [rewrite L1, E, <- app_assoc; reflexivity|eauto]. }
  assert (G2' : good_log (with_curves C Es) SERVER (k_session_id sv) pre2).
  { intros a e b E. destruct (G2 a e (b ++ (match f with client_to_server => EInCipher c2 | server_to_client => EOutCipher c2 end) :: post2)) as (ph & P & Q); [rewrite L2, E, <- app_assoc; reflexivity|eauto]. }
  destruct (proj1 (secret_known _ _ _ _ G1' x1 X1) N1) as (h1 & s1 & EX1 & -> & SS1 & _).
  destruct (proj1 (secret_known _ _ _ _ G2' x2 X2) N2) as (h2 & s2 & EX2 & -> & SS2 & _).
  f_equal. destruct (messages_same _ _ _ _ _ _ _ _ SM R3 R4 EX1 EX2) as (Q1 & Q2). exact (shared_same C W Ec Es h1 h2 SS1 SS2 Q1 Q2).
Qed.
Print Assumptions C77_ciphers.

(** ** An example

    A group of 32 bytes with addition, in place of the curves. *)
Definition vec (x : bytes) : bytes := map (fun b => b mod 256) (take 32 (x ++ repeat 0 32)).
Fixpoint vadd (a b : bytes) : bytes :=
  match a, b with
  | x :: a, y :: b => (x + y) mod 256 :: vadd a b
  | _, _ => []
  end.
Definition sums : curves := {|
  cv_mult := fun a p => Some (vadd (vec a) (vec p));
  cv_base := vec;
  cv_public := fun a => 4 :: vec a ++ repeat 0 32;
  cv_derive := fun a p => match p with 4 :: q => if len p =? 65 then Some (vadd (vec a) (vec q)) else None | _ => None end
|}.

Lemma vec_len : forall x, len (vec x) = 32.
Proof.
  intros x. unfold vec, len. rewrite map_length. fold (len (take 32 (x ++ repeat 0 32))). apply len_take. rewrite len_app. change (len (repeat 0 32)) with 32. lia.
Qed.
Lemma take_small : forall (l r : bytes), len l = 32 -> take 32 (l ++ r) = l.
Proof. intros l r L. rewrite <- L. apply take_len. Qed.
Lemma vec_again : forall x r, vec (vec x ++ r) = vec x.
Proof.
  intros x r. unfold vec at 1. rewrite <- app_assoc, take_small by apply vec_len. unfold vec. rewrite map_map. apply map_ext. intros b. apply N.mod_mod. discriminate.
Qed.
Lemma vec_idem : forall x, vec (vec x) = vec x.
Proof. intros x. rewrite <- (app_nil_r (vec x)) at 1. apply vec_again. Qed.
Lemma vadd_comm : forall a b, vadd a b = vadd b a.
Proof. induction a as [|x a IH]; intros [|y b]; cbn [vadd]; [reflexivity|reflexivity|reflexivity|]. now rewrite IH, N.add_comm. Qed.
Lemma vadd_size : forall a b, len a = len b -> len (vadd a b) = len a /\ bytes_ok (vadd a b).
Proof.
  induction a as [|x a IH]; intros [|y b] L; rewrite ?len_cons, ?len_nil in L; try lia; cbn [vadd]; [split; [reflexivity|constructor]|].
  destruct (IH b ltac:(lia)) as (A & B). split; [rewrite !len_cons; lia|]. constructor; [|exact B]. now apply N.mod_lt.
Qed.

Lemma sums_laws : curve_laws sums.
Proof.
  constructor; cbn [sums cv_mult cv_base cv_public cv_derive].
  - apply vec_len.
  - intros a p z E. injection E as <-. destruct (vadd_size (vec a) (vec p)) as (A & B); [now rewrite !vec_len|]. rewrite vec_len in A. now split.
  - intros a b. f_equal. now rewrite !vec_idem, vadd_comm.
  - intros a. rewrite len_cons, len_app, vec_len. reflexivity.
  - intros a p z E. destruct p as [|x q]; [discriminate|]. destruct (N.eq_dec x 4) as [->|N4].
    + destruct (len (4 :: q) =? 65); [|discriminate]. injection E as <-. destruct (vadd_size (vec a) (vec q)) as (A & B); [now rewrite !vec_len|]. rewrite vec_len in A. now split.
    + exfalso. destruct x as [|[[|[| |]|]|[[| |]|[| |]|]|]]; try discriminate; try (apply N4; reflexivity).
  - intros a b. rewrite !len_cons, !len_app, !vec_len. change (len (repeat 0 32)) with 32. cbn [N.add]. change (1 + (32 + 32) =? 65) with true. cbv iota. f_equal.
    now rewrite !vec_again, vadd_comm.
Qed.

Example C77_demo : exists C, curve_laws C /\
  (* both algorithms give the same secret on both sides, with the sign byte where it is needed *)
  GenerateSharedSecret C Curve25519 [200; 1] (SerializeEphemeralPublicKey C Curve25519 [20; 2]) =
    Some (string_enc (0 :: 220 :: 3 :: repeat 0 30)) /\
  GenerateSharedSecret C NistP256 (repeat 0 31 ++ [7]) (SerializeEphemeralPublicKey C NistP256 (repeat 0 31 ++ [8])) = Some (string_enc [15]) /\
  (* rejected: a wrong size, the all-zero secret, the other curve's key *)
  GenerateSharedSecret C Curve25519 [200; 1] (repeat 1 31) = None /\
  GenerateSharedSecret C Curve25519 [200; 1] (SerializeEphemeralPublicKey C Curve25519 [56; 255]) = None /\
  GenerateSharedSecret C NistP256 [200; 1] (SerializeEphemeralPublicKey C Curve25519 [20; 2]) = None.
Proof. exists sums. split; [exact sums_laws|]. repeat split; vm_compute; reflexivity. Qed.

(** A complete exchange of a client and a server with these. *)
Definition senv : kenv := with_curves sums toy.
Fixpoint sexec (role : Role) (ops : list kop) (s : kstate) : option kstate :=
  match ops with
  | [] => Some s
  | op :: ops => match kstep senv role op s with Some s => sexec role ops s | None => None end
  end.
Lemma sexec_runs : forall role u ops pre s s', kruns senv role u pre s -> sexec role ops s = Some s' ->
  kruns senv role u (pre ++ ops) s'.
Proof.
  intros role u. induction ops as [|op ops IH]; intros pre s s' H He; cbn [sexec] in He.
  - injection He as <-. now rewrite app_nil_r.
  - destruct (kstep senv role op s) as [t|] eqn:Et; [|discriminate].
    replace (pre ++ op :: ops) with ((pre ++ [op]) ++ ops) by (rewrite <- app_assoc; reflexivity).
    eapply IH; [|exact He]. eapply kruns_snoc; eassumption.
Qed.
Definition srun (role : Role) (ops : list kop) : option kstate := sexec role ops (new_connection false).
Lemma srun_runs : forall role ops s, srun role ops = Some s -> kruns senv role false ops s.
Proof. intros role ops s H. apply (sexec_runs role false ops [] _ s (kruns_nil _ _ _)). exact H. Qed.

Definition sums_server_ops : list kop :=
  [OpVersion (bs "SSH-2.0-toy") (rnd 5); pkt client_kexinit; pkt (30 :: string_enc (vec [3; 4])); pkt [21]].
Definition sums_client_ops : list kop :=
  OpVersion (bs "SSH-2.0-toy") (rnd 3) :: map cpkt (osent (srun SERVER sums_server_ops)).

Example C77_witness : exists cl sv c1 c2 pre1 post1 pre2 post2 x1 x2,
  kruns (with_curves sums toy) CLIENT false sums_client_ops cl /\ kruns (with_curves sums toy) SERVER false sums_server_ops sv /\
  Forall op_ok sums_client_ops /\ Forall op_ok sums_server_ops /\ k_session_id cl = k_session_id sv /\
  k_log cl = pre1 ++ EOutCipher c1 :: post1 /\ k_log sv = pre2 ++ EInCipher c2 :: post2 /\
  history CLIENT pre1 = Some (XRun x1) /\ history SERVER pre2 = Some (XRun x2) /\
  same_messages (e_version toy) (e_version toy) x1 x2 /\
  real_payload (x_tx20 x1) /\ real_payload (x_rx20 x1) /\ real_payload (x_init x1) /\ real_payload (x_reply x1).
Proof.
  destruct (srun CLIENT sums_client_ops) as [cl|] eqn:E1; [|vm_compute in E1; discriminate].
  destruct (srun SERVER sums_server_ops) as [sv|] eqn:E2; [|vm_compute in E2; discriminate].
  assert (R1 := srun_runs _ _ _ E1). assert (R2 := srun_runs _ _ _ E2).
  vm_compute in E1. vm_compute in E2. apply Some_inj in E1. apply Some_inj in E2.
  destruct (find_out [] (k_log cl)) as [[[a c1] b]|] eqn:F1; [|rewrite <- E1 in F1; vm_compute in F1; discriminate].
  destruct (find_in [] (k_log sv)) as [[[a' c2] b']|] eqn:F2; [|rewrite <- E2 in F2; vm_compute in F2; discriminate].
  pose proof (find_out_ok _ _ _ _ _ F1) as L1. pose proof (find_in_ok _ _ _ _ _ F2) as L2. cbn [app] in L1, L2.
  assert (Q1 : exists x1, history CLIENT a = Some (XRun x1) /\
     x1 = match history CLIENT a with Some (XRun x) => x | _ => idle [] end).
  { rewrite <- E1 in F1. vm_compute in F1. injection F1 as <- _ _. eexists. split; vm_compute; reflexivity. }
  assert (Q2 : exists x2, history SERVER a' = Some (XRun x2) /\
     x2 = match history SERVER a' with Some (XRun x) => x | _ => idle [] end).
  { rewrite <- E2 in F2. vm_compute in F2. injection F2 as <- _ _. eexists. split; vm_compute; reflexivity. }
  destruct Q1 as (x1 & H1 & V1). destruct Q2 as (x2 & H2 & V2).
  exists cl, sv, c1, c2, a, b, a', b', x1, x2.
  split; [exact R1|]. split; [exact R2|]. split; [okops|]. split; [okops|].
  rewrite <- E1 in F1. vm_compute in F1. injection F1 as <- _ _. rewrite <- E2 in F2. vm_compute in F2. injection F2 as <- _ _.
  vm_compute in V1. vm_compute in V2.
  split; [rewrite <- E1, <- E2; reflexivity|]. split; [exact L1|]. split; [exact L2|]. split; [exact H1|]. split; [exact H2|].
  subst x1 x2. split; [constructor; vm_compute; reflexivity|].
  split; [|split; [|split]]; apply real_payload_check; vm_compute; reflexivity.
Qed.
