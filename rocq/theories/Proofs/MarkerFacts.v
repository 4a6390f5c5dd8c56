(** Every KEXINIT packet which lukko sends has its own lists (C102). *)

From Coq Require Import NArith List Bool Lia String.
From Verif.Base Require Import Bytes.
From Verif.Spec Require Import WireSpec PacketSpec NamesSpec KexSpec LoginSpec.
From Verif.Model Require Import Wire Frame Packets StringList Negotiate KexKeys KexMachine.
From Verif.Proofs Require Import WireFacts PacketFacts NamesFacts KexKeysFacts KexFacts.
From Verif.Proofs Require Import KexLog LoginFacts.
From Verif.Proofs Require KexStrict.
Import ListNotations.
Open Scope N_scope.

Section M.
Variable E : kenv.
Variable role : Role.

Definition txok (e : kevent) : Prop := forall b, e = ETx (20 :: b) -> my_layout role b.
Definition Tx (s s' : kstate) : Prop := exists l, k_log s' = k_log s ++ l /\ Forall txok l.
Definition TxR (s : kstate) (r : res) : Prop := match r with Ret s' | Throw _ s' => Tx s s' end.

Lemma Tx_refl : forall s, Tx s s.
Proof. intro s. exists []. rewrite app_nil_r. split; [reflexivity|constructor]. Qed.

Lemma Tx_trans : forall a b c, Tx a b -> Tx b c -> Tx a c.
Proof.
  intros a b c (l & L & F) (m & M & G). exists (l ++ m). rewrite M, L, app_assoc. split; [reflexivity|]. apply Forall_app. auto.
Qed.

Lemma Tx_emit : forall s t e, Tx s t -> txok e -> Tx s (emit e t).
Proof.
  intros s t e H X. eapply Tx_trans; [exact H|]. exists [e]. split; [reflexivity|]. constructor; [exact X|constructor].
Qed.

Lemma Tx_same : forall s t u, Tx s t -> k_log u = k_log t -> Tx s u.
Proof. intros s t u (l & L & F) H. exists l. rewrite H. auto. Qed.

Lemma TxR_bind : forall s r f, TxR s r -> (forall t, r = Ret t -> TxR t (f t)) -> TxR s (bind r f).
Proof.
  intros s [t|e t] f H Hf; cbn [bind TxR] in *; [|exact H].
  specialize (Hf t eq_refl). destruct (f t); cbn [TxR] in *; eapply Tx_trans; eassumption.
Qed.

Lemma TxR_check : forall s b, TxR s (check b s).
Proof. intros s []; apply Tx_refl. Qed.

Ltac notx := let b := fresh in let H := fresh in intros b H; discriminate H.

Ltac tx :=
  cbv zeta; cbn [TxR];
  repeat first
  [ apply Tx_refl
  | assumption
  | match goal with
    | |- TxR _ (bind _ _) => apply TxR_bind; [|intros ? _]
    | |- TxR _ (check _ _) => apply TxR_check
    | |- TxR _ (Ret _) => cbn [TxR]
    | |- TxR _ (Throw _ _) => cbn [TxR]
    | |- Tx ?s (SendPacket ?p ?t) => change (Tx s (emit (ETx p) t)); apply Tx_emit; [|notx]
    | |- Tx ?s (emit ?e ?t) => apply Tx_emit; [|notx]
    | |- Tx ?s (set_timer _ ?t) => change (Tx s t)
    | |- Tx ?s (set_kex _ ?t) => change (Tx s t)
    | |- Tx ?s (set_keys _ _ ?t) => change (Tx s t)
    | |- Tx ?s (set_my_kexinit _ ?t) => change (Tx s t)
    | |- Tx ?s (set_peer_kexinit _ ?t) => change (Tx s t)
    | |- Tx ?s (set_host_key _ ?t) => change (Tx s t)
    | |- Tx ?s (set_out_encrypted ?t) => change (Tx s t)
    | |- Tx ?s (set_in_encrypted ?t) => change (Tx s t)
    | |- Tx ?s (set_flags _ ?t) => change (Tx s t)
    | |- Tx ?s (set_ext_info _ ?t) => change (Tx s t)
    | |- Tx ?s (set_strict _ ?t) => change (Tx s t)
    | |- Tx ?s (set_first _ ?t) => change (Tx s t)
    | |- Tx ?s (set_ignore_next _ ?t) => change (Tx s t)
    | |- Tx ?s (set_authenticated ?t) => change (Tx s t)
    | |- Tx ?s (set_status _ ?t) => change (Tx s t)
    | |- Tx ?s (set_version _ ?t) => change (Tx s t)
    | |- Tx ?s (set_lists _ ?t) => change (Tx s t)
    | |- Tx ?s (ResetIfComplete ?t) => unfold ResetIfComplete
    | |- context [match ?m with _ => _ end] => destruct m
    end ].

Lemma SendKexInit_Tx : forall rnd s, len (rnd_cookie rnd) = 16 -> TxR s (SendKexInit E role rnd s).
Proof.
  intros rnd s L. unfold SendKexInit. cbv zeta. apply TxR_bind; [apply TxR_check|]. intros t _.
  destruct (SerializeKex E role (rnd_cookie rnd)) as [body|] eqn:Eb; cbn [TxR]; [|apply Tx_refl].
  apply SerializeKex_layout in Eb; [|exact L]. match goal with |- Tx ?s (SendPacket ?p ?t) => change (Tx s (emit (ETx p) t)) end.
  apply Tx_emit; [tx|]. intros b H. injection H as <-. exact Eb.
Qed.

Lemma SendECDHKexInit_Tx : forall s, TxR s (SendECDHKexInit E role s).
Proof. intros s. unfold SendECDHKexInit. tx. Qed.

Lemma SendECDHKexInitReply_Tx : forall p s, TxR s (SendECDHKexInitReply E role p s).
Proof. intros p s. unfold SendECDHKexInitReply. tx. Qed.

Lemma SendNewKeys_Tx : forall s, TxR s (SendNewKeys role s).
Proof. intros s. unfold SendNewKeys. tx. Qed.

Lemma SendExtInfo_Tx : forall s, TxR s (SendExtInfo s).
Proof. intros s. unfold SendExtInfo. tx. Qed.

Lemma TxR_from : forall s t r, Tx s t -> TxR t r -> TxR s r.
Proof. intros s t [u|e u] H X; cbn [TxR] in *; eapply Tx_trans; eassumption. Qed.

Lemma HandleKexInit_Tx : forall p rnd s, len (rnd_cookie rnd) = 16 -> TxR s (HandleKexInit E role p rnd s).
Proof.
  intros p rnd s L. unfold HandleKexInit. cbv zeta.
  match goal with |- context [if ?b then Throw _ _ else _] => destruct b end; [tx|].
  destruct (ParseKexInit p) as [k|]; [|tx]. destruct (MakeKex _) as [alg|]; [|tx].
  match goal with |- context [k_strict ?x && _] => set (s1 := x) end.
  assert (T1 : Tx s s1) by (subst s1; tx). clearbody s1.
  destruct (k_strict s1 && _); [exact T1|].
  set (s2 := if k_strict s1 then _ else s1). assert (T2 : Tx s s2) by (subst s2; tx). clearbody s2.
  assert (K : forall t, Tx s t -> TxR s (if kexinit_sent (k_flags t) then Ret t else SendKexInit E role rnd t)).
  { intros t T. destruct (kexinit_sent _); [exact T|]. eapply TxR_from; [exact T|apply SendKexInit_Tx; exact L]. }
  destruct (is_server role).
  - destruct (e_choose E _) as [[hk ha]|]; [|tx]. apply TxR_bind; [apply K; tx|]. intros t _. tx.
  - apply TxR_bind; [apply K; exact T2|]. intros t _. apply SendECDHKexInit_Tx.
Qed.

Lemma HandleNewKeys_Tx : forall s, TxR s (HandleNewKeys role s).
Proof. intros s. unfold HandleNewKeys. tx. Qed.

Lemma HandleECDHKexInit_Tx : forall p s, TxR s (HandleECDHKexInit E role p s).
Proof.
  intros p s. unfold HandleECDHKexInit. tx; [apply SendECDHKexInitReply_Tx|apply SendNewKeys_Tx|apply SendExtInfo_Tx].
Qed.

Lemma HandleECDHKexInitReply_Tx : forall p s, TxR s (HandleECDHKexInitReply E role p s).
Proof.
  intros p s. unfold HandleECDHKexInitReply. tx. eapply TxR_from; [|apply SendNewKeys_Tx]. tx.
Qed.

Lemma SetAuthenticated_Tx : forall s, TxR s (SetAuthenticated s).
Proof. intros s. unfold SetAuthenticated. tx. Qed.

Lemma app_txok : forall p, app_message p -> txok (ETx p).
Proof. intros p (m & r & -> & _ & H & _) b X. congruence. Qed.

Lemma run_actions_Tx : forall l s, Forall action_ok l -> TxR s (run_actions l s).
Proof.
  induction l as [|a l IH]; intros s F; cbn [run_actions]; [tx|]. inversion F as [|? ? A F']; subst. destruct a as [p|].
  - eapply TxR_from; [|apply IH; exact F']. change (Tx s (emit (ETx p) s)). apply Tx_emit; [apply Tx_refl|]. now apply app_txok.
  - apply TxR_bind; [apply SetAuthenticated_Tx|]. intros t _. now apply IH.
Qed.

Lemma HandleCore_Tx : forall msg p seq rnd s, len (rnd_cookie rnd) = 16 -> TxR s (HandleCore E role msg p seq rnd s).
Proof.
  intros msg p seq rnd s L. unfold HandleCore, HandleDisconnect.
  repeat first [apply HandleKexInit_Tx; exact L|apply HandleNewKeys_Tx|apply HandleECDHKexInit_Tx|apply HandleECDHKexInitReply_Tx|progress tx].
Qed.

Lemma go_Tx : forall msg p seq rnd h s, len (rnd_cookie rnd) = 16 -> answer_ok h -> TxR s (KexStrict.go E role msg p seq rnd h s).
Proof.
  intros msg p seq rnd h s L A. unfold KexStrict.go. cbv zeta.
  eapply TxR_from; [apply (Tx_emit s s (ERx (msg :: p))); [apply Tx_refl|notx]|].
  destruct (_ && _); [|apply HandleCore_Tx; exact L].
  destruct h; [apply HandleCore_Tx; exact L|apply run_actions_Tx; exact A|apply (Tx_refl (emit (ERx (msg :: p)) s))].
Qed.

Lemma HandlePacket_Tx : forall msg p seq rnd h s, len (rnd_cookie rnd) = 16 -> answer_ok h -> TxR s (HandlePacket E role msg p seq rnd h s).
Proof.
  intros msg p seq rnd h s L A. rewrite KexStrict.HandlePacket_go.
  assert (G : forall t, Tx s t -> TxR s (KexStrict.go E role msg p seq rnd h t)).
  { intros t Ht. eapply TxR_from; [exact Ht|now apply go_Tx]. }
  destruct (negb _); [|apply G, Tx_refl].
  destruct (negb _); [apply G; destruct (msg =? _); apply (Tx_refl s)|].
  destruct (k_ignore_next s).
  - cbv zeta. destruct (IsKex msg); [|apply G, (Tx_refl s)]. tx.
  - destruct (_ && _); [|apply G, Tx_refl]. tx.
Qed.

Lemma finish_Tx : forall s r, TxR s r -> Tx s (finish r).
Proof.
  intros s [t|e t] H; cbn [finish TxR] in *; [exact H|].
  destruct e; try (tx; fail). eapply Tx_trans; [exact H|]. unfold DoDisconnect. tx.
Qed.

Lemma kstep_Tx : forall op s s', op_ok op -> kstep E role op s = Some s' -> Tx s s'.
Proof.
  intros op s s' O H. unfold kstep in H. destruct (k_status s) eqn:Es; [|discriminate H|discriminate H].
  destruct op as [v rnd|payload seq rnd h|rnd|payload| |reason m|]; cbn [op_ok] in O.
  - destruct (k_version_exchanged s); [discriminate|]. injection H as <-. apply finish_Tx.
    eapply TxR_from; [apply (Tx_emit s (set_version v s) (EVersion v)); [apply (Tx_refl s)|notx]|].
    destruct (is_server role); [apply (Tx_refl (emit (EVersion v) (set_version v s)))|apply SendKexInit_Tx; exact O].
  - destruct (k_version_exchanged s); [|discriminate]. injection H as <-. apply finish_Tx. destruct O as (_ & L & A).
    unfold HandleRawPacket. destruct payload as [|m p]; [apply (Tx_refl s)|].
    pose proof (HandlePacket_Tx m p seq rnd h s L A) as Q. destruct (HandlePacket E role m p seq rnd h s) as [t|[] t]; exact Q.
  - destruct (k_timer s); [|discriminate]. injection H as <-. apply finish_Tx.
    eapply TxR_from; [apply (Tx_refl s : Tx s (set_timer false s))|]. apply TxR_bind; [apply TxR_check|]. intros t _.
    destruct (IsIdle _); [apply SendKexInit_Tx; exact O|apply (Tx_refl t)].
  - injection H as <-. change (Tx s (emit (ETx payload) s)). apply Tx_emit; [apply Tx_refl|]. now apply app_txok.
  - injection H as <-. apply finish_Tx, SetAuthenticated_Tx.
  - injection H as <-. unfold DoDisconnect. tx.
  - injection H as <-. tx.
Qed.

Theorem kruns_Tx : forall u ops s, kruns E role u ops s -> Forall op_ok ops -> Forall txok (k_log s).
Proof.
  intros u ops s H. induction H as [|ops s op s' H IH Hs]; intro F; [constructor|].
  apply Forall_app in F as [F1 F2]. apply Forall_inv in F2. destruct (kstep_Tx op s s' F2 Hs) as (l & -> & Fl). apply Forall_app. auto.
Qed.

End M.

(** before the first secret, no cipher is in use *)
Lemma initial_pre : forall pre rest, (forall c, ~ In (EInCipher c) pre) -> initial (pre ++ rest) = pre ++ initial rest.
Proof.
  induction pre as [|e pre IH]; intros rest H; [reflexivity|].
  change ((e :: pre) ++ rest) with (e :: pre ++ rest). cbn [initial].
  rewrite IH by (intros c X; apply (H c); now right). destruct e; try reflexivity. exfalso. apply (H c). now left.
Qed.

(** our lists contain our marker *)
Lemma marker_server : forall body, my_layout SERVER body -> announced_strict CLIENT body false.
Proof.
  intros body (host & L). do 6 eexists. exists [bs "curve25519-sha256"; bs "ecdh-sha2-nistp256"; bs "kex-strict-s-v00@openssh.com"].
  split; [exact L|]. split; [|right; right; now left].
  split; [discriminate|]. split; [|vm_compute; reflexivity]. repeat constructor; vm_compute; intuition discriminate.
Qed.

Lemma marker_client : forall body, my_layout CLIENT body -> announced_strict SERVER body false.
Proof.
  intros body (host & L). do 6 eexists. exists [bs "curve25519-sha256"; bs "ecdh-sha2-nistp256"; bs "kex-strict-c-v00@openssh.com"].
  split; [exact L|]. split; [|right; right; now left].
  split; [discriminate|]. split; [|vm_compute; reflexivity]. repeat constructor; vm_compute; intuition discriminate.
Qed.

Lemma xstep_kexinit : forall role x e x', xstep role (XRun x) e = Some (XRun x') ->
  (forall p, x_rx20 x' = Some p -> x_rx20 x = Some p \/ e = ERx p) /\
  (forall p, x_tx20 x' = Some p -> x_tx20 x = Some p \/ e = ETx p /\ exists b, p = 20 :: b).
Proof.
  intros role x e x' H.
  assert (P : forall b y, (if b : bool then Some (XRun y) else None) = Some (XRun x') -> x' = y).
  { intros [] y Q; [injection Q as ->; auto|discriminate]. }
  assert (P' : forall b y, Some (if b : bool then XRun y else XBad) = Some (XRun x') -> x' = y).
  { intros [] y Q; [injection Q as ->; auto|discriminate]. }
  destruct e as [v|p|p|p|k|c|c| | | | |]; cbn [xstep] in H.
  - unfold must in H. apply P in H as ->. cbn. auto.
  - destruct p as [|m p]; [injection H as ->; auto|].
    assert (Q : Some (XRun x) = Some (XRun x') \/ exists b y, (y = with_rx20 (m :: p) x \/ y = with_init (m :: p) x \/ y = with_reply (m :: p) x \/ y = with_rx21 x) /\ expect b y = Some (XRun x')).
    { destruct m as [|q]; [now left|].
      do 5 (destruct q as [q|q|]; try (left; exact H); try (right; eauto 10; fail)). }
    destruct Q as [Q|(b & y & Q & Z)]; [injection Q as ->; auto|].
    unfold expect in Z. apply P' in Z as ->. split; intros r F; destruct Q as [-> | [-> | [-> | ->]]]; cbn in F; auto; injection F as ->; auto.
  - injection H as ->. auto.
  - destruct p as [|m p]; [injection H as ->; auto|].
    assert (Q : Some (XRun x) = Some (XRun x') \/ exists b y, (y = with_tx20 (m :: p) x /\ m = 20 \/ y = with_init (m :: p) x \/ y = with_reply (m :: p) x \/ y = with_tx21 x) /\ must b y = Some (XRun x')).
    { destruct m as [|q]; [now left|].
      do 5 (destruct q as [q|q|]; try (left; exact H); try (right; eauto 10; fail); try discriminate H). }
    destruct Q as [Q|(b & y & Q & Z)]; [injection Q as ->; auto|].
    unfold must in Z. apply P in Z as ->. split; intros r F; destruct Q as [[-> ->] | [-> | [-> | ->]]]; cbn in F; auto; injection F as <-; right; (split; [reflexivity|eexists; reflexivity]).
  - unfold must in H. apply P in H as ->. cbn. auto.
  - unfold must in H. apply P in H as ->. cbn. auto.
  - unfold must in H. apply P in H as ->. cbn. split; intros r F; discriminate F.
  - injection H as ->. auto.
  - injection H as ->. auto.
  - injection H as ->. auto.
  - injection H as ->. auto.
  - discriminate.
Qed.

Lemma history_kexinit : forall role log x, history role log = Some (XRun x) ->
  (forall p, x_rx20 x = Some p -> In (ERx p) log) /\ (forall p, x_tx20 x = Some p -> In (ETx p) log /\ exists b, p = 20 :: b).
Proof.
  intros role log. induction log as [|e log IH] using rev_ind; intros x H.
  { cbn in H. injection H as <-. split; intros p F; discriminate F. }
  rewrite history_snoc in H. destruct (history role log) as [ph|] eqn:Hh; [|discriminate].
  destruct (xstep_back role ph e x H) as (y & ->). destruct (IH y eq_refl) as (I1 & I2).
  destruct (xstep_kexinit _ _ _ _ H) as (S1 & S2). split; intros p F.
  - destruct (S1 p F) as [X| ->]; apply in_or_app; [left; auto|right; now left].
  - destruct (S2 p F) as [X|[-> X]]; [destruct (I2 p X) as [Y Z]|]; (split; [apply in_or_app|assumption]); [left; exact Y|right; now left].
Qed.

Lemma first_plain : forall E role s, (forall x, len (e_digest E x) = 32) -> endpoint E role s ->
  forall pre post, k_log s = pre ++ post -> (forall k, ~ In (ESecret k) pre) -> forall c, ~ In (EInCipher c) pre.
Proof.
  intros E role s H32 (u & ops & R & O) pre post L N c I.
  destruct (kruns_Fin E role H32 u ops s R O) as ((G & _) & _).
  apply in_split in I as (a & b & ->).
  destruct (G a (EInCipher c) (b ++ post)) as (ph & Hp & x & h & sig & -> & _ & _ & SK & _); [rewrite L, <- app_assoc; reflexivity|].
  destruct (secret_from E _ _ _ _ Hp SK) as (a' & b' & y & -> & _). apply (N (K h)).
  apply in_or_app. left. apply in_or_app. right. now left.
Qed.

(** the KEXINIT packets of the first exchange, as one end has seen them *)
Lemma first_kexinit : forall E role s, (forall x, len (e_digest E x) = 32) -> endpoint E role s ->
  forall x h g, first_exchange E role s x h g ->
  In (ERx (match role with SERVER => I_C h | CLIENT => I_S h end)) (initial (k_log s)) /\
  exists b, match role with SERVER => I_S h | CLIENT => I_C h end = 20 :: b /\ In (ETx (20 :: b)) (k_log s).
Proof.
  intros E role s H32 EP x h g (pre & post & L & N & Hx & X). destruct (history_kexinit _ _ _ Hx) as [A B].
  rewrite L. rewrite initial_pre by (eapply first_plain; eassumption).
  destruct X as (_ & _ & X). destruct role; destruct X as (_ & _ & X1 & X2); (split; [apply in_or_app; left; auto|]);
    destruct (B _ X1) as [Y [b Z]]; exists b; (split; [exact Z|]); rewrite <- Z; apply in_or_app; now left.
Qed.
