(** The first key exchange of a connection. *)

From Coq Require Import NArith List Bool Lia String.
From Verif.Base Require Import Bytes.
From Verif.Spec Require Import WireSpec PacketSpec NamesSpec KexSpec LoginSpec.
From Verif.Model Require Import Wire Packets StringList Negotiate KexKeys KexMachine.
From Verif.Proofs Require Import WireFacts NamesFacts KexKeysFacts KexFacts KexFrame KexStrict KexLog KexAuth.
Import ListNotations.
Open Scope N_scope.

Definition field (x : progress) (p : bytes) : Prop :=
  x_tx20 x = Some p \/ x_rx20 x = Some p \/ x_init x = Some p \/ x_reply x = Some p.

(** where the messages of an exchange come from *)
Lemma xstep_source : forall role x e x', xstep role (XRun x) e = Some (XRun x') ->
  (x_version x' = x_version x \/ e = EVersion (x_version x')) /\
  (forall p, field x' p -> field x p \/ e = ERx p \/ e = ETx p).
Proof.
  intros role x e x' H.
  assert (P : forall b y, (if b : bool then Some (XRun y) else None) = Some (XRun x') -> x' = y).
  { intros [] y Q; [injection Q as ->; auto|discriminate]. }
  assert (P' : forall b y, Some (if b : bool then XRun y else XBad) = Some (XRun x') -> x' = y).
  { intros [] y Q; [injection Q as ->; auto|discriminate]. }
  assert (R : x' = x -> (x_version x' = x_version x \/ e = EVersion (x_version x')) /\
     (forall p, field x' p -> field x p \/ e = ERx p \/ e = ETx p)).
  { intros ->. auto. }
  destruct e as [v|p|p|p|k|c|c| | | | |]; cbn [xstep] in H.
  - unfold must in H. apply P in H as ->. cbn. auto.
  - destruct p as [|m p]; [injection H as ->; now apply R|].
    assert (Q : Some (XRun x) = Some (XRun x') \/ exists b y, (y = with_rx20 (m :: p) x \/ y = with_init (m :: p) x \/ y = with_reply (m :: p) x \/ y = with_rx21 x) /\ expect b y = Some (XRun x')).
    { destruct m as [|q]; [now left|].
      do 5 (destruct q as [q|q|]; try (left; exact H); try (right; eauto 10; fail)). }
    destruct Q as [Q|(b & y & Q & Z)]; [injection Q as ->; now apply R|].
    unfold expect in Z. apply P' in Z as ->. split; [left; now destruct Q as [-> | [-> | [-> | ->]]]|].
    intros r F. unfold field in *. destruct Q as [-> | [-> | [-> | ->]]]; cbn in F;
      destruct F as [F|[F|[F|F]]]; auto 6; injection F as ->; auto.
  - injection H as ->. now apply R.
  - destruct p as [|m p]; [injection H as ->; now apply R|].
    assert (Q : Some (XRun x) = Some (XRun x') \/ exists b y, (y = with_tx20 (m :: p) x \/ y = with_init (m :: p) x \/ y = with_reply (m :: p) x \/ y = with_tx21 x) /\ must b y = Some (XRun x')).
    { destruct m as [|q]; [now left|].
      do 5 (destruct q as [q|q|]; try (left; exact H); try (right; eauto 10; fail); try discriminate H). }
    destruct Q as [Q|(b & y & Q & Z)]; [injection Q as ->; now apply R|].
    unfold must in Z. apply P in Z as ->. split; [left; now destruct Q as [-> | [-> | [-> | ->]]]|].
    intros r F. unfold field in *. destruct Q as [-> | [-> | [-> | ->]]]; cbn in F;
      destruct F as [F|[F|[F|F]]]; auto 6; injection F as ->; auto.
  - unfold must in H. apply P in H as ->. cbn. split; [auto|]. intros r F. left. exact F.
  - unfold must in H. apply P in H as ->. cbn. split; [auto|]. intros r F. left. exact F.
  - unfold must in H. apply P in H as ->. cbn. split; [auto|].
    intros r [F|[F|[F|F]]]; discriminate F.
  - injection H as ->. now apply R.
  - injection H as ->. now apply R.
  - injection H as ->. now apply R.
  - injection H as ->. now apply R.
  - discriminate.
Qed.

Lemma history_source : forall role log x, history role log = Some (XRun x) ->
  (x_version x = [] \/ In (EVersion (x_version x)) log) /\
  (forall p, field x p -> In (ERx p) log \/ In (ETx p) log).
Proof.
  intros role log. induction log as [|e log IH] using rev_ind; intros x H.
  { cbn in H. injection H as <-. split; [now left|]. intros p [F|[F|[F|F]]]; discriminate F. }
  rewrite history_snoc in H. destruct (history role log) as [ph|] eqn:Hh; [|discriminate].
  destruct (xstep_back role ph e x H) as (y & ->). destruct (IH y eq_refl) as (I1 & I2).
  destruct (xstep_source _ _ _ _ H) as (S1 & S2). split.
  - destruct S1 as [-> | S1]; [destruct I1 as [I1|I1]; [now left|]|];
      right; apply in_or_app; [now left|]. right. rewrite <- S1. now left.
  - intros p F. destruct (S2 p F) as [F'|[-> | ->]].
    + destruct (I2 p F'); [left|right]; apply in_or_app; now left.
    + left. apply in_or_app. right. now left.
    + right. apply in_or_app. right. now left.
Qed.

Lemma len_senc : forall s, len (string_enc s) = 4 + len s.
Proof. intro s. unfold string_enc. now rewrite len_app, len_be32. Qed.

Definition little (h : handshake) (sig : bytes) : Prop :=
  len (V_C h) < 2 ^ 32 /\ len (V_S h) < 2 ^ 32 /\ len (I_C h) < 2 ^ 32 /\ len (I_S h) < 2 ^ 32 /\
  len (K_S h) < 2 ^ 32 /\ len (Q_C h) < 2 ^ 32 /\ len (Q_S h) < 2 ^ 32 /\ len sig < 2 ^ 32.

Lemma exchanged_little : forall E role s pre rest x h sig, modest E s -> k_log s = pre ++ rest ->
  history role pre = Some (XRun x) -> exchanged role (e_version E) x h sig -> little h sig.
Proof.
  intros E role s pre rest x h sig [MV ML] L H (X1 & X2 & X3).
  destruct (history_source _ _ _ H) as (S1 & S2).
  assert (V : len (x_version x) < 2 ^ 32).
  { destruct S1 as [-> | S1]; [reflexivity|]. apply (ML (EVersion (x_version x))). rewrite L. apply in_or_app. now left. }
  assert (F : forall p, field x p -> len p < 2 ^ 32).
  { intros p Fp. destruct (S2 p Fp) as [I|I]; [apply (ML (ERx p))|apply (ML (ETx p))]; rewrite L; apply in_or_app; now left. }
  assert (F1 : len (30 :: string_enc (Q_C h)) < 2 ^ 32) by (apply F; unfold field; auto).
  assert (F2 : len (31 :: string_enc (K_S h) ++ string_enc (Q_S h) ++ string_enc sig) < 2 ^ 32) by (apply F; unfold field; auto).
  rewrite len_cons, len_senc in F1. rewrite len_cons, !len_app, !len_senc in F2.
  assert (len (I_C h) < 2 ^ 32 /\ len (I_S h) < 2 ^ 32) by (destruct role; destruct X3 as (_ & _ & A & B); split; apply F; unfold field; auto).
  assert (len (V_C h) < 2 ^ 32 /\ len (V_S h) < 2 ^ 32) by (destruct role; destruct X3 as (A & B & _); rewrite A, B; auto).
  unfold little. lia.
Qed.

Lemma exchanged_unique : forall role v x h g h' g', little h g -> little h' g' ->
  exchanged role v x h g -> exchanged role v x h' g' -> K h = K h' -> h = h' /\ g = g'.
Proof.
  intros role v x h g h' g' (A1 & A2 & A3 & A4 & A5 & A6 & A7 & A8) (B1 & B2 & B3 & B4 & B5 & B6 & B7 & B8)
    (X1 & X2 & X3) (Y1 & Y2 & Y3) EK.
  rewrite X1 in Y1. apply Some_inj in Y1. apply (f_equal (@tl N)) in Y1. cbn [tl] in Y1.
  rewrite <- (app_nil_r (string_enc (Q_C h))), <- (app_nil_r (string_enc (Q_C h'))) in Y1.
  apply string_enc_inj in Y1 as [Q1 _]; [|assumption|assumption].
  rewrite X2 in Y2. apply Some_inj in Y2. apply (f_equal (@tl N)) in Y2. cbn [tl] in Y2.
  apply string_enc_inj in Y2 as [Q2 Y2]; [|assumption|assumption].
  apply string_enc_inj in Y2 as [Q3 Y2]; [|assumption|assumption].
  rewrite <- (app_nil_r (string_enc g)), <- (app_nil_r (string_enc g')) in Y2.
  apply string_enc_inj in Y2 as [Q4 _]; [|assumption|assumption].
  split; [|exact Q4].
  destruct role; destruct X3 as (X3 & X4 & X5 & X6), Y3 as (Y3 & Y4 & Y5 & Y6); destruct h, h'; cbn in *; congruence.
Qed.

(** the first derivation of keys is unique *)
Lemma first_unique : forall (log : list kevent) pre k post pre' k' post', log = pre ++ ESecret k :: post -> (forall k, ~ In (ESecret k) pre) ->
  log = pre' ++ ESecret k' :: post' -> (forall k, ~ In (ESecret k) pre') -> pre = pre' /\ k = k' /\ post = post'.
Proof.
  intros log pre k post. revert log. induction pre as [|e pre IH]; intros log [|e' pre'] k' post' -> N E N'; cbn in E.
  - injection E as -> ->. auto.
  - injection E as <- _. exfalso. eapply N'. now left.
  - injection E as -> _. exfalso. eapply N. now left.
  - injection E as -> E. destruct (IH _ pre' k' post' eq_refl) with (2 := E) as (-> & -> & ->); [| |auto].
    + intros q Hq. eapply N. right. exact Hq.
    + intros q Hq. eapply N'. right. exact Hq.
Qed.

Lemma first_exchange_unique : forall E role s x h g x' h' g', modest E s ->
  first_exchange E role s x h g -> first_exchange E role s x' h' g' -> x = x' /\ h = h' /\ g = g'.
Proof.
  intros E role s x h g x' h' g' M (a & b & L & N & H & X) (a' & b' & L' & N' & H' & X').
  destruct (first_unique _ _ _ _ _ _ _ L N L' N') as (<- & EK & <-).
  rewrite H in H'. injection H' as <-.
  pose proof (exchanged_little _ _ _ _ _ _ _ _ M L H X) as S1.
  pose proof (exchanged_little _ _ _ _ _ _ _ _ M L H X') as S2.
  destruct (exchanged_unique _ _ _ _ _ _ _ S1 S2 X X' EK) as [-> ->]. auto.
Qed.

(** what was exchanged stays *)
Lemma secret_from : forall E role log x k, history role log = Some (XRun x) -> x_secret x = Some k ->
  exists a b y, log = a ++ ESecret k :: b /\ (forall k', ~ In (ESecret k') b) /\
  history role a = Some (XRun y) /\
  (forall h g, exchanged role (e_version E) y h g -> exchanged role (e_version E) x h g).
Proof.
  intros E role log. induction log as [|e log IH] using rev_ind; intros x k H SK.
  { cbn in H. injection H as <-. discriminate. }
  rewrite history_snoc in H. destruct (history role log) as [ph|] eqn:Hh; [|discriminate].
  destruct (xstep_back role ph e x H) as (y & ->).
  destruct (xstep_keeps E role _ _ _ H) as [-> | (K1 & _ & _ & K4 & _)]; [discriminate SK|].
  destruct K4 as [K4|(k0 & -> & Hn & ->)].
  - rewrite K4 in SK. destruct (IH y k eq_refl SK) as (a & b & z & -> & Nb & Hz & Ex).
    exists a, (b ++ [e]), z. rewrite <- app_assoc. split; [reflexivity|]. split; [|split; [exact Hz|]].
    + intros k' I. apply in_app_or in I as [I|[-> | []]]; [exact (Nb k' I)|].
      cbn [xstep] in H. unfold must in H. rewrite SK in H. cbn in H. rewrite andb_false_r in H. discriminate H.
    + intros h g X. apply K1; [congruence|]. auto.
  - cbn in SK. injection SK as <-. exists log, [], y. split; [reflexivity|]. split; [intros k' []|].
    split; [exact Hh|]. auto.
Qed.

(** a cipher of the first exchange belongs to the handshake of the first
    exchange *)
Lemma first_cipher : forall E role s, (forall x, len (e_digest E x) = 32) -> endpoint E role s -> modest E s ->
  forall pre e post x h g, k_log s = pre ++ e :: post -> in_first_exchange pre ->
  history role pre = Some (XRun x) -> x_secret x = Some (K h) -> exchanged role (e_version E) x h g ->
  exists y, first_exchange E role s y h g.
Proof.
  intros E role s H32 (u & ops & R & O) M pre e post x h g L (a & k & b & EP & Na & Nb) H SK X.
  destruct (secret_from E _ _ _ _ H SK) as (a' & b' & y & EP' & Nb' & Hy & KX).
  assert (Ea : a' = a /\ K h = k /\ b' = b).
  { rewrite EP in EP'. clear -Na Nb EP' Nb'. revert a' EP'. induction a as [|c a IH]; intros [|c' a'] EP'; cbn in EP'.
    - injection EP' as -> ->. auto.
    - injection EP' as <- EB. exfalso. eapply Nb. rewrite EB. apply in_or_app. right. now left.
    - injection EP' as -> _. exfalso. eapply Na. now left.
    - injection EP' as <- EP'. destruct (IH ltac:(intros q Hq; eapply Na; right; exact Hq) a' EP') as (-> & -> & ->). auto. }
  destruct Ea as (-> & <- & ->).
  destruct (kruns_Fin E role H32 u ops s R O) as ((G & _) & _).
  assert (L2 : k_log s = a ++ ESecret (K h) :: (b ++ e :: post)).
  { rewrite L, EP, <- app_assoc. reflexivity. }
  destruct (G _ _ _ L2) as (ph & Hh & (z & h' & g' & -> & X' & EK & _)).
  rewrite Hy in Hh. injection Hh as <-.
  pose proof (exchanged_little _ _ _ _ _ _ _ _ M L2 Hy X') as S1.
  pose proof (exchanged_little _ _ _ _ _ _ _ _ M L H X) as S2.
  destruct (exchanged_unique _ _ _ _ _ _ _ S1 S2 (KX _ _ X') X EK) as [-> ->].
  exists y. unfold first_exchange. exists a, (b ++ e :: post). auto.
Qed.
