(** A connection is authenticated only when encrypted, so the assertions of
    the key exchange depend on the callers of SetAuthenticated() and on the
    rekey timer only. *)

From Coq Require Import NArith List Bool Lia String.
From Verif.Base Require Import Bytes.
From Verif.Spec Require Import KexSpec.
From Verif.Model Require Import Wire Packets StringList Negotiate KexKeys KexMachine.
From Verif.Proofs Require Import KexFrame KexStrict.
Import ListNotations.
Open Scope N_scope.

Definition rs (r : res) : kstate := match r with Ret s => s | Throw _ s => s end.

Ltac brk := repeat (cbv beta iota zeta; cbn [rs bind];
  match goal with
  | |- context [match ?x with _ => _ end] =>
      lazymatch x with
      | context [match _ with _ => _ end] => fail
      | _ => destruct x
      end
  end); try reflexivity.

Section A.
Variable E : kenv.
Variable role : Role.

Lemma SendKexInit_auth : forall r s, k_authenticated (rs (SendKexInit E role r s)) = k_authenticated s.
Proof. intros. unfold SendKexInit, check. brk. Qed.

Lemma SendECDHKexInit_auth : forall s, k_authenticated (rs (SendECDHKexInit E role s)) = k_authenticated s.
Proof. intros. unfold SendECDHKexInit, check. brk. Qed.

Lemma SendECDHKexInitReply_auth : forall p s,
  k_authenticated (rs (SendECDHKexInitReply E role p s)) = k_authenticated s.
Proof. intros. unfold SendECDHKexInitReply, check. brk. Qed.

Lemma SendNewKeys_auth : forall s, k_authenticated (rs (SendNewKeys role s)) = k_authenticated s.
Proof. intros. unfold SendNewKeys, check, ResetIfComplete. brk. Qed.

Lemma SendExtInfo_auth : forall s, k_authenticated (rs (SendExtInfo s)) = k_authenticated s.
Proof. intros. unfold SendExtInfo. brk. Qed.

Lemma HandleKexInit_auth : forall p r s, k_authenticated (rs (HandleKexInit E role p r s)) = k_authenticated s.
Proof.
  intros. unfold HandleKexInit. cbv zeta.
  destruct (_ || _ || _); [reflexivity|]. destruct (ParseKexInit p) as [q|]; [|reflexivity].
  destruct (MakeKex _) as [alg|]; [|reflexivity].
  match goal with |- context [if k_strict ?X && _ then _ else _] => set (s1 := X) end.
  assert (A1 : k_authenticated s1 = k_authenticated s) by (unfold s1; destruct (negb (IsEncrypted _)); reflexivity).
  clearbody s1. destruct (k_strict s1 && _); [exact A1|].
  set (s2 := if k_strict s1 then _ else s1).
  assert (A2 : k_authenticated s2 = k_authenticated s) by (unfold s2; destruct (k_strict s1); exact A1).
  clearbody s2.
  assert (X : forall t, k_authenticated t = k_authenticated s -> forall f,
    (forall u, k_authenticated (rs (f u)) = k_authenticated u) ->
    k_authenticated (rs (bind (if kexinit_sent (k_flags t) then Ret t else SendKexInit E role r t) f)) = k_authenticated s).
  { intros t Ht f Hf. destruct (kexinit_sent (k_flags t)); cbn [bind]; [now rewrite Hf|].
    pose proof (SendKexInit_auth r t) as Q. destruct (SendKexInit E role r t) as [u|e u]; cbn [bind rs] in *; [rewrite Hf|]; congruence. }
  destruct (is_server role).
  - destruct (e_choose E _) as [[hk ha]|]; [|exact A2]. apply X; [exact A2|reflexivity].
  - apply X; [exact A2|apply SendECDHKexInit_auth].
Qed.

Lemma HandleNewKeys_auth : forall s, k_authenticated (rs (HandleNewKeys role s)) = k_authenticated s.
Proof. intros. unfold HandleNewKeys, ResetIfComplete. brk. Qed.

Lemma bind_auth : forall r f s, k_authenticated (rs r) = k_authenticated s ->
  (forall u, k_authenticated (rs (f u)) = k_authenticated u) ->
  k_authenticated (rs (bind r f)) = k_authenticated s.
Proof. intros [t|e t] f s H Hf; cbn [bind rs] in *; [rewrite Hf|]; assumption. Qed.

Lemma HandleECDHKexInit_auth : forall p s, k_authenticated (rs (HandleECDHKexInit E role p s)) = k_authenticated s.
Proof.
  intros. unfold HandleECDHKexInit. cbv zeta. destruct (negb _); [reflexivity|]. destruct (_ || _); [reflexivity|].
  destruct (ParseECDHKexInit p); [|reflexivity].
  apply bind_auth; [apply SendECDHKexInitReply_auth|]. intro u.
  apply bind_auth; [apply SendNewKeys_auth|]. intro v.
  destruct (k_ext_info v); [apply SendExtInfo_auth|reflexivity].
Qed.

Lemma HandleECDHKexInitReply_auth : forall p s, k_authenticated (rs (HandleECDHKexInitReply E role p s)) = k_authenticated s.
Proof.
  intros. unfold HandleECDHKexInitReply. cbv zeta. destruct (is_server role); [reflexivity|].
  destruct (_ || _); [reflexivity|]. destruct (k_kex s) as [[a b]|]; [|reflexivity].
  destruct (ParseECDHKexInitReply p); [|reflexivity]. destruct (negb _); [reflexivity|].
  destruct (e_shared E a b _); [|reflexivity]. destruct (negb _); [reflexivity|].
  destruct (DeriveKeys _ _ _ _ _ _) as [[x y]|]; [|reflexivity]. rewrite SendNewKeys_auth. reflexivity.
Qed.

Lemma HandleCore_auth : forall m p seq r s, k_authenticated (rs (HandleCore E role m p seq r s)) = k_authenticated s.
Proof.
  intros. unfold HandleCore, HandleDisconnect.
  destruct (m =? _); [destruct (ParseDisconnect p); reflexivity|].
  destruct (_ || _); [reflexivity|].
  destruct (m =? _); [apply HandleKexInit_auth|].
  destruct (m =? _); [apply HandleNewKeys_auth|].
  destruct (m =? _); [apply HandleECDHKexInit_auth|].
  destruct (m =? _); [apply HandleECDHKexInitReply_auth|reflexivity].
Qed.

Definition AE (s : kstate) : Prop := k_authenticated s = true -> IsEncrypted s = true.

Lemma AE_step : forall s s', AE s -> Step s s' -> k_authenticated s' = k_authenticated s -> AE s'.
Proof.
  intros s s' H ((l & _ & O & I & _) & _) A Ha. rewrite A in Ha. specialize (H Ha).
  unfold IsEncrypted in *. apply andb_prop in H as [H1 H2]. rewrite O, I, H1, H2. reflexivity.
Qed.

Lemma AE_run : forall l s, AE s -> AE (rs (run_actions l s)).
Proof.
  induction l as [|[p|] l IH]; intros s H; cbn [run_actions]; [exact H|apply IH; exact H|].
  unfold SetAuthenticated, check. destruct (IsEncrypted s && _) eqn:Ei; cbn [bind]; [|exact H].
  apply IH. intros _. apply andb_prop in Ei as [Ei _]. exact Ei.
Qed.

Lemma AE_finish : forall r, AE (rs r) -> AE (finish r).
Proof.
  intros [s|e s] H; cbn [finish rs] in *; [exact H|]. destruct e; try exact H.
  unfold DoDisconnect. destruct (k_status s); exact H.
Qed.

Lemma AE_raw : forall p seq r h s, AE s -> AE (rs (HandleRawPacket E role p seq r h s)).
Proof.
  intros p seq r h s H. unfold HandleRawPacket. destruct p as [|m p]; [exact H|].
  assert (G : forall t, AE t -> AE (rs (go E role m p seq r h t))).
  { intros t Ht. unfold go. set (t1 := emit (ERx (m :: p)) t). assert (H1 : AE t1) by exact Ht.
    assert (C : AE (rs (HandleCore E role m p seq r t1))).
    { pose proof (HandleCore_G E role m p seq r t1) as Q. pose proof (HandleCore_auth m p seq r t1) as A.
      destruct (HandleCore E role m p seq r t1) as [u|e u]; cbn [GR rs] in *;
        (eapply AE_step; [exact H1|apply FrameG_Step; exact Q|exact A]). }
    destruct (_ && _); [|exact C]. destruct h; [exact C|apply AE_run; exact H1|exact H1]. }
  assert (P : AE (rs (HandlePacket E role m p seq r h s))).
  { rewrite HandlePacket_go. destruct (negb _); [|apply G, H].
    destruct (negb _); [apply G; destruct (m =? _); exact H|].
    destruct (k_ignore_next s); [cbv zeta; destruct (IsKex m); [exact H|apply G; exact H]|].
    destruct (_ && _); [exact H|apply G, H]. }
  destruct (HandlePacket E role m p seq r h s) as [u|[] u]; exact P.
Qed.

Theorem kruns_AE : forall u ops s, kruns E role u ops s -> AE s.
Proof.
  intros u ops s H. induction H as [|ops s op s' H IH Hs]; [discriminate|].
  unfold kstep in Hs. destruct (k_status s) eqn:Es; try discriminate.
  destruct op as [v rnd|p seq rnd h|rnd|p| |r m|].
  - destruct (k_version_exchanged s); [discriminate|]. injection Hs as <-. apply AE_finish.
    destruct (is_server role); [exact IH|].
    set (t := emit (EVersion v) (set_version v s)). assert (Ht : AE t) by exact IH.
    pose proof (SendKexInit_Fr E role rnd t) as Q. pose proof (SendKexInit_auth rnd t) as A.
    apply FrR_GR in Q. destruct (SendKexInit E role rnd t) as [w|e w]; cbn [GR rs] in *;
      (eapply AE_step; [exact Ht|apply FrameG_Step; exact Q|exact A]).
  - destruct (k_version_exchanged s); [|discriminate]. injection Hs as <-. apply AE_finish, AE_raw, IH.
  - destruct (k_timer s); [|discriminate]. injection Hs as <-. apply AE_finish.
    set (t := set_timer false s). assert (Ht : AE t) by exact IH. unfold check.
    destruct (_ && _); cbn [bind]; [|exact Ht]. destruct (IsIdle _); [|exact Ht].
    pose proof (SendKexInit_Fr E role rnd t) as Q. pose proof (SendKexInit_auth rnd t) as A.
    apply FrR_GR in Q. destruct (SendKexInit E role rnd t) as [w|e w]; cbn [GR rs] in *;
      (eapply AE_step; [exact Ht|apply FrameG_Step; exact Q|exact A]).
  - injection Hs as <-. exact IH.
  - injection Hs as <-. apply AE_finish. unfold SetAuthenticated, check.
    destruct (IsEncrypted s && _) eqn:Ei; cbn [bind rs]; [|exact IH].
    intros _. apply andb_prop in Ei as [Ei _]. exact Ei.
  - injection Hs as <-. unfold DoDisconnect. destruct (k_status s); exact IH.
  - injection Hs as <-. exact IH.
Qed.

End A.
