(** Facts about the relay of proxy mode (Model/Relay.v). *)

From Coq Require Import NArith List Bool Lia.
From Verif.Base Require Import Bytes.
From Verif.Spec Require Import RelaySpec.
From Verif.Model Require Import Wire Frame Packets Server Relay.
Import ListNotations.
Open Scope N_scope.

Lemma rrun_snoc : forall c t ops op, rrun c t (ops ++ [op]) = rstep op (rrun c t ops).
Proof. intros. unfold rrun. rewrite fold_left_app. reflexivity. Qed.
Lemma rrun_app : forall c t a b, rrun c t (a ++ b) = fold_left (fun r op => rstep op r) b (rrun c t a).
Proof. intros. unfold rrun. apply fold_left_app. Qed.

Lemma get_set : forall x e r, get x (set x e r) = e.
Proof. now intros []. Qed.
Lemma get_set_other : forall x e r, get (other x) (set x e r) = get (other x) r.
Proof. now intros []. Qed.
Lemma get_set_other' : forall x e r, get x (set (other x) e r) = get x r.
Proof. now intros []. Qed.
Lemma other_other : forall x, other (other x) = x.
Proof. now intros []. Qed.
Lemma side_cases : forall x y : side, y = x \/ y = other x.
Proof. intros [] []; auto. Qed.
Lemma relayed_set : forall x e r, rl_relayed (set x e r) = rl_relayed r.
Proof. now intros []. Qed.
Lemma handled_set : forall x e r, rl_handled (set x e r) = rl_handled r.
Proof. now intros []. Qed.
Lemma alive_set : forall x e r, rl_alive (set x e r) = rl_alive r.
Proof. now intros []. Qed.
Lemma get_relayed : forall x y p r, get x (add_relayed y p r) = get x r.
Proof. now intros []. Qed.
Lemma get_handled : forall x y p r, get x (add_handled y p r) = get x r.
Proof. now intros []. Qed.
Lemma get_close : forall x r, get x (close r) = get x r.
Proof. now intros []. Qed.
Global Hint Rewrite get_set get_set_other get_set_other' other_other relayed_set handled_set alive_set get_relayed get_handled get_close : relay.

Definition blocked (e : end_point) : bool := ep_write_blocked e || IsRekeying e.

(** The state of reading is the same. *)
Definition same_input (e e' : end_point) : Prop :=
  ep_raw e' = ep_raw e /\ ep_job e' = ep_job e /\ ep_list e' = ep_list e /\ ep_done e' = ep_done e /\
  ep_reading e' = ep_reading e /\ ep_read_blocked e' = ep_read_blocked e /\
  ep_input_ready e' = ep_input_ready e /\ ep_resume e' = ep_resume e.

(** Whatever waits will be looked at. *)
Record awake (e : end_point) : Prop := {
  aw_raw : ep_raw e <> [] -> ep_job e = true;
  aw_list : ep_list e <> [] -> ep_done e = true \/ ep_resume e = true \/ (ep_read_blocked e = true /\ ep_input_ready e = true);
  aw_reading : ep_reading e = false -> ep_resume e = true \/ (ep_read_blocked e = true /\ ep_input_ready e = true)
}.

Definition linked (r : relay) : Prop :=
  forall x, ep_read_blocked (get x r) = true -> blocked (get (other x) r) = true.

Lemma awake_same : forall e e', same_input e e' -> awake e -> awake e'.
Proof.
  intros e e' (A & B & C & D & E & F & G & H) [W1 W2 W3]. constructor; rewrite ?A, ?B, ?C, ?D, ?E, ?F, ?G, ?H; auto.
Qed.
Lemma awake_block : forall e, ep_read_blocked e = false -> awake e -> awake (BlockRead e).
Proof.
  intros e F [W1 W2 W3]. constructor; cbn; [exact W1| |].
  - intro L. destruct (W2 L) as [H|[H|[H _]]]; auto. congruence.
  - intro L. destruct (W3 L) as [H|[H _]]; auto. congruence.
Qed.
Lemma awake_unblock : forall e, awake e -> awake (UnblockRead e).
Proof.
  intros e [W1 W2 W3]. constructor; cbn; [exact W1| |].
  - intro L. destruct (W2 L) as [H|[H|[_ H]]]; auto; rewrite H; [|rewrite orb_true_r]; auto.
  - intro L. destruct (W3 L) as [H|[_ H]]; rewrite H; [|rewrite orb_true_r]; auto.
Qed.

Lemma same_refl : forall e, same_input e e.
Proof. intro e. repeat split. Qed.
Lemma same_trans : forall a b c, same_input a b -> same_input b c -> same_input a c.
Proof. unfold same_input. intros a b c H K. intuition congruence. Qed.

Lemma linked_alt : forall x r, linked r <->
  (ep_read_blocked (get x r) = true -> blocked (get (other x) r) = true) /\
  (ep_read_blocked (get (other x) r) = true -> blocked (get x r) = true).
Proof.
  intros x r. split.
  - intro L. split; [apply L|]. intro H. specialize (L (other x)). rewrite other_other in L. auto.
  - intros [A B] y. destruct (side_cases x y) as [-> | ->]; [exact A|]. rewrite other_other. exact B.
Qed.

(** The end point of side [x] changes to [e'], without changing its
    reading; the other side is told so. *)
Lemma hooked_block : forall x e' r,
  linked r -> same_input (get x r) e' -> blocked (get x r) = false -> blocked e' = true ->
  let r' := OnWriteBlocked x (set x e' r) in
  same_input (get x r) (get x r') /\ (awake (get (other x) r) -> awake (get (other x) r')) /\ linked r'.
Proof.
  intros x e' r L S B B' r'. subst r'. unfold OnWriteBlocked. autorewrite with relay.
  apply (linked_alt x) in L as [L1 L2].
  assert (F : ep_read_blocked (get (other x) r) = false).
  { destruct (ep_read_blocked (get (other x) r)); [|reflexivity]. rewrite (L2 eq_refl) in B. discriminate. }
  split; [exact S|]. split; [now apply awake_block|].
  apply (linked_alt x). autorewrite with relay. split; [|auto].
  destruct S as (_ & _ & _ & _ & _ & S & _). rewrite S. intro H. specialize (L1 H). exact L1.
Qed.

Lemma hooked_unblock : forall x e' r,
  linked r -> same_input (get x r) e' ->
  let r' := OnWriteUnblocked x (set x e' r) in
  same_input (get x r) (get x r') /\ (awake (get (other x) r) -> awake (get (other x) r')) /\ linked r'.
Proof.
  intros x e' r L S r'. subst r'. unfold OnWriteUnblocked. autorewrite with relay.
  apply (linked_alt x) in L as [L1 L2].
  split; [exact S|]. split; [now apply awake_unblock|].
  apply (linked_alt x). autorewrite with relay. split; [|cbn; discriminate].
  destruct S as (_ & _ & _ & _ & _ & S & _). rewrite S. intro H. specialize (L1 H). exact L1.
Qed.

Lemma hooked_set : forall x e' r,
  linked r -> same_input (get x r) e' -> (blocked (get x r) = true -> blocked e' = true) ->
  let r' := set x e' r in
  same_input (get x r) (get x r') /\ (awake (get (other x) r) -> awake (get (other x) r')) /\ linked r'.
Proof.
  intros x e' r L S B r'. subst r'. autorewrite with relay.
  apply (linked_alt x) in L as [L1 L2].
  split; [exact S|]. split; [auto|].
  apply (linked_alt x). autorewrite with relay. split; [|auto].
  destruct S as (_ & _ & _ & _ & _ & S & _). rewrite S. exact L1.
Qed.

Definition kept (x : side) (r r' : relay) : Prop :=
  same_input (get x r) (get x r') /\ (awake (get (other x) r) -> awake (get (other x) r')) /\ linked r'.

Lemma same_kex : forall e ks kr ns nr, same_input e (with_kex ks kr ns nr e).
Proof. intros. repeat split. Qed.
Lemma same_reset : forall e, same_input e (ResetIfComplete e).
Proof. intro e. unfold ResetIfComplete. destruct (_ && _); auto using same_kex, same_refl. Qed.

Lemma set_get : forall x r, set x (get x r) r = r.
Proof. now intros [] []. Qed.
Lemma set_set : forall x e e' r, set x e' (set x e r) = set x e' r.
Proof. now intros []. Qed.

Lemma SendKexInit_kept : forall x e r, linked r -> same_input (get x r) e ->
  ep_write_blocked e = ep_write_blocked (get x r) -> ep_kexinit_sent e = false -> ep_newkeys_sent e = false ->
  ep_kexinit_sent (get x r) = false ->
  kept x r (SendKexInit x (set x e r)).
Proof.
  intros x e r L S W K N K0. unfold SendKexInit. autorewrite with relay. rewrite set_set.
  set (e' := with_kex _ _ _ _ e).
  assert (S' : same_input (get x r) e') by (eapply same_trans; [exact S|apply same_kex]).
  assert (R : IsRekeying e' = true) by (unfold IsRekeying, e'; cbn; now rewrite N).
  rewrite R. cbn [andb]. change (ep_write_blocked e') with (ep_write_blocked e). rewrite W.
  destruct (ep_write_blocked (get x r)) eqn:WB; cbn [negb].
  - apply hooked_set; auto. intros _. unfold blocked. now rewrite R, orb_true_r.
  - apply hooked_block; auto.
    + unfold blocked, IsRekeying. now rewrite WB, K0.
    + unfold blocked. now rewrite R, orb_true_r.
Qed.

Lemma SendNewKeys_kept : forall x r, linked r ->
  ep_kexinit_sent (get x r) = true -> ep_newkeys_sent (get x r) = false ->
  kept x r (SendNewKeys x r).
Proof.
  intros x r L K N. unfold SendNewKeys.
  set (e' := ResetIfComplete _).
  assert (S' : same_input (get x r) e') by (eapply same_trans; [apply same_kex|apply same_reset]).
  assert (W : ep_write_blocked e' = ep_write_blocked (get x r)).
  { unfold e', ResetIfComplete. destruct (_ && _); reflexivity. }
  assert (R : IsRekeying (get x r) = true) by (unfold IsRekeying; now rewrite K, N).
  rewrite R, W. cbn [andb].
  destruct (ep_write_blocked (get x r)) eqn:WB; cbn [negb].
  - apply hooked_set; auto. intros _. unfold blocked. now rewrite W.
  - now apply hooked_unblock.
Qed.

Lemma linked_get : forall r r', (forall x, get x r' = get x r) -> linked r -> linked r'.
Proof. intros r r' H L x. rewrite !H. apply L. Qed.

Lemma kept_get : forall x r0 r r', (forall y, get y r0 = get y r) -> kept x r0 r' -> kept x r r'.
Proof. intros x r0 r r' H (A & B & C). rewrite H in A, B. split; [exact A|]. split; [exact B|exact C]. Qed.

Lemma HandlePacket_kept : forall x p r, linked r -> kept x r (HandlePacket x p r).
Proof.
  intros x p r L. unfold HandlePacket. set (r0 := add_handled x p r).
  assert (G : forall y, get y r0 = get y r) by (intro y; apply get_handled).
  assert (L0 : linked r0) by (apply (linked_get r); auto).
  apply (kept_get x r0 r); [exact G|]. clearbody r0. clear L G r.
  assert (C : kept x r0 (close r0)).
  { split; [rewrite get_close; apply same_refl|]. split; [now rewrite get_close|]. apply (linked_get r0); [intro; apply get_close|exact L0]. }
  assert (K : kept x r0 r0) by (split; [apply same_refl|]; auto).
  destruct (ShouldProxy (number p)).
  { split; [rewrite get_relayed; apply same_refl|]. split; [now rewrite get_relayed|]. apply (linked_get r0); [intro; apply get_relayed|exact L0]. }
  destruct (number p =? MSG_DISCONNECT); [exact C|].
  destruct (number p =? MSG_KEXINIT).
  { destruct (ep_kexinit_received _ || _ || _) eqn:E; [exact C|]. apply orb_false_iff in E as [E E3]. apply orb_false_iff in E as [E1 E2].
    destruct (ep_kexinit_sent (get x r0)) eqn:KS.
    - apply hooked_set; [exact L0|apply same_kex|]. unfold blocked, IsRekeying. cbn. now rewrite KS.
    - apply SendKexInit_kept; auto using same_kex. }
  destruct (number p =? MSG_NEWKEYS).
  { destruct (ep_kexinit_sent _ && _ && _ && _) eqn:E; [|exact C].
    apply andb_true_iff in E as [E E4]. apply andb_true_iff in E as [E E3].
    apply hooked_set; [exact L0|eapply same_trans; [apply same_kex|apply same_reset]|].
    unfold blocked, IsRekeying, ResetIfComplete. rewrite E3. cbn. rewrite andb_false_r, !orb_false_r. auto. }
  assert (SN : kept x r0 (if ep_kexinit_sent (get x r0) && ep_kexinit_received (get x r0) && negb (ep_newkeys_sent (get x r0)) && negb (ep_newkeys_received (get x r0)) then SendNewKeys x r0 else close r0)).
  { destruct (_ && _) eqn:E; [|exact C]. apply andb_true_iff in E as [E E4]. apply andb_true_iff in E as [E E3]. apply andb_true_iff in E as [E1 E2].
    apply SendNewKeys_kept; auto. now apply negb_true_iff. }
  destruct (number p =? MSG_ECDH_KEX_INIT); [destruct x; auto|].
  destruct (number p =? MSG_ECDH_KEX_INIT_REPLY); [destruct x; auto|]. exact K.
Qed.

(** ** Order *)

Definition told (x : side) (r r' : relay) (l : list bytes) : Prop :=
  rl_relayed r' = rl_relayed r ++ map (pair x) (filter is_relayed l).

Lemma ShouldProxy_layer : forall m, ShouldProxy m = connection_layer m.
Proof.
  intro m. apply eq_true_iff_eq. unfold ShouldProxy, connection_layer. rewrite existsb_exists. split.
  - intros (k & I & E). apply N.eqb_eq in E. subst k.
    repeat (destruct I as [<-|I]; [vm_compute; reflexivity|]). destruct I.
  - intro H. exists m. split; [|apply N.eqb_refl].
    assert (R : 80 <= m <= 82 \/ 90 <= m <= 100).
    { apply orb_true_iff in H as [H|H]; apply andb_true_iff in H as [H1 H2]; apply N.leb_le in H1, H2; auto. }
    assert (C : m = 80 \/ m = 81 \/ m = 82 \/ m = 90 \/ m = 91 \/ m = 92 \/ m = 93 \/ m = 94 \/ m = 95 \/ m = 96 \/ m = 97 \/ m = 98 \/ m = 99 \/ m = 100) by lia.
    clear -C. repeat (destruct C as [->|C]; [vm_compute; tauto|]). subst m. vm_compute. tauto.
Qed.

Lemma is_relayed_number : forall p, is_relayed p = ShouldProxy (number p).
Proof. intros [|m p]; rewrite ShouldProxy_layer; reflexivity. Qed.

Lemma relayed_block : forall x r, rl_relayed (OnWriteBlocked x r) = rl_relayed r.
Proof. intros. unfold OnWriteBlocked. now rewrite relayed_set. Qed.
Lemma relayed_unblock : forall x r, rl_relayed (OnWriteUnblocked x r) = rl_relayed r.
Proof. intros. unfold OnWriteUnblocked. now rewrite relayed_set. Qed.
Lemma relayed_kexinit : forall x r, rl_relayed (SendKexInit x r) = rl_relayed r.
Proof. intros. unfold SendKexInit. destruct (_ && _); now rewrite ?relayed_block, relayed_set. Qed.
Lemma relayed_newkeys : forall x r, rl_relayed (SendNewKeys x r) = rl_relayed r.
Proof. intros. unfold SendNewKeys. destruct (_ && _); now rewrite ?relayed_unblock, relayed_set. Qed.

Lemma HandlePacket_told : forall x p r, told x r (HandlePacket x p r) [p].
Proof.
  intros x p r. unfold told, HandlePacket. cbn [filter]. rewrite is_relayed_number.
  destruct (ShouldProxy (number p)); [reflexivity|]. cbn [map]. rewrite app_nil_r.
  destruct (number p =? MSG_DISCONNECT); [reflexivity|].
  destruct (number p =? MSG_KEXINIT).
  { destruct (_ || _); [reflexivity|]. destruct (ep_kexinit_sent _); now rewrite ?relayed_kexinit, relayed_set. }
  destruct (number p =? MSG_NEWKEYS). { destruct (_ && _); [now rewrite relayed_set|reflexivity]. }
  destruct (number p =? MSG_ECDH_KEX_INIT). { destruct x; [|reflexivity]. destruct (_ && _); [now rewrite relayed_newkeys|reflexivity]. }
  destruct (number p =? MSG_ECDH_KEX_INIT_REPLY); [|reflexivity].
  destruct x; [reflexivity|]. destruct (_ && _); [now rewrite relayed_newkeys|reflexivity].
Qed.

(** ** The loop *)

Record looped (x : side) (l : list bytes) (r r' : relay) : Prop := {
  lp_linked : linked r';
  lp_other : awake (get (other x) r) -> awake (get (other x) r');
  lp_raw : ep_raw (get x r') = ep_raw (get x r);
  lp_job : ep_job (get x r') = ep_job (get x r);
  lp_done : ep_done (get x r') = ep_done (get x r);
  lp_resume : ep_resume (get x r') = ep_resume (get x r);
  lp_blocked : ep_read_blocked (get x r') = ep_read_blocked (get x r);
  lp_told : exists seen, l = seen ++ ep_list (get x r') /\ told x r r' seen;
  lp_end : rl_alive r' = true ->
    (ep_read_blocked (get x r) = true /\ ep_reading (get x r') = false /\ ep_input_ready (get x r') = true) \/
    (ep_read_blocked (get x r) = false /\ ep_list (get x r') = [] /\ ep_reading (get x r') = true);
  lp_list_other : ep_list (get (other x) r') = ep_list (get (other x) r) /\ ep_raw (get (other x) r') = ep_raw (get (other x) r)
}.

Lemma told_refl : forall x r, told x r r [].
Proof. intros. unfold told. cbn. now rewrite app_nil_r. Qed.

Lemma other_lists_block : forall x r, ep_list (get (other x) (OnWriteBlocked x r)) = ep_list (get (other x) r) /\ ep_raw (get (other x) (OnWriteBlocked x r)) = ep_raw (get (other x) r).
Proof. intros [] r; split; reflexivity. Qed.
Lemma other_lists_unblock : forall x r, ep_list (get (other x) (OnWriteUnblocked x r)) = ep_list (get (other x) r) /\ ep_raw (get (other x) (OnWriteUnblocked x r)) = ep_raw (get (other x) r).
Proof. intros [] r; split; reflexivity. Qed.

Lemma HandlePacket_other : forall x p r,
  ep_list (get (other x) (HandlePacket x p r)) = ep_list (get (other x) r) /\ ep_raw (get (other x) (HandlePacket x p r)) = ep_raw (get (other x) r).
Proof.
  intros x p r. unfold HandlePacket.
  assert (KI : forall r0, ep_list (get (other x) (SendKexInit x r0)) = ep_list (get (other x) r0) /\ ep_raw (get (other x) (SendKexInit x r0)) = ep_raw (get (other x) r0)).
  { intro r0. unfold SendKexInit. destruct (_ && _); [|now rewrite get_set_other]. destruct (other_lists_block x (set x (with_kex true (ep_kexinit_received (get x r0)) (ep_newkeys_sent (get x r0)) (ep_newkeys_received (get x r0)) (get x r0)) r0)) as [-> ->]. now rewrite get_set_other. }
  assert (NK : forall r0, ep_list (get (other x) (SendNewKeys x r0)) = ep_list (get (other x) r0) /\ ep_raw (get (other x) (SendNewKeys x r0)) = ep_raw (get (other x) r0)).
  { intro r0. unfold SendNewKeys. destruct (_ && _); [|now rewrite get_set_other].
    match goal with |- context [OnWriteUnblocked x ?y] => destruct (other_lists_unblock x y) as [-> ->] end. now rewrite get_set_other. }
  destruct (ShouldProxy (number p)); [now rewrite get_relayed, get_handled|].
  destruct (number p =? MSG_DISCONNECT); [now rewrite get_close, get_handled|].
  destruct (number p =? MSG_KEXINIT).
  { destruct (_ || _); [now rewrite get_close, get_handled|]. destruct (ep_kexinit_sent _); [now rewrite get_set_other, get_handled|].
    match goal with |- context [SendKexInit x ?y] => destruct (KI y) as [-> ->] end. now rewrite get_set_other, get_handled. }
  destruct (number p =? MSG_NEWKEYS). { destruct (_ && _); [now rewrite get_set_other, get_handled|now rewrite get_close, get_handled]. }
  assert (C : forall b : bool, ep_list (get (other x) (if b then SendNewKeys x (add_handled x p r) else close (add_handled x p r))) = ep_list (get (other x) r) /\
    ep_raw (get (other x) (if b then SendNewKeys x (add_handled x p r) else close (add_handled x p r))) = ep_raw (get (other x) r)).
  { intros []; [destruct (NK (add_handled x p r)) as [-> ->]; now rewrite get_handled|now rewrite get_close, get_handled]. }
  destruct (number p =? MSG_ECDH_KEX_INIT). { destruct x; [apply C|now rewrite get_close, get_handled]. }
  destruct (number p =? MSG_ECDH_KEX_INIT_REPLY); [|now rewrite get_handled].
  destruct x; [now rewrite get_close, get_handled|apply C].
Qed.

Lemma read_loop_looped : forall x l r, linked r -> ep_list (get x r) = l -> looped x l r (read_loop x l r).
Proof.
  intros x. induction l as [|p l IH]; intros r L E; cbn [read_loop].
  - destruct (rl_alive r) eqn:A; cbn [negb].
    2:{ constructor; try solve [auto | congruence]. exists []. split; [now rewrite E|apply told_refl]. }
    destruct (ep_read_blocked (get x r)) eqn:B.
    + constructor; autorewrite with relay; cbn; auto.
      * apply (linked_alt x). autorewrite with relay. apply (linked_alt x) in L as [L1 L2]. cbn. split; auto.
      * exists []. split; [now rewrite E|]. unfold told. autorewrite with relay. cbn. now rewrite app_nil_r.
    + constructor; autorewrite with relay; cbn; auto.
      * apply (linked_alt x). autorewrite with relay. apply (linked_alt x) in L as [L1 L2]. cbn. split; [discriminate|auto].
      * exists []. split; [now rewrite E|]. unfold told. autorewrite with relay. cbn. now rewrite app_nil_r.
  - destruct (rl_alive r) eqn:A; cbn [negb].
    2:{ constructor; try solve [auto | congruence]. exists []. split; [now rewrite E|apply told_refl]. }
    destruct (ep_read_blocked (get x r)) eqn:B.
    + constructor; autorewrite with relay; cbn; auto.
      * apply (linked_alt x). autorewrite with relay. apply (linked_alt x) in L as [L1 L2]. cbn. split; auto.
      * exists []. split; [now rewrite E|]. unfold told. autorewrite with relay. cbn. now rewrite app_nil_r.
    + destruct (HandlePacket_kept x p r L) as (S & W & L1). pose proof (HandlePacket_told x p r) as T. pose proof (HandlePacket_other x p r) as [O1 O2].
      set (r1 := HandlePacket x p r) in *. cbv zeta.
      set (r2 := set x (with_input (ep_raw (get x r1)) (ep_job (get x r1)) l (ep_done (get x r1)) (get x r1)) r1).
      assert (L2 : linked r2).
      { apply (linked_alt x). unfold r2. autorewrite with relay. apply (linked_alt x) in L1 as [X1 X2]. cbn. split; auto. }
      assert (E2 : ep_list (get x r2) = l) by (unfold r2; autorewrite with relay; reflexivity).
      specialize (IH r2 L2 E2). destruct IH as [I1 I2 I3 I4 I5 I6 I7 I8 I9 I10].
      destruct S as (S1 & S2 & S3 & S4 & S5 & S6 & S7 & S8).
      unfold r2 in I2, I3, I4, I5, I6, I7, I8, I9, I10. autorewrite with relay in I2, I3, I4, I5, I6, I7, I9, I10. cbn in I3, I4, I5, I6, I7, I9.
      fold r2 in I2, I3, I4, I5, I6, I7, I8, I9, I10.
      constructor; auto; try congruence.
      * destruct I8 as (seen & Q1 & Q2). exists (p :: seen). split; [cbn; now rewrite Q1 at 1|].
        unfold told in *. rewrite Q2. unfold r2. autorewrite with relay. rewrite T. cbn [filter].
        destruct (is_relayed p); cbn [map]; rewrite ?app_nil_r, <- ?app_assoc; reflexivity.
      * intro A'. destruct (I9 A') as [(X & Y & Z)|(X & Y & Z)]; [left|right]; repeat split; auto; congruence.
Qed.

(** ** Steps *)

Definition steady (r : relay) : Prop := linked r /\ (rl_alive r = true -> forall x, awake (get x r)).

(** What one event does to the packets. *)
Definition flows (op : rop) (r r' : relay) : Prop :=
  forall x, exists seen,
    waiting x r ++ match op with RReceive y l => if same_side x y && rl_alive r && ep_reading (get y r) then l else [] | _ => [] end
      = seen ++ waiting x r' /\
    passed_on x r' = passed_on x r ++ filter is_relayed seen.

Lemma passed_told : forall x y r r' l, told x r r' l ->
  passed_on y r' = passed_on y r ++ (if same_side y x then filter is_relayed l else []).
Proof.
  intros x y r r' l T. unfold passed_on. rewrite T, filter_app, map_app. f_equal. clear T.
  induction l as [|p l IH]; cbn [filter]; [destruct (same_side y x); reflexivity|].
  destruct (is_relayed p); cbn [map filter fst]; [|exact IH].
  destruct (same_side y x) eqn:E; cbn [map snd]; [now rewrite IH|exact IH].
Qed.

Lemma same_side_spec : forall x y, same_side x y = true <-> y = x.
Proof. intros [] []; cbn; split; congruence. Qed.
Lemma same_side_refl : forall x, same_side x x = true.
Proof. now intros []. Qed.
Lemma same_side_other : forall x, same_side (other x) x = false.
Proof. now intros []. Qed.

Lemma flows_still : forall op r r', (forall y l, op <> RReceive y l) -> (forall x, waiting x r' = waiting x r) -> rl_relayed r' = rl_relayed r -> flows op r r'.
Proof.
  intros op r r' N W R x. exists []. rewrite W. split.
  - destruct op; cbn; rewrite ?app_nil_r; auto. destruct (N x0 l); reflexivity.
  - unfold passed_on. rewrite R. cbn. now rewrite app_nil_r.
Qed.

Lemma flows_loop : forall op x l r r', (forall y k, op <> RReceive y k) -> looped x l r r' -> ep_list (get x r) = l -> flows op r r'.
Proof.
  intros op x l r r' N [_ _ R _ _ _ _ (seen & S & T) _ [O1 O2]] E y.
  exists (if same_side y x then seen else []). split.
  - replace (waiting y r ++ _) with (waiting y r) by (destruct op; rewrite ?app_nil_r; auto; destruct (N x0 l0); reflexivity).
    unfold waiting. destruct (side_cases x y) as [-> | ->].
    + rewrite same_side_refl, R, E, S. now rewrite app_assoc.
    + rewrite same_side_other, O1, O2. reflexivity.
  - rewrite (passed_told x y r r' seen T). destruct (same_side y x); reflexivity.
Qed.

Lemma flows_pre : forall op r r0 r', (forall x, waiting x r0 = waiting x r) -> rl_relayed r0 = rl_relayed r ->
  (forall y l, op <> RReceive y l) -> flows op r0 r' -> flows op r r'.
Proof.
  intros op r r0 r' W R N F x. destruct (F x) as (seen & A & B). exists seen. rewrite W in A. split.
  - destruct op; auto. destruct (N x0 l); reflexivity.
  - unfold passed_on in *. now rewrite R in B.
Qed.

Lemma waiting_set : forall x e r, ep_list e = ep_list (get x r) -> ep_raw e = ep_raw (get x r) -> forall y, waiting y (set x e r) = waiting y r.
Proof.
  intros x e r A B y. unfold waiting. destruct (side_cases x y) as [-> | ->]; autorewrite with relay; congruence.
Qed.

Lemma linked_set : forall x e r, ep_read_blocked e = ep_read_blocked (get x r) -> (blocked (get x r) = true -> blocked e = true) -> linked r -> linked (set x e r).
Proof.
  intros x e r A B L. apply (linked_alt x). autorewrite with relay. apply (linked_alt x) in L as [L1 L2]. rewrite A. auto.
Qed.

Lemma steady_loop : forall x l r r', looped x l r r' -> (ep_raw (get x r) <> [] -> ep_job (get x r) = true) ->
  (rl_alive r' = true -> awake (get (other x) r)) -> steady r'.
Proof.
  intros x l r r' [L O R J D RS B T E _] W0 W. split; [exact L|]. intros A y. specialize (W A).
  destruct (side_cases x y) as [-> | ->]; [|auto].
  destruct (E A) as [(X & Y & Z)|(X & Y & Z)].
  - constructor; [rewrite R, J; exact W0|intros _; right; right; now rewrite B|intros _; right; now rewrite B].
  - constructor; [rewrite R, J; exact W0|intro H; congruence|intro H; congruence].
Qed.

Lemma looped_alive : forall x l r, rl_alive (read_loop x l r) = true -> rl_alive r = true.
Proof.
  intros x l r A. destruct (rl_alive r) eqn:B; [reflexivity|]. destruct l; cbn in A; rewrite B in A; cbn in A; congruence.
Qed.

Lemma kept_steady : forall x r r', kept x r r' -> rl_alive r' = rl_alive r -> (rl_alive r = true -> forall y, awake (get y r)) -> steady r'.
Proof.
  intros x r r' (S & W & L) A AW. split; [exact L|]. intro A'. rewrite A in A'. intro y.
  destruct (side_cases x y) as [-> | ->]; [eapply awake_same; [exact S|auto]|auto].
Qed.

Lemma alive_kexinit : forall x r, rl_alive (SendKexInit x r) = rl_alive r.
Proof. intros. unfold SendKexInit, OnWriteBlocked. destruct (_ && _); now autorewrite with relay. Qed.

Lemma blocked_waiting : forall x r y, waiting y (OnWriteBlocked x r) = waiting y r.
Proof. intros [] r []; reflexivity. Qed.
Lemma unblocked_waiting : forall x r y, waiting y (OnWriteUnblocked x r) = waiting y r.
Proof. intros [] r []; reflexivity. Qed.
Lemma kexinit_waiting : forall x r y, waiting y (SendKexInit x r) = waiting y r.
Proof.
  intros. unfold SendKexInit. destruct (_ && _); rewrite ?blocked_waiting; now apply waiting_set.
Qed.

Lemma rstep_flows : forall op r, linked r -> flows op r (rstep op r).
Proof.
  intros op r L. unfold rstep. destruct (rl_alive r) eqn:A; cbn [negb].
  2:{ intro x. exists []. split; [|cbn; now rewrite app_nil_r]. destruct op; cbn; rewrite ?app_nil_r; auto. rewrite A, andb_false_r. cbn. now rewrite app_nil_r. }
  destruct op as [x l|x|x|x|x full|x|x|].
  - intro y. exists []. rewrite A, andb_true_r. destruct (ep_reading (get x r)) eqn:R.
    + rewrite andb_true_r. split; [|unfold passed_on; autorewrite with relay; cbn; now rewrite app_nil_r].
      unfold waiting. destruct (side_cases x y) as [-> | ->]; autorewrite with relay.
      * rewrite same_side_refl. cbn. now rewrite app_assoc.
      * rewrite same_side_other. cbn. now rewrite app_nil_r.
    + rewrite andb_false_r, app_nil_r. split; [reflexivity|cbn; now rewrite app_nil_r].
  - destruct (ep_job (get x r)); [|apply flows_still; auto; discriminate].
    apply flows_still; [discriminate| |now autorewrite with relay].
    intro y. unfold waiting. destruct (side_cases x y) as [-> | ->]; autorewrite with relay; cbn; now rewrite ?app_nil_r.
  - destruct (ep_done (get x r)); [|apply flows_still; auto; discriminate]. cbv zeta.
    set (r0 := set x _ r). destruct (ep_list (get x r)) as [|p l] eqn:E.
    + apply flows_still; [discriminate|intro y; unfold r0; now apply waiting_set|unfold r0; now autorewrite with relay].
    + apply (flows_pre _ r r0); [intro y; unfold r0; now apply waiting_set|unfold r0; now autorewrite with relay|discriminate|].
      unfold OnInputReady. eapply flows_loop; [discriminate|apply read_loop_looped; [unfold r0; now apply linked_set|reflexivity]|reflexivity].
  - destruct (ep_resume (get x r)); [|apply flows_still; auto; discriminate]. cbv zeta.
    set (r0 := set x _ r).
    apply (flows_pre _ r r0); [intro y; unfold r0; now apply waiting_set|unfold r0; now autorewrite with relay|discriminate|].
    unfold OnInputReady. eapply flows_loop; [discriminate|apply read_loop_looped; [unfold r0; now apply linked_set|reflexivity]|reflexivity].
  - apply flows_still; [discriminate| |].
    + intro y. set (r0 := set x (with_write_blocked false (get x r)) r).
      assert (W0 : forall z, waiting z r0 = waiting z r) by (intro z; unfold r0; now apply waiting_set). clearbody r0.
      set (r1 := if _ && _ then OnWriteUnblocked x r0 else r0).
      assert (W1 : forall z, waiting z r1 = waiting z r) by (intro z; unfold r1; destruct (_ && _); rewrite ?unblocked_waiting; auto). clearbody r1.
      destruct full; [|auto]. destruct (negb _); rewrite ?blocked_waiting, waiting_set; auto.
    + set (r0 := set x (with_write_blocked false (get x r)) r).
      assert (W0 : rl_relayed r0 = rl_relayed r) by (unfold r0; now autorewrite with relay). clearbody r0.
      set (r1 := if _ && _ then OnWriteUnblocked x r0 else r0).
      assert (W1 : rl_relayed r1 = rl_relayed r) by (unfold r1; destruct (_ && _); rewrite ?relayed_unblock; auto). clearbody r1.
      destruct full; [|auto]. destruct (negb _); rewrite ?relayed_block; autorewrite with relay; auto.
  - destruct (_ && _); [|apply flows_still; auto; discriminate].
    apply flows_still; [discriminate|intro y; apply kexinit_waiting|apply relayed_kexinit].
  - destruct (ep_read_blocked _); apply flows_still; auto; discriminate.
  - apply flows_still; auto; discriminate.
Qed.

Lemma rstep_steady : forall op r, steady r -> steady (rstep op r).
Proof.
  intros op r [L W]. unfold rstep. destruct (rl_alive r) eqn:A; cbn [negb]; [|split; [exact L|congruence]].
  specialize (W eq_refl).
  assert (CL : steady (close r)) by (split; [apply (linked_get r); [intro; apply get_close|exact L]|cbn; discriminate]).
  assert (SR : steady r) by (split; auto).
  destruct op as [x l|x|x|x|x full|x|x|].
  - destruct (ep_reading (get x r)); [|exact SR]. split; [now apply linked_set|]. intros _ y.
    destruct (side_cases x y) as [-> | ->]; autorewrite with relay; [|auto].
    destruct (W x) as [W1 W2 W3]. constructor; cbn; auto.
  - destruct (ep_job (get x r)); [|exact SR]. split; [now apply linked_set|]. intros _ y.
    destruct (side_cases x y) as [-> | ->]; autorewrite with relay; [|auto].
    destruct (W x) as [W1 W2 W3]. constructor; cbn; auto.
  - destruct (ep_done (get x r)); [|exact SR]. cbv zeta. set (r0 := set x _ r).
    assert (L0 : linked r0) by (unfold r0; now apply linked_set).
    destruct (ep_list (get x r)) as [|p l] eqn:E.
    + split; [exact L0|]. intros _ y. unfold r0. destruct (side_cases x y) as [-> | ->]; autorewrite with relay; [|auto].
      destruct (W x) as [W1 W2 W3]. constructor; cbn; auto.
    + unfold OnInputReady. eapply steady_loop; [apply read_loop_looped; auto| |].
      * unfold r0. autorewrite with relay. cbn. apply (aw_raw _ (W x)).
      * intros _. unfold r0. autorewrite with relay. auto.
  - destruct (ep_resume (get x r)); [|exact SR]. cbv zeta. set (r0 := set x _ r).
    assert (L0 : linked r0) by (unfold r0; now apply linked_set).
    unfold OnInputReady. eapply steady_loop; [apply read_loop_looped; auto| |].
    + unfold r0. autorewrite with relay. cbn. apply (aw_raw _ (W x)).
    + intros _. unfold r0. autorewrite with relay. auto.
  - destruct (ep_write_blocked (get x r)) eqn:WB.
    + cbv zeta. cbn [andb]. destruct (IsRekeying (get x r)) eqn:RK; cbn [negb].
      * destruct full.
        -- autorewrite with relay. change (IsRekeying (with_write_blocked false (get x r))) with (IsRekeying (get x r)). rewrite RK. cbn [negb].
           rewrite set_set. apply (kept_steady x r); [|now autorewrite with relay|auto].
           apply hooked_set; [exact L|repeat split|]. intros _. unfold blocked. cbn. reflexivity.
        -- apply (kept_steady x r); [|now autorewrite with relay|auto]. apply hooked_set; [exact L|repeat split|].
           intros _. unfold blocked. cbn. exact RK.
      * set (r1 := OnWriteUnblocked x _).
        assert (K1 : kept x r r1) by (apply hooked_unblock; [exact L|repeat split]).
        assert (A1 : rl_alive r1 = true) by (unfold r1, OnWriteUnblocked; now autorewrite with relay).
        assert (S1 : steady r1) by (apply (kept_steady x r); auto; congruence).
        assert (G1 : get x r1 = with_write_blocked false (get x r)) by (unfold r1, OnWriteUnblocked; now autorewrite with relay).
        destruct full; [|exact S1]. rewrite G1. change (IsRekeying (with_write_blocked false (get x r))) with (IsRekeying (get x r)). rewrite RK. cbn [negb].
        destruct S1 as [L1 W1]. apply (kept_steady x r1); [|unfold OnWriteBlocked; now autorewrite with relay|auto].
        apply hooked_block; [exact L1|rewrite G1; repeat split| |reflexivity]. rewrite G1. unfold blocked. cbn. exact RK.
    + cbv zeta. cbn [andb]. autorewrite with relay.
      change (IsRekeying (with_write_blocked false (get x r))) with (IsRekeying (get x r)).
      destruct full; rewrite ?set_set.
      * destruct (IsRekeying (get x r)) eqn:RK; cbn [negb].
        -- apply (kept_steady x r); [|now autorewrite with relay|auto].
           apply hooked_set; [exact L|repeat split|]. reflexivity.
        -- apply (kept_steady x r); [|unfold OnWriteBlocked; now autorewrite with relay|auto].
           apply hooked_block; [exact L|repeat split| |reflexivity]. unfold blocked. now rewrite WB, RK.
      * apply (kept_steady x r); [|now autorewrite with relay|auto]. apply hooked_set; [exact L|repeat split|].
        unfold blocked. rewrite WB. auto.
  - destruct (_ && _) eqn:E; [|exact SR]. apply andb_true_iff in E as [E E4]. apply andb_true_iff in E as [E E3]. apply andb_true_iff in E as [E1 E2].
    apply negb_true_iff in E1, E2, E3, E4.
    apply (kept_steady x r); [|apply alive_kexinit|auto].
    rewrite <- (set_get x r) at 2. apply SendKexInit_kept; auto using same_refl.
  - destruct (ep_read_blocked _); auto.
  - exact CL.
Qed.

(** ** Runs *)

Definition fresh_end (e : end_point) : Prop := exists wb ks kr ns nr, e = new_end wb ks kr ns nr.

Lemma rrun_steady : forall c t ops, fresh_end c -> fresh_end t -> steady (rrun c t ops).
Proof.
  intros c t ops (? & ? & ? & ? & ? & ->) (? & ? & ? & ? & ? & ->). induction ops as [|op ops IH] using rev_ind.
  - split; [intros []; cbn; discriminate|]. intros _ []; constructor; cbn; congruence.
  - rewrite rrun_snoc. now apply rstep_steady.
Qed.

Lemma arrivals_snoc : forall x ops op r,
  arrivals x (ops ++ [op]) r = arrivals x ops r ++
    match op with
    | RReceive y l => let s := fold_left (fun r op => rstep op r) ops r in if same_side x y && rl_alive s && ep_reading (get y s) then l else []
    | _ => []
    end.
Proof.
  intros x ops op. induction ops as [|o ops IH]; intro r; cbn [app arrivals fold_left].
  - now rewrite app_nil_r.
  - rewrite IH, app_assoc. reflexivity.
Qed.

Lemma rrun_flows : forall c t ops x, fresh_end c -> fresh_end t ->
  let r := rrun c t ops in
  filter is_relayed (arrivals x ops (new_relay c t)) = passed_on x r ++ filter is_relayed (waiting x r).
Proof.
  intros c t ops x C T. induction ops as [|op ops IH] using rev_ind.
  - destruct C as (? & ? & ? & ? & ? & ->), T as (? & ? & ? & ? & ? & ->). destruct x; reflexivity.
  - cbv zeta in *. rewrite rrun_snoc, arrivals_snoc, filter_app, IH.
    destruct (rrun_steady c t ops C T) as [L _].
    destruct (rstep_flows op (rrun c t ops) L x) as (seen & A & B).
    rewrite B, <- !app_assoc. f_equal. rewrite <- !filter_app. f_equal. rewrite <- A. reflexivity.
Qed.

(** ** Progress *)

Lemma rstep_alive : forall op r, rl_alive (rstep op r) = true -> rl_alive r = true.
Proof. intros op r H. destruct (rl_alive r) eqn:A; [reflexivity|]. unfold rstep in H. rewrite A in H. cbn [negb] in H. congruence. Qed.

Lemma drain : forall x r, steady r -> ep_read_blocked (get x r) = false ->
  let r' := fold_left (fun r op => rstep op r) [RWork x; RDone x; RResume x] r in
  rl_alive r' = true -> waiting x r' = [] /\ ep_reading (get x r') = true /\ ep_read_blocked (get x r') = false.
Proof.
  intros x r ST B r'. subst r'. cbn [fold_left]. intro A3.
  pose proof (rstep_alive _ _ A3) as A2. pose proof (rstep_alive _ _ A2) as A1. pose proof (rstep_alive _ _ A1) as A0.
  pose proof (rstep_steady (RWork x) r ST) as ST1.
  assert (S1 : ep_raw (get x (rstep (RWork x) r)) = [] /\ ep_job (get x (rstep (RWork x) r)) = false /\ ep_read_blocked (get x (rstep (RWork x) r)) = false).
  { destruct ST as [_ W]. specialize (W A0 x). unfold rstep. rewrite A0. cbn [negb]. destruct (ep_job (get x r)) eqn:J.
    - autorewrite with relay. cbn. auto.
    - rewrite J. split; [|auto]. destruct (ep_raw (get x r)) eqn:E; [reflexivity|]. pose proof (aw_raw _ W) as Q. rewrite E, J in Q. specialize (Q ltac:(discriminate)). discriminate. }
  set (r1 := rstep (RWork x) r) in *. clearbody r1. clear ST B A0 r. destruct S1 as (R1 & J1 & B1).
  pose proof (rstep_steady (RDone x) r1 ST1) as ST2.
  assert (S2 : ep_raw (get x (rstep (RDone x) r1)) = [] /\ ep_read_blocked (get x (rstep (RDone x) r1)) = false /\ ep_done (get x (rstep (RDone x) r1)) = false).
  { unfold rstep. rewrite A1. cbn [negb]. destruct (ep_done (get x r1)) eqn:D; [|auto]. cbv zeta. set (r0 := set x _ r1).
    destruct ST1 as [L1 _]. assert (L0 : linked r0) by (unfold r0; now apply linked_set).
    destruct (ep_list (get x r1)) eqn:E.
    - unfold r0. autorewrite with relay. cbn. auto.
    - pose proof (read_loop_looped x (ep_list (get x r0)) r0 L0 eq_refl) as Q. unfold OnInputReady.
      rewrite (lp_raw _ _ _ _ Q), (lp_blocked _ _ _ _ Q), (lp_done _ _ _ _ Q). unfold r0. autorewrite with relay. cbn. auto. }
  set (r2 := rstep (RDone x) r1) in *. clearbody r2. clear ST1 A1 R1 J1 B1 r1. destruct S2 as (R2 & B2 & D2).
  unfold rstep in A3 |- *. rewrite A2 in A3 |- *. cbn [negb] in A3 |- *. destruct ST2 as [L2 W2]. specialize (W2 A2 x).
  destruct (ep_resume (get x r2)) eqn:RS.
  - cbv zeta in A3 |- *. set (r0 := set x _ r2) in *. assert (L0 : linked r0) by (unfold r0; now apply linked_set).
    pose proof (read_loop_looped x (ep_list (get x r0)) r0 L0 eq_refl) as Q. unfold OnInputReady in A3 |- *.
    assert (B0 : ep_read_blocked (get x r0) = false) by (unfold r0; autorewrite with relay; exact B2).
    assert (R0 : ep_raw (get x r0) = []) by (unfold r0; autorewrite with relay; exact R2).
    unfold waiting. rewrite (lp_raw _ _ _ _ Q), (lp_blocked _ _ _ _ Q).
    destruct (lp_end _ _ _ _ Q A3) as [(X & _)|(_ & Y & Z)]; [congruence|]. rewrite Y, R0. auto.
  - unfold waiting. rewrite R2, app_nil_r. split; [|split; [|exact B2]].
    + destruct (ep_list (get x r2)) eqn:E; [reflexivity|]. pose proof (aw_list _ W2) as Q. rewrite E in Q.
      destruct (Q ltac:(discriminate)) as [H|[H|[H _]]]; congruence.
    + destruct (ep_reading (get x r2)) eqn:E; [reflexivity|]. destruct (aw_reading _ W2 E) as [H|[H _]]; congruence.
Qed.

(** ** The standstill *)

Definition stuck (r : relay) : Prop := forall x, ep_read_blocked (get x r) = true /\ IsRekeying (get x r) = true.

Lemma stuck_set : forall x e r, ep_read_blocked e = true -> IsRekeying e = true -> stuck r -> stuck (set x e r).
Proof. intros x e r A B S y. destruct (side_cases x y) as [-> | ->]; autorewrite with relay; auto. Qed.

Lemma stuck_loop : forall x l r, rl_alive r = true -> stuck r -> stuck (read_loop x l r) /\ rl_relayed (read_loop x l r) = rl_relayed r.
Proof.
  intros x l r A S. destruct (S x) as [B R]. destruct l; cbn [read_loop]; rewrite A, B; cbn [negb]; (split; [now apply stuck_set|now autorewrite with relay]).
Qed.

Lemma stuck_step : forall op r, stuck r -> rl_relayed (rstep op r) = rl_relayed r /\ stuck (rstep op r).
Proof.
  intros op r S. unfold rstep. destruct (rl_alive r) eqn:A; cbn [negb]; [|auto].
  assert (K : rl_relayed r = rl_relayed r /\ stuck r) by auto.
  assert (C : stuck (close r)) by (intro x; rewrite get_close; apply S).
  destruct op as [x l|x|x|x|x full|x|x|]; try (destruct (S x) as [B R]).
  - destruct (ep_reading _); [|exact K]. split; [now autorewrite with relay|now apply stuck_set].
  - destruct (ep_job _); [|exact K]. split; [now autorewrite with relay|now apply stuck_set].
  - destruct (ep_done _); [|exact K]. cbv zeta. set (r0 := set x _ r).
    assert (S0 : stuck r0) by (unfold r0; now apply stuck_set).
    assert (A0 : rl_alive r0 = true) by (unfold r0; now autorewrite with relay).
    assert (E0 : rl_relayed r0 = rl_relayed r) by (unfold r0; now autorewrite with relay).
    destruct (ep_list _); [auto|]. unfold OnInputReady. destruct (stuck_loop x (ep_list (get x r0)) r0 A0 S0) as [Q1 Q2]. rewrite Q2. auto.
  - destruct (ep_resume _); [|exact K]. cbv zeta. set (r0 := set x _ r).
    assert (S0 : stuck r0) by (unfold r0; now apply stuck_set).
    assert (A0 : rl_alive r0 = true) by (unfold r0; now autorewrite with relay).
    assert (E0 : rl_relayed r0 = rl_relayed r) by (unfold r0; now autorewrite with relay).
    unfold OnInputReady. destruct (stuck_loop x (ep_list (get x r0)) r0 A0 S0) as [Q1 Q2]. rewrite Q2. auto.
  - rewrite R. cbn [negb]. rewrite andb_false_r. cbv zeta. autorewrite with relay.
    change (IsRekeying (with_write_blocked false (get x r))) with (IsRekeying (get x r)). rewrite R. cbn [negb].
    destruct full; rewrite ?set_set; (split; [now autorewrite with relay|now apply stuck_set]).
  - unfold IsRekeying in R. apply andb_true_iff in R as [R _]. rewrite R. exact K.
  - rewrite B. auto.
  - auto.
Qed.

Lemma stuck_run : forall ops r, stuck r ->
  let r' := fold_left (fun r op => rstep op r) ops r in rl_relayed r' = rl_relayed r /\ stuck r'.
Proof.
  induction ops as [|op ops IH]; intros r S; cbn [fold_left]; [auto|].
  destruct (stuck_step op r S) as [E S1]. destruct (IH _ S1) as [E' S']. cbv zeta. rewrite E', E. auto.
Qed.
