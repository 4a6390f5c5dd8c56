(** * C76: administrative commands do what they say *)

From Coq Require Import NArith ZArith List Bool Lia String.
From Verif.Base Require Import Bytes.
From Verif.Spec Require Import AdminSpec.
From Verif.Model Require Import StringList Admin.
Import ListNotations.
Open Scope N_scope.

Lemma split_tag_list : forall s, tag_list s (split 0 s).
Proof.
  intros s. induction s as [|b r (N & F & E)].
  - split; [discriminate|]. split; [constructor; [intros []|constructor]|reflexivity].
  - cbn [split]. destruct (N.eqb_spec b 0) as [->|B].
    + split; [discriminate|]. split; [constructor; [intros []|exact F]|]. destruct (split 0 r) as [|p l]; [destruct N; reflexivity|].
      change (0 :: r = 0 :: joined (p :: l)). congruence.
    + destruct (split 0 r) as [|p l]; [destruct N; reflexivity|]. inversion F as [|? ? F1 F2]. split; [discriminate|]. split.
      * constructor; [|exact F2]. intros [X|I]; [now apply B|now apply F1].
      * rewrite E. destruct l; reflexivity.
Qed.
Lemma joined_app : forall x t, t <> [] -> joined (x :: t) = x ++ 0 :: joined t.
Proof. intros x [|y t] N; [destruct N; reflexivity|reflexivity]. Qed.
Lemma split_piece : forall x r, ~ In 0 x -> split 0 (x ++ 0 :: r) = x :: split 0 r.
Proof.
  intros x r. induction x as [|b x IH]; intros N; [reflexivity|]. cbn [app split].
  destruct (N.eqb_spec b 0) as [->|B]; [destruct N; now left|]. rewrite IH; [reflexivity|]. intros I. apply N. now right.
Qed.
Lemma split_last : forall x, ~ In 0 x -> split 0 x = [x].
Proof.
  intros x. induction x as [|b x IH]; intros N; [reflexivity|]. cbn [split].
  destruct (N.eqb_spec b 0) as [->|B]; [destruct N; now left|]. rewrite IH; [reflexivity|]. intros I. apply N. now right.
Qed.
Lemma tag_list_split : forall l s, tag_list s l -> split 0 s = l.
Proof.
  intros l. induction l as [|x t IH]; intros s (N & F & E); [destruct N; reflexivity|]. inversion F as [|? ? F1 F2]; subst.
  destruct t as [|y t]; [now apply split_last|]. rewrite joined_app by discriminate. rewrite split_piece by exact F1. f_equal. apply IH.
  split; [discriminate|]. now split.
Qed.

Lemma HasTag_spec : forall tag c, HasTag tag c = true <-> tagged tag c.
Proof.
  intros tag c. unfold HasTag, tagged, ListContains. destruct (cn_translation c) as [r|]; [|split; [discriminate|intros (r & s & l & E & _); discriminate]].
  destruct (lr_execute_tag r) as [s|] eqn:T.
  - rewrite existsb_exists. split.
    + intros (x & I & B). apply bytes_eqb_eq in B. subst x. exists r, s, (split 0 s). split; [reflexivity|]. split; [exact T|]. split; [apply split_tag_list|exact I].
    + intros (r' & s' & l & E1 & E2 & L & I). injection E1 as <-. rewrite T in E2. injection E2 as <-. exists tag. split; [|apply bytes_eqb_refl].
      now rewrite (tag_list_split _ _ L).
  - split; [discriminate|]. intros (r' & s' & l & E1 & E2 & _). injection E1 as <-. congruence.
Qed.

Lemma terminate_ended : forall gone tag l n, In n (snd (TerminateChildren gone tag l)) <-> exists c, In c l /\ cn_id c = n /\ tagged tag c.
Proof.
  intros gone tag l n. induction l as [|c t IH]; [split; [intros []|intros (c & [] & _)]|]. cbn [TerminateChildren].
  destruct (TerminateChildren gone tag t) as [rest ended]. cbn [snd] in IH. pose proof (HasTag_spec tag c) as H. destruct (HasTag tag c).
  - cbn [snd]. split.
    + intros [E|I]; [exists c; split; [now left|split; [exact E|now apply H]]|]. apply IH in I. destruct I as (d & D & X). exists d. split; [now right|exact X].
    + intros (d & [<-|D] & X & T); [now left|]. right. apply IH. now exists d.
  - cbn [snd]. rewrite IH. split; intros (d & D & X & T); exists d; (split; [|now split]); [now right|].
    destruct D as [<-|D]; [|exact D]. apply H in T. discriminate.
Qed.
Lemma terminate_rest : forall gone tag l c, In c (fst (TerminateChildren gone tag l)) <-> In c l /\ (tagged tag c -> gone (cn_id c) = false).
Proof.
  intros gone tag l c. induction l as [|d t IH]; [split; [intros []|intros ([] & _)]|]. cbn [TerminateChildren].
  destruct (TerminateChildren gone tag t) as [rest ended]. cbn [fst] in IH. pose proof (HasTag_spec tag d) as H. destruct (HasTag tag d).
  - destruct (gone (cn_id d)) eqn:G; cbn [fst].
    + rewrite IH. split; intros (A & B); (split; [|exact B]); [now right|]. destruct A as [<-|A]; [|exact A]. specialize (B (proj1 H eq_refl)). congruence.
    + split; [intros [<-|I]; [split; [now left|intros _; exact G]|apply IH in I; split; [now right|apply I]]|].
      intros ([<-|A] & B); [now left|]. right. apply IH. now split.
  - cbn [fst]. split; [intros [<-|I]; [split; [now left|intros T; apply H in T; discriminate]|apply IH in I; split; [now right|apply I]]|].
    intros ([<-|A] & B); [now left|]. right. apply IH. now split.
Qed.

(** TERMINATE_CHILDREN: exactly the connections whose programs carry the tag
    are terminated, on all listeners; the others stay, and nothing else
    changes. *)
Theorem C76_terminate : forall gone get_bool payload uid i, payload <> [] ->
  let j := OnControlPacket gone get_bool TERMINATE_CHILDREN payload uid i in
  (exists ended, in_terminated j = in_terminated i ++ ended /\
     forall n, In n ended <-> exists c, In c (connections i) /\ cn_id c = n /\ tagged payload c) /\
  (forall c, In c (connections i) -> ~ tagged payload c -> In c (connections j)) /\
  (forall c, In c (connections j) -> In c (connections i)) /\
  in_log_level j = in_log_level i /\ in_publisher j = in_publisher i /\
  map ls_tag (in_listeners j) = map ls_tag (in_listeners i) /\ map ls_zeroconf (in_listeners j) = map ls_zeroconf (in_listeners i).
Proof.
  intros gone get_bool payload uid i N. cbv zeta. cbn [OnControlPacket]. destruct payload as [|b p]; [destruct N; reflexivity|]. clear N.
  set (payload := b :: p). cbv zeta. unfold connections. cbn [in_terminated in_listeners in_log_level in_publisher]. rewrite !map_map. cbn [ls_tag ls_zeroconf fst snd].
  split; [|split; [|split; [|repeat split]]].
  - eexists. split; [reflexivity|]. intros n. rewrite in_flat_map. split.
    + intros (x & I & E). apply in_map_iff in I. destruct I as (l & <- & I). cbn [snd] in E. apply terminate_ended in E. destruct E as (c & A & B).
      exists c. split; [|exact B]. apply in_flat_map. now exists l.
    + intros (c & A & B). apply in_flat_map in A. destruct A as (l & I & A). exists (l, TerminateChildren gone payload (ls_connections l)).
      split; [apply in_map_iff; now exists l|]. cbn [snd]. apply terminate_ended. now exists c.
  - intros c A T. apply in_flat_map in A. destruct A as (l & I & A). apply in_flat_map. eexists. split; [apply in_map_iff; exists l; split; [reflexivity|exact I]|].
    cbn [ls_connections fst snd]. apply terminate_rest. split; [exact A|]. intros Q. destruct (T Q).
  - intros c A. apply in_flat_map in A. destruct A as (x & I & A). apply in_map_iff in I. destruct I as (l & <- & I). cbn [ls_connections fst snd] in A.
    apply terminate_rest in A. apply in_flat_map. exists l. split; [exact I|apply A].
Qed.
Print Assumptions C76_terminate.

(** The log level and the publication of services are changed only by local
    users (and by nothing but the commands for this purpose); no connection is
    ended by any other command, or by an empty payload. *)
Theorem C76_local : forall gone get_bool command payload uid i,
  let j := OnControlPacket gone get_bool command payload uid i in
  (in_log_level j <> in_log_level i -> (0 <= uid)%Z /\ command = VERBOSE /\ payload = [in_log_level j]) /\
  (in_publisher j <> in_publisher i -> (0 <= uid)%Z /\
     (command = DISABLE_ZEROCONF /\ in_publisher j = Some false \/ command = ENABLE_ZEROCONF /\ in_publisher j = Some true)) /\
  (in_terminated j <> in_terminated i \/ connections j <> connections i -> command = TERMINATE_CHILDREN /\ payload <> []).
Proof.
  intros gone get_bool command payload uid i. cbv zeta. unfold OnControlPacket.
  assert (R : flat_map ls_connections (map (ReloadListener get_bool) (in_listeners i)) = flat_map ls_connections (in_listeners i)).
  { induction (in_listeners i) as [|l t IH]; [reflexivity|]. cbn [map flat_map]. rewrite IH. f_equal. unfold ReloadListener.
    destruct (ls_tag l); [reflexivity|]. destruct (ls_zeroconf l); reflexivity. }
  destruct command.
  - destruct (Z.leb_spec 0 uid); [|intuition congruence]. destruct payload as [|x [|y p]]; cbn; intuition congruence.
  - destruct (Z.leb_spec 0 uid); [|intuition congruence]. destruct (in_publisher i) eqn:P; cbn; rewrite ?P; intuition congruence.
  - destruct (Z.leb_spec 0 uid); [|intuition congruence]. destruct (in_publisher i) eqn:P; cbn; rewrite ?P; intuition congruence.
  - unfold connections. cbn [in_log_level in_publisher in_terminated in_listeners]. rewrite R. intuition congruence.
  - destruct payload; cbn [in_log_level in_publisher]; intuition congruence.
  - intuition congruence.
Qed.
Print Assumptions C76_local.

(** After RELOAD_STATE each listener with a tag and a published service is as
    visible as the state directory says (visible by default); others keep their
    settings. *)
Theorem C76_reload : forall gone get_bool payload uid i,
  let j := OnControlPacket gone get_bool RELOAD_STATE payload uid i in
  Forall2 (fun l m => ls_tag m = ls_tag l /\ ls_connections m = ls_connections l /\
    ls_zeroconf m = match ls_zeroconf l with
                    | Some v => Some (if bytes_eqb (ls_tag l) [] then v else get_bool (bs "lukko/listener/" ++ ls_tag l ++ bs "/zeroconf") true)
                    | None => None
                    end) (in_listeners i) (in_listeners j).
Proof.
  intros gone get_bool payload uid i. cbn [OnControlPacket in_listeners]. induction (in_listeners i) as [|l t IH]; [constructor|]. constructor; [|exact IH].
  unfold ReloadListener. destruct (ls_tag l) eqn:T; [destruct (ls_zeroconf l) eqn:Z; repeat split; cbn; congruence|].
  destruct (ls_zeroconf l) eqn:Z; cbn [ls_tag ls_connections ls_zeroconf]; rewrite ?T, ?Z; repeat split.
Qed.
Print Assumptions C76_reload.

(** An account which may only use services (SFTP) should be ended by the tag of
    these services, too. *)
Definition C76_services_full_statement : Prop := forall gone get_bool payload uid i c, payload <> [] ->
  In c (connections i) -> tagged payload c \/ service_tagged payload c ->
  In (cn_id c) (in_terminated (OnControlPacket gone get_bool TERMINATE_CHILDREN payload uid i)).
Definition sftp_client : cconn :=
  {| cn_id := 1; cn_translation := Some {| lr_execute_tag := None; lr_service_tags := [(bs "sftp", bs "user1" ++ 0 :: bs "site7")] |} |}.
Theorem C76_services_refuted : ~ C76_services_full_statement.
Proof.
  intros H. specialize (H (fun _ => true) (fun _ d => d) (bs "site7") 0%Z
    {| in_log_level := 1; in_publisher := None; in_terminated := []; in_listeners := [{| ls_tag := []; ls_zeroconf := None; ls_connections := [sftp_client] |}] |}
    sftp_client ltac:(discriminate) (or_introl eq_refl)).
  assert (T : service_tagged (bs "site7") sftp_client).
  { eexists _, (bs "sftp"), _, [bs "user1"; bs "site7"]. split; [reflexivity|]. split; [left; reflexivity|]. split; [|right; now left].
    split; [discriminate|]. split; [|reflexivity]. repeat constructor; vm_compute; intuition discriminate. }
  specialize (H (or_intror T)). vm_compute in H. exact H.
Qed.
Print Assumptions C76_services_refuted.

Example C76_demo :
  let c n t := {| cn_id := n; cn_translation := Some {| lr_execute_tag := Some t; lr_service_tags := [] |} |} in
  let i := {| in_log_level := 1; in_publisher := None; in_terminated := [];
              in_listeners := [{| ls_tag := bs "a"; ls_zeroconf := Some true; ls_connections := [c 1 (bs "x"); c 2 (bs "x" ++ 0 :: bs "site7"); sftp_client] |};
                               {| ls_tag := []; ls_zeroconf := None; ls_connections := [c 4 (bs "site7"); c 5 (bs "site77")] |}] |} in
  in_terminated (OnControlPacket (fun n => n =? 2) (fun _ d => d) TERMINATE_CHILDREN (bs "site7") (-1) i) = [2; 4] /\
  map cn_id (connections (OnControlPacket (fun n => n =? 2) (fun _ d => d) TERMINATE_CHILDREN (bs "site7") (-1) i)) = [1; 1; 4; 5].
Proof. split; vm_compute; reflexivity. Qed.
