(** Proofs about a connection through a proxy. *)

From Coq Require Import NArith List Bool Lia.
From Verif.Base Require Import Bytes.
From Verif.Model Require Import Wire Frame Packets Server Relay.
From Verif.Spec Require Import OutputSpec EndToEndSpec PipelineSpec ReturnSpec RelaySpec TunnelSpec.
From Verif.Proofs Require Import RelayFacts.
Import ListNotations.
Open Scope N_scope.

Definition faithful (r : relay) : Prop := rl_relayed r = filter (fun e => is_relayed (snd e)) (rl_handled r).

Lemma proxy_relayed : forall p, ShouldProxy (number p) = is_relayed p.
Proof.
  intros [|m p]; [reflexivity|]. cbn [number is_relayed]. unfold ShouldProxy, connection_layer. cbn [existsb].
  destruct (N.leb_spec 80 m), (N.leb_spec m 82), (N.leb_spec 90 m), (N.leb_spec m 100); cbn [andb orb];
    repeat match goal with |- context [N.eqb m ?k] => destruct (N.eqb_spec m k) as [->|] end; cbn [orb]; try reflexivity; exfalso;
    unfold MSG_GLOBAL_REQUEST, MSG_REQUEST_SUCCESS, MSG_REQUEST_FAILURE, MSG_CHANNEL_OPEN, MSG_CHANNEL_OPEN_CONFIRMATION, MSG_CHANNEL_OPEN_FAILURE,
      MSG_CHANNEL_WINDOW_ADJUST, MSG_CHANNEL_DATA, MSG_CHANNEL_EXTENDED_DATA, MSG_CHANNEL_EOF, MSG_CHANNEL_CLOSE, MSG_CHANNEL_REQUEST,
      MSG_CHANNEL_SUCCESS, MSG_CHANNEL_FAILURE in *; lia.
Qed.

Lemma f_set : forall x e r, faithful r -> faithful (set x e r).
Proof. intros [] e r H; exact H. Qed.
Lemma f_close : forall r, faithful r -> faithful (close r).
Proof. intros r H; exact H. Qed.
Lemma f_kexinit : forall x r, faithful r -> faithful (SendKexInit x r).
Proof. intros x r H. unfold SendKexInit. destruct (_ && _); [unfold OnWriteBlocked; apply f_set|]; now apply f_set. Qed.
Lemma f_newkeys : forall x r, faithful r -> faithful (SendNewKeys x r).
Proof. intros x r H. unfold SendNewKeys. destruct (_ && _); [unfold OnWriteUnblocked; apply f_set|]; now apply f_set. Qed.
Lemma f_handle : forall x p r, faithful r -> faithful (HandlePacket x p r).
Proof.
  intros x p r H. unfold HandlePacket. rewrite proxy_relayed. destruct (is_relayed p) eqn:R.
  - unfold faithful in *. cbn. rewrite filter_app. cbn [filter snd]. now rewrite R, H.
  - assert (H0 : faithful (add_handled x p r)) by (unfold faithful in *; cbn; rewrite filter_app; cbn [filter snd]; now rewrite R, app_nil_r).
    destruct (_ =? _); [now apply f_close|].
    destruct (_ =? _). { destruct (_ || _); [now apply f_close|]. destruct (ep_kexinit_sent _); [|apply f_kexinit]; now apply f_set. }
    destruct (_ =? _). { destruct (_ && _); [now apply f_set|now apply f_close]. }
    destruct (_ =? _). { destruct x; [destruct (_ && _); [now apply f_newkeys|]|]; now apply f_close. }
    destruct (_ =? _). { destruct x; [|destruct (_ && _); [now apply f_newkeys|]]; now apply f_close. }
    exact H0.
Qed.
Lemma f_loop : forall x l r, faithful r -> faithful (read_loop x l r).
Proof.
  intros x l. induction l as [|p l IH]; intros r H; cbn [read_loop]; (destruct (negb _); [exact H|]); (destruct (ep_read_blocked _); [now apply f_set|]).
  - now apply f_set.
  - apply IH. apply f_set. now apply f_handle.
Qed.
Lemma f_step : forall op r, faithful r -> faithful (rstep op r).
Proof.
  intros op r H. unfold rstep. destruct (negb _); [exact H|]. destruct op.
  - destruct (ep_reading _); [now apply f_set|exact H].
  - destruct (ep_job _); [now apply f_set|exact H].
  - destruct (ep_done _); [|exact H]. destruct (ep_list _); [|apply f_loop]; now apply f_set.
  - destruct (ep_resume _); [|exact H]. apply f_loop. now apply f_set.
  - cbv zeta. assert (A : faithful (set x (with_write_blocked false (get x r)) r)) by now apply f_set.
    match goal with |- faithful (if full then _ else ?r1) =>
      assert (B : faithful r1) by (match goal with |- faithful (if ?c then _ else _) => destruct c end; [unfold OnWriteUnblocked; now apply f_set|exact A]);
      generalize dependent r1 end.
    intros r1 B. destruct full; [|exact B]. match goal with |- faithful (if ?c then _ else _) => destruct c end; [unfold OnWriteBlocked; apply f_set|]; now apply f_set.
  - destruct (_ && _); [now apply f_kexinit|exact H].
  - destruct (ep_read_blocked _); [now apply f_close|exact H].
  - now apply f_close.
Qed.
Lemma rrun_faithful : forall c t ops, faithful (rrun c t ops).
Proof.
  intros c t ops. induction ops as [|op ops IH] using rev_ind; [reflexivity|]. rewrite rrun_snoc. now apply f_step.
Qed.

Lemma filter_comm : forall A (f g : A -> bool) l, filter f (filter g l) = filter g (filter f l).
Proof.
  intros A f g l. induction l as [|a l IH]; [reflexivity|]. cbn [filter]. destruct (f a) eqn:F, (g a) eqn:G; cbn [filter]; rewrite ?F, ?G, IH; reflexivity.
Qed.
Lemma filter_snd : forall (l : list (side * bytes)), map snd (filter (fun e => is_relayed (snd e)) l) = conn (map snd l).
Proof. induction l as [|a l IH]; [reflexivity|]. unfold conn in *. cbn [map filter]. destruct (is_relayed (snd a)); cbn [map]; now rewrite IH. Qed.
Lemma passed_taken : forall c t ops x, passed_on x (rrun c t ops) = conn (taken x (rrun c t ops)).
Proof.
  intros c t ops x. unfold passed_on, taken. rewrite (rrun_faithful c t ops), filter_comm. apply filter_snd.
Qed.

Lemma conn_app : forall a b, conn (a ++ b) = conn a ++ conn b.
Proof. intros. apply filter_app. Qed.
Lemma spoken_conn : forall n ms, spoken n (conn ms) = spoken n ms.
Proof.
  intros n. induction ms as [|m ms IH]; [reflexivity|]. unfold conn in *. cbn [filter]. destruct (is_relayed m) eqn:R; unfold spoken in *; cbn [flat_map]; rewrite IH; [reflexivity|].
  destruct m as [|b m]; [reflexivity|]. cbn [is_relayed] in R. replace (item_of n (b :: m)) with (@nil item); [reflexivity|]. symmetry.
  unfold item_of. destruct b as [|b]; [reflexivity|]. do 7 (destruct b as [b|b|]; try reflexivity); discriminate R.
Qed.
Lemma hears_conn : forall p ms, hears p (conn ms) = hears p ms.
Proof.
  intros n. induction ms as [|m ms IH]; [reflexivity|]. unfold conn in *. cbn [filter]. destruct (is_relayed m) eqn:R; unfold hears in *; cbn [flat_map]; rewrite IH; [reflexivity|].
  destruct m as [|b m]; [reflexivity|]. cbn [is_relayed] in R. replace (heard_of n (b :: m)) with (@nil heard); [reflexivity|]. symmetry.
  unfold heard_of. destruct b as [|b]; [reflexivity|]. do 7 (destruct b as [b|b|]; try reflexivity); discriminate R.
Qed.
