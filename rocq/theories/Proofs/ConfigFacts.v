(** Facts about the configuration file. *)

From Coq Require Import NArith List Bool Lia String.
From Verif.Base Require Import Bytes.
From Verif.Spec Require Import ConfigSpec.
From Verif.Model Require Import Wire Config.
Import ListNotations.
Open Scope N_scope.

Local Arguments bs : simpl never.

Lemma last_snoc : forall w body l, last_line w (body ++ [l]) = if has_word w l then Some l else last_line w body.
Proof. intros w body l. unfold last_line, lines_of. rewrite filter_app. cbn. destruct (has_word w l); [now rewrite rev_app_distr|now rewrite app_nil_r]. Qed.

Lemma setting_snoc : forall A (read : line -> option A) w d body l,
  setting read w d (body ++ [l]) = if has_word w l then match read l with Some a => a | None => d end else setting read w d body.
Proof. intros. unfold setting. rewrite last_snoc. destruct (has_word w l); reflexivity. Qed.

Lemma lines_snoc : forall w body l, lines_of w (body ++ [l]) = lines_of w body ++ (if has_word w l then [l] else []).
Proof. intros. unfold lines_of. rewrite filter_app. cbn. destruct (has_word w l); reflexivity. Qed.
Lemma filter_snoc : forall A (p : A -> bool) a x, filter p (a ++ [x]) = filter p a ++ (if p x then [x] else []).
Proof. intros. rewrite filter_app. cbn. destruct (p x); reflexivity. Qed.

(** ** Sections: one line after the other *)

Fixpoint foldo {S} (f : S -> line -> option S) (s : S) (ls : list line) : option S :=
  match ls with [] => Some s | l :: t => let* s := f s l in foldo f s t end.
Lemma foldo_snoc : forall S (f : S -> line -> option S) ls s l, foldo f s (ls ++ [l]) = let* t := foldo f s ls in f t l.
Proof.
  intros S f. induction ls as [|x ls IH]; intros s l; cbn; [destruct (f s l); reflexivity|]. destruct (f s x); cbn; [apply IH|reflexivity].
Qed.

Lemma each_snoc : forall ok body l, each ok (body ++ [l]) <-> each ok body /\ ok body l.
Proof.
  intros ok body l. split.
  - intros H. split; [|now apply (H body l [])]. intros pre x post E. apply (H pre x (post ++ [l])). now rewrite E, <- app_assoc.
  - intros (H & HL) pre x post E. destruct post as [|y post] using rev_ind.
    + apply app_inj_tail in E. destruct E as (-> & ->). exact HL.
    + clear IHpost. replace (pre ++ x :: post ++ [y]) with ((pre ++ x :: post) ++ [y]) in E by now rewrite <- app_assoc. apply app_inj_tail in E. destruct E as (E & _). exact (H _ _ _ E).
Qed.
Lemma each_nil : forall ok, each ok [].
Proof. intros ok pre x post E. destruct pre; discriminate. Qed.

Lemma section_exact : forall S (f : S -> line -> option S) ok mean,
  (forall body l x, each ok body -> (f (mean body) l = Some x <-> ok body l /\ x = mean (body ++ [l]))) ->
  forall body x, foldo f (mean []) body = Some x <-> each ok body /\ x = mean body.
Proof.
  intros S f ok mean H body. induction body as [|l body IH] using rev_ind; intros x.
  - cbn. split; [intros E; injection E as <-; split; [apply each_nil|reflexivity]|intros (_ & ->); reflexivity].
  - rewrite foldo_snoc, each_snoc. destruct (foldo f (mean []) body) as [t|] eqn:F; cbn.
    + destruct (proj1 (IH t) eq_refl) as (O & ->). rewrite (H body l x O). tauto.
    + split; [discriminate|]. intros ((O & _) & _). assert (X : None = Some (mean body)); [|discriminate]. apply IH. now split.
Qed.

(** ** Words *)

Lemma word_is_eq : forall w name, word_is w name = true -> w = bs name.
Proof. intros w name H. unfold word_is in H. now apply bytes_eqb_eq. Qed.

Lemma has_word_of : forall l w name, l_word l = Some w -> has_word name l = word_is w name.
Proof. intros l w name H. unfold has_word. now rewrite H. Qed.

Lemma zeroconf_of : forall l w, l_word l = Some w -> about_zeroconf l = starts_with ZEROCONF w.
Proof. intros l w H. unfold about_zeroconf. now rewrite H. Qed.

Ltac words :=
  repeat match goal with
  | |- context [word_is (bs ?a) ?b] => let v := eval vm_compute in (word_is (bs a) b) in change (word_is (bs a) b) with v
  | |- context [starts_with ZEROCONF (bs ?a)] => let v := eval vm_compute in (starts_with ZEROCONF (bs a)) in change (starts_with ZEROCONF (bs a)) with v
  end; cbv iota.

(** a word which begins with "zeroconf_" is none of the others *)
Lemma zeroconf_not : forall w name, starts_with ZEROCONF w = true -> starts_with ZEROCONF (bs name) = false -> word_is w name = false.
Proof. intros w name H N. destruct (word_is w name) eqn:E; [|reflexivity]. apply word_is_eq in E. subst. congruence. Qed.

Lemma mode_exact : forall E s l a m, sk_bind s = a -> (mode_of E s l = Some m <-> exists b v, a = Some b /\ ce_local E b = true /\ l_value l = Some v /\ parse_mode v = Some m).
Proof.
  intros E s l a m EA. unfold mode_of. rewrite EA. destruct a as [b|].
  - destruct (ce_local E b) eqn:L.
    + destruct (l_value l) as [v|] eqn:V; cbn.
      * split; [intros H; exists b, v; auto|]. intros (b' & v' & E1 & _ & E2 & E3). congruence.
      * split; [discriminate|]. intros (b' & v' & _ & _ & E2 & _). discriminate.
    + split; [discriminate|]. intros (b' & v' & E1 & L' & _). congruence.
  - split; [discriminate|]. intros (b' & v' & E1 & _). discriminate.
Qed.

Lemma address_the : forall E l port passive, address E l port passive = the_address E port passive l.
Proof. intros. unfold address, the_address. destruct (l_value l); reflexivity. Qed.

(** a cluster, once named, is there *)
Lemma proxy_none : forall E clusters body, each (listener_line E clusters) body ->
  (setting (the_cluster clusters) "proxy_to_zeroconf" PNone body = PNone <-> lines_of "proxy_to_zeroconf" body = []).
Proof.
  intros E clusters body O. unfold setting, last_line. split.
  - intros H. destruct (rev (lines_of "proxy_to_zeroconf" body)) as [|l t] eqn:R.
    + apply (f_equal (@rev line)) in R. now rewrite rev_involutive in R.
    + exfalso. cbn [hd_error] in H. assert (I : In l (lines_of "proxy_to_zeroconf" body)) by (apply in_rev; rewrite R; now left).
      unfold lines_of in I. apply filter_In in I. destruct I as (I & W). apply in_split in I. destruct I as (a & b & EB). pose proof (O _ _ _ EB) as OL.
      destruct OL as [(name & k & IN & WD & V)|(Z & _)].
      * rewrite (has_word_of l _ _ WD) in W. apply word_is_eq in W. 
        unfold listener_options in IN. rewrite !in_app_iff in IN.
        assert (K : k = KCluster).
        { destruct IN as [IN|[IN|IN]].
          - exfalso. cbn [In] in IN. repeat (destruct IN as [IN|IN]; [injection IN as <- _; vm_compute in W; discriminate|]). exact IN.
          - destruct (HAVE_AVAHI (ce_build E)); [|contradiction]. cbn [In] in IN. destruct IN as [IN|[IN|[]]]; injection IN as <- K; [now symmetry|]. vm_compute in W. discriminate.
          - exfalso. destruct (ENABLE_POND (ce_build E)); [|contradiction]. cbn [In] in IN. destruct IN as [IN|[]]; injection IN as <- _. vm_compute in W. discriminate. }
        subst k. destruct V as (_ & nm & c & V & L). unfold the_cluster in H. rewrite V, L in H. discriminate.
      * unfold has_word, about_zeroconf in *. destruct (l_word l) as [w|]; [|discriminate]. apply bytes_eqb_eq in W. subst w. vm_compute in Z. discriminate.
  - intros ->. reflexivity.
Qed.

(** ** listener *)

Ltac unfold_sets := unfold on_sock, set_lc_sock, set_lc_zeroconf, set_lc_tag, set_lc_host_keys, set_lc_authorized, set_lc_proxy, set_lc_pond, set_lc_max_connections,
  set_lc_tarpit, set_lc_verbose_errors, set_lc_exec_reject_stderr, set_lc_accept_client_address, set_lc_skip_our_own,
  set_sk_bind, set_sk_multicast, set_sk_interface, set_sk_mode, set_sk_mptcp, set_sk_user_timeout, set_sk_keepalive, set_sk_v6only, set_sk_reuse_port.

Definition upd {A} (w : bytes) (name : string) (new : option A) (d old : A) : A :=
  if word_is w name then match new with Some a => a | None => d end else old.

(** the meaning of one more line *)
Definition listener_more (E : cenv) (clusters : list (bytes * cluster)) (c : lconf) (w : bytes) (l : line) : lconf :=
  let D := ce_defaults E in
  {| lc_sock :=
       {| sk_bind := upd w "bind" (some (the_address E 2200 true l)) None (sk_bind (lc_sock c));
          sk_multicast := None;
          sk_interface := upd w "interface" (l_value l) (sk_interface D) (sk_interface (lc_sock c));
          sk_mode := upd w "mode" (file_mode l) (sk_mode D) (sk_mode (lc_sock c));
          sk_mptcp := upd w "mptcp" (l_bool l) (sk_mptcp D) (sk_mptcp (lc_sock c));
          sk_user_timeout := upd w "ack_timeout" (option_map (fun n => (1000 * n) mod 2 ^ 32) (l_positive l)) (sk_user_timeout D) (sk_user_timeout (lc_sock c));
          sk_keepalive := upd w "keepalive" (l_bool l) (sk_keepalive D) (sk_keepalive (lc_sock c));
          sk_v6only := upd w "v6only" (l_bool l) (sk_v6only D) (sk_v6only (lc_sock c));
          sk_reuse_port := upd w "reuse_port" (l_bool l) (sk_reuse_port D) (sk_reuse_port (lc_sock c));
          sk_no_delay := true; sk_listen := 256; sk_defer_accept := sk_defer_accept D; sk_pass_cred := sk_pass_cred D |};
     lc_zeroconf := lc_zeroconf c ++ (if starts_with ZEROCONF w then [l] else []);
     lc_tag := upd w "tag" (if ENABLE_TRANSLATION (ce_build E) then l_value l else None) [] (lc_tag c);
     lc_host_keys := lc_host_keys c ++ (if word_is w "host_key_file" then secret_keys E l else []);
     lc_authorized := lc_authorized c ++ (if word_is w "authorized_host_key_file" then public_keys E l else []);
     lc_proxy := upd w "proxy_to_zeroconf" (the_cluster clusters l) PNone (lc_proxy c);
     lc_pond := upd w "pond_server" (some (the_address E (ce_log_port E) false l)) None (lc_pond c);
     lc_max_connections := upd w "max_connections_per_ip" (l_positive l) 0 (lc_max_connections c);
     lc_tarpit := upd w "tarpit" (l_bool l) false (lc_tarpit c);
     lc_verbose_errors := upd w "verbose_errors" (l_bool l) false (lc_verbose_errors c);
     lc_exec_reject_stderr := upd w "exec_reject_stderr" (l_bool l) false (lc_exec_reject_stderr c);
     lc_accept_client_address := upd w "accept_client_address" (l_bool l) false (lc_accept_client_address c);
     lc_skip_our_own := upd w "proxy_skip_our_own" (l_bool l) false (lc_skip_our_own c) |}.

Lemma setting_word : forall A (read : line -> option A) w name d body l, l_word l = Some w ->
  setting read name d (body ++ [l]) = upd w name (read l) d (setting read name d body).
Proof. intros A read w name d body l W. rewrite setting_snoc, (has_word_of l w name W). reflexivity. Qed.
Lemma files_word : forall A (read : line -> list A) w name body l, l_word l = Some w ->
  flat_map read (lines_of name (body ++ [l])) = flat_map read (lines_of name body) ++ (if word_is w name then read l else []).
Proof. intros A read w name body l W. rewrite lines_snoc, flat_map_app, (has_word_of l w name W). destruct (word_is w name); cbn; [now rewrite app_nil_r|reflexivity]. Qed.
Lemma zeroconf_word : forall w body l, l_word l = Some w -> filter about_zeroconf (body ++ [l]) = filter about_zeroconf body ++ (if starts_with ZEROCONF w then [l] else []).
Proof. intros w body l W. now rewrite filter_snoc, (zeroconf_of l w W). Qed.

Lemma listener_snoc : forall E clusters body l w, l_word l = Some w ->
  listener_of E clusters (body ++ [l]) = listener_more E clusters (listener_of E clusters body) w l.
Proof.
  intros E clusters body l w W. unfold listener_of, listener_more, flag, bound. cbv zeta.
  cbn [lc_sock lc_zeroconf lc_tag lc_host_keys lc_authorized lc_proxy lc_pond lc_max_connections lc_tarpit lc_verbose_errors lc_exec_reject_stderr lc_accept_client_address
       lc_skip_our_own sk_bind sk_multicast sk_interface sk_mode sk_mptcp sk_user_timeout sk_keepalive sk_v6only sk_reuse_port].
  assert (T : (if ENABLE_TRANSLATION (ce_build E) then setting l_value "tag" [] (body ++ [l]) else []) =
    upd w "tag" (if ENABLE_TRANSLATION (ce_build E) then l_value l else None) [] (if ENABLE_TRANSLATION (ce_build E) then setting l_value "tag" [] body else [])).
  { destruct (ENABLE_TRANSLATION (ce_build E)); [apply setting_word; exact W|]. unfold upd. destruct (word_is w "tag"); reflexivity. }
  rewrite T, !(setting_word _ _ w _ _ body l W), !(files_word _ _ w _ body l W), (zeroconf_word w body l W). reflexivity.
Qed.

Ltac grown W :=
  rewrite (listener_snoc _ _ _ _ _ W); unfold listener_more, upd; cbv zeta; words; unfold_sets; rewrite ?app_nil_r.

Lemma in_base : forall E name k,
  In (name, k) [ ("bind", KAddress 2200 true); ("interface", KText); ("mode", KMode); ("mptcp", KFlag); ("ack_timeout", KNumber);
    ("keepalive", KFlag); ("v6only", KFlag); ("reuse_port", KFlag); ("tag", if ENABLE_TRANSLATION (ce_build E) then KTag else KIgnored);
    ("host_key_file", KSecretKey); ("authorized_host_key_file", KPublicKeys); ("max_connections_per_ip", KNumber);
    ("tarpit", KFlag); ("verbose_errors", KFlag); ("exec_reject_stderr", KFlag); ("accept_client_address", KFlag) ]%string -> In (name, k) (listener_options E).
Proof. intros E name k H. unfold listener_options. apply in_or_app. now left. Qed.

Lemma bind_some : forall A B (o : option A) (f : A -> option B) x, (let* a := o in f a) = Some x -> exists a, o = Some a /\ f a = Some x.
Proof. intros A B o f x H. destruct o as [a|]; [eauto|discriminate]. Qed.

Ltac known_by nm kd W := left; exists nm, kd; split; [apply in_base; cbn [In]; tauto|split; [exact W|]].

Lemma listener_forward : forall E parent body l x, cf_targets parent = [] -> each (listener_line E (cf_clusters parent)) body ->
  Listener_ParseLine E parent (listener_of E (cf_clusters parent) body) l = Some x ->
  listener_line E (cf_clusters parent) body l /\ x = listener_of E (cf_clusters parent) (body ++ [l]).
Proof.
  intros E parent body l x TG O H. unfold Listener_ParseLine in H. apply bind_some in H. destruct H as (w & W & H).
  destruct (word_is w "bind") eqn:X1.
  { apply word_is_eq in X1. subst w. apply bind_some in H. destruct H as (a & A & H). injection H as <-. rewrite address_the in A. split.
    - known_by "bind"%string (KAddress 2200 true) W. now exists a.
    - grown W. unfold LUKKO_DEFAULT_PORT in A. rewrite A. reflexivity. }
  destruct (word_is w "interface") eqn:X2.
  { apply word_is_eq in X2. subst w. apply bind_some in H. destruct H as (a & A & H). injection H as <-. split.
    - known_by "interface"%string KText W. now exists a.
    - grown W. rewrite A. reflexivity. }
  destruct (word_is w "mode") eqn:X3.
  { apply word_is_eq in X3. subst w. apply bind_some in H. destruct H as (m & A & H). injection H as <-.
    apply (mode_exact E _ l (bound E 2200 body)) in A; [|reflexivity]. destruct A as (b & v & A1 & A2 & A3 & A4). split.
    - known_by "mode"%string KMode W. now exists b, v, m.
    - grown W. unfold file_mode. rewrite A3, A4. reflexivity. }
  destruct (word_is w "mptcp") eqn:X4.
  { apply word_is_eq in X4. subst w. apply bind_some in H. destruct H as (a & A & H). injection H as <-. split; [known_by "mptcp"%string KFlag W; now exists a|grown W; rewrite A; reflexivity]. }
  destruct (word_is w "ack_timeout") eqn:X5.
  { apply word_is_eq in X5. subst w. apply bind_some in H. destruct H as (a & A & H). injection H as <-. split; [known_by "ack_timeout"%string KNumber W; now exists a|].
    grown W. rewrite A. cbn [option_map]. rewrite N.mul_comm. reflexivity. }
  destruct (word_is w "keepalive") eqn:X6.
  { apply word_is_eq in X6. subst w. apply bind_some in H. destruct H as (a & A & H). injection H as <-. split; [known_by "keepalive"%string KFlag W; now exists a|grown W; rewrite A; reflexivity]. }
  destruct (word_is w "v6only") eqn:X7.
  { apply word_is_eq in X7. subst w. apply bind_some in H. destruct H as (a & A & H). injection H as <-. split; [known_by "v6only"%string KFlag W; now exists a|grown W; rewrite A; reflexivity]. }
  destruct (word_is w "reuse_port") eqn:X8.
  { apply word_is_eq in X8. subst w. apply bind_some in H. destruct H as (a & A & H). injection H as <-. split; [known_by "reuse_port"%string KFlag W; now exists a|grown W; rewrite A; reflexivity]. }
  destruct (starts_with ZEROCONF w) eqn:Z.
  { destruct (HAVE_AVAHI (ce_build E)) eqn:AV; [|discriminate]. destruct (ce_service E l) eqn:SV; try discriminate. injection H as <-. split.
    - right. rewrite (zeroconf_of l w W). auto.
    - grown W. rewrite !(zeroconf_not w _ Z) by reflexivity. rewrite Z. rewrite ?app_nil_r. reflexivity. }
  destruct (word_is w "tag") eqn:X9.
  { apply word_is_eq in X9. subst w. destruct (ENABLE_TRANSLATION (ce_build E)) eqn:TR.
    - apply bind_some in H. destruct H as (a & A & H). destruct (N.ltb_spec 256 (len a)) as [|L]; [discriminate|]. injection H as <-. split.
      + left. exists "tag"%string, KTag. split; [apply in_base; rewrite TR; cbn [In]; tauto|]. split; [exact W|]. now exists a.
      + grown W. rewrite TR, A. reflexivity.
    - injection H as <-. split.
      + left. exists "tag"%string, KIgnored. split; [apply in_base; rewrite TR; cbn [In]; tauto|]. split; [exact W|exact Logic.I].
      + grown W. rewrite TR. unfold listener_of. cbv zeta. rewrite TR. reflexivity. }
  destruct (word_is w "host_key_file") eqn:X10.
  { apply word_is_eq in X10. subst w. apply bind_some in H. destruct H as (p & P & H). apply bind_some in H. destruct H as (k & K & H). injection H as <-. split.
    - known_by "host_key_file"%string KSecretKey W. now exists p, k.
    - assert (SK : secret_keys E l = [k]) by (unfold secret_keys; now rewrite P, K). grown W. rewrite SK. reflexivity. }
  destruct (word_is w "authorized_host_key_file") eqn:X11.
  { apply word_is_eq in X11. subst w. apply bind_some in H. destruct H as (p & P & H). apply bind_some in H. destruct H as (k & K & H). injection H as <-. split.
    - known_by "authorized_host_key_file"%string KPublicKeys W. now exists p, k.
    - assert (SK : public_keys E l = k) by (unfold public_keys; now rewrite P, K). grown W. rewrite SK. reflexivity. }
  destruct (word_is w "proxy_to") eqn:X12.
  { exfalso. rewrite TG in H. destruct (lc_proxy _); try discriminate. apply bind_some in H. destruct H as (nm & _ & H). discriminate. }
  destruct (word_is w "proxy_to_zeroconf") eqn:X13; cbn [andb] in H.
  { destruct (HAVE_AVAHI (ce_build E)) eqn:AV; cbn [andb] in H.
    2:{ apply word_is_eq in X13. subst w. revert H. words. discriminate. }
    apply word_is_eq in X13. subst w. destruct (lc_proxy (listener_of E (cf_clusters parent) body)) eqn:PX; try discriminate.
    apply bind_some in H. destruct H as (nm & NM & H). apply bind_some in H. destruct H as (c & C & H). injection H as <-. cbn [listener_of lc_proxy] in PX. apply (proxy_none E _ body O) in PX. split.
    - left. exists "proxy_to_zeroconf"%string, KCluster. split; [unfold listener_options; rewrite AV; apply in_or_app; right; cbn [app In]; tauto|]. split; [exact W|]. split; [exact PX|]. now exists nm, c.
    - assert (SK : the_cluster (cf_clusters parent) l = Some (PCluster nm c)) by (unfold the_cluster; now rewrite NM, C). grown W. rewrite SK. reflexivity. }
  destruct (word_is w "max_connections_per_ip") eqn:X14.
  { apply word_is_eq in X14. subst w. apply bind_some in H. destruct H as (a & A & H). injection H as <-. split; [known_by "max_connections_per_ip"%string KNumber W; now exists a|grown W; rewrite A; reflexivity]. }
  destruct (word_is w "tarpit") eqn:X15.
  { apply word_is_eq in X15. subst w. apply bind_some in H. destruct H as (a & A & H). injection H as <-. split; [known_by "tarpit"%string KFlag W; now exists a|grown W; rewrite A; reflexivity]. }
  destruct (word_is w "verbose_errors") eqn:X16.
  { apply word_is_eq in X16. subst w. apply bind_some in H. destruct H as (a & A & H). injection H as <-. split; [known_by "verbose_errors"%string KFlag W; now exists a|grown W; rewrite A; reflexivity]. }
  destruct (word_is w "exec_reject_stderr") eqn:X17.
  { apply word_is_eq in X17. subst w. apply bind_some in H. destruct H as (a & A & H). injection H as <-. split; [known_by "exec_reject_stderr"%string KFlag W; now exists a|grown W; rewrite A; reflexivity]. }
  destruct (word_is w "accept_client_address") eqn:X18.
  { apply word_is_eq in X18. subst w. apply bind_some in H. destruct H as (a & A & H). injection H as <-. split; [known_by "accept_client_address"%string KFlag W; now exists a|grown W; rewrite A; reflexivity]. }
  destruct (word_is w "proxy_skip_our_own") eqn:X19; cbn [andb] in H.
  { apply word_is_eq in X19. subst w. destruct (HAVE_AVAHI (ce_build E)) eqn:AV; cbn [andb] in H.
    2:{ revert H. words. discriminate. }
    apply bind_some in H. destruct H as (a & A & H). injection H as <-. split; [|grown W; rewrite A; reflexivity].
    left. exists "proxy_skip_our_own"%string, KFlag. split; [unfold listener_options; rewrite AV; apply in_or_app; right; cbn [app In]; tauto|]. split; [exact W|now exists a]. }
  destruct (word_is w "pond_server") eqn:X20; cbn [andb] in H; [|discriminate].
  apply word_is_eq in X20. subst w. destruct (ENABLE_POND (ce_build E)) eqn:PO; cbn [andb] in H; [|discriminate].
  apply bind_some in H. destruct H as (a & A & H). injection H as <-. rewrite address_the in A. split; [|grown W; rewrite A; reflexivity].
  left. exists "pond_server"%string, (KAddress (ce_log_port E) false). split; [unfold listener_options; rewrite PO; apply in_or_app; right; apply in_or_app; right; now left|]. split; [exact W|now exists a].
Qed.

Ltac words_in H :=
  repeat match type of H with
  | context [word_is (bs ?a) ?b] => let v := eval vm_compute in (word_is (bs a) b) in change (word_is (bs a) b) with v in H
  | context [starts_with ZEROCONF (bs ?a)] => let v := eval vm_compute in (starts_with ZEROCONF (bs a)) in change (starts_with ZEROCONF (bs a)) with v in H
  end; cbv iota in H.

Ltac value V W := cbn [value_ok] in V; rewrite W; cbn [obind]; words; cbn [andb];
  first [ destruct V as (a & ->); eexists; reflexivity | idtac ].

Lemma listener_backward : forall E parent body l, each (listener_line E (cf_clusters parent)) body ->
  listener_line E (cf_clusters parent) body l -> exists x, Listener_ParseLine E parent (listener_of E (cf_clusters parent) body) l = Some x.
Proof.
  intros E parent body l O H. unfold Listener_ParseLine. cbv zeta. destruct H as [(name & k & IN & W & V)|(Z & AV & SV)].
  - unfold listener_options in IN. rewrite !in_app_iff in IN. destruct IN as [IN|[IN|IN]].
    + cbn [In] in IN.
      destruct IN as [IN|IN]; [injection IN as <- <-; value V W; rewrite address_the; unfold LUKKO_DEFAULT_PORT; destruct V as (a & ->); eexists; reflexivity|].
      destruct IN as [IN|IN]; [injection IN as <- <-; value V W|].
      destruct IN as [IN|IN].
      { injection IN as <- <-. value V W. destruct V as (a & v & m & V).
        assert (M : mode_of E (lc_sock (listener_of E (cf_clusters parent) body)) l = Some m) by (apply (mode_exact E _ l (bound E 2200 body)); [reflexivity|now exists a, v]).
        rewrite M. eexists; reflexivity. }
      do 5 (destruct IN as [IN|IN]; [injection IN as <- <-; value V W|]).
      destruct IN as [IN|IN].
      { injection IN as <- <-. destruct (ENABLE_TRANSLATION (ce_build E)); cbn [value_ok] in V; rewrite W; cbn [obind]; words; [|eexists; reflexivity].
        destruct V as (v & V & L). rewrite V. cbn [obind]. destruct (N.ltb_spec 256 (len v)) as [L'|L']; [lia|]. eexists; reflexivity. }
      destruct IN as [IN|IN]; [injection IN as <- <-; value V W; destruct V as (p & k & V1 & V2); rewrite V1; cbn [obind]; rewrite V2; eexists; reflexivity|].
      destruct IN as [IN|IN]; [injection IN as <- <-; value V W; destruct V as (p & k & V1 & V2); rewrite V1; cbn [obind]; rewrite V2; eexists; reflexivity|].
      do 5 (destruct IN as [IN|IN]; [injection IN as <- <-; value V W|]).
      contradiction.
    + destruct (HAVE_AVAHI (ce_build E)) eqn:AV; [|contradiction]. cbn [In] in IN.
      destruct IN as [IN|[IN|[]]]; injection IN as <- <-.
      * value V W. destruct V as (N & nm & c & V & L). 
        assert (PX : lc_proxy (listener_of E (cf_clusters parent) body) = PNone) by (cbn [listener_of lc_proxy]; now apply (proxy_none E _ body O)).
        rewrite PX, V. cbn [obind]. rewrite L. eexists; reflexivity.
      * value V W.
    + destruct (ENABLE_POND (ce_build E)) eqn:PO; [|contradiction]. cbn [In] in IN. destruct IN as [IN|[]]; injection IN as <- <-.
      value V W. rewrite address_the. destruct V as (a & ->). eexists; reflexivity.
  - destruct (l_word l) as [w|] eqn:W; [|unfold about_zeroconf in Z; rewrite W in Z; discriminate]. rewrite (zeroconf_of l w W) in Z.
    cbn [obind]. rewrite !(zeroconf_not w _ Z) by reflexivity. rewrite Z, AV, SV. eexists; reflexivity.
Qed.

Lemma listener_exact : forall E parent, cf_targets parent = [] -> forall body l x, each (listener_line E (cf_clusters parent)) body ->
  (Listener_ParseLine E parent (listener_of E (cf_clusters parent) body) l = Some x <->
   listener_line E (cf_clusters parent) body l /\ x = listener_of E (cf_clusters parent) (body ++ [l])).
Proof.
  intros E parent TG body l x O. split; [now apply listener_forward|]. intros (L & ->).
  destruct (listener_backward E parent body l O L) as (x & H). destruct (listener_forward E parent body l x TG O H) as (_ & ->). exact H.
Qed.

(** ** zeroconf_cluster *)

Lemma cluster_exact : forall E body l x, each (cluster_line E) body ->
  (Cluster_ParseLine E (cluster_of E body) l = Some x <-> cluster_line E body l /\ x = cluster_of E (body ++ [l])).
Proof.
  intros E body l x _. 
  assert (SN : forall w, l_word l = Some w -> cluster_of E (body ++ [l]) =
    {| cl_zeroconf := cl_zeroconf (cluster_of E body) ++ (if starts_with ZEROCONF w then [l] else []);
       cl_host_keys := cl_host_keys (cluster_of E body) ++ (if word_is w "host_key_file" then public_keys E l else []);
       cl_send_client_address := upd w "send_client_address" (l_bool l) false (cl_send_client_address (cluster_of E body)) |}).
  { intros w W. unfold cluster_of, flag. cbn [cl_zeroconf cl_host_keys cl_send_client_address].
    rewrite (setting_word _ _ w _ _ body l W), (files_word _ _ w _ body l W), (zeroconf_word w body l W). reflexivity. }
  split.
  - intros H. unfold Cluster_ParseLine in H. apply bind_some in H. destruct H as (w & W & H). specialize (SN w W).
    destruct (starts_with ZEROCONF w) eqn:Z.
    { destruct (ce_explorer E l) eqn:X; try discriminate. injection H as <-. split; [right; now rewrite (zeroconf_of l w W)|].
      rewrite SN. unfold upd. rewrite !(zeroconf_not w _ Z) by reflexivity. now rewrite app_nil_r. }
    destruct (word_is w "host_key_file") eqn:X1.
    { apply word_is_eq in X1. subst w. apply bind_some in H. destruct H as (p & P & H). apply bind_some in H. destruct H as (k & K & H). injection H as <-. split.
      - left. exists "host_key_file"%string, KPublicKeys. split; [now left|]. split; [exact W|now exists p, k].
      - rewrite SN. unfold upd, public_keys. words. rewrite P, K, app_nil_r. reflexivity. }
    destruct (word_is w "send_client_address") eqn:X2; [|discriminate].
    apply word_is_eq in X2. subst w. apply bind_some in H. destruct H as (b & B & H). injection H as <-. split.
    + left. exists "send_client_address"%string, KFlag. split; [right; now left|]. split; [exact W|now exists b].
    + rewrite SN. unfold upd. words. rewrite B, !app_nil_r. reflexivity.
  - intros (L & ->). unfold Cluster_ParseLine. destruct L as [(name & k & IN & W & V)|(Z & X)].
    + specialize (SN _ W). rewrite SN. unfold upd. cbn [In] in IN. destruct IN as [IN|[IN|[]]]; injection IN as <- <-.
      * cbn [value_ok] in V. destruct V as (p & k & P & K). rewrite W. cbn [obind]. words. rewrite P. cbn [obind]. rewrite K, app_nil_r. unfold public_keys. now rewrite P, K.
      * cbn [value_ok] in V. destruct V as (b & B). rewrite W. cbn [obind]. words. rewrite B, !app_nil_r. reflexivity.
    + destruct (l_word l) as [w|] eqn:W; [|unfold about_zeroconf in Z; rewrite W in Z; discriminate]. rewrite (zeroconf_of l w W) in Z.
      cbn [obind]. rewrite Z, X, (SN w eq_refl), Z. unfold upd. rewrite !(zeroconf_not w _ Z) by reflexivity. now rewrite app_nil_r.
Qed.

(** ** prometheus_exporter *)

Lemma exporter_exact : forall E body l x, each (exporter_line E) body ->
  (Exporter_ParseLine E (exporter_of E body) l = Some x <-> exporter_line E body l /\ x = exporter_of E (body ++ [l])).
Proof.
  intros E body l x _. set (D := ce_defaults E). set (c := exporter_of E body).
  assert (SN : forall w, l_word l = Some w -> exporter_of E (body ++ [l]) =
    {| sk_bind := upd w "bind" (some (the_address E 9100 true l)) None (sk_bind c); sk_multicast := None;
       sk_interface := upd w "interface" (l_value l) (sk_interface D) (sk_interface c);
       sk_mode := upd w "mode" (file_mode l) (sk_mode D) (sk_mode c); sk_mptcp := sk_mptcp D; sk_user_timeout := sk_user_timeout D; sk_keepalive := sk_keepalive D;
       sk_v6only := upd w "v6only" (l_bool l) (sk_v6only D) (sk_v6only c); sk_reuse_port := upd w "reuse_port" (l_bool l) (sk_reuse_port D) (sk_reuse_port c);
       sk_no_delay := true; sk_listen := 16; sk_defer_accept := 10; sk_pass_cred := sk_pass_cred D |}).
  { intros w W. unfold c, exporter_of, flag, bound. cbn [sk_bind sk_interface sk_mode sk_v6only sk_reuse_port].
    rewrite !(setting_word _ _ w _ _ body l W). reflexivity. }
  split.
  - intros H. unfold Exporter_ParseLine in H. apply bind_some in H. destruct H as (w & W & H). specialize (SN w W). rewrite SN. unfold upd.
    destruct (word_is w "bind") eqn:X1.
    { apply word_is_eq in X1. subst w. apply bind_some in H. destruct H as (a & A & H). injection H as <-. rewrite address_the in A. words. split.
      - exists "bind"%string, (KAddress 9100 true). split; [cbn [In]; tauto|]. split; [exact W|now exists a].
      - rewrite A. reflexivity. }
    destruct (word_is w "interface") eqn:X2.
    { apply word_is_eq in X2. subst w. apply bind_some in H. destruct H as (a & A & H). injection H as <-. words. split.
      - exists "interface"%string, KText. split; [cbn [In]; tauto|]. split; [exact W|now exists a].
      - rewrite A. reflexivity. }
    destruct (word_is w "mode") eqn:X3.
    { apply word_is_eq in X3. subst w. apply bind_some in H. destruct H as (m & A & H). injection H as <-.
      apply (mode_exact E _ l (bound E 9100 body)) in A; [|reflexivity]. destruct A as (b & v & A1 & A2 & A3 & A4). words. split.
      - exists "mode"%string, KMode. split; [cbn [In]; tauto|]. split; [exact W|now exists b, v, m].
      - unfold file_mode. rewrite A3, A4. reflexivity. }
    destruct (word_is w "v6only") eqn:X4.
    { apply word_is_eq in X4. subst w. apply bind_some in H. destruct H as (a & A & H). injection H as <-. words. split.
      - exists "v6only"%string, KFlag. split; [cbn [In]; tauto|]. split; [exact W|now exists a].
      - rewrite A. reflexivity. }
    destruct (word_is w "reuse_port") eqn:X5; [|discriminate].
    apply word_is_eq in X5. subst w. apply bind_some in H. destruct H as (a & A & H). injection H as <-. words. split.
    + exists "reuse_port"%string, KFlag. split; [cbn [In]; tauto|]. split; [exact W|now exists a].
    + rewrite A. reflexivity.
  - intros ((name & k & IN & W & V) & ->). rewrite (SN _ W). unfold upd, Exporter_ParseLine. rewrite W. cbn [obind]. cbn [In] in IN.
    destruct IN as [IN|[IN|[IN|[IN|[IN|[]]]]]]; injection IN as <- <-; words; cbn [value_ok] in V.
    + rewrite address_the. destruct V as (a & V). rewrite V. reflexivity.
    + destruct V as (a & V). rewrite V. reflexivity.
    + destruct V as (a & v & m & V). pose proof V as (A1 & A2 & A3 & A4).
      assert (M : mode_of E c l = Some m) by (apply (mode_exact E _ l (bound E 9100 body)); [reflexivity|now exists a, v]).
      rewrite M. unfold file_mode. rewrite A3, A4. reflexivity.
    + destruct V as (a & V). rewrite V. reflexivity.
    + destruct V as (a & V). rewrite V. reflexivity.
Qed.

(** ** control *)

Lemma control_exact : forall E body l x, each (control_line E) body ->
  (Control_ParseLine E (control_of E body) l = Some x <-> control_line E body l /\ x = control_of E (body ++ [l])).
Proof.
  intros E body l x _. set (D := ce_defaults E). set (c := control_of E body).
  assert (SN : forall w, l_word l = Some w -> control_of E (body ++ [l]) =
    {| sk_bind := upd w "bind" (some (the_address E (ce_control_port E) true l)) None (sk_bind c);
       sk_multicast := upd w "multicast_group" (some (the_address E 0 false l)) None (sk_multicast c);
       sk_interface := upd w "interface" (l_value l) (sk_interface D) (sk_interface c);
       sk_mode := sk_mode D; sk_mptcp := sk_mptcp D; sk_user_timeout := sk_user_timeout D; sk_keepalive := sk_keepalive D; sk_v6only := sk_v6only D;
       sk_reuse_port := sk_reuse_port D; sk_no_delay := sk_no_delay D; sk_listen := sk_listen D; sk_defer_accept := sk_defer_accept D; sk_pass_cred := true |}).
  { intros w W. unfold c, control_of, flag, bound. cbn [sk_bind sk_interface sk_multicast].
    rewrite !(setting_word _ _ w _ _ body l W). reflexivity. }
  split.
  - intros H. unfold Control_ParseLine in H. apply bind_some in H. destruct H as (w & W & H). specialize (SN w W). rewrite SN. unfold upd.
    destruct (word_is w "bind") eqn:X1.
    { apply word_is_eq in X1. subst w. apply bind_some in H. destruct H as (a & A & H). injection H as <-. rewrite address_the in A. words. split.
      - exists "bind"%string, (KAddress (ce_control_port E) true). split; [cbn [In]; tauto|]. split; [exact W|now exists a].
      - rewrite A. reflexivity. }
    destruct (word_is w "multicast_group") eqn:X2.
    { apply word_is_eq in X2. subst w. apply bind_some in H. destruct H as (a & A & H). injection H as <-. rewrite address_the in A. words. split.
      - exists "multicast_group"%string, (KAddress 0 false). split; [cbn [In]; tauto|]. split; [exact W|now exists a].
      - rewrite A. reflexivity. }
    destruct (word_is w "interface") eqn:X3; [|discriminate].
    apply word_is_eq in X3. subst w. apply bind_some in H. destruct H as (a & A & H). injection H as <-. words. split.
    + exists "interface"%string, KText. split; [cbn [In]; tauto|]. split; [exact W|now exists a].
    + rewrite A. reflexivity.
  - intros ((name & k & IN & W & V) & ->). rewrite (SN _ W). unfold upd, Control_ParseLine. rewrite W. cbn [obind]. cbn [In] in IN.
    destruct IN as [IN|[IN|[IN|[]]]]; injection IN as <- <-; words; cbn [value_ok] in V; rewrite ?address_the; destruct V as (a & V); rewrite V; reflexivity.
Qed.
