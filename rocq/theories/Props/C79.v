(** * C79: the configuration file

    The server accepts exactly the configuration files which are well-formed, and
    the configuration is exactly what the file says. *)

From Coq Require Import NArith List Bool Lia String.
From Verif.Base Require Import Bytes.
From Verif.Spec Require Import ConfigSpec.
From Verif.Model Require Import Wire Config.
From Verif.Proofs Require ClusterFacts.
From Verif.Proofs Require Import ConfigFacts ConfigFile.
Import ListNotations.
Open Scope N_scope.

Local Arguments bs : simpl never.

Lemma standard_default : forall E, default_listener E = standard_listener E.
Proof. intros E. reflexivity. Qed.

Lemma listeners_empty : forall E items above, listeners_in E above items = [] <-> sections "listener" items = [].
Proof.
  intros E. induction items as [|i items IH]; intros above; [cbn; tauto|]. cbn [listeners_in sections flat_map]. 
  destruct i as [l|h b c]; [apply IH|]. destruct (has_word "listener" h); [split; discriminate|apply IH].
Qed.

(** Accepted or not, and what it means. *)
Theorem C79_exact : forall E file c,
  LoadConfigFile E file = Some c <-> exists items, file = flat_map item_lines items /\ file_ok E items /\ c = whole E items.
Proof.
  intros E file c.
  assert (CW : forall items, Check E (meaning E items) = whole E items).
  { intros items. unfold Check, whole. cbv zeta. rewrite standard_default. destruct (sections "listener" items) eqn:S.
    - apply (listeners_empty E items []) in S. change (cf_listeners (meaning E items)) with (rev (listeners_in E [] items)). rewrite S. reflexivity.
    - change (cf_listeners (meaning E items)) with (rev (listeners_in E [] items)). destruct (rev (listeners_in E [] items)) eqn:R; [|reflexivity].
      apply (f_equal (@rev lconf)) in R. rewrite rev_involutive in R. apply listeners_empty in R. congruence. }
  unfold LoadConfigFile. split.
  - destruct (parse_lines E (new_conf, None) file) as [(c0, [ch|])|] eqn:P; try discriminate. intros H. injection H as <-.
    destruct (parsed E file c0 None P) as (items & OK & -> & ->). exists items. rewrite CW. auto.
  - intros (items & -> & OK & ->). rewrite (parses E items OK). now rewrite CW.
Qed.
Print Assumptions C79_exact.

(** There is always a listener, and every listener has an address (SocketConfig::Fixup() does not remove it). *)
Theorem C79_bound : forall E file c, (forall s, sk_bind s <> None -> sk_bind (ce_fixup E s) <> None) ->
  LoadConfigFile E file = Some c -> cf_listeners c <> [] /\ forall l, In l (cf_listeners c) -> sk_bind (lc_sock l) <> None.
Proof.
  intros E file c FX H. apply C79_exact in H. destruct H as (items & -> & OK & ->).
  assert (B : forall l, In l (cf_listeners (meaning E items)) -> sk_bind (lc_sock l) <> None).
  { revert OK. induction items as [|i items IH] using rev_ind; intros OK l I; [contradiction|]. apply file_ok_snoc in OK. destruct OK as (OK & OI).
    change (cf_listeners (meaning E (items ++ [i]))) with (rev (listeners_in E [] (items ++ [i]))) in I. rewrite listeners_snoc, rev_app_distr in I. apply in_app_or in I.
    destruct I as [I|I]; [|exact (IH OK l I)]. destruct i as [t|h b c]; [contradiction|]. destruct (has_word "listener" h) eqn:W; [|contradiction]. cbn [rev app In] in I. destruct I as [<-|[]].
    cbn [item_ok] in OI. destruct OI as (_ & _ & OI). apply has_word_true in W.
    assert (BD : bound E 2200 b <> None).
    { destruct OI as [(_ & _ & _ & BD)|[(W' & _)|[(W' & _)|[(W' & _)|(W' & _)]]]]; [exact BD|..]; exfalso; apply has_word_true in W'; rewrite W in W'; vm_compute in W'; discriminate. }
    cbn [on_sock set_lc_sock lc_sock]. apply FX. exact BD. }
  unfold whole. cbv zeta. destruct (sections "listener" items) eqn:S.
  - cbn [cf_listeners]. split; [discriminate|]. intros l [<-|[]]. discriminate.
  - split; [|exact B]. change (cf_listeners (meaning E items)) with (rev (listeners_in E [] items)). intros R.
    apply (f_equal (@rev lconf)) in R. rewrite rev_involutive in R. apply listeners_empty in R. congruence.
Qed.
Print Assumptions C79_bound.

(** A proxy forwards to a cluster of this file, with this name, and knows host
    keys for it: no proxy trusts arbitrary servers. *)
Theorem C79_proxy : forall E file c l, LoadConfigFile E file = Some c -> In l (cf_listeners c) ->
  NoDup (map fst (cf_clusters c)) /\
  match lc_proxy l with
  | PNone => LoadProxyHostKeys l = None /\ SendClientAddress l = false
  | PCluster name x => In (name, x) (cf_clusters c) /\ LoadProxyHostKeys l = Some (cl_host_keys x) /\ cl_host_keys x <> [] /\ SendClientAddress l = cl_send_client_address x
  | PTarget _ _ => False
  end.
Proof.
  intros E file c l H I. apply C79_exact in H. destruct H as (items & -> & OK & ->).
  assert (CL : cf_clusters (whole E items) = clusters_in E items) by (unfold whole; cbv zeta; destruct (sections "listener" items); reflexivity). rewrite CL.
  assert (FIND : forall name (m : list (bytes * cluster)) x, lookup name m = Some x -> In (name, x) m).
  { intros name m x L. unfold lookup in L. destruct (find _ m) as [(n, y)|] eqn:F; [|discriminate]. cbn in L. injection L as <-. apply find_some in F. destruct F as (F & N). cbn in N.
    apply bytes_eqb_eq in N. now subst. }
  assert (INV : NoDup (map fst (clusters_in E items)) /\ (forall name x, In (name, x) (clusters_in E items) -> cl_host_keys x <> []) /\
    forall l, In l (listeners_in E [] items) -> match lc_proxy l with PNone => True | PCluster name x => In (name, x) (clusters_in E items) | PTarget _ _ => False end).
  { clear I CL l. revert OK. induction items as [|i items IH] using rev_ind; intros OK; [cbn; split; [constructor|]; split; intros; contradiction|].
    apply file_ok_snoc in OK. destruct OK as (OK & OI). destruct (IH OK) as (ND & HK & PX). clear IH.
    assert (CS : clusters_in E (items ++ [i]) = clusters_in E items ++ clusters_in E [i]) by (unfold clusters_in; now rewrite flat_map_app).
    assert (CI : forall name x, In (name, x) (clusters_in E [i]) -> ~ In name (map fst (clusters_in E items)) /\ cl_host_keys x <> [] /\ clusters_in E [i] = [(name, x)]).
    { intros name x J. unfold clusters_in in J |- *. cbn [flat_map] in J |- *. rewrite app_nil_r in J |- *. destruct i as [t|h b c]; [contradiction|]. destruct (has_word "zeroconf_cluster" h) eqn:W; [|contradiction].
      cbn [item_ok] in OI. destruct OI as (_ & _ & OI). apply has_word_true in W.
      destruct OI as [(W' & _)|[(W' & _ & _ & nm & NB & NI & _ & _ & K)|[(W' & _)|[(W' & _)|(W' & _)]]]]; apply has_word_true in W'; rewrite W in W';
        try (exfalso; vm_compute in W'; discriminate). rewrite NB in J |- *. destruct J as [J|[]]. injection J as <- <-. auto. }
    rewrite CS. split; [|split].
    - rewrite map_app. destruct (clusters_in E [i]) as [|(nm, x) r] eqn:R; [cbn; now rewrite app_nil_r|].
      destruct (CI nm x (or_introl eq_refl)) as (NI & _ & R'). rewrite R'. cbn [map fst]. now apply ClusterFacts.NoDup_app_single.
    - intros name x J. apply in_app_or in J. destruct J as [J|J]; [exact (HK _ _ J)|]. now destruct (CI name x J) as (_ & K & _).
    - intros l J. rewrite listeners_snoc in J. apply in_app_or in J. destruct J as [J|J].
      + specialize (PX l J). destruct (lc_proxy l); auto using in_or_app.
      + destruct i as [t|h b c]; [contradiction|]. destruct (has_word "listener" h) eqn:W; [|contradiction]. destruct J as [<-|[]].
        cbn [on_sock set_lc_sock listener_of lc_proxy app]. unfold setting. destruct (last_line "proxy_to_zeroconf" b) as [p|]; [|exact Logic.I]. unfold the_cluster.
        destruct (l_value p) as [nm|]; [|exact Logic.I]. destruct (lookup nm (clusters_in E items)) as [x|] eqn:L; [|exact Logic.I]. apply in_or_app. left. now apply FIND. }
  destruct INV as (ND & HK & PX). split; [exact ND|].
  assert (PL : match lc_proxy l with PNone => True | PCluster name x => In (name, x) (clusters_in E items) | PTarget _ _ => False end).
  { unfold whole in I. cbv zeta in I. destruct (sections "listener" items); [destruct I as [<-|[]]; exact Logic.I|].
    apply PX. apply in_rev. exact I. }
  unfold LoadProxyHostKeys, SendClientAddress. destruct (lc_proxy l) as [|name x|name t]; [auto| |contradiction]. split; [exact PL|]. split; [reflexivity|]. split; [exact (HK _ _ PL)|reflexivity].
Qed.
Print Assumptions C79_proxy.

(** Every listener has a host key, its own or those of the server. *)
Theorem C79_host_keys : forall files generated l, generated <> [] ->
  let keys := listener_host_keys (LoadHostKeys files generated) l in
  keys <> [] /\ (lc_host_keys l <> [] -> keys = lc_host_keys l) /\
  (lc_host_keys l = [] -> forall k, In (Some k) files -> In k keys) /\
  (lc_host_keys l = [] -> (forall k, ~ In (Some k) files) -> keys = generated).
Proof.
  intros files generated l G keys. unfold keys, listener_host_keys, LoadHostKeys. set (ks := flat_map _ files).
  assert (IK : forall k, In k ks <-> In (Some k) files).
  { intros k. unfold ks. rewrite in_flat_map. split; [intros ([x|] & I & J); [destruct J as [<-|[]]; exact I|contradiction]|intros I; exists (Some k); split; [exact I|now left]]. }
  destruct (lc_host_keys l) as [|a t].
  - split; [destruct ks; [exact G|discriminate]|]. split; [congruence|]. split.
    + intros _ k I. apply IK in I. destruct ks; [contradiction|exact I].
    + intros _ N. destruct ks as [|k t]; [reflexivity|]. exfalso. apply (N k). apply IK. now left.
  - split; [discriminate|]. split; [reflexivity|]. split; discriminate.
Qed.
Print Assumptions C79_host_keys.

(** ** File modes *)

Lemma octal_all : forall s acc, Forall (fun b => 48 <= b <= 55) s -> octal acc s = (fold_left (fun acc b => 8 * acc + (b - 48)) s acc, []).
Proof.
  induction s as [|b s IH]; intros acc H; [reflexivity|]. inversion H as [|? ? B T]; subst. cbn [octal fold_left]. unfold isoctal.
  replace ((48 <=? b) && (b <=? 55)) with true by (symmetry; rewrite andb_true_iff, !N.leb_le; exact B). apply IH. exact T.
Qed.

(** Octal digits are the mode, if there is one like that. *)
Theorem C79_mode : forall s, octal_digits s -> parse_mode s = if octal_value s <=? 511 then Some (octal_value s) else None.
Proof.
  intros s (NE & D). unfold parse_mode, strtoul8. destruct s as [|b t]; [contradiction|]. inversion D as [|? ? B T]; subst.
  assert (S : skip_space (b :: t) = b :: t).
  { cbn [skip_space]. unfold isspace. destruct (N.eqb_spec b 32); [lia|]. destruct (N.leb_spec 9 b); [|reflexivity]. destruct (N.leb_spec b 13); [lia|reflexivity]. }
  rewrite S. destruct (N.eqb_spec b 45); [lia|]. destruct (N.eqb_spec b 43); [lia|].
  replace (isoctal b) with true by (unfold isoctal; symmetry; rewrite andb_true_iff, !N.leb_le; exact B).
  rewrite (octal_all (b :: t) 0 D). fold (octal_value (b :: t)). set (v := octal_value (b :: t)). assert (P : 511 < pow64) by reflexivity.
  destruct (N.leb_spec pow64 v) as [L|L].
  - replace (511 <? pow64 - 1) with true by reflexivity. destruct (N.leb_spec v 511); [lia|reflexivity].
  - destruct (N.ltb_spec 511 v), (N.leb_spec v 511); try lia; reflexivity.
Qed.
Print Assumptions C79_mode.

(** And nothing else than the nine permission bits is ever set... *)
Theorem C79_mode_bits : forall s m, parse_mode s = Some m -> m <= 511.
Proof.
  intros s m H. unfold parse_mode in H. destruct (strtoul8 s) as [(v, [|r rs])|]; try discriminate. destruct (N.ltb_spec 511 v); [discriminate|]. injection H as <-. assumption.
Qed.
Print Assumptions C79_mode_bits.

(** ... but not only octal digits are accepted. *)
Definition C79_mode_full_statement : Prop := forall s m, parse_mode s = Some m -> octal_digits s /\ m = octal_value s.
Theorem C79_mode_refuted : ~ C79_mode_full_statement.
Proof.
  intros H. destruct (H (bs "-1777777777777777777777") 1 eq_refl) as ((_ & D) & _). inversion D as [|? ? B _]. subst. vm_compute in B. destruct B as (B & _). apply B. reflexivity.
Qed.
Print Assumptions C79_mode_refuted.

(** ** Timeouts *)

(** "ack_timeout" is a number of seconds. *)
Definition C79_timeout_full_statement : Prop :=
  forall E clusters before l after n, each (listener_line E clusters) (before ++ l :: after) -> has_word "ack_timeout" l = true -> l_positive l = Some n -> lines_of "ack_timeout" after = [] ->
  sk_user_timeout (lc_sock (listener_of E clusters (before ++ l :: after))) = 1000 * n.

Lemma timeout_value : forall E clusters before l after n, has_word "ack_timeout" l = true -> l_positive l = Some n -> lines_of "ack_timeout" after = [] ->
  sk_user_timeout (lc_sock (listener_of E clusters (before ++ l :: after))) = (1000 * n) mod 2 ^ 32.
Proof.
  intros E clusters before l after n W P N. cbn [listener_of lc_sock sk_user_timeout]. unfold setting, last_line, lines_of. unfold lines_of in N.
  rewrite filter_app. cbn [filter]. rewrite W, N, rev_app_distr. cbn [rev app hd_error]. rewrite P. reflexivity.
Qed.

Theorem C79_timeout_partial :
  forall E clusters before l after n, has_word "ack_timeout" l = true -> l_positive l = Some n -> lines_of "ack_timeout" after = [] ->
  1000 * n < 2 ^ 32 -> sk_user_timeout (lc_sock (listener_of E clusters (before ++ l :: after))) = 1000 * n.
Proof. intros. rewrite (timeout_value E clusters before l after n) by assumption. now apply N.mod_small. Qed.
Print Assumptions C79_timeout_partial.

(** ** A concrete file *)

Definition mk (w : string) : line := {| l_close := false; l_word := Some (bs w); l_value := None; l_path := None; l_bool := None; l_positive := None; l_brace := false; l_name_brace := None |}.
Definition text (w v : string) : line := {| l_close := false; l_word := Some (bs w); l_value := Some (bs v); l_path := Some (bs v); l_bool := None; l_positive := None; l_brace := false; l_name_brace := None |}.
Definition yes (w : string) : line := {| l_close := false; l_word := Some (bs w); l_value := Some (bs "yes"); l_path := None; l_bool := Some true; l_positive := None; l_brace := false; l_name_brace := None |}.
Definition number (w : string) (n : N) : line := {| l_close := false; l_word := Some (bs w); l_value := None; l_path := None; l_bool := None; l_positive := Some n; l_brace := false; l_name_brace := None |}.
Definition open (w : string) : line := {| l_close := false; l_word := Some (bs w); l_value := None; l_path := None; l_bool := None; l_positive := None; l_brace := true; l_name_brace := None |}.
Definition named (w v : string) : line := {| l_close := false; l_word := Some (bs w); l_value := None; l_path := None; l_bool := None; l_positive := None; l_brace := false; l_name_brace := Some (bs v) |}.
Definition closing : line := {| l_close := true; l_word := None; l_value := None; l_path := None; l_bool := None; l_positive := None; l_brace := false; l_name_brace := None |}.

Definition demo_env : cenv :=
  {| ce_build := {| HAVE_AVAHI := true; ENABLE_TRANSLATION := true; ENABLE_POND := true; ENABLE_CONTROL := true |};
     ce_address := fun v _ _ => match v with [] => None | _ => Some v end;
     ce_local := fun v => match v with b :: _ => b =? 47 | [] => false end;
     ce_any := fun _ => bs "*";
     ce_secret := fun p => Some p; ce_public := fun p => Some [p; p];
     ce_service := fun _ => ZYes; ce_explorer := fun _ => ZYes; ce_explorer_enabled := fun _ => true; ce_explorer_check := fun _ => true;
     ce_spawn := fun _ _ => true; ce_spawn_finish := fun _ => true;
     ce_defaults := {| sk_bind := None; sk_multicast := None; sk_interface := []; sk_mode := 0; sk_mptcp := false; sk_user_timeout := 0; sk_keepalive := false; sk_v6only := false;
                       sk_reuse_port := false; sk_no_delay := false; sk_listen := 0; sk_defer_accept := 0; sk_pass_cred := false |};
     ce_fixup := fun s => s; ce_control_port := 5478; ce_log_port := 5479 |}.

Theorem C79_timeout_refuted : ~ C79_timeout_full_statement.
Proof.
  intros H. pose (l := number "ack_timeout" 4294968).
  assert (O : each (listener_line demo_env []) ([] ++ l :: [])).
  { intros pre x post X. destruct pre as [|y pre]; [|destruct pre; discriminate]. injection X as <- <-. left. exists "ack_timeout"%string, KNumber. split; [cbn [listener_options app In]; tauto|].
    split; [reflexivity|now exists 4294968]. }
  specialize (H demo_env [] [] l [] 4294968 O eq_refl eq_refl eq_refl). vm_compute in H. discriminate.
Qed.
Print Assumptions C79_timeout_refuted.

(** ** Targets *)

(** doc/index.rst: "Individual target hosts can be configured with a
    target_host section", and "proxy_to" forwards to them. *)
Definition C79_target_full_statement : Prop :=
  exists E file c l name t, LoadConfigFile E file = Some c /\ In l (cf_listeners c) /\ lc_proxy l = PTarget name t.

Theorem C79_target_refuted : ~ C79_target_full_statement.
Proof. intros (E & file & c & l & name & t & H & I & P). destruct (C79_proxy E file c l H I) as (_ & X). rewrite P in X. exact X. Qed.
Print Assumptions C79_target_refuted.

(** such a section is a syntax error *)
Theorem C79_no_target : forall E before l after, file_ok E before -> has_word "target_host" l = true -> LoadConfigFile E (flat_map item_lines before ++ l :: after) = None.
Proof.
  intros E before l after OK W. unfold LoadConfigFile. rewrite parse_app, (parses E before OK). cbn [obind parse_lines parse_line]. unfold ParseLine2. cbv zeta. rewrite (has_word_true _ _ W). cbn [obind].
  words. cbn [andb]. reflexivity.
Qed.
Print Assumptions C79_no_target.

Definition demo_listener : list line :=
  [text "bind" "/run/a"; text "mode" "0660"; text "bind" "/run/lukko"; number "ack_timeout" 30; yes "keepalive"; text "host_key_file" "k1"; text "host_key_file" "k2";
   text "proxy_to_zeroconf" "foo"; yes "tarpit"; text "tag" "t"].
Definition demo_items : list item :=
  [Top (text "translation_server" "@a"); Sect (named "zeroconf_cluster" "foo") [text "zeroconf_service" "ssh"; text "host_key_file" "kf"; yes "send_client_address"] closing;
   Top (text "translation_server" "@b"); Sect (open "listener") demo_listener closing; Sect (open "listener") [text "bind" "*:22"] closing; Top (yes "populate_io_buffers")].

Example C79_demo : exists c a b x,
  LoadConfigFile demo_env (flat_map item_lines demo_items) = Some c /\ cf_listeners c = [b; a] /\
  cf_server c = bs "@b" /\ sk_bind (lc_sock a) = Some (bs "/run/lukko") /\ sk_mode (lc_sock a) = 432 /\ sk_user_timeout (lc_sock a) = 30000 /\
  lc_host_keys a = [bs "k1"; bs "k2"] /\ lc_proxy a = PCluster (bs "foo") x /\ cl_host_keys x = [bs "kf"; bs "kf"] /\ cl_send_client_address x = true /\
  lc_tarpit a = true /\ lc_tarpit b = false /\ cf_populate c = true /\
  LoadConfigFile demo_env (flat_map item_lines [Sect (open "listener") [text "mode" "0660"; text "bind" "/run/a"] closing]) = None /\
  LoadConfigFile demo_env (flat_map item_lines [Sect (open "listener") [yes "tarpit"] closing]) = None /\
  LoadConfigFile demo_env [open "listener"; text "bind" "*"] = None.
Proof. vm_compute. do 4 eexists. repeat split; reflexivity. Qed.
