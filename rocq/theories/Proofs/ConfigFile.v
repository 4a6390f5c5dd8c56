(** The whole configuration file. *)

From Coq Require Import NArith List Bool Lia String.
From Verif.Base Require Import Bytes.
From Verif.Spec Require Import ConfigSpec.
From Verif.Model Require Import Wire Config.
From Verif.Proofs Require Import ConfigFacts.
Import ListNotations.
Open Scope N_scope.

Local Arguments bs : simpl never.

Lemma has_word_true : forall name l, has_word name l = true -> l_word l = Some (bs name).
Proof. intros name l H. unfold has_word in H. destruct (l_word l) as [w|]; [|discriminate]. apply bytes_eqb_eq in H. now subst. Qed.
Lemma word_has : forall name l, l_word l = Some (bs name) -> has_word name l = true.
Proof. intros name l H. rewrite (has_word_of l _ name H). unfold word_is. now apply bytes_eqb_eq. Qed.

Lemma lookup_none : forall A name (m : list (bytes * A)), lookup name m = None <-> ~ In name (map fst m).
Proof.
  intros A name m. unfold lookup. induction m as [|(n, a) m IH]; cbn [find map fst In].
  - cbn. tauto.
  - destruct (bytes_eqb n name) eqn:X.
    + apply bytes_eqb_eq in X. subst. cbn. split; [discriminate|]. intros H. exfalso. apply H. now left.
    + rewrite IH. split.
      * intros H [<-|K]; [|contradiction]. assert (bytes_eqb n n = true) by now apply bytes_eqb_eq. congruence.
      * intros H K. apply H. now right.
Qed.

(** ** One item more *)

Lemma file_ok_snoc : forall E items i, file_ok E (items ++ [i]) <-> file_ok E items /\ item_ok E items i.
Proof.
  intros E items l. split.
  - intros H. split; [|now apply (H items l [])]. intros pre x post X. apply (H pre x (post ++ [l])). now rewrite X, <- app_assoc.
  - intros (H & HL) pre x post X. destruct post as [|y post] using rev_ind.
    + apply app_inj_tail in X. destruct X as (-> & ->). exact HL.
    + clear IHpost. replace (pre ++ x :: post ++ [y]) with ((pre ++ x :: post) ++ [y]) in X by now rewrite <- app_assoc. apply app_inj_tail in X. destruct X as (X & _). exact (H _ _ _ X).
Qed.
Lemma file_ok_nil : forall E, file_ok E [].
Proof. intros E pre x post X. destruct pre; discriminate. Qed.

Lemma listeners_snoc : forall E items above i,
  listeners_in E above (items ++ [i]) = listeners_in E above items ++
    match i with Sect h b _ => if has_word "listener" h then [on_sock (ce_fixup E) (listener_of E (clusters_in E (above ++ items)) b)] else [] | _ => [] end.
Proof.
  intros E. induction items as [|x items IH]; intros above i; cbn [app listeners_in].
  - now rewrite !app_nil_r.
  - rewrite IH, <- !app_assoc. reflexivity.
Qed.

Lemma meaning_top : forall E items l w, l_word l = Some w ->
  meaning E (items ++ [Top l]) = let m := meaning E items in
    {| cf_server := upd w "translation_server" (l_value l) [] (cf_server m); cf_controls := cf_controls m; cf_listeners := cf_listeners m; cf_targets := [];
       cf_clusters := cf_clusters m; cf_exporters := cf_exporters m; cf_spawn := cf_spawn m;
       cf_populate := upd w "populate_io_buffers" (l_bool l) false (cf_populate m) |}.
Proof.
  intros E items l w W. unfold meaning, flag. cbv zeta. cbn [cf_server cf_controls cf_listeners cf_clusters cf_exporters cf_spawn cf_populate].
  rewrite listeners_snoc. unfold tops, sections, clusters_in. rewrite !flat_map_app. cbn [flat_map]. rewrite !app_nil_r, !(setting_word _ _ w _ _ _ l W). reflexivity.
Qed.

Lemma meaning_sect : forall E items h b c w, l_word h = Some w ->
  meaning E (items ++ [Sect h b c]) = let m := meaning E items in
    {| cf_server := cf_server m;
       cf_controls := (if word_is w "control" then [ce_fixup E (control_of E b)] else []) ++ cf_controls m;
       cf_listeners := (if word_is w "listener" then [on_sock (ce_fixup E) (listener_of E (cf_clusters m) b)] else []) ++ cf_listeners m;
       cf_targets := [];
       cf_clusters := cf_clusters m ++ (if word_is w "zeroconf_cluster" then match l_name_brace h with Some name => [(name, cluster_of E b)] | None => [] end else []);
       cf_exporters := (if word_is w "prometheus_exporter" then [ce_fixup E (exporter_of E b)] else []) ++ cf_exporters m;
       cf_spawn := cf_spawn m ++ (if word_is w "spawn" then b else []);
       cf_populate := cf_populate m |}.
Proof.
  intros E items h b c w W. unfold meaning, flag. cbv zeta. cbn [cf_server cf_controls cf_listeners cf_clusters cf_exporters cf_spawn cf_populate].
  rewrite listeners_snoc. unfold tops, sections, clusters_in. rewrite !flat_map_app. cbn [flat_map]. rewrite !app_nil_r, !(has_word_of h w _ W), !map_app, concat_app, !rev_app_distr.
  rewrite app_nil_l.
  destruct (word_is w "control"), (word_is w "listener"), (word_is w "prometheus_exporter"), (word_is w "spawn"), (word_is w "zeroconf_cluster");
    cbn [map rev app List.concat]; rewrite ?app_nil_r; reflexivity.
Qed.

(** ** An open section *)

(** [h] has been read, then [body] *)
Definition opened (E : cenv) (items : list item) (h : line) (body : list line) (ch : child) : Prop :=
  match ch with
  | CListener x => has_word "listener" h = true /\ l_brace h = true /\ each (listener_line E (clusters_in E items)) body /\ x = listener_of E (clusters_in E items) body
  | CCluster name x => has_word "zeroconf_cluster" h = true /\ HAVE_AVAHI (ce_build E) = true /\ each (cluster_line E) body /\ l_name_brace h = Some name /\ x = cluster_of E body
  | CSpawn x => has_word "spawn" h = true /\ l_brace h = true /\ each (fun pre l => ce_spawn E pre l = true) body /\ x = body
  | CExporter x => has_word "prometheus_exporter" h = true /\ l_brace h = true /\ each (exporter_line E) body /\ x = exporter_of E body
  | CControl x => has_word "control" h = true /\ ENABLE_CONTROL (ce_build E) = true /\ l_brace h = true /\ each (control_line E) body /\ x = control_of E body
  end.

Definition content (E : cenv) (file : list line) (c : conf) (ch : option child) : Prop :=
  exists items, file_ok E items /\ c = meaning E items /\
    match ch with
    | None => file = flat_map item_lines items
    | Some ch => exists h body, file = flat_map item_lines items ++ h :: body /\ Forall (fun l => l_close l = false) body /\ opened E items h body ch
    end.

Lemma listener_nil : forall E clusters, new_listener E = listener_of E clusters [].
Proof. intros E clusters. unfold listener_of, new_listener. cbv zeta. destruct (ENABLE_TRANSLATION (ce_build E)); reflexivity. Qed.

(** the next line of a section *)
Lemma opened_more : forall E items h body ch ch' l, opened E items h body ch ->
  (match ch with
   | CListener x => let* x := Listener_ParseLine E (meaning E items) x l in Some (CListener x)
   | CCluster name x => let* x := Cluster_ParseLine E x l in Some (CCluster name x)
   | CSpawn body => if ce_spawn E body l then Some (CSpawn (body ++ [l])) else None
   | CExporter x => let* x := Exporter_ParseLine E x l in Some (CExporter x)
   | CControl x => let* x := Control_ParseLine E x l in Some (CControl x)
   end) = Some ch' -> opened E items h (body ++ [l]) ch'.
Proof.
  intros E items h body ch ch' l O H. destruct ch as [x|name x|x|x|x]; cbn [opened] in O.
  - destruct O as (O1 & O2 & O3 & ->). apply bind_some in H. destruct H as (y & Y & H). injection H as <-.
    apply (listener_exact E (meaning E items) eq_refl body l y O3) in Y. destruct Y as (L & ->). cbn [opened]. rewrite each_snoc. tauto.
  - destruct O as (O1 & O2 & O3 & O4 & ->). apply bind_some in H. destruct H as (y & Y & H). injection H as <-.
    apply (cluster_exact E body l y O3) in Y. destruct Y as (L & ->). cbn [opened]. rewrite each_snoc. tauto.
  - destruct O as (O1 & O2 & O3 & ->). destruct (ce_spawn E body l) eqn:S; [|discriminate]. injection H as <-. cbn [opened]. rewrite each_snoc. tauto.
  - destruct O as (O1 & O2 & O3 & ->). apply bind_some in H. destruct H as (y & Y & H). injection H as <-.
    apply (exporter_exact E body l y O3) in Y. destruct Y as (L & ->). cbn [opened]. rewrite each_snoc. tauto.
  - destruct O as (O1 & O2 & O3 & O4 & ->). apply bind_some in H. destruct H as (y & Y & H). injection H as <-.
    apply (control_exact E body l y O4) in Y. destruct Y as (L & ->). cbn [opened]. rewrite each_snoc. tauto.
Qed.

(** ** From the result to the file *)

Ltac pieces x := set (x := meaning _ _) in *; unfold set_cf_listeners, set_cf_clusters, set_cf_spawn, set_cf_exporters, set_cf_controls, set_cf_server, set_cf_populate.

Lemma parsed : forall E file c ch, parse_lines E (new_conf, None) file = Some (c, ch) -> content E file c ch.
Proof.
  assert (SN : forall E file s l, parse_lines E s (file ++ [l]) = let* s := parse_lines E s file in parse_line E s l).
  { intros E. induction file as [|x t IH]; intros s l; cbn [app parse_lines obind]; [destruct (parse_line E s l); reflexivity|].
    destruct (parse_line E s x); cbn [obind]; [apply IH|reflexivity]. }
  intros E. induction file as [|l file IH] using rev_ind; intros c ch H.
  - injection H as <- <-. exists []. split; [apply file_ok_nil|]. split; reflexivity.
  - rewrite SN in H. apply bind_some in H. destruct H as ((c0, ch0) & H0 & H). specialize (IH _ _ H0). clear H0.
    destruct IH as (items & OK & -> & IH). destruct ch0 as [ch0|].
    + destruct IH as (h & body & -> & NC & O). cbn [parse_line] in H. destruct (l_close l) eqn:CL.
      * apply bind_some in H. destruct H as (c1 & F & H). injection H as <- <-. exists (items ++ [Sect h body l]).
        assert (FL : (flat_map item_lines items ++ h :: body) ++ [l] = flat_map item_lines (items ++ [Sect h body l])).
        { rewrite flat_map_app. cbn [flat_map item_lines]. rewrite app_nil_r, <- app_assoc. reflexivity. }
        rewrite file_ok_snoc. destruct ch0 as [x|name x|x|x|x]; cbn [opened] in O.
        -- destruct O as (O1 & O2 & O3 & ->). unfold Listener_Finish in F. cbn [listener_of lc_sock sk_bind] in F. destruct (bound E 2200 body) as [a|] eqn:BD; [|discriminate].
           injection F as <-. split; [|split; [|exact FL]].
           ++ split; [exact OK|]. cbn [item_ok]. split; [exact CL|]. split; [exact NC|]. left. rewrite BD. repeat split; auto; discriminate.
           ++ rewrite (meaning_sect E items h body l _ (has_word_true _ _ O1)). cbv zeta. words. rewrite !app_nil_r. reflexivity.
        -- destruct O as (O1 & O2 & O3 & O4 & ->). unfold Cluster_Finish in F. destruct (ce_explorer_enabled E _ && ce_explorer_check E _) eqn:X; [|discriminate].
           cbn [andb] in F. destruct (cl_host_keys (cluster_of E body)) as [|k0 ks] eqn:HK; [discriminate|]. cbn [negb] in F.
           destruct (lookup name _) eqn:LK; [discriminate|]. injection F as <-. apply andb_prop in X. destruct X as (X1 & X2). apply lookup_none in LK. cbn [meaning cf_clusters] in LK.
           split; [|split; [|exact FL]].
           ++ split; [exact OK|]. cbn [item_ok]. split; [exact CL|]. split; [exact NC|]. right. left. repeat split; auto. exists name. rewrite HK. repeat split; auto; discriminate.
           ++ rewrite (meaning_sect E items h body l _ (has_word_true _ _ O1)). cbv zeta. words. rewrite O4, !app_nil_r. reflexivity.
        -- destruct O as (O1 & O2 & O3 & ->). destruct (ce_spawn_finish E body) eqn:SF; [|discriminate]. injection F as <-. split; [|split; [|exact FL]].
           ++ split; [exact OK|]. cbn [item_ok]. split; [exact CL|]. split; [exact NC|]. right. right. left. auto.
           ++ rewrite (meaning_sect E items h body l _ (has_word_true _ _ O1)). cbv zeta. words. rewrite !app_nil_r. reflexivity.
        -- destruct O as (O1 & O2 & O3 & ->). unfold Exporter_Finish in F. cbn [exporter_of sk_bind] in F. destruct (bound E 9100 body) as [a|] eqn:BD; [|discriminate].
           injection F as <-. split; [|split; [|exact FL]].
           ++ split; [exact OK|]. cbn [item_ok]. split; [exact CL|]. split; [exact NC|]. right. right. right. left. rewrite BD. repeat split; auto; discriminate.
           ++ rewrite (meaning_sect E items h body l _ (has_word_true _ _ O1)). cbv zeta. words. rewrite !app_nil_r. reflexivity.
        -- destruct O as (O1 & O2 & O3 & O4 & ->). unfold Control_Finish in F. cbn [control_of sk_bind] in F. destruct (bound E (ce_control_port E) body) as [a|] eqn:BD; [|discriminate].
           injection F as <-. split; [|split; [|exact FL]].
           ++ split; [exact OK|]. cbn [item_ok]. split; [exact CL|]. split; [exact NC|]. right. right. right. right. rewrite BD. repeat split; auto; discriminate.
           ++ rewrite (meaning_sect E items h body l _ (has_word_true _ _ O1)). cbv zeta. words. rewrite !app_nil_r. reflexivity.
      * apply bind_some in H. destruct H as (ch1 & F & H). injection H as <- <-. exists items. split; [exact OK|]. split; [reflexivity|].
        exists h, (body ++ [l]). rewrite <- app_assoc. split; [reflexivity|]. split; [rewrite Forall_app; auto|]. exact (opened_more E items h body ch0 ch1 l O F).
    + subst file. cbn [parse_line] in H. unfold ParseLine2 in H. cbv zeta in H. apply bind_some in H. destruct H as (w & W & H).
      assert (OP : forall ch, opened E items l [] ch -> content E (flat_map item_lines items ++ [l]) (meaning E items) (Some ch)).
      { intros x O. exists items. split; [exact OK|]. split; [reflexivity|]. exists l, []. split; [reflexivity|]. split; [constructor|exact O]. }
      assert (TP : item_ok E items (Top l) -> content E (flat_map item_lines items ++ [l]) (meaning E (items ++ [Top l])) None).
      { intros O. exists (items ++ [Top l]). split; [now rewrite file_ok_snoc|]. split; [reflexivity|]. rewrite flat_map_app. cbn. reflexivity. }
      destruct (word_is w "listener") eqn:X1.
      { apply word_is_eq in X1. subst w. destruct (l_brace l) eqn:B; [|discriminate]. injection H as <- <-. apply OP. cbn [opened]. split; [now apply word_has|]. repeat first [exact (each_nil _) | assumption | exact (listener_nil _ _) | reflexivity | split]. }
      destruct (word_is w "zeroconf_cluster") eqn:X2.
      { apply word_is_eq in X2. subst w. destruct (HAVE_AVAHI (ce_build E)) eqn:AV; [|discriminate]. apply bind_some in H. destruct H as (name & NB & H). injection H as <- <-. apply OP. cbn [opened].
        split; [now apply word_has|]. repeat first [exact (each_nil _) | assumption | exact (listener_nil _ _) | reflexivity | split]. }
      destruct (word_is w "spawn") eqn:X3.
      { apply word_is_eq in X3. subst w. destruct (l_brace l) eqn:B; [|discriminate]. injection H as <- <-. apply OP. cbn [opened]. split; [now apply word_has|]. repeat first [exact (each_nil _) | assumption | exact (listener_nil _ _) | reflexivity | split]. }
      destruct (word_is w "prometheus_exporter") eqn:X4.
      { apply word_is_eq in X4. subst w. destruct (l_brace l) eqn:B; [|discriminate]. injection H as <- <-. apply OP. cbn [opened]. split; [now apply word_has|]. repeat first [exact (each_nil _) | assumption | exact (listener_nil _ _) | reflexivity | split]. }
      destruct (word_is w "translation_server" && ENABLE_TRANSLATION (ce_build E)) eqn:X5.
      { apply andb_prop in X5. destruct X5 as (X5 & TR). apply word_is_eq in X5. subst w. apply bind_some in H. destruct H as (v & V & H). injection H as <- <-.
        replace (set_cf_server v (meaning E items)) with (meaning E (items ++ [Top l])).
        - apply TP. cbn [item_ok]. left. split; [now apply word_has|]. split; [exact TR|now exists v].
        - rewrite (meaning_top E items l _ W). cbv zeta. unfold upd. words. rewrite V. reflexivity. }
      destruct (word_is w "control" && ENABLE_CONTROL (ce_build E)) eqn:X6.
      { apply andb_prop in X6. destruct X6 as (X6 & CT). apply word_is_eq in X6. subst w. destruct (l_brace l) eqn:B; [|discriminate]. injection H as <- <-. apply OP. cbn [opened].
        split; [now apply word_has|]. repeat first [exact (each_nil _) | assumption | exact (listener_nil _ _) | reflexivity | split]. }
      destruct (word_is w "populate_io_buffers") eqn:X7; [|discriminate].
      apply word_is_eq in X7. subst w. apply bind_some in H. destruct H as (v & V & H). injection H as <- <-.
      replace (set_cf_populate v (meaning E items)) with (meaning E (items ++ [Top l])).
      * apply TP. cbn [item_ok]. right. split; [now apply word_has|now exists v].
      * rewrite (meaning_top E items l _ W). cbv zeta. unfold upd. words. rewrite V. reflexivity.
Qed.

(** ** From the file to the result *)

Lemma parse_app : forall E a b s, parse_lines E s (a ++ b) = let* s := parse_lines E s a in parse_lines E s b.
Proof.
  intros E. induction a as [|x t IH]; intros b s; [reflexivity|]. cbn [app parse_lines]. destruct (parse_line E s x); cbn [obind]; [apply IH|reflexivity].
Qed.

Lemma parse_body : forall S (f : S -> line -> option S) (k : S -> child) E c,
  (forall x l, l_close l = false -> parse_line E (c, Some (k x)) l = let* y := f x l in Some (c, Some (k y))) ->
  forall body x y, Forall (fun l => l_close l = false) body -> foldo f x body = Some y -> parse_lines E (c, Some (k x)) body = Some (c, Some (k y)).
Proof.
  intros S f k E c ST. induction body as [|l body IH]; intros x y NC F; cbn [foldo parse_lines] in *.
  - injection F as <-. reflexivity.
  - inversion NC as [|? ? N1 N2]; subst. rewrite (ST x l N1). destruct (f x l) as [z|]; [|discriminate]. cbn [obind] in *. now apply IH.
Qed.

Definition spawn_step (E : cenv) (b : list line) (l : line) : option (list line) := if ce_spawn E b l then Some (b ++ [l]) else None.

Lemma parses : forall E items, file_ok E items -> parse_lines E (new_conf, None) (flat_map item_lines items) = Some (meaning E items, None).
Proof.
  intros E. induction items as [|i items IH] using rev_ind; intros OK; [reflexivity|].
  apply file_ok_snoc in OK. destruct OK as (OK & OI). rewrite flat_map_app, parse_app, (IH OK). cbn [obind flat_map]. rewrite app_nil_r. clear IH.
  destruct i as [l|h b c]; cbn [item_ok item_lines] in *.
  - cbn [parse_lines parse_line]. unfold ParseLine2. cbv zeta. destruct OI as [(W & TR & v & V)|(W & v & V)]; apply has_word_true in W; rewrite (meaning_top E items l _ W), W; cbv zeta; unfold upd; cbn [obind]; words;
      rewrite ?TR, V; reflexivity.
  - destruct OI as (CL & NC & OI). cbn [parse_lines]. 
    assert (ST : forall S (f : S -> line -> option S) (k : S -> child) ok mean,
      parse_line E (meaning E items, None) h = Some (meaning E items, Some (k (mean []))) ->
      (forall x l, l_close l = false -> parse_line E (meaning E items, Some (k x)) l = let* y := f x l in Some (meaning E items, Some (k y))) ->
      (forall body l x, each ok body -> (f (mean body) l = Some x <-> ok body l /\ x = mean (body ++ [l]))) -> each ok b ->
      (let* s := parse_line E (meaning E items, None) h in parse_lines E s (b ++ [c])) = parse_line E (meaning E items, Some (k (mean b))) c).
    { intros S f k ok mean P F X O. rewrite P. cbn [obind]. rewrite parse_app, (parse_body S f k E (meaning E items) F b (mean []) (mean b) NC).
      - cbn [obind parse_lines]. destruct (parse_line E _ c); reflexivity.
      - apply (section_exact S f ok mean X). auto. }
    destruct OI as [(W & B & O & BD)|[(W & AV & O & name & NB & NI & X1 & X2 & HK)|[(W & B & O & SF)|[(W & B & O & BD)|(W & CT & B & O & BD)]]]]; apply has_word_true in W.
    + rewrite (ST _ (Listener_ParseLine E (meaning E items)) CListener (listener_line E (clusters_in E items)) (listener_of E (clusters_in E items))).
      * cbn [parse_line]. rewrite CL. unfold Listener_Finish. cbn [listener_of lc_sock sk_bind]. destruct (bound E 2200 b); [|congruence]. cbn [obind].
        rewrite (meaning_sect E items h b c _ W). cbv zeta. words. rewrite !app_nil_r. reflexivity.
      * cbn [parse_line]. unfold ParseLine2. cbv zeta. rewrite W. cbn [obind]. words. rewrite B. now rewrite <- listener_nil.
      * intros x l N. cbn [parse_line]. rewrite N. destruct (Listener_ParseLine E _ x l); reflexivity.
      * apply (listener_exact E (meaning E items)). reflexivity.
      * exact O.
    + rewrite (ST _ (Cluster_ParseLine E) (CCluster name) (cluster_line E) (cluster_of E)).
      * cbn [parse_line]. rewrite CL. unfold Cluster_Finish. change (cl_zeroconf (cluster_of E b)) with (filter about_zeroconf b). rewrite X1, X2. cbn [andb].
        destruct (cl_host_keys (cluster_of E b)) as [|k0 ks] eqn:HKE; [congruence|]. cbn [negb]. 
        assert (LK : lookup name (cf_clusters (meaning E items)) = None) by now apply lookup_none. rewrite LK. cbn [obind].
        rewrite (meaning_sect E items h b c _ W). cbv zeta. words. rewrite NB, !app_nil_r. reflexivity.
      * cbn [parse_line]. unfold ParseLine2. cbv zeta. rewrite W. cbn [obind]. words. rewrite AV, NB. reflexivity.
      * intros x l N. cbn [parse_line]. rewrite N. destruct (Cluster_ParseLine E x l); reflexivity.
      * apply cluster_exact.
      * exact O.
    + rewrite (ST _ (spawn_step E) CSpawn (fun pre l => ce_spawn E pre l = true) (fun b => b)).
      * cbn [parse_line]. rewrite CL, SF. cbn [obind]. rewrite (meaning_sect E items h b c _ W). cbv zeta. words. rewrite !app_nil_r. reflexivity.
      * cbn [parse_line]. unfold ParseLine2. cbv zeta. rewrite W. cbn [obind]. words. rewrite B. reflexivity.
      * intros x l N. cbn [parse_line]. rewrite N. unfold spawn_step. destruct (ce_spawn E x l); reflexivity.
      * intros body l x _. unfold spawn_step. destruct (ce_spawn E body l); split; intros H; try discriminate.
        -- injection H as <-. auto.
        -- destruct H as (_ & ->). reflexivity.
        -- destruct H as (H & _). discriminate.
      * exact O.
    + rewrite (ST _ (Exporter_ParseLine E) CExporter (exporter_line E) (exporter_of E)).
      * cbn [parse_line]. rewrite CL. unfold Exporter_Finish. cbn [exporter_of sk_bind]. destruct (bound E 9100 b); [|congruence]. cbn [obind].
        rewrite (meaning_sect E items h b c _ W). cbv zeta. words. rewrite !app_nil_r. reflexivity.
      * cbn [parse_line]. unfold ParseLine2. cbv zeta. rewrite W. cbn [obind]. words. rewrite B. reflexivity.
      * intros x l N. cbn [parse_line]. rewrite N. destruct (Exporter_ParseLine E x l); reflexivity.
      * apply exporter_exact.
      * exact O.
    + rewrite (ST _ (Control_ParseLine E) CControl (control_line E) (control_of E)).
      * cbn [parse_line]. rewrite CL. unfold Control_Finish. cbn [control_of sk_bind]. destruct (bound E (ce_control_port E) b); [|congruence]. cbn [obind].
        rewrite (meaning_sect E items h b c _ W). cbv zeta. words. rewrite !app_nil_r. reflexivity.
      * cbn [parse_line]. unfold ParseLine2. cbv zeta. rewrite W. cbn [obind]. words. rewrite CT, B. reflexivity.
      * intros x l N. cbn [parse_line]. rewrite N. destruct (Control_ParseLine E x l); reflexivity.
      * apply control_exact.
      * exact O.
Qed.
