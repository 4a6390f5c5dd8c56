(** Facts about network calls (Model/Network.v). *)

From Coq Require Import NArith List Bool Lia String.
From Verif.Base Require Import Bytes.
From Verif.Spec Require Import WireSpec PacketSpec KeySpec AuthSpec SessionSpec NetworkSpec.
From Verif.Model Require Import Wire Packets StringList KeyOptions Auth Session Server Network.
From Verif.Proofs Require Import WireFacts PacketFacts KeyFacts AuthFacts ServerFacts SessionFacts RestrictFacts StepFacts.
Import ListNotations.
Open Scope N_scope.

Local Arguments bs : simpl never.

Lemma enc_raw : forall l m, enc (l ++ [FRaw (enc m)]) = enc (l ++ m).
Proof. intros l m. rewrite !enc_app2. f_equal. unfold enc at 1. cbn [map enc_field List.concat]. now rewrite app_nil_r. Qed.

Lemma raw_ok : forall l d, bytes_ok (enc (l ++ [FRaw d])) -> bytes_ok d.
Proof.
  intros l d H. rewrite enc_app2 in H. apply Forall_app in H as [_ H]. unfold enc in H. cbn [map enc_field List.concat] in H.
  now rewrite app_nil_r in H.
Qed.

(** ** Which packets lead to network calls *)

Definition caused (op : vop) (e : vevent) : Prop :=
  match e with
  | VConnectTcp host port => exists payload env c, op = OPacket MSG_CHANNEL_OPEN payload env /\ ParseChannelOpen payload = Some c /\
      co_channel_type c = bs "direct-tcpip" /\ parse_direct_tcpip (co_data c) = Some (host, port)
  | VConnectLocal path => exists payload env c rest, op = OPacket MSG_CHANNEL_OPEN payload env /\ ParseChannelOpen payload = Some c /\
      co_channel_type c = bs "direct-streamlocal@openssh.com" /\ ReadString (co_data c) = Some (path, rest)
  | VBind host port => exists payload env g, op = OPacket MSG_GLOBAL_REQUEST payload env /\ ParseGlobalRequest payload = Some g /\
      gr_request_name g = bs "tcpip-forward" /\ parse_bind (gr_data g) = Some (host, port)
  | _ => True
  end.

Lemma connect_step : forall cfg sid op s events e, good cfg s ->
  sv_log (vstep cfg sid op s) = sv_log s ++ events -> In e events -> caused op e.
Proof.
  intros cfg sid op s events e G L I. destruct (is_oauth op) as [[w ->]|NA].
  { destruct (oauth_log cfg sid w s G) as (l & L' & F). rewrite (log_suffix _ _ _ _ L' L) in F.
    rewrite Forall_forall in F. specialize (F _ I). destruct e; try exact Logic.I; destruct F. }
  pose proof (vstep_stepped cfg sid op s NA) as ST. remember (vstep cfg sid op s) as s' eqn:E'.
  destruct ST as [payload env g C A P|payload env c C A P|payload env c C A P|k o _|op s' [_ _ _ _ _ (l & L' & F)]].
  - unfold HandleGlobalRequest in L. cbv zeta in L.
    assert (X : forall l', events = VGlobal (gr_request_name g) (gr_data g) :: l' ->
      Forall (fun e => match e with VConnectTcp _ _ | VConnectLocal _ | VBind _ _ => False | _ => True end) l' ->
      match e with VConnectTcp _ _ | VConnectLocal _ | VBind _ _ => False | _ => True end).
    { intros l' -> F. destruct I as [<-|I]; [exact Logic.I|]. rewrite Forall_forall in F. exact (F _ I). }
    assert (Y : match e with VConnectTcp _ _ | VConnectLocal _ | VBind _ _ => False | _ => True end \/
      exists host port, e = VBind host port /\ gr_request_name g = bs "tcpip-forward" /\ parse_bind (gr_data g) = Some (host, port)).
    { assert (W : forall l', sv_log s ++ VGlobal (gr_request_name g) (gr_data g) :: l' = sv_log s ++ events ->
        Forall (fun e => match e with VConnectTcp _ _ | VConnectLocal _ | VBind _ _ => False | _ => True end) l' ->
        match e with VConnectTcp _ _ | VConnectLocal _ | VBind _ _ => False | _ => True end).
      { intros l' E F. apply app_inv_head in E. eapply X; [symmetry; exact E|exact F]. }
      destruct (bytes_eqb (gr_request_name g) (bs "tcpip-forward")) eqn:N.
      { apply bytes_eqb_eq in N. destruct (negb _).
        { left. cbn [sv_log emit mk_server] in L. rewrite <- app_assoc in L. eapply W; [exact L|]. repeat constructor. }
        destruct (parse_bind (gr_data g)) as [[host port]|] eqn:PB.
        - cbn [sv_log emit mk_server with_listeners] in L. rewrite <- app_assoc in L. apply app_inv_head in L. cbn [app] in L.
          rewrite <- L in I. destruct I as [<-|[<-|[]]]; [left; exact Logic.I|]. right. exists host, port. auto.
        - left. cbn [sv_log emit mk_server die] in L. rewrite <- app_assoc in L. eapply W; [exact L|]. repeat constructor. }
      left. repeat match type of L with
        | context [if ?b then _ else _] => destruct b
        | context [match parse_bind ?d with _ => _ end] => destruct (parse_bind d)
        | context [match DeserializeAuthorizedKeyOptions ?d with _ => _ end] => destruct (DeserializeAuthorizedKeyOptions d)
        | context [let '(_, _) := Restrict ?a ?b in _] => destruct (Restrict a b)
        end.
      all: cbn [sv_log emit mk_server die with_listeners with_nms with_account] in L; rewrite <- app_assoc in L; eapply W; [exact L|]; repeat constructor. }
    destruct Y as [Y|(host & port & -> & N & PB)]; [destruct e; try exact Logic.I; destruct Y|].
    exists payload, env, g. auto.
  - unfold CreateChannel in L.
    assert (W : forall l', sv_log s ++ l' = sv_log s ++ events ->
        Forall (fun e => match e with VConnectTcp _ _ | VConnectLocal _ | VBind _ _ => False | _ => True end) l' ->
        caused (OPacket MSG_CHANNEL_OPEN payload env) e).
    { intros l' E F. apply app_inv_head in E. subst l'. rewrite Forall_forall in F. specialize (F _ I). destruct e; try exact Logic.I; destruct F. }
    destruct (bytes_eqb (co_channel_type c) (bs "session")) eqn:N1.
    { destruct (sv_no_more_sessions s); [|destruct (find_session _ _)].
      all: cbn [sv_log emit mk_server die with_sessions] in L; eapply W; [exact L|]; repeat constructor. }
    destruct (bytes_eqb (co_channel_type c) (bs "direct-tcpip")) eqn:N2.
    { apply bytes_eqb_eq in N2. destruct (negb _); [cbn [sv_log emit mk_server] in L; eapply W; [exact L|]; repeat constructor|].
      destruct (parse_direct_tcpip (co_data c)) as [[host port]|] eqn:PD.
      - cbn [sv_log emit mk_server] in L. apply app_inv_head in L. rewrite <- L in I. destruct I as [<-|[]]. exists payload, env, c. auto.
      - cbn [sv_log emit mk_server die] in L; eapply W; [exact L|]; repeat constructor. }
    destruct (bytes_eqb (co_channel_type c) (bs "direct-streamlocal@openssh.com")) eqn:N3.
    { apply bytes_eqb_eq in N3. destruct (negb _); [cbn [sv_log emit mk_server] in L; eapply W; [exact L|]; repeat constructor|].
      destruct (ReadString (co_data c)) as [[path rest]|] eqn:PD.
      - cbn [sv_log emit mk_server] in L. apply app_inv_head in L. rewrite <- L in I. destruct I as [<-|[]]. exists payload, env, c, rest. auto.
      - cbn [sv_log emit mk_server die] in L; eapply W; [exact L|]; repeat constructor. }
    cbn [sv_log emit mk_server] in L; eapply W; [exact L|]; repeat constructor.
  - destruct (session_step_log cfg (cr_local_channel c) (ORequest (cr_request_type c) (cr_data c) (pe_pty env)) s) as (l & L' & F).
    rewrite (log_suffix _ _ _ _ L' L) in F. rewrite Forall_forall in F. destruct (F _ I) as [->|(x & ->)]; exact Logic.I.
  - destruct (session_step_log cfg k o s) as (l & L' & F).
    rewrite (log_suffix _ _ _ _ L' L) in F. rewrite Forall_forall in F. destruct (F _ I) as [->|(x & ->)]; exact Logic.I.
  - rewrite (log_suffix _ _ _ _ L' L) in F. rewrite Forall_forall in F. specialize (F _ I). destruct e; try exact Logic.I; destruct F.
Qed.

Lemma direct_tcpip_layout : forall data host port, bytes_ok data -> parse_direct_tcpip data = Some (host, port) ->
  exists originator oport, Forall field_ok [FString host; FU32 port; FString originator; FU32 oport] /\
    data = enc [FString host; FU32 port; FString originator; FU32 oport].
Proof.
  intros data host port B K. unfold parse_direct_tcpip in K.
  parse_inv. eexists _, _. layout_solve.
Qed.

Lemma bind_layout : forall data host port, bytes_ok data -> parse_bind data = Some (host, port) ->
  Forall field_ok [FString host; FU32 port] /\ data = enc [FString host; FU32 port].
Proof. intros data host port B K. unfold parse_bind in K. parse_inv. layout_solve. Qed.

Lemma local_layout : forall data path rest, bytes_ok data -> ReadString data = Some (path, rest) ->
  data = enc [FString path; FRaw rest].
Proof.
  intros data path rest B K. apply ReadString_inv in K as (-> & _); [|exact B].
  unfold enc. cbn [map enc_field List.concat]. now rewrite app_nil_r.
Qed.

Lemma caused_asks : forall op e, op_ok op -> caused op e ->
  match e with
  | VConnectTcp host port => asks_connect op host port
  | VConnectLocal path => asks_local op path
  | VBind host port => asks_bind op host port
  | _ => True
  end.
Proof.
  intros op e OK C. destruct e; try exact Logic.I; cbn [caused] in C.
  - destruct C as (payload & env & c & -> & P & T & D). cbn [op_ok] in OK. destruct c as [ct pc iw mp data]. cbn [co_channel_type co_data] in *. subst ct.
    apply ParseChannelOpen_exact in P as [F ->]; [|exact OK].
    assert (B : bytes_ok data) by (exact (raw_ok [FString _; FU32 pc; FU32 iw; FU32 mp] data OK)).
    destruct (direct_tcpip_layout _ _ _ B D) as (o & q & _ & ->).
    exists env, pc, iw, mp, o, q. f_equal.
    exact (enc_raw [FString (bs "direct-tcpip"); FU32 pc; FU32 iw; FU32 mp] [FString host; FU32 port; FString o; FU32 q]).
  - destruct C as (payload & env & c & rest & -> & P & T & D). cbn [op_ok] in OK. destruct c as [ct pc iw mp data]. cbn [co_channel_type co_data] in *. subst ct.
    apply ParseChannelOpen_exact in P as [F ->]; [|exact OK].
    assert (B : bytes_ok data) by (exact (raw_ok [FString _; FU32 pc; FU32 iw; FU32 mp] data OK)).
    rewrite (local_layout _ _ _ B D).
    exists env, pc, iw, mp, rest. f_equal.
    exact (enc_raw [FString (bs "direct-streamlocal@openssh.com"); FU32 pc; FU32 iw; FU32 mp] [FString path; FRaw rest]).
  - destruct C as (payload & env & g & -> & P & T & D). cbn [op_ok] in OK. destruct g as [name want data]. cbn [gr_request_name gr_data] in *. subst name.
    apply ParseGlobalRequest_exact in P as (x & _ & F & ->); [|exact OK].
    assert (B : bytes_ok data) by (exact (raw_ok [FString (bs "tcpip-forward"); FByte x] data OK)).
    destruct (bind_layout _ _ _ B D) as (_ & ->).
    exists env, x. f_equal. exact (enc_raw [FString (bs "tcpip-forward"); FByte x] [FString address; FU32 port]).
Qed.

(** ** C strings *)

Lemma c_str_until : forall s, until_null s (c_str s).
Proof.
  induction s as [|x s [N H]]; [split; [intros []|left; reflexivity]|]. cbn [c_str]. destruct (x =? 0) eqn:E.
  - apply N.eqb_eq in E. subst x. split; [intros []|right; exists s; reflexivity].
  - apply N.eqb_neq in E. split; [intros [X|X]; [congruence|exact (N X)]|]. destruct H as [H|(r & H)].
    + left. now rewrite <- H.
    + right. exists r. cbn [app]. now rewrite <- H.
Qed.

Lemma until_null_whole : forall s t, until_null s t -> ~ In 0 s -> t = s.
Proof. intros s t [_ [->|(r & ->)]] N; [reflexivity|]. destruct N. apply in_or_app. right. now left. Qed.

Lemma helper_host_cut : forall m h, helper_host m = Some h -> until_null m h /\ len m < 1024.
Proof.
  intros m h H. unfold helper_host in H. destruct (1024 <=? len (take 1024 m)) eqn:E; [discriminate|]. apply N.leb_gt in E.
  assert (L : len m < 1024). { destruct (N.lt_ge_cases (len m) 1024) as [X|X]; [exact X|]. rewrite len_take in E by exact X. lia. }
  rewrite take_ge in H by lia. injection H as <-. split; [apply c_str_until|exact L].
Qed.

Lemma helper_host_short : forall m, len m < 1024 -> ~ In 0 m -> helper_host m = Some m.
Proof.
  intros m L N. unfold helper_host. rewrite take_ge by lia. assert (E : 1024 <=? len m = false) by (apply N.leb_gt; exact L).
  rewrite E. f_equal. exact (until_null_whole _ _ (c_str_until m) N).
Qed.

Lemma ReceivePath_cut : forall m h, ReceivePath m = Some h -> until_null m h /\ 0 < len m < 4096.
Proof.
  intros m h H. unfold ReceivePath in H.
  destruct ((len (take 4096 m) =? 0) || (4096 <=? len (take 4096 m))) eqn:E; [discriminate|]. apply orb_false_iff in E as [Z E].
  apply N.leb_gt in E. apply N.eqb_neq in Z.
  assert (L : len m < 4096). { destruct (N.lt_ge_cases (len m) 4096) as [X|X]; [exact X|]. rewrite len_take in E by exact X. lia. }
  rewrite take_ge in H, Z by lia. injection H as <-. split; [apply c_str_until|lia].
Qed.

Lemma ReceivePath_short : forall m, 0 < len m < 4096 -> ~ In 0 m -> ReceivePath m = Some m.
Proof.
  intros m L N. unfold ReceivePath. rewrite take_ge by lia.
  assert (E : (len m =? 0) || (4096 <=? len m) = false) by (apply orb_false_iff; split; [apply N.eqb_neq|apply N.leb_gt]; lia).
  rewrite E. f_equal. exact (until_null_whole _ _ (c_str_until m) N).
Qed.

Lemma ResolveBind_means : forall host, bind_means host (ResolveBind host).
Proof.
  intro host. unfold ResolveBind, bind_means. destruct (bytes_eqb host (bs "localhost")) eqn:E.
  - left. split; [now apply bytes_eqb_eq|reflexivity].
  - assert (host <> bs "localhost") by (intros ->; rewrite bytes_eqb_refl in E; discriminate).
    destruct host; [right; left; auto|]. right. right. repeat split; [assumption|discriminate].
Qed.

(** ** Runs *)

Lemma nrun_snoc : forall cfg sid peer t op, nrun cfg sid peer (t ++ [op]) = nstep cfg sid (nrun cfg sid peer t) op.
Proof. intros. unfold nrun. now rewrite fold_left_app. Qed.

Lemma nrun_server : forall cfg sid peer ops, fst (nrun cfg sid peer ops) = vrun cfg sid peer ops.
Proof.
  intros cfg sid peer ops. induction ops as [|op t IH] using rev_ind; [reflexivity|].
  rewrite nrun_snoc, vrun_snoc. unfold nstep. destruct (nrun cfg sid peer t) as [s l]. cbn [fst] in *. now rewrite IH.
Qed.

Lemma netcalls_In : forall a l c, In c (netcalls_of a l) <-> exists e, In e l /\ netcall_of a e = Some c.
Proof.
  intros a l c. induction l as [|e l IH]; cbn [netcalls_of]; [split; [intros []|intros (e & [] & _)]|].
  destruct (netcall_of a e) as [d|] eqn:E.
  - split.
    + intros [<-|I]; [exists e; split; [now left|exact E]|]. apply IH in I as (x & I & X). exists x. split; [now right|exact X].
    + intros (x & [<-|I] & X); [left; congruence|]. right. apply IH. exists x. auto.
  - split.
    + intro I. apply IH in I as (x & I & X). exists x. split; [now right|exact X].
    + intros (x & [<-|I] & X); [congruence|]. apply IH. exists x. auto.
Qed.

Lemma skipn_own : forall (l m : list vevent), skipn (List.length l) (l ++ m) = m.
Proof. intros l m. induction l; [reflexivity|exact IHl]. Qed.

(** Every call was made in one step. *)
Lemma call_origin : forall cfg sid peer ops c, Forall op_ok ops -> In c (snd (nrun cfg sid peer ops)) ->
  exists before op after events e, ops = before ++ op :: after /\
    sv_log (vstep cfg sid op (vrun cfg sid peer before)) = sv_log (vrun cfg sid peer before) ++ events /\
    In e events /\ netcall_of (sv_account (vrun cfg sid peer before)) e = Some c.
Proof.
  intros cfg sid peer ops c. induction ops as [|op t IH] using rev_ind; intros F I; [destruct I|].
  apply Forall_app in F as [F _]. rewrite nrun_snoc in I. unfold nstep in I.
  pose proof (nrun_server cfg sid peer t) as S. destruct (nrun cfg sid peer t) as [s calls] eqn:E. cbn [fst snd] in S, I. subst s.
  apply in_app_or in I as [I|I].
  - destruct (IH F I) as (before & o & after & events & e & O & X & Y & Z). exists before, o, (after ++ [op]), events, e.
    split; [rewrite O, <- app_assoc; reflexivity|auto].
  - destruct (step_log cfg sid op _ (vrun_good cfg sid peer t F)) as (l & L & _). rewrite L, skipn_own in I.
    apply netcalls_In in I as (e & I & X). exists t, op, [], l, e. auto.
Qed.

Lemma netcall_privileged : forall a e c, netcall_of a e = Some c -> privileged e /\ (forall x, e <> VConnectProxy x).
Proof. intros a e c H. destruct e; try discriminate; (split; [exact Logic.I|discriminate]). Qed.
