(** Facts about the version exchange. *)

From Coq Require Import NArith List Bool Lia String.
From Verif.Base Require Import Bytes.
From Verif.Model Require Import Version.
From Verif.Spec Require Import VersionSpec.
Import ListNotations.
Open Scope N_scope.
Local Arguments take : simpl never.
Local Arguments drop : simpl never.

Lemma find_eol_cons : forall c r, c <> LF ->
  find_eol (c :: r) = match find_eol r with Some (l, m) => Some (c :: l, m) | None => None end.
Proof.
  intros c r H; cbn [find_eol]. unfold LF in H.
  destruct c as [|p]; [reflexivity|]. do 4 (try (destruct p as [p|p|]; try reflexivity)). congruence.
Qed.
Lemma find_eol_lf : forall r, find_eol (LF :: r) = Some ([], r).
Proof. reflexivity. Qed.

Lemma find_eol_none : forall r, find_eol r = None <-> ~ In LF r.
Proof.
  induction r as [|c r IH]; [split; [intros _ []|reflexivity]|].
  destruct (N.eq_dec c LF) as [->|E].
  - rewrite find_eol_lf; split; [discriminate|intros H; exfalso; apply H; left; reflexivity].
  - rewrite find_eol_cons by exact E. destruct (find_eol r) as [[l m]|].
    + split; [discriminate|]. intros H; exfalso. assert (X : ~ In LF r) by (intros X; apply H; right; exact X).
      apply IH in X; discriminate.
    + split; [|reflexivity]. intros _ [X|X]; [congruence|]. apply (proj1 IH eq_refl X).
Qed.

Lemma find_eol_some : forall r l m, find_eol r = Some (l, m) <-> first_line r l m.
Proof.
  unfold first_line; induction r as [|c r IH]; intros l m.
  - split; [discriminate|]. intros [E _]; destruct l; discriminate.
  - destruct (N.eq_dec c LF) as [->|E].
    + rewrite find_eol_lf; split.
      * intros H; assert (l = []) by congruence; assert (m = r) by congruence; subst; auto.
      * intros [H Hn]; destruct l as [|x l]; [|exfalso; apply Hn; left; cbn [app] in H; congruence].
        change ([] ++ LF :: m) with (LF :: m) in H. assert (r = m) by congruence. subst; reflexivity.
    + rewrite find_eol_cons by exact E. split.
      * destruct (find_eol r) as [[l' m']|] eqn:Ef; [|discriminate]. intros H.
        assert (l = c :: l') by congruence; assert (m' = m) by congruence; subst.
        destruct (proj1 (IH l' m) eq_refl) as [-> Hn]. split; [reflexivity|].
        intros [X|X]; [congruence|exact (Hn X)].
      * intros [H Hn]; destruct l as [|x l]; [cbn [app] in H; congruence|]. cbn [app] in H.
        assert (x = c) by congruence; subst x. assert (Hr : r = l ++ LF :: m) by congruence.
        rewrite (proj2 (IH l m)); [reflexivity|]. split; [exact Hr|]. intros X; apply Hn; right; exact X.
Qed.

Lemma first_line_unique : forall s l m l' m', first_line s l m -> first_line s l' m' -> l = l' /\ m = m'.
Proof. intros s l m l' m' H H'; apply find_eol_some in H, H'; rewrite H in H'; split; congruence. Qed.

Lemma first_line_more : forall s l m more, first_line s l m -> first_line (s ++ more) l (m ++ more).
Proof. intros s l m more [-> H]; split; [rewrite <- app_assoc; reflexivity|exact H]. Qed.

Lemma strip_cr_cons : forall c d r, strip_cr (c :: d :: r) = c :: strip_cr (d :: r).
Proof.
  intros c d r; cbn [strip_cr]. destruct c as [|p]; [reflexivity|].
  do 5 (try (destruct p as [p|p|]; try reflexivity)).
Qed.
Lemma strip_cr_one : forall c, strip_cr [c] = if c =? CR then [] else [c].
Proof.
  intros [|p]; [reflexivity|]. do 5 (try (destruct p as [p|p|]; try reflexivity)).
Qed.

Lemma strip_cr_spec : forall s, version_of s (strip_cr s).
Proof.
  unfold version_of; induction s as [|c s IH].
  - right; split; [reflexivity|]. intros [|? ?]; discriminate.
  - destruct s as [|d s].
    + rewrite strip_cr_one. destruct (N.eqb_spec c CR) as [->|E]; [left; reflexivity|right].
      split; [reflexivity|]. intros [|x p] X; cbn [app] in X; [congruence|].
      destruct p; discriminate.
    + rewrite strip_cr_cons. destruct IH as [IH|[IH1 IH2]].
      * left; cbn [app]; congruence.
      * right; split; [congruence|]. intros [|x p] X; cbn [app] in X; [congruence|].
        apply (IH2 p); congruence.
Qed.

Lemma starts_with_spec : forall p s, starts_with p s = true <-> exists more, s = p ++ more.
Proof.
  intros p s; unfold starts_with; rewrite bytes_eqb_eq; split.
  - intros H; exists (drop (len p) s). rewrite <- H at 1. symmetry; apply take_drop.
  - intros [more ->]; apply take_len.
Qed.

(** ** The invariant: [stream] is everything received so far. *)
Definition vx_ok (client : bool) (stream : bytes) (v : vx) : Prop :=
  x_client v = client /\
  (x_disposed v = false ->
   if x_exchanged v then
     exists line rest, first_line stream line rest /\ is_ssh line /\ version_of line (x_peer_version v) /\
       x_fed v ++ x_buffer v = rest /\ x_kexinits v = (if client then 1 else 0)
   else
     x_buffer v = stream /\ ~ In LF stream /\ len stream < 255 /\ x_fed v = [] /\ x_kexinits v = 0) /\
  (x_disposed v = true ->
   x_exchanged v = false /\ x_fed v = [] /\ x_kexinits v = 0 /\
   (255 <= len stream /\ (forall line rest, first_line stream line rest -> 255 <= len line \/ ~ is_ssh line) \/
    exists line rest, first_line stream line rest /\ ~ is_ssh line)).

Lemma vx_ok_new : forall client, vx_ok client [] (new_vx client).
Proof.
  intros client; split; [reflexivity|]. split; [|discriminate]. intros _; cbn.
  split; [reflexivity|]. split; [intros []|]. split; [lia|]. split; reflexivity.
Qed.

Lemma is_ssh_iff : forall s, starts_with (bs "SSH-") s = true <-> is_ssh s.
Proof. intros s; apply starts_with_spec. Qed.

Lemma vx_ok_receive : forall client stream v c, vx_ok client stream v ->
  vx_ok client (stream ++ fst c) (vx_receive c v).
Proof.
  intros client stream v [c k] (Hc & Ha & Hd); unfold vx_receive; cbn [fst snd].
  destruct (x_disposed v) eqn:Ed.
  - split; [exact Hc|]. split; [congruence|]. intros _. destruct (Hd eq_refl) as (H1 & H2 & H3 & H4).
    split; [exact H1|]. split; [exact H2|]. split; [exact H3|].
    destruct H4 as [[Hl Hn]|(line & rest & Hf & Hs)].
    + left; split; [rewrite len_app; lia|]. intros line rest Hf.
      destruct (N.le_gt_cases 255 (len line)) as [Hge|Hlt]; [left; exact Hge|].
      (* the line is complete in the stream already *)
      assert (Hin : exists m, first_line stream line m).
      { destruct Hf as [E Hnl].
        assert (Hlen : len line + 1 <= len stream) by lia.
        assert (E' : take (len line + 1) (stream ++ c) = line ++ [LF]).
        { rewrite E. replace (line ++ LF :: rest) with ((line ++ [LF]) ++ rest) by (rewrite <- app_assoc; reflexivity).
          replace (len line + 1) with (len (line ++ [LF])) by (rewrite len_app; reflexivity). apply take_len. }
        rewrite take_app_le in E' by exact Hlen.
        exists (drop (len line + 1) stream). split; [|exact Hnl].
        rewrite <- (take_drop _ (len line + 1) stream) at 1. rewrite E', <- app_assoc. reflexivity. }
      destruct Hin as [m Hm]. right. destruct (Hn line m Hm) as [X|X]; [lia|exact X].
    + right; exists line, (rest ++ c); split; [apply first_line_more; exact Hf|exact Hs].
  - specialize (Ha eq_refl). unfold OnBufferedData; cbn [x_exchanged x_buffer mk_vx].
    destruct (x_exchanged v) eqn:Ee.
    + destruct Ha as (line & rest & Hf & Hs & Hv & Hr & Hk).
      split; [exact Hc|]. split; [|discriminate]. intros _. unfold FeedInput; cbn [x_exchanged x_peer_version x_fed x_buffer x_kexinits mk_vx].
      try rewrite Ee. exists line, (rest ++ c); split; [apply first_line_more; exact Hf|].
      split; [exact Hs|]. split; [exact Hv|]. split; [|exact Hk].
      rewrite <- app_assoc, take_drop, app_assoc, Hr. reflexivity.
    + destruct Ha as (Hb & Hn & Hl & Hfed & Hk). rewrite Hb.
      destruct (find_eol (stream ++ c)) as [[s rest]|] eqn:Ef.
      * apply find_eol_some in Ef. cbn [x_client x_exchanged x_peer_version x_fed x_kexinits x_disposed mk_vx].
        destruct (starts_with (bs "SSH-") s) eqn:Es; cbn [negb].
        -- apply is_ssh_iff in Es. split; [exact Hc|]. split; [|discriminate]. intros _.
           unfold FeedInput; cbn [x_exchanged x_peer_version x_fed x_buffer x_kexinits mk_vx].
           exists s, rest; split; [exact Ef|]. split; [exact Es|]. split; [apply strip_cr_spec|].
           split; [rewrite Hfed; cbn [app]; apply take_drop|]. rewrite Hc, Hk; destruct client; reflexivity.
        -- split; [exact Hc|]. split; [discriminate|]. intros _. cbn [dispose x_exchanged x_fed x_kexinits mk_vx].
           split; [reflexivity|]. split; [exact Hfed|]. split; [exact Hk|]. right; exists s, rest; split; [exact Ef|].
           intros X; apply is_ssh_iff in X; congruence.
      * apply find_eol_none in Ef. destruct (N.leb_spec 255 (len (stream ++ c))).
        -- split; [exact Hc|]. split; [discriminate|]. intros _. cbn [dispose x_exchanged x_fed x_kexinits mk_vx].
           split; [reflexivity|]. split; [exact Hfed|]. split; [exact Hk|]. left; split; [assumption|].
           intros line rest [E _]; exfalso; apply Ef; rewrite E; apply in_or_app; right; left; reflexivity.
        -- split; [exact Hc|]. split; [|discriminate]. intros _. cbn [x_exchanged x_buffer x_fed x_kexinits mk_vx].
           auto.
Qed.

Lemma vx_ok_run : forall client chunks stream v, vx_ok client stream v ->
  vx_ok client (stream ++ List.concat (map fst chunks)) (vx_run chunks v).
Proof.
  induction chunks as [|c chunks IH]; intros stream v H; [cbn; rewrite app_nil_r; exact H|].
  cbn [vx_run map List.concat]. rewrite app_assoc. apply IH. apply vx_ok_receive; exact H.
Qed.
