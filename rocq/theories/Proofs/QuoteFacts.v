(** Facts about command lines (C45). *)

From Coq Require Import NArith PeanoNat List Bool Lia.
From Verif.Base Require Import Bytes.
From Verif.Spec Require Import QuoteSpec.
From Verif.Model Require Import Wire Session.
Import ListNotations.
Open Scope N_scope.

Definition nonempty (w : bytes) : bool := match w with [] => false | _ => true end.

(** a choice which is easier to reason about than the pattern matching *)
Lemma tokens_cons : forall c r, tokens (c :: r) =
  if c =? 32 then Separator :: tokens r
  else if c =? 92 then match r with [] => [Literal 92] | d :: r => Literal d :: tokens r end
  else Literal c :: tokens r.
Proof.
  intros c r. destruct (N.eqb_spec c 32) as [->|E]; [reflexivity|]. destruct (N.eqb_spec c 92) as [->|E2]; [reflexivity|].
  destruct c as [|c]; [reflexivity|]. do 7 (destruct c as [c|c|]; try reflexivity; try contradiction).
Qed.

Lemma runs_cons : forall l, exists w ws, runs l = w :: ws.
Proof. intro l. destruct l as [|[c|] l]; cbn; eauto. destruct (runs l); eauto. Qed.

(** one word and the rest *)
Lemma split_word_runs : forall k cmd, (List.length cmd < k)%nat ->
  let '(s, rest) := split_word cmd in
  exists ws, runs (tokens cmd) = s :: ws /\
    filter nonempty ws = filter nonempty (runs (tokens rest)) /\ (List.length rest <= List.length cmd)%nat /\
    (cmd <> [] -> List.length rest < List.length cmd)%nat.
Proof.
  induction k as [|k IH]; intros cmd K; [lia|]. destruct cmd as [|ch cmd].
  { cbn. exists []. repeat split; auto; try lia. contradiction. }
  cbn [List.length] in K. cbn [split_word]. rewrite tokens_cons. destruct (ch =? 32).
  { exists (runs (tokens cmd)). cbn. repeat split; auto; lia. }
  destruct (ch =? 92) eqn:B.
  - apply N.eqb_eq in B. subst ch. destruct cmd as [|c cmd].
    + cbn. exists []. repeat split; auto; lia.
    + cbn [List.length] in K. assert (KK : (List.length cmd < k)%nat) by lia. specialize (IH cmd KK).
      destruct (split_word cmd) as [s rest]. destruct IH as (ws & R & F & L & _). exists ws. cbn [runs]. rewrite R.
      split; [reflexivity|]. split; [exact F|]. cbn [List.length]. split; [lia|]. intros _. lia.
  - assert (KK : (List.length cmd < k)%nat) by lia. specialize (IH cmd KK).
    destruct (split_word cmd) as [s rest]. destruct IH as (ws & R & F & L & _). exists ws. cbn [runs]. rewrite R.
    split; [reflexivity|]. split; [exact F|]. cbn [List.length]. split; [lia|]. intros _. lia.
Qed.

Lemma skip_spaces_words : forall cmd, filter nonempty (runs (tokens (skip_spaces cmd))) = filter nonempty (runs (tokens cmd)).
Proof.
  intro cmd. induction cmd as [|c r IH]; [reflexivity|]. cbn [skip_spaces]. destruct (c =? 32) eqn:E; [|reflexivity].
  rewrite tokens_cons, E. cbn. exact IH.
Qed.
Lemma skip_spaces_length : forall cmd, (List.length (skip_spaces cmd) <= List.length cmd)%nat.
Proof. intro cmd. induction cmd as [|c r IH]; [cbn; lia|]. cbn [skip_spaces]. destruct (c =? 32); cbn [List.length]; lia. Qed.
Lemma skip_spaces_head : forall cmd c r, skip_spaces cmd = c :: r -> c <> 32.
Proof.
  intros cmd. induction cmd as [|x cmd IH]; intros c r; [discriminate|]. cbn [skip_spaces]. destruct (N.eqb_spec x 32); [apply IH|congruence].
Qed.

Lemma split_word_nonempty : forall c r, c <> 32 -> nonempty (fst (split_word (c :: r))) = true.
Proof.
  intros c r E. cbn [split_word]. destruct (N.eqb_spec c 32); [contradiction|]. destruct (c =? 92).
  - destruct r as [|d r]; [reflexivity|]. now destruct (split_word r).
  - now destruct (split_word r).
Qed.

Lemma words_alt : forall cmd, words cmd = filter nonempty (runs (tokens cmd)).
Proof. reflexivity. Qed.

Lemma split_loop_words : forall fuel cmd, (List.length cmd < fuel)%nat -> split_loop fuel cmd = words cmd.
Proof.
  induction fuel as [|fuel IH]; intros cmd K; [lia|]. rewrite words_alt. cbn [split_loop].
  pose proof (skip_spaces_words cmd) as W. pose proof (skip_spaces_length cmd) as L. rewrite <- W.
  destruct (skip_spaces cmd) as [|c r] eqn:E; [reflexivity|].
  pose proof (split_word_runs (S (List.length (c :: r))) (c :: r) (Nat.lt_succ_diag_r _)) as H.
  pose proof (split_word_nonempty c r (skip_spaces_head _ _ _ E)) as NE.
  destruct (split_word (c :: r)) as [s rest]. cbn [fst] in NE. destruct H as (ws & R & F & L1 & L2).
  assert (L3 : (List.length rest < List.length (c :: r))%nat) by (apply L2; discriminate).
  rewrite R. cbn [filter]. rewrite NE, F. f_equal. rewrite <- words_alt. apply IH. lia.
Qed.

Lemma SplitCmdline_words : forall cmd, SplitCmdline cmd = words cmd.
Proof. intro cmd. apply split_loop_words. lia. Qed.

(** ** Round trip *)
Lemma runs_quoted : forall special w r, special 32 = true -> special 92 = true ->
  runs (tokens (backslash_quote special w ++ r)) = match runs (tokens r) with x :: xs => (w ++ x) :: xs | [] => [w] end.
Proof.
  intros special w r A B. induction w as [|c w IH].
  { cbn. destruct (runs_cons (tokens r)) as (x & xs & ->). reflexivity. }
  unfold backslash_quote. cbn [flat_map]. fold (backslash_quote special w). rewrite <- app_assoc.
  destruct (runs_cons (tokens r)) as (x & xs & R). rewrite R in *.
  assert (L : forall t, tokens t = Literal c :: tokens (backslash_quote special w ++ r) -> runs (tokens t) = ((c :: w) ++ x) :: xs).
  { intros t ->. cbn [runs]. rewrite IH. reflexivity. }
  destruct (special c) eqn:S; apply L; cbn [app]; rewrite tokens_cons.
  - reflexivity.
  - destruct (N.eqb_spec c 32); [congruence|]. destruct (N.eqb_spec c 92); [congruence|reflexivity].
Qed.

Lemma words_join : forall special ws, special 32 = true -> special 92 = true -> Forall (fun w => w <> []) ws ->
  words (join (map (backslash_quote special) ws)) = ws.
Proof.
  intros special ws A B F. rewrite words_alt. induction F as [|w ws NE F IH]; [reflexivity|].
  assert (NW : nonempty w = true) by (destruct w; [contradiction|reflexivity]).
  destruct ws as [|w2 ws].
  - cbn [map join]. rewrite <- (app_nil_r (backslash_quote special w)), runs_quoted by assumption. cbn. rewrite app_nil_r.
    now rewrite NW.
  - change (join (map (backslash_quote special) (w :: w2 :: ws))) with
      (backslash_quote special w ++ 32 :: join (map (backslash_quote special) (w2 :: ws))).
    rewrite runs_quoted by assumption. rewrite tokens_cons. cbn [N.eqb Pos.eqb runs]. rewrite app_nil_r. cbn [filter].
    rewrite NW, IH. reflexivity.
Qed.

(** ** Single quotes *)
Lemma qtokens_cons : forall c r, qtokens (c :: r) =
  if c =? 39 then Quote :: qtokens r
  else if c =? 92 then match r with [] => [Malformed] | d :: r => QLiteral d :: qtokens r end
  else QLiteral c :: qtokens r.
Proof.
  intros c r. destruct (N.eqb_spec c 39) as [->|E]; [reflexivity|]. destruct (N.eqb_spec c 92) as [->|E2]; [reflexivity|].
  destruct c as [|c]; [reflexivity|]. do 7 (destruct c as [c|c|]; try reflexivity; try contradiction).
Qed.

Lemma unescape_qtokens : forall k s quote r, (List.length s < k)%nat ->
  unescape_loop quote s = Some r <->
  ~ In Malformed (qtokens s) /\ Nat.odd (quotes (qtokens s)) = quote /\ r = literals (qtokens s).
Proof.
  induction k as [|k IH]; intros s quote r K; [lia|]. destruct s as [|c s].
  { cbn. destruct quote; split; try discriminate; try (intros (_ & H & _); discriminate).
    - intro H. injection H as <-. auto.
    - intros (_ & _ & ->). reflexivity. }
  cbn [List.length] in K. cbn [unescape_loop]. rewrite qtokens_cons. destruct (c =? 39).
  { rewrite IH by lia. cbn [In quotes filter List.length literals flat_map app]. fold (quotes (qtokens s)).
    change (List.length (filter (fun t => match t with Quote => true | _ => false end) (qtokens s))) with (quotes (qtokens s)).
    rewrite Nat.odd_succ, <- Nat.negb_odd. fold (literals (qtokens s)).
    split; intros (A & B & C); (split; [intuition discriminate|]; split; [|exact C]); destruct quote, (Nat.odd _); cbn in *; congruence. }
  assert (LIT : forall d s', (List.length s' < k)%nat -> option_map (cons d) (unescape_loop quote s') = Some r <->
    ~ In Malformed (QLiteral d :: qtokens s') /\ Nat.odd (quotes (QLiteral d :: qtokens s')) = quote /\ r = literals (QLiteral d :: qtokens s')).
  { intros d s' K'. cbn [In literals flat_map app]. fold (literals (qtokens s')).
    change (quotes (QLiteral d :: qtokens s')) with (quotes (qtokens s')).
    destruct (unescape_loop quote s') as [r'|] eqn:E; cbn [option_map].
    - apply IH in E; [|exact K']. destruct E as (A & B & ->). split.
      + intro H. injection H as <-. split; [intuition discriminate|]. auto.
      + intros (_ & _ & ->). reflexivity.
    - split; [discriminate|]. intros (A & B & _). exfalso.
      assert (X : unescape_loop quote s' = Some (literals (qtokens s'))) by (apply IH; [exact K'|]; intuition). congruence. }
  destruct (c =? 92).
  - destruct s as [|d s]; [|apply LIT; cbn [List.length] in K; lia].
    cbn. split; [discriminate|]. intros (A & _). exfalso. apply A. now left.
  - apply LIT. lia.
Qed.

Lemma unescape_exact : forall s r, ShellUnescapeOneSingleQuoted s = Some r <->
  ~ In Malformed (qtokens s) /\ Nat.even (quotes (qtokens s)) = true /\ r = literals (qtokens s).
Proof.
  intros s r. unfold ShellUnescapeOneSingleQuoted. rewrite (unescape_qtokens (S (List.length s))) by lia.
  rewrite <- Nat.negb_odd. split; intros (A & B & C); (split; [exact A|]; split; [|exact C]); destruct (Nat.odd _); cbn in *; congruence.
Qed.

Lemma unescape_git : forall arg, ~ In 92 arg -> ShellUnescapeOneSingleQuoted (git_quote arg) = Some arg.
Proof.
  intros arg H. unfold ShellUnescapeOneSingleQuoted, git_quote. cbn [unescape_loop N.eqb Pos.eqb negb].
  induction arg as [|c arg IH]; [reflexivity|]. cbn [flat_map]. rewrite <- app_assoc.
  assert (I1 : ~ In 92 arg) by (intro; apply H; now right). specialize (IH I1).
  destruct (N.eqb_spec c 39) as [->|E]; cbn [orb].
  { cbn [app unescape_loop N.eqb Pos.eqb negb]. rewrite IH. reflexivity. }
  destruct (N.eqb_spec c 33) as [->|E2].
  { cbn [app unescape_loop N.eqb Pos.eqb negb]. rewrite IH. reflexivity. }
  cbn [app unescape_loop]. destruct (N.eqb_spec c 39); [contradiction|].
  destruct (N.eqb_spec c 92) as [->|E3]; [exfalso; apply H; now left|]. rewrite IH. reflexivity.
Qed.
