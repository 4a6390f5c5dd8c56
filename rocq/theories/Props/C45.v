(** * C45: restricted commands are passed without shell interpretation *)

From Coq Require Import NArith List Bool Lia String.
From Verif.Base Require Import Bytes.
From Verif.Spec Require Import WireSpec PacketSpec KeySpec AuthSpec SessionSpec SessionRun QuoteSpec OriginSpec AuthDemo.
From Verif.Model Require Import Wire Packets StringList KeyOptions Auth Session Server.
From Verif.Proofs Require Import WireFacts PacketFacts KeyFacts AuthFacts ServerFacts SessionFacts RestrictFacts StepFacts SessionRunFacts SizeFacts QuoteFacts OriginFacts AuthClientFacts.
Import ListNotations.
Open Scope N_scope.


Local Arguments bs : simpl never.

(** ** rsync: backslash quoting *)

(** The parameters are exactly the words of Spec/QuoteSpec.v, for every
    command line. *)
Theorem C45_words : forall cmd, SplitCmdline cmd = words cmd.
Proof. exact SplitCmdline_words. Qed.
Print Assumptions C45_words.

(** A client which puts a backslash in front of every space and every
    backslash, and of any other characters it likes, is understood. *)
Theorem C45_words_roundtrip :
  forall special ws, special 32 = true -> special 92 = true -> Forall (fun w => w <> []) ws ->
  SplitCmdline (join (map (backslash_quote special) ws)) = ws.
Proof. intros. rewrite C45_words. now apply words_join. Qed.
Print Assumptions C45_words_roundtrip.

(** No word is empty, and no word contains a character which is not in the
    command line. *)
Theorem C45_words_contents :
  forall cmd w, In w (SplitCmdline cmd) -> w <> [] /\ (forall c, In c w -> In c cmd).
Proof.
  intros cmd w I. rewrite C45_words in I. unfold words in I. apply filter_In in I as [I NE]. split; [destruct w; [discriminate|congruence]|].
  intros c J.
  assert (R : forall l, In w (runs l) -> In c w -> In (Literal c) l).
  { clear. intros l. revert w. induction l as [|[d|] l IH]; cbn; intros w I J.
    - destruct I as [<-|[]]. contradiction.
    - destruct (runs_cons l) as (x & xs & E). rewrite E in *. destruct I as [<-|I].
      + destruct J as [->|J]; [now left|]. right. apply (IH x); [now left|exact J].
      + right. apply (IH w); [now right|exact J].
    - destruct I as [<-|I]; [contradiction|]. right. now apply (IH w). }
  specialize (R _ I J). clear I NE J.
  assert (T : forall k s, (List.length s < k)%nat -> In (Literal c) (tokens s) -> In c s).
  { clear. induction k as [|k IH]; intros s K; [lia|]. destruct s as [|d s]; [contradiction|]. rewrite tokens_cons. cbn [List.length] in K.
    destruct (d =? 32); [intros [H|H]; [discriminate|right; apply IH; [lia|exact H]]|].
    destruct (N.eqb_spec d 92) as [->|E].
    - destruct s as [|e s]; [intros [H|[]]; injection H as <-; now left|]. cbn [List.length] in K.
      intros [H|H]; [injection H as <-; right; now left|]. right. right. apply IH; [lia|exact H].
    - intros [H|H]; [injection H as <-; now left|]. right. apply IH; [lia|exact H]. }
  exact (T _ cmd (PeanoNat.Nat.lt_succ_diag_r _) R).
Qed.
Print Assumptions C45_words_contents.

(** ** git: single quotes *)

(** The argument is exactly what Spec/QuoteSpec.v says, and malformed quoting
    (an odd number of quotes, a backslash at the end) is rejected. *)
Theorem C45_unquote :
  forall s arg, ShellUnescapeOneSingleQuoted s = Some arg <->
  ~ In Malformed (qtokens s) /\ Nat.even (quotes (qtokens s)) = true /\ arg = literals (qtokens s).
Proof. exact unescape_exact. Qed.
Print Assumptions C45_unquote.

(** The full statement for git: what git's quoting function produces arrives
    unchanged. *)
Definition C45_git_full_statement : Prop := forall arg, ~ In 0 arg -> ShellUnescapeOneSingleQuoted (git_quote arg) = Some arg.

(** It is false: between single quotes a backslash has no special meaning for
    git (nor for a shell), but it has here. *)
Theorem C45_git_refuted : ~ C45_git_full_statement.
Proof.
  intro H. specialize (H [97; 92; 98]). cbn in H. assert (X : Some [97; 98] = Some [97; 92; 98]); [|discriminate].
  apply H. intuition discriminate.
Qed.
Print Assumptions C45_git_refuted.

(** It holds for arguments without a backslash. *)
Theorem C45_git_partial : forall arg, ~ In 92 arg -> ShellUnescapeOneSingleQuoted (git_quote arg) = Some arg.
Proof. exact unescape_git. Qed.
Print Assumptions C45_git_partial.

(** ** Programs *)

(** Accounts without exec: whatever the client sends, a program which is
    started is the SFTP server, or the configured rsync or git executable; its
    arguments are the words of the command, the first two being "rsync" and
    "--server", or the unquoted argument of the git command, of some request
    which the client has sent on this channel (Spec/OriginSpec.v). *)
Theorem C45_programs :
  forall cfg session_id peer_address ops op events n p, Forall op_ok ops ->
  let s := vrun cfg session_id peer_address ops in
  let a := sv_account s in
  ac_allow_exec a = false ->
  sv_log (vstep cfg session_id op s) = sv_log s ++ events -> In (VSess n (SStarted p)) events ->
  exists type data ok, In (ORequest type data ok) (happened n ops) /\ answers_request a type data p /\
  match st_program p with
  | Shell _ _ | ShellCommand _ _ => False
  | Sftp _ => True
  | Rsync path args =>
      (exists more, args = bs "rsync" :: bs "--server" :: more) /\
      exists eo, provided a (bs "rsync") (AsOptions eo) /\ eo_execute eo = Some path
  | Git path name arg =>
      In name [bs "git-receive-pack"; bs "git-upload-pack"] /\
      exists eo, provided a name (AsOptions eo) /\
        match eo_execute eo with Some x => path = x | None => path = bs "/usr/bin/" ++ name end
  end.
Proof.
  intros cfg sid peer ops op events n p F s a NX L I.
  destruct (vrun_started cfg sid peer ops op events n p F L I) as (type & data & ok & IN & A).
  exists type, data, ok. split; [exact IN|]. split; [exact A|].
  destruct (session_event cfg sid peer ops op n (SStarted p) events F L I) as (_ & _ & x & _ & (MS & _)).
  pose proof (vrun_path cfg sid peer ops op events n p F L I) as CP. fold s in MS. fold a in MS.
  unfold may_start in MS. unfold answers_request in A. fold s a in A. unfold configured_path in CP.
  destruct (st_program p) as [| | |path args|path name arg].
  - destruct MS; congruence.
  - destruct MS; congruence.
  - exact Logic.I.
  - destruct A as (_ & cmd & rest & _ & -> & ->). destruct CP as (eo & ID & EX). rewrite ID in MS. split; [|exists eo; split; [apply MS|exact EX]].
    exists (words rest). reflexivity.
  - destruct CP as (eo & ID & EX). rewrite ID in MS. split; [apply MS|]. exists eo. split; [apply MS|exact EX].
Qed.
Print Assumptions C45_programs.

(** carol has no exec, but rsync and git. *)
Example C45_demo :
  let exec cmd := demo_request 0 (bs "exec") (enc [FString cmd]) in
  let s := demo_run true (demo_attempt (demo_key_request (bs "carol") (bs "PLAIN")) ++
    [demo_open (bs "session") [] 0; exec (bs "rsync --server a\ b; reboot"); OSession 0 (OSpawner 0 demo_spawn); OSession 0 OExit;
     exec (bs "git-upload-pack 'it'\''s'"); OSession 0 (OSpawner 2 demo_spawn)]) in
  ac_allow_exec (sv_account s) = false /\
  map st_program (demo_started s) =
    [Rsync (bs "/usr/bin/rsync") [bs "rsync"; bs "--server"; bs "a b;"; bs "reboot"];
     Git (bs "/usr/bin/rsync") (bs "git-upload-pack") (bs "it's")].
Proof. split; vm_compute; reflexivity. Qed.
