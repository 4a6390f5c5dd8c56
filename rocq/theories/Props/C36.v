(** * C36: authorized_keys: unknown or malformed options reject the key

    Spec/KeySpec.v has the grammar of a line ([line_text]), the known options
    ([acceptable]) and what they mean ([denote]). *)

From Coq Require Import NArith List Bool Lia String.
From Verif.Base Require Import Bytes.
From Verif.Spec Require Import WireSpec KeySpec.
From Verif.Model Require Import Wire StringList KeyOptions.
From Verif.Proofs Require Import KeyFacts.
Import ListNotations.
Open Scope N_scope.

(** A decision procedure for [option_name], for the examples. *)
Definition name_ok (n : bytes) : bool :=
  match n with
  | [] => false
  | c :: r => (97 <=? c) && (c <=? 122) && forallb (fun d => (97 <=? d) && (d <=? 122) || (d =? 45)) r
  end.

Lemma name_ok_spec : forall n, name_ok n = true -> option_name n.
Proof.
  intros [|c r] H; [discriminate|]. cbn [name_ok] in H. apply andb_true_iff in H as [H F].
  apply andb_true_iff in H as [H1 H2]. apply N.leb_le in H1, H2. split; [split; assumption|].
  apply Forall_forall. intros d I. rewrite forallb_forall in F. specialize (F d I).
  apply orb_true_iff in F as [F|F]; [left|right; now apply N.eqb_eq].
  apply andb_true_iff in F as [F1 F2]. apply N.leb_le in F1, F2. split; assumption.
Qed.

(** A line authorizes a key if and only if it is one of the grammar's lines,
    for this key, all of its options are known and well-formed; the options
    in force are what the line's options denote. *)
Theorem C36_line :
  forall base64 openssl line blob o,
  PublicKeysTextLineContains base64 openssl line blob = Some o <-> authorizes openssl base64 line blob o.
Proof. exact line_contains_iff. Qed.
Print Assumptions C36_line.

(** A text (as received from the translation server) authorizes a key with
    the options of the first line which does. *)
Theorem C36_text :
  forall base64 openssl text lines blob o, text_lines text lines ->
  (PublicKeysTextContains base64 openssl text blob = Some o <->
   first_authorizing openssl base64 lines blob o).
Proof.
  intros base64 openssl text lines blob o T. unfold PublicKeysTextContains. rewrite (text_lines_unique _ _ T).
  apply lines_contain_iff.
Qed.
Print Assumptions C36_text.

(** Every text has lines, so the theorem applies to every text. *)
Theorem C36_text_lines : forall text, exists lines, text_lines text lines.
Proof. intro text. exists (split 10 text). apply text_lines_split. Qed.
Print Assumptions C36_text_lines.

(** The same for a file in the home directory, *)
Theorem C36_file :
  forall base64 openssl contents blob o,
  PublicKeysTextFileContains base64 openssl contents blob = Some o <->
  first_authorizing openssl base64 (file_lines contents) blob o.
Proof. intros. apply lines_contain_iff. Qed.
Print Assumptions C36_file.

(** and for a file which was loaded in advance (global keys, host keys). *)
Theorem C36_loaded :
  forall base64 openssl contents blob o,
  Find (LoadPublicKeysTextFile base64 openssl [] contents) blob = Some o <->
  first_authorizing openssl base64 (file_lines contents) blob o.
Proof.
  intros. unfold LoadPublicKeysTextFile. rewrite load_lines. cbn [Find]. apply lines_contain_iff.
Qed.
Print Assumptions C36_loaded.

(** A key which no line authorizes is not accepted. *)
Theorem C36_only :
  forall base64 openssl lines blob,
  (forall l o, In l lines -> ~ authorizes openssl base64 l blob o) <->
  lines_contain base64 openssl lines blob = None.
Proof. intros. symmetry. apply lines_contain_none. Qed.
Print Assumptions C36_only.

(** A line with an unknown or malformed option authorizes no key at all,
    whatever follows the options. *)
Theorem C36_rejected :
  forall base64 openssl ws l t rest blob o,
  white ws -> options_text l t -> ~ known_type openssl t -> ~ Forall acceptable l ->
  ~ authorizes openssl base64 (ws ++ t ++ [32] ++ rest) blob o.
Proof. exact bad_options_reject. Qed.
Print Assumptions C36_rejected.

(** Options never get lost: a restriction named anywhere in the line is in
    force unless a later option of the same line lifts it. *)
Theorem C36_restrictions :
  forall l,
  (forall pre post, l = pre ++ (bs "no-pty", []) :: post -> ~ In (bs "pty") (map fst post) -> ko_no_pty (denote l) = true) /\
  (forall pre post, l = pre ++ (bs "restrict", []) :: post -> ~ In (bs "pty") (map fst post) -> ko_no_pty (denote l) = true) /\
  (forall pre post, l = pre ++ (bs "no-port-forwarding", []) :: post -> ~ In (bs "port-forwarding") (map fst post) ->
     ko_no_port_forwarding (denote l) = true) /\
  (forall pre post, l = pre ++ (bs "restrict", []) :: post -> ~ In (bs "port-forwarding") (map fst post) ->
     ko_no_port_forwarding (denote l) = true) /\
  (forall v, In (bs "home-read-only", v) l -> ko_home_read_only (denote l) = true) /\
  (forall pre v post, l = pre ++ (bs "command", v) :: post -> ~ In (bs "command") (map fst post) -> ko_command (denote l) = v).
Proof.
  assert (D : forall yes no n v post pre, is_named yes (n, v) = true ->
     (forall x, is_named no x = true -> In (fst x) (map bs no)) ->
     (forall x, In x post -> ~ In (fst x) (map bs no)) -> decided yes no (pre ++ (n, v) :: post) = true).
  { intros yes no n v post pre Y _. induction post as [|x post IH] using rev_ind; intro N.
    - rewrite decided_snoc, Y. reflexivity.
    - rewrite app_comm_cons, app_assoc, decided_snoc. destruct (is_named yes x); [reflexivity|].
      destruct (is_named no x) eqn:E.
      + exfalso. apply (N x); [apply in_or_app; right; now left|]. now apply is_named_spec in E.
      + apply IH. intros y I. apply N. apply in_or_app. now left. }
  assert (IN : forall no x, is_named no x = true -> In (fst x) (map bs no)).
  { intros no x H. now apply is_named_spec in H. }
  assert (POST : forall s post, ~ In (bs s) (map fst post) -> forall x : item, In x post -> ~ In (fst x) (map bs [s])).
  { intros s post N x I [E|[]]. apply N. rewrite E. now apply in_map. }
  intro l. repeat split; intros; subst; cbn [denote ko_no_pty ko_no_port_forwarding ko_home_read_only ko_command];
    try (apply D; [reflexivity|apply IN|now apply POST]).
  - apply existsb_exists. exists (bs "home-read-only", v). split; [assumption|reflexivity].
  - induction post as [|x post IH] using rev_ind.
    + rewrite last_command_snoc. reflexivity.
    + rewrite app_comm_cons, app_assoc, last_command_snoc. rewrite map_app in H0.
      destruct (is_named ["command"%string] x) eqn:E.
      * exfalso. apply H0. apply in_or_app. right. left. apply is_named_spec in E. destruct E as [E|[]]. now symmetry.
      * apply IH. intro I. apply H0. apply in_or_app. now left.
Qed.
Print Assumptions C36_restrictions.

(** ** The documentation's list of ignored options

    doc/index.rst says that "X11-forwarding" and "no-X11-forwarding" are
    ignored silently.  The code which knows them is never reached, because
    an option name with upper case letters or digits is not parsed; such a
    key is rejected.  (This errs on the safe side.) *)
Definition C36_documented_full_statement : Prop :=
  forall base64 openssl n b64 blob,
  In n (map bs ["user-rc"; "no-user-rc"; "agent-forwarding"; "no-agent-forwarding"; "X11-forwarding"; "no-X11-forwarding"]%string) ->
  no_space b64 -> b64 <> [] -> base64 b64 = Some blob ->
  PublicKeysTextLineContains base64 openssl (n ++ [32] ++ bs "ssh-rsa" ++ [32] ++ b64) blob = Some ko_default.

Lemma default_ok : forall o,
  is_nil (ko_command o) && negb (ko_no_port_forwarding o || ko_no_pty o || ko_home_read_only o) = true -> ko_default = o.
Proof.
  intros [c f p h] H. cbn [ko_command ko_no_port_forwarding ko_no_pty ko_home_read_only] in H.
  apply andb_true_iff in H as [H1 H2]. destruct c; [|discriminate]. destruct f, p, h; try discriminate. reflexivity.
Qed.

Theorem C36_documented_partial :
  forall base64 openssl n b64 blob,
  In n (map bs ["user-rc"; "no-user-rc"; "agent-forwarding"; "no-agent-forwarding"]%string) ->
  no_space b64 -> b64 <> [] -> base64 b64 = Some blob ->
  PublicKeysTextLineContains base64 openssl (n ++ [32] ++ bs "ssh-rsa" ++ [32] ++ b64) blob = Some ko_default.
Proof.
  intros base64 openssl n b64 blob I S NE D. apply line_contains_iff. exists b64, [(n, [])].
  assert (NAME : option_name n /\ acceptable (n, []) /\ ko_default = denote [(n, [])]).
  { assert (H : forallb (fun n => name_ok n && match Set_ ko_default n [] with
        | Some o => is_nil (ko_command o) && negb (ko_no_port_forwarding o || ko_no_pty o || ko_home_read_only o)
        | None => false end) (map bs ["user-rc"; "no-user-rc"; "agent-forwarding"; "no-agent-forwarding"]%string) = true)
      by (vm_compute; reflexivity).
    rewrite forallb_forall in H. specialize (H n I). apply andb_true_iff in H as [N H].
    split; [now apply name_ok_spec|]. destruct (Set_denote [] n []) as [[A S']|[NA S']].
    - split; [exact A|]. change ko_default with (denote []) in H. rewrite S' in H. cbn [app] in H.
      exact (default_ok _ H).
    - change ko_default with (denote []) in H. rewrite S' in H. congruence. }
  destruct NAME as (NM & AC & DE). split; [|split; [constructor; [exact AC|constructor]|split; [exact D|exact DE]]].
  exists [], (n ++ [32] ++ bs "ssh-rsa" ++ [32] ++ b64). split; [reflexivity|]. split; [constructor|]. right.
  exists n, [], (bs "ssh-rsa"), 115, (bs "sh-rsa" ++ [32] ++ b64). split; [reflexivity|].
  split; [repeat constructor; exact NM|]. split; [constructor|]. split; [lia|].
  exists []. rewrite app_nil_r. split; [reflexivity|]. split; [|split; [exact S|split; [exact NE|now left]]].
  intro X. vm_compute in X. repeat (destruct X as [X|X]; [discriminate|]). contradiction.
Qed.
Print Assumptions C36_documented_partial.

Theorem C36_documented_refuted : ~ C36_documented_full_statement.
Proof.
  intro H. specialize (H (fun b => Some b) true (bs "X11-forwarding") (bs "AAAA") (bs "AAAA")).
  assert (X : In (bs "X11-forwarding") (map bs ["user-rc"; "no-user-rc"; "agent-forwarding"; "no-agent-forwarding"; "X11-forwarding"; "no-X11-forwarding"]%string))
    by (cbn [map In]; auto 12).
  specialize (H X). assert (N : no_space (bs "AAAA")).
  { intro I. vm_compute in I. repeat (destruct I as [I|I]; [discriminate|]). contradiction. }
  specialize (H N ltac:(discriminate) eq_refl). vm_compute in H. discriminate.
Qed.
Print Assumptions C36_documented_refuted.

(** ** A line with options *)
Definition demo_line : bytes :=
  bs "  command=" ++ [34] ++ bs "echo " ++ [92; 34] ++ bs "x" ++ [92; 34] ++ [34] ++
  bs ",restrict,pty,user-rc ssh-ed25519 QUJD someone@example.com".

Example C36_demo :
  authorizes true (fun b => if bytes_eqb b (bs "QUJD") then Some (bs "ABC") else None) demo_line (bs "ABC")
    {| ko_command := bs "echo " ++ [34] ++ bs "x" ++ [34]; ko_no_port_forwarding := true; ko_no_pty := false;
       ko_home_read_only := false |}.
Proof. apply line_contains_iff. vm_compute. reflexivity. Qed.

Example C36_demo_rejected :
  PublicKeysTextLineContains (fun b => Some b) true (bs "no-pty,surprise ssh-ed25519 QUJD") (bs "QUJD") = None /\
  PublicKeysTextLineContains (fun b => Some b) true (bs "no-pty ssh-ed25519 QUJD") (bs "QUJD") =
    Some {| ko_command := []; ko_no_port_forwarding := false; ko_no_pty := true; ko_home_read_only := false |}.
Proof. split; vm_compute; reflexivity. Qed.

(** the hypotheses of [C36_rejected] for the line above *)
Example C36_demo_hypotheses :
  options_text [(bs "no-pty", []); (bs "surprise", [])] (bs "no-pty,surprise") /\
  ~ known_type true (bs "no-pty,surprise") /\
  ~ Forall acceptable [(bs "no-pty", []); (bs "surprise", [])].
Proof.
  split; [|split].
  - change (bs "no-pty,surprise") with (bs "no-pty" ++ [44] ++ bs "surprise").
    constructor; [constructor; apply name_ok_spec; vm_compute; reflexivity|].
    constructor. constructor. apply name_ok_spec; vm_compute; reflexivity.
  - intros [(r & E)|[_ (r & E)]]; discriminate.
  - intro F. inversion F as [|? ? _ G]; subst. inversion G as [|? ? A _]; subst.
    destruct (Set_denote [] (bs "surprise") []) as [[_ X]|[N _]]; [vm_compute in X; discriminate|contradiction].
Qed.
