(** * C87: the server identifies itself with the keys it was given *)

From Coq Require Import NArith List Bool Lia String.
From Verif.Base Require Import Bytes.
From Verif.Spec Require Import WireSpec NamesSpec KeyFormatSpec KeySpec StartupSpec.
From Verif.Model Require Import Wire StringList KeyOptions Keys KeyList Startup.
From Verif.Proofs Require Import NamesFacts KeyListFacts.
From Verif.Props Require Import C36 C50 C66 C67 C68.
Import ListNotations.
Open Scope N_scope.

Local Arguments bs : simpl never.

Lemma load_file_iff : forall c f k, LoadKeyFile c f = Some k <-> holds_key c (Opened f) k.
Proof.
  intros c [st da] k. unfold LoadKeyFile, holds_key, BUFFER. cbn [f_stat f_data]. split.
  - destruct st as [[regular size]|]; [|discriminate]. destruct regular; cbn [negb]; [|discriminate].
    destruct (N.ltb_spec 32768 size); [discriminate|]. destruct da as [data|]; [|discriminate].
    intros E. exists size, data. repeat split; assumption.
  - intros (size & data & E & S & P). injection E as -> ->. cbn [negb].
    destruct (N.ltb_spec 32768 size); [lia|]. exact P.
Qed.

Lemma load_files_iff : forall c dir names keys, load_files c dir names = Some keys <-> keys_in c dir names keys.
Proof.
  intros c dir names. induction names as [|n names IH]; intros keys; cbn [load_files].
  { split; [intros [= <-]; constructor|intros H; inversion H; reflexivity]. }
  split.
  - unfold LoadOptionalKeyFile. destruct (dir n) as [| |f] eqn:D; [| discriminate |].
    + destruct (load_files c dir names) as [ks|] eqn:E; [|discriminate]. intros [= <-]. constructor; [exact D|]. apply IH. reflexivity.
    + destruct (LoadKeyFile c f) as [k|] eqn:K; [|discriminate].
      destruct (load_files c dir names) as [ks|] eqn:E; [|discriminate]. intros [= <-]. constructor; [|apply IH; reflexivity].
      rewrite D. apply load_file_iff. exact K.
  - intros H. inversion H as [|? ? ? D R|? ? ? ? D R]; subst.
    + unfold LoadOptionalKeyFile. rewrite D, (proj2 (IH keys) R). reflexivity.
    + rewrite (proj2 (IH _) R). assert (D' := D). destruct D' as (size & data & E & _). rewrite E in D |- *.
      cbn [LoadOptionalKeyFile]. rewrite (proj2 (load_file_iff _ _ _) D). reflexivity.
Qed.

(** The server starts with these keys if and only if they are the keys in the
    files which are there, none of them broken; new keys are made only if
    there is no file at all. *)
Theorem C87_loaded : forall c dir generated keys,
  let names := bs "host_ed25519_key" :: (if c_openssl c then [bs "host_ecdsa_key"; bs "host_rsa_key"] else []) in
  LoadHostKeys c dir generated = Some keys <->
  (keys_in c dir names keys /\ keys <> []) \/ ((forall n, In n names -> dir n = Missing) /\ keys = generated).
Proof.
  intros c dir generated keys. cbv zeta. unfold LoadHostKeys. fold (host_key_filenames c).
  assert (Empty : forall names, keys_in c dir names [] <-> forall n, In n names -> dir n = Missing).
  { induction names as [|n names IH]; [split; [intros _ n []|constructor]|]. split.
    - intros H. inversion H as [|? ? ? D R|]; subst. intros m [<-|M]; [exact D|]. apply IH; assumption.
    - intros H. constructor; [apply H; left; reflexivity|]. apply IH. intros m M. apply H. right. exact M. }
  split.
  - destruct (load_files c dir (host_key_filenames c)) as [[|k ks]|] eqn:E; [| |discriminate].
    + intros [= <-]. right. split; [|reflexivity]. apply Empty, load_files_iff, E.
    + intros [= <-]. left. split; [|discriminate]. apply load_files_iff, E.
  - intros [[K N]|[K ->]].
    + rewrite (proj2 (load_files_iff _ _ _ _) K). destruct keys; [congruence|reflexivity].
    + rewrite (proj2 (load_files_iff _ _ _ _) (proj2 (Empty _) K)). reflexivity.
Qed.
Print Assumptions C87_loaded.

(** A broken file is not replaced by another identity: the server does not
    start. *)
Theorem C87_broken : forall c dir generated n,
  n = bs "host_ed25519_key" \/ (c_openssl c = true /\ (n = bs "host_ecdsa_key" \/ n = bs "host_rsa_key")) ->
  dir n <> Missing -> (forall k, ~ holds_key c (dir n) k) -> LoadHostKeys c dir generated = None.
Proof.
  intros c dir generated n N M B.
  assert (In n (host_key_filenames c)).
  { unfold host_key_filenames. destruct N as [->|[-> [->| ->]]]; cbn [In]; auto. }
  assert (X : forall names, In n names -> load_files c dir names = None).
  { induction names as [|m names IH]; [intros []|]. intros [->|I].
    - cbn [load_files]. unfold LoadOptionalKeyFile. destruct (dir n) as [| |f] eqn:D; [congruence|reflexivity|].
      destruct (LoadKeyFile c f) as [k|] eqn:K; [|reflexivity]. destruct (B k). apply load_file_iff. exact K.
    - cbn [load_files]. rewrite (IH I). destruct (LoadOptionalKeyFile c (dir m)); reflexivity. }
  unfold LoadHostKeys. rewrite (X _ H). reflexivity.
Qed.
Print Assumptions C87_broken.

(** ** The key for a client *)

Lemma numbered_split : forall keys i earlier x later, numbered i keys = earlier ++ x :: later ->
  exists e k l, keys = e ++ k :: l /\ earlier = numbered i e /\
    x = {| sk_id := i + N.of_nat (List.length e); sk_algorithms := GetAlgorithms (public_of k) |}.
Proof.
  induction keys as [|k0 keys IH]; intros i earlier x later E; [destruct earlier; discriminate|].
  destruct earlier as [|y earlier]; cbn [numbered app] in E.
  - injection E as <- _. exists [], k0, keys. repeat split. cbn. f_equal. lia.
  - injection E as <- E. destruct (IH _ _ _ _ E) as (e & k & l & -> & -> & ->).
    exists (k0 :: e), k, l. repeat split. cbn [List.length]. f_equal. lia.
Qed.

Lemma numbered_in : forall keys i k, In k keys -> exists j, In {| sk_id := j; sk_algorithms := GetAlgorithms (public_of k) |} (numbered i keys).
Proof.
  induction keys as [|k0 keys IH]; intros i k []; [subst; exists i; left; reflexivity|].
  destruct (IH (i + 1) k H) as (j & J). exists j. right. exact J.
Qed.

Lemma numbered_proper : forall keys i, Forall proper (numbered i keys).
Proof.
  induction keys as [|k keys IH]; intros i; constructor; [|apply IH]. intros a (names & N & I). cbn [sk_algorithms] in N.
  apply (C67_algorithms (public_of k) names a N) in I. destruct k; cbn in I; intros ->; repeat destruct I as [I|I]; discriminate I.
Qed.

Lemma supports_algorithm : forall i k a, supports {| sk_id := i; sk_algorithms := GetAlgorithms (public_of k) |} a <-> algorithm_of (public_of k) a.
Proof.
  intros i k a. split.
  - intros (names & N & I). exact (proj1 (C67_algorithms _ _ _ N) I).
  - intros A. exists (split 44 (GetAlgorithms (public_of k))). split; [apply name_list_split|].
    exact (proj2 (C67_algorithms _ _ _ (name_list_split _)) A).
Qed.

(** A listener uses its own keys or, if it has none, those of the server.  A
    client gets the key for its first algorithm for which there is one; if
    there is none, there is no connection. *)
Theorem C87_presented : forall own global peer wanted, name_list peer wanted ->
  let keys := match own with [] => global | _ => own end in
  match PresentedKey (listener_keys own global) peer with
  | Some (k, a) => fitting keys wanted k a
  | None => forall a k, In a wanted -> In k keys -> ~ algorithm_of (public_of k) a
  end.
Proof.
  intros own global peer wanted W. cbv zeta.
  replace (match own with [] => global | _ => own end) with (listener_keys own global) by (destruct own; reflexivity).
  set (keys := listener_keys own global). clearbody keys. unfold PresentedKey.
  assert (C := C50_choice (numbered 0 keys) peer wanted (numbered_proper keys 0) W).
  destruct (Choose (load (numbered 0 keys)) peer) as [[x a]|].
  - destruct C as ((before & after & E & B) & (earlier & later & E' & F) & S).
    destruct (numbered_split _ _ _ _ _ E') as (e & k & l & -> & -> & ->).
    cbn [sk_id]. rewrite N.add_0_l, Nat2N.id, nth_error_app2, PeanoNat.Nat.sub_diag by apply le_n. cbn [nth_error].
    split; [|split].
    + exists before, after. split; [exact E|]. intros b k' Hb Hk A. destruct (numbered_in _ 0 _ Hk) as (j & J).
      apply (B b Hb _ J). apply supports_algorithm. exact A.
    + exists e, l. split; [reflexivity|]. intros k' Hk A. destruct (numbered_in _ 0 _ Hk) as (j & J).
      apply (F _ J). apply supports_algorithm. exact A.
    + apply supports_algorithm in S. exact S.
  - intros a k Ha Hk A. destruct (numbered_in _ 0 _ Hk) as (j & J). apply (C a _ Ha J). apply supports_algorithm. exact A.
Qed.
Print Assumptions C87_presented.

(** From the file to the client: if the file of the Ed25519 key is an
    unencrypted file of OpenSSH, and the others are good or missing, then all
    clients whose first choice is "ssh-ed25519" get this key. *)
Theorem C87_ed25519 : forall c dir generated keys size file public secret peer wanted,
  LoadHostKeys c dir generated = Some keys ->
  dir (bs "host_ed25519_key") = Opened {| f_stat := Some (true, size); f_data := Some file |} ->
  len file <= 32768 ->
  secret_ok (SecEd25519 public secret) -> secret_supported c (SecEd25519 public secret) -> plain_file (SecEd25519 public secret) file ->
  name_list peer (bs "ssh-ed25519" :: wanted) ->
  PresentedKey (listener_keys [] keys) peer = Some (SecEd25519 public secret, bs "ssh-ed25519").
Proof.
  intros c dir generated keys size file public secret peer wanted L D S OK SU P W.
  apply C87_loaded in L.
  destruct L as [[K NE]|[M _]]; [|rewrite (M (bs "host_ed25519_key")) in D by (left; reflexivity); discriminate].
  inversion K as [|? ? ? M R|? ? k ks H R]; subst; [congruence|].
  destruct H as (size' & data & E & _ & Q). rewrite D in E. injection E as <- <-.
  assert (F : firstn (N.to_nat 32768) file = file) by (apply firstn_all2; unfold len in S; lia).
  rewrite F in Q.
  assert (Q' := C68_loads_partial c (SecEd25519 public secret) file OK SU P ltac:(intros r; discriminate)).
  rewrite Q in Q'. injection Q' as ->.
  assert (X := C87_presented [] (SecEd25519 public secret :: ks) peer _ W). cbv zeta in X.
  destruct (PresentedKey (listener_keys [] (SecEd25519 public secret :: ks)) peer) as [[k a]|].
  - destruct X as ((before & after & E1 & B) & (earlier & later & E2 & G) & A).
    destruct before as [|b before].
    2:{ injection E1 as <- _. exfalso. apply (B (bs "ssh-ed25519") (SecEd25519 public secret)); [left; reflexivity|left; reflexivity|reflexivity]. }
    injection E1 as <- _. destruct earlier as [|e earlier].
    2:{ injection E2 as <- _. exfalso. apply (G (SecEd25519 public secret)); [left; reflexivity|reflexivity]. }
    injection E2 as <- _. reflexivity.
  - exfalso. apply (X (bs "ssh-ed25519") (SecEd25519 public secret)); [left; reflexivity|left; reflexivity|reflexivity].
Qed.
Print Assumptions C87_ed25519.

(** The global "authorized_keys": the keys in the file (see C36), and none if
    there is no file which can be opened. *)
Theorem C87_authorized : forall openssl base64 dir set blob o,
  LoadGlobalAuthorizedKeys openssl base64 dir = Some set ->
  (Find set blob = Some o <->
   exists st data, dir (bs "authorized_keys") = Opened {| f_stat := st; f_data := Some data |} /\
     first_authorizing openssl base64 (file_lines data) blob o).
Proof.
  intros openssl base64 dir set blob o. unfold LoadGlobalAuthorizedKeys. destruct (dir _) as [| |[st da]].
  - intros [= <-]. split; [discriminate|intros (st & data & E & _); discriminate].
  - intros [= <-]. split; [discriminate|intros (st & data & E & _); discriminate].
  - cbn [f_data]. destruct da as [data|]; [|discriminate]. intros [= <-]. split.
    + intros F. exists st, data. split; [reflexivity|]. apply C36_loaded. exact F.
    + intros (st' & data' & E & F). injection E as <- <-. apply C36_loaded. exact F.
Qed.
Print Assumptions C87_authorized.

(** ** Examples *)

(** Without any file: the generated key. *)
Example demo_generated : forall public secret,
  LoadHostKeys toy_crypto (fun _ => Missing) [SecEd25519 public secret] = Some [SecEd25519 public secret].
Proof. intros. apply C87_loaded. right. split; reflexivity. Qed.

(** A file which must not be read: no start. *)
Example demo_refused : forall generated, LoadHostKeys toy_crypto (fun _ => Refused) generated = None.
Proof.
  intros. apply (C87_broken _ _ _ (bs "host_ed25519_key")); [left; reflexivity|discriminate|].
  intros k (size & data & E & _). discriminate.
Qed.

(** The file of C68 among missing ones, and a client which prefers Ed25519. *)
Definition demo_dir (n : bytes) : opened :=
  if bytes_eqb n (bs "host_ed25519_key") then Opened {| f_stat := Some (true, len ed_file); f_data := Some ed_file |} else Missing.

Example demo_host : LoadHostKeys toy_crypto demo_dir [] = Some [ed_key] /\
  PresentedKey (listener_keys [] [ed_key]) (bs "ssh-ed25519,rsa-sha2-512") = Some (ed_key, bs "ssh-ed25519") /\
  PresentedKey (listener_keys [] [ed_key]) (bs "rsa-sha2-512") = None.
Proof.
  assert (L : LoadHostKeys toy_crypto demo_dir [] = Some [ed_key]).
  { apply C87_loaded. left. split; [|discriminate]. apply keys_there.
    - exists (len ed_file), ed_file. split; [reflexivity|]. split; [vm_compute; discriminate|].
      rewrite firstn_all2; [exact (proj1 (proj2 (proj2 (proj2 C68_demo))))|]. apply PeanoNat.Nat.leb_le. vm_compute. reflexivity.
    - repeat (apply keys_missing; [reflexivity|]). constructor. }
  split; [exact L|]. destruct C68_demo as (OK & SU & PF & _).
  split; [|vm_compute; reflexivity].
  refine (C87_ed25519 toy_crypto demo_dir [] [ed_key] (len ed_file) ed_file demo_public (repeat 8 64) _ [bs "rsa-sha2-512"] L eq_refl _ OK SU PF _).
  - vm_compute. discriminate.
  - split; [discriminate|]. split; [|reflexivity].
    repeat constructor; intros I; vm_compute in I; repeat destruct I as [I|I]; try discriminate I; destruct I.
Qed.
