(** A small environment in which the key exchange machine can be computed,
    for the examples beside the theorems.  Nothing here is cryptography. *)

From Coq Require Import NArith List Bool Lia String.
From Verif.Base Require Import Bytes.
From Verif.Spec Require Import WireSpec NamesSpec KexSpec.
From Verif.Model Require Import Wire Frame Packets StringList Negotiate KexKeys KexMachine.
Import ListNotations.
Open Scope N_scope.

Definition checksum (x : bytes) : N := fold_left (fun a b => (a * 31 + b + 7) mod 251) x 1.

Definition toy : kenv := {|
  e_digest := fun x => repeat (checksum x) 32;
  e_version := bs "SSH-2.0-toy";
  e_host_key_algorithms := bs "ssh-ed25519";
  e_choose := fun l => if StringListContains l (bs "ssh-ed25519") then Some (7, bs "ssh-ed25519") else None;
  e_blob := fun k => [k];
  e_sign := fun k h alg => Some (k :: h);
  e_verify_host_key := Some (fun b => bytes_eqb b [7]);
  e_verify_signature := fun b h sig => Some (bytes_eqb sig (b ++ h));
  e_public := fun alg sec => 9 :: sec;
  e_shared := fun alg sec peer =>
    match peer with
    | 9 :: p => Some (string_enc [(fold_left N.add (sec ++ p) 0) mod 128])
    | _ => None
    end
|}.

Lemma toy32 : forall x, len (e_digest toy x) = 32.
Proof. intro x. reflexivity. Qed.

Fixpoint kexec (role : Role) (ops : list kop) (s : kstate) : option kstate :=
  match ops with
  | [] => Some s
  | op :: ops => match kstep toy role op s with Some s => kexec role ops s | None => None end
  end.

Lemma kexec_runs : forall role u ops pre s s', kruns toy role u pre s -> kexec role ops s = Some s' ->
  kruns toy role u (pre ++ ops) s'.
Proof.
  intros role u. induction ops as [|op ops IH]; intros pre s s' H He; cbn [kexec] in He.
  - injection He as <-. now rewrite app_nil_r.
  - destruct (kstep toy role op s) as [t|] eqn:Et; [|discriminate].
    replace (pre ++ op :: ops) with ((pre ++ [op]) ++ ops) by (rewrite <- app_assoc; reflexivity).
    eapply IH; [|exact He]. eapply kruns_snoc; eassumption.
Qed.

Definition krun (role : Role) (ops : list kop) : option kstate := kexec role ops (new_connection false).

Lemma krun_runs : forall role ops s, krun role ops = Some s -> kruns toy role false ops s.
Proof. intros role ops s H. apply (kexec_runs role false ops [] _ s (kruns_nil _ _ _)). exact H. Qed.

Definition rnd (n : N) : random := {| rnd_cookie := repeat n 16; rnd_secret := [n; n + 1] |}.

Definition orD (o : option bytes) : bytes := match o with Some b => b | None => [] end.

Definition client_kexinit : bytes := 20 :: orD (SerializeKex toy CLIENT (repeat 3 16)).
Definition server_kexinit : bytes := 20 :: orD (SerializeKex toy SERVER (repeat 5 16)).
Definition client_init : bytes := 30 :: string_enc (9 :: [3; 4]).

(** the packets which were sent *)
Fixpoint sent (l : list kevent) : list bytes :=
  match l with
  | [] => []
  | ETx p :: l => p :: sent l
  | _ :: l => sent l
  end.

Definition osent (o : option kstate) : list bytes := match o with Some s => sent (k_log s) | None => [] end.

Definition pkt (p : bytes) : kop := OpPacket p 0 (rnd 5) HPass.
Definition cpkt (p : bytes) : kop := OpPacket p 0 (rnd 3) HPass.

Definition server_ops : list kop :=
  [OpVersion (bs "SSH-2.0-toy") (rnd 5); pkt client_kexinit; pkt client_init; pkt [21]].

Definition server_packets : list bytes := osent (krun SERVER server_ops).

(** KEXINIT, ECDH_KEX_REPLY, NEWKEYS as sent by the server *)
Definition client_ops : list kop :=
  OpVersion (bs "SSH-2.0-toy") (rnd 3) :: map cpkt server_packets.

(** a complete exchange and another one, started by a timer *)
Definition rekey_ops : list kop :=
  server_ops ++ [OpAuthenticated; OpSend [80; 1]; OpRekeyTimer (rnd 6); pkt client_kexinit; pkt client_init; pkt [21]; OpSend [94; 2]].

(** a decision procedure for the side condition *)
Definition app_messageb (p : bytes) : bool :=
  match p with
  | m :: _ => negb (existsb (N.eqb m) [1; 20; 21; 30; 31])
  | [] => false
  end.

Definition op_okb (op : kop) : bool :=
  match op with
  | OpVersion _ r | OpRekeyTimer r => len (rnd_cookie r) =? 16
  | OpPacket payload _ r h =>
      forallb (fun b => b <? 256) payload && (len (rnd_cookie r) =? 16) &&
      match h with
      | HPass => true
      | HDone actions => forallb (fun a => match a with HSend p => app_messageb p | HAuthenticated => true end) actions
      | HThrow e => match e with XAssert => false | _ => true end
      end
  | OpSend p => app_messageb p
  | OpAuthenticated | OpDisconnect _ _ | OpClose => true
  end.

Lemma app_messageb_ok : forall p, app_messageb p = true -> app_message p.
Proof.
  intros [|m p] H; [discriminate|]. exists m, p. split; [reflexivity|]. cbn [app_messageb existsb] in H.
  apply negb_true_iff in H. repeat (apply orb_false_iff in H as [?E H]).
  repeat match goal with E : (m =? _) = false |- _ => apply N.eqb_neq in E end. tauto.
Qed.

Lemma op_okb_ok : forall op, op_okb op = true -> op_ok op.
Proof.
  intros [v r|p seq r h|r|p| |a b|] H; cbn [op_okb op_ok] in *; try exact I; try (now apply N.eqb_eq).
  - apply andb_prop in H as [H H3]. apply andb_prop in H as [H1 H2]. split; [|split].
    + apply Forall_forall. intros x Hx. rewrite forallb_forall in H1. specialize (H1 x Hx). now apply N.ltb_lt.
    + now apply N.eqb_eq.
    + destruct h as [|l|e]; cbn [answer_ok]; [exact I| |destruct e; discriminate].
      apply Forall_forall. intros [q|] Hq; [|exact I]. rewrite forallb_forall in H3. specialize (H3 _ Hq).
      now apply app_messageb_ok.
  - now apply app_messageb_ok.
Qed.

Lemma ops_okb_ok : forall ops, forallb op_okb ops = true -> Forall op_ok ops.
Proof.
  intros ops H. apply Forall_forall. intros x Hx. rewrite forallb_forall in H. apply op_okb_ok. auto.
Qed.

Ltac okops := apply ops_okb_ok; vm_compute; reflexivity.
