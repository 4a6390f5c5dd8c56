(** Specification of a channel's output in terms of the log of events
    (Model/ChannelIO.v [iev]), newest first. *)

From Coq Require Import NArith List Bool.
From Verif.Base Require Import Bytes.
From Verif.Model Require Import ChannelIO.
Import ListNotations.
Open Scope N_scope.

Definition src_eqb (a b : src) : bool :=
  match a, b with
  | Stdout, Stdout | Stderr, Stderr | Tty, Tty | Sock, Sock => true
  | _, _ => false
  end.

(** everything the program wrote to this source *)
Fixpoint produced (x : src) (l : list iev) : bytes :=
  match l with
  | [] => []
  | IProduced y d :: older => if src_eqb y x then produced x older ++ d else produced x older
  | _ :: older => produced x older
  end.

(** everything that was sent from this source *)
Fixpoint sent (x : src) (l : list iev) : bytes :=
  match l with
  | [] => []
  | ISent y d :: older => if src_eqb y x then sent x older ++ d else sent x older
  | _ :: older => sent x older
  end.

(** number of data bytes sent on the channel *)
Fixpoint sent_total (l : list iev) : N :=
  match l with
  | [] => 0
  | ISent _ d :: older => len d + sent_total older
  | _ :: older => sent_total older
  end.

(** what the peer allowed us to send; [w]: its initial window *)
Fixpoint credit (w : N) (l : list iev) : N :=
  match l with
  | [] => w
  | IAdjusted k :: older => k + credit w older
  | _ :: older => credit w older
  end.

(** between KEXINIT and NEWKEYS? *)
Fixpoint rekeying (l : list iev) : bool :=
  match l with
  | [] => false
  | IKexInit :: _ => true
  | INewKeys :: _ => false
  | _ :: older => rekeying older
  end.

(** has data from this source been discarded? *)
Definition lost (x : src) (l : list iev) : bool :=
  existsb (fun e => match e with ILost y _ _ => src_eqb y x | _ => false end) l.

(** [P e older] holds for every event of the log *)
Fixpoint throughout (P : iev -> list iev -> Prop) (l : list iev) : Prop :=
  match l with
  | [] => True
  | e :: older => P e older /\ throughout P older
  end.

(** ** Conditions on runs *)

(** operations which are not meant to discard output *)
Definition benign (o : sop) : Prop := match o with SReject _ | SPeerClose => False | _ => True end.

(** writing is blocked, or a new key exchange is in progress *)
Definition is_blocked (b : blocking) : bool := b_write b || b_rekey b.

(** operations which do not resume reading while writing is blocked *)
Definition calm_op (s : sess) (o : sop) : Prop :=
  is_blocked (ss_block s) = true ->
  match o with SSpawn | SReject _ => False | SAdjust _ => 0 < ss_swin s | _ => True end.

(** every operation of the run is calm *)
Fixpoint calm_from (s : sess) (ops : list sop) : Prop :=
  match ops with
  | [] => True
  | o :: rest => calm_op s o /\ calm_from (sstep s o) rest
  end.
Definition calm (w : N) (b : blocking) (ops : list sop) : Prop := calm_from (ss_init w b) ops.

(** the same for class SocketChannel *)
Definition kcalm_op (k : sock) (o : kop) : Prop :=
  is_blocked (sk_block k) = true -> match o with KAdjust _ => 0 < sk_swin k | _ => True end.

Fixpoint kcalm_from (dbg : bool) (k : sock) (ops : list kop) : Prop :=
  match ops with
  | [] => True
  | o :: rest => kcalm_op k o /\ kcalm_from dbg (kstep dbg k o) rest
  end.
Definition kcalm (dbg : bool) (w : N) (b : blocking) (ops : list kop) : Prop := kcalm_from dbg (sk_init w b) ops.
