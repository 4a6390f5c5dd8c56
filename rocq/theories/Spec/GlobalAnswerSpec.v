(** Specification of global requests and their answers, end to end: what the
    client asks in its messages, what the handler is asked, and which answers
    the client hears. *)

From Coq Require Import NArith List Bool.
From Verif.Base Require Import Bytes.
From Verif.Model Require Import Packets Makers Requests Globals.
From Verif.Spec Require Import OutputSpec EndToEndSpec PipelineSpec AnswerSpec.
Import ListNotations.
Open Scope N_scope.

(** What the message [m] asks of the connection (RFC 4254 4): GLOBAL_REQUEST is
    byte 80, string request name, boolean want reply (every byte but 0 is
    "true", RFC 4251 5), and data which depend on the name. *)
Definition global_of (m : bytes) : list request :=
  match m with
  | 80 :: e :: f :: g :: h :: t =>
      let k := un_be32 e f g h in
      if k <=? len t then
        match drop k t with
        | w :: data => [{| q_name := take k t; q_want := negb (w =? 0); q_data := data |}]
        | [] => []
        end
      else []
  | _ => []
  end.
Definition globals (ms : list bytes) : list request := flat_map global_of ms.

(** Its answers: REQUEST_SUCCESS is byte 81, REQUEST_FAILURE is byte 82. *)
Definition verdict_of (m : bytes) : list bool := match m with [81] => [true] | [82] => [false] | _ => [] end.
Definition verdicts (ms : list bytes) : list bool := flat_map verdict_of ms.

(** kinds of messages *)
Definition asks_global (m : bytes) : bool := match m with b :: _ => b =? 80 | [] => false end.
Definition answers_global (m : bytes) : bool := match m with b :: _ => (b =? 81) || (b =? 82) | [] => false end.

(** the messages handed to the layer for global requests *)
Definition ghanded (ops : list gop) : list bytes :=
  flat_map (fun o => match o with GopRequest p _ => [80 :: p] | _ => [] end) ops.

(** The calls of HandleGlobalRequest() of the handler, oldest first, each with
    the identifier of this call. *)
Fixpoint gtold (l : list gev) : list (N * request) :=
  match l with
  | [] => []
  | GCalled id want name data :: older => gtold older ++ [(id, {| q_name := name; q_want := want; q_data := data |})]
  | _ :: older => gtold older
  end.

(** [b] is the message which was put into the packet for the answer [v] *)
Definition gemitted (v : bool) (b : bytes) : Prop :=
  exists header s, len header = 5 /\ MakeGlobalResponse header v = Some s /\ b = drop 5 s.

(** The replies to global requests, each in its packet, are what the transport
    was given, in this order, between messages of other kinds. *)
Definition ggives {S : Type} (sub : list (submitted S)) (replies : list bool) : Prop :=
  exists all, bears sub all /\ Forall2 gemitted replies (filter answers_global all).
