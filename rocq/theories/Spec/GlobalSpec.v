(** Specification of global requests (RFC 4254 section 4), in terms of the
    log of events (Model/Globals.v [gev]), newest first. *)

From Coq Require Import NArith List Bool.
From Verif.Base Require Import Bytes.
From Verif.Model Require Import Packets Requests Channels Globals.
Import ListNotations.
Open Scope N_scope.

(** requests handed to the handler, oldest first: number and whether a reply
    is wanted *)
Fixpoint gasked (l : list gev) : list (N * bool) :=
  match l with
  | [] => []
  | GCalled id want _ _ :: older => gasked older ++ [(id, want)]
  | _ :: older => gasked older
  end.

(** the result of a request's handler *)
Fixpoint gresult (id : N) (l : list gev) : option bool :=
  match l with
  | [] => None
  | GFinished i b :: older => if i =? id then Some b else gresult id older
  | _ :: older => gresult id older
  end.

(** replies sent, oldest first *)
Fixpoint greplies (l : list gev) : list bool :=
  match l with
  | [] => []
  | GReply b :: older => greplies older ++ [b]
  | _ :: older => greplies older
  end.

(** requests whose handler has been called and has not finished *)
Definition gunfinished (l : list gev) : list (N * bool) :=
  filter (fun r => match gresult (fst r) l with None => true | Some _ => false end) (gasked l).

(** handlers of requests without "want reply" do not finish synchronously and
    none throws synchronously, unless the coroutine library reports such
    coroutines as unfinished (see Model/Requests.v) *)
Definition gconsiderate (E : renv) (o : gop) : Prop :=
  match o with
  | GopRequest p out =>
      forall q, ParseGlobalRequest p = Some q ->
      r_sync_done E = false \/ out = RAsync \/ (gr_want_reply q = true /\ exists b, out = RSync b)
  | _ => True
  end.
