(** Model of the client of the translation server:
    src/translation/LoginClient.cxx.

    Contracts (libcommon is not part of the checkout): TranslationHeader is
    two 16 bit integers (length, command) in the byte order of the machine,
    here little endian; TranslateParser::Feed() takes the header when all four
    bytes of it are there, and otherwise nothing, and then the part of the
    payload which is there; TranslateParser::Process() does nothing while the
    packet is incomplete; END ends the response.  The numbers of the commands
    and what a packet means for the response are parameters. *)

From Coq Require Import NArith List Bool String.
From Verif.Base Require Import Bytes.
Import ListNotations.
Open Scope N_scope.

(** The commands which are used here (enum TranslationCommand) *)
Inductive tcommand := TBEGIN | TLOGIN | TSERVICE | TLISTENER_TAG | TUSER | TPASSWORD | TPEEK | TEND.

(** a 16 bit integer in memory *)
Definition le16 (n : N) : bytes := [n mod 256; (n / 256) mod 256].
Definition un_le16 (a b : N) : N := a + 256 * b.

Section Client.

(** enum TranslationCommand *)
Variable code : tcommand -> N.

(** src/translation/LoginClient.cxx:37-45 WriteHeader(); the size is cast to
    uint16_t *)
Definition WriteHeader (command : tcommand) (size : N) : bytes :=
  le16 (size mod 65536) ++ le16 (code command).

(** src/translation/LoginClient.cxx:47-66 WritePacket() *)
Definition WritePacket (command : tcommand) (payload : bytes) : bytes :=
  WriteHeader command (len payload) ++ payload.

(** The outcome of SendTranslateLogin(): the bytes passed to send(), an
    exception before anything was written, or writing behind the end of the
    buffer *)
Inductive sent := Sent (b : bytes) | TooLong | BufferOverflow.

(** src/translation/LoginClient.cxx:79-115 SendTranslateLogin(); a
    std::string_view whose data() is nullptr is [None].  The writes go upwards
    through [buffer], therefore one of them is behind its end exactly if the
    total is larger than the buffer.  Simplified: errors of send() *)
Definition SendTranslateLogin (service : bytes) (listener_tag : option bytes) (user : bytes) (password : option bytes) (peek : bool) : sent :=
  if 256 <? len user then TooLong
  else if match password with Some p => 256 <? len p | None => false end then TooLong
  else
    let b := WritePacket TBEGIN [] ++ WritePacket TLOGIN [] ++ WritePacket TSERVICE service
      ++ match listener_tag with Some t => WritePacket TLISTENER_TAG t | None => [] end
      ++ WritePacket TUSER user
      ++ match password with Some p => WritePacket TPASSWORD p | None => [] end
      ++ (if peek then WritePacket TPEEK [] else [])
      ++ WritePacket TEND [] in
    if 1024 <? len b then BufferOverflow else Sent b.

(** ** Receiving *)

(** libcommon TranslatePacketReader: the state of the current packet *)
Inductive reader := RHeader | RPayload (command size : N) (payload : bytes) | RComplete (command : N) (payload : bytes).

(** contract of TranslateParser::Feed(): the bytes which were not taken and the
    new state *)
Definition Feed (src : bytes) (r : reader) : bytes * reader :=
  let payload_part command size have src :=
    let n := N.min (len src) (size - len have) in
    let have := have ++ take n src in
    (drop n src, if len have =? size then RComplete command have else RPayload command size have) in
  match r with
  | RPayload command size have => payload_part command size have src
  | _ =>
      match src with
      | a :: b :: c :: d :: src' =>
          let size := un_le16 a b in
          if size =? 0 then (src', RComplete (un_le16 c d) [])
          else match src' with
               | [] => ([], RPayload (un_le16 c d) size [])
               | _ => payload_part (un_le16 c d) size [] src'
               end
      | _ => (src, RHeader)
      end
  end.

(** The response being built, as a value of an arbitrary type: what a packet
    does to it (TranslateParser::HandlePacket()); [None]: an exception *)
Variable response : Type.
Variable handle : N -> bytes -> response -> option response.

(** what TranslateParser::Process() returns *)
Inductive processed := PMore (r : response) | PDone (r : response) | PError.
Definition Process (rd : reader) (r : response) : processed :=
  match rd with
  | RComplete command payload =>
      if command =? code TEND then PDone r
      else match handle command payload r with Some r' => PMore r' | None => PError end
  | _ => PMore r
  end.

(** ReceiveResponse() is waiting, has returned, or has thrown *)
Inductive receiving :=
| Waiting (rd : reader) (buffer : bytes) (r : response)
| Returned (r : response)
| Failed.

(** src/translation/LoginClient.cxx:181-203: the inner loop.  Each round takes
    at least one byte from the buffer; [fuel] is the size of the buffer. *)
Fixpoint consume_loop (fuel : nat) (rd : reader) (buffer : bytes) (r : response) : receiving :=
  match buffer, fuel with
  | [], _ => Waiting rd [] r
  | _, O => Waiting rd buffer r
  | _, S fuel =>
      let '(rest, rd') := Feed buffer rd in
      if len rest =? len buffer then Waiting rd' buffer r
      else match Process rd' r with
           | PError => Failed
           | PMore r' => consume_loop fuel rd' rest r'
           | PDone r' => match rest with [] => Returned r' | _ => Failed end
           end
  end.

(** What recv() does: it delivers [n] bytes of what the server has sent (or as
    many as fit into the buffer, or as many as there are), has nothing, fails,
    or says that the server has hung up. *)
Inductive recv_result := RData (n : N) | RAgain | RError | REof.

(** src/translation/LoginClient.cxx:152-206 ReceiveResponse(): one round of the
    outer loop, with a buffer of 8192 bytes; [stream] is what recv() has not
    delivered yet *)
Definition recv_step (e : recv_result) (x : receiving * bytes) : receiving * bytes :=
  let '(s, stream) := x in
  match s with
  | Waiting rd buffer r =>
      if 8192 <=? len buffer then (Failed, stream)
      else match e with
           | RAgain => (s, stream)
           | RError | REof => (Failed, stream)
           | RData n =>
               let n := N.min n (N.min (8192 - len buffer) (len stream)) in
               let buffer := buffer ++ take n stream in
               (consume_loop (List.length buffer) rd buffer r, drop n stream)
           end
  | _ => (s, stream)
  end.

Fixpoint recv_run (es : list recv_result) (x : receiving * bytes) : receiving * bytes :=
  match es with
  | [] => x
  | e :: es => recv_run es (recv_step e x)
  end.

(** src/translation/LoginClient.cxx:146-151: the start *)
Definition recv_start (empty : response) (stream : bytes) : receiving * bytes := (Waiting RHeader [] empty, stream).

End Client.

Arguments Waiting {response}.
Arguments Returned {response}.
Arguments Failed {response}.
