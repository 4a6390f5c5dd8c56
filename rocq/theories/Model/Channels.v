(** Model of the SSH connection layer: src/ssh/CSupport.cxx (the channel
    table) and src/ssh/Channel.cxx (windows, requests, sending).

    What the applications do - the classes derived from Channel, the
    ChannelHandler and the ChannelFactory objects - is not fixed here.  Their
    answers to callbacks are in the operation that delivers a packet, and
    everything they do on their own is an operation of its own.  An
    application that acts while it is called back acts, in this model,
    directly after the packet; HandlePacket() does nothing after the callback
    which could tell the difference.

    Every observable effect is appended to [cs_log], newest first.

    Not modelled: OnWriteBlocked()/OnWriteUnblocked() (forwarded to all
    channels, see Model/ChannelIO.v), PacketTooLarge while serializing, and
    the encoding of the packets sent, which are structured values of type
    [cmsg] here; Model/Packets.v has the builders. *)

From Coq Require Import NArith List Bool String.
From Verif.Base Require Import Bytes.
From Verif.Model Require Import Wire Frame Packets Requests.
Import ListNotations.
Open Scope N_scope.

(** ** Messages sent *)

(** The packets sent by CSupport.cxx and Channel.cxx: CSupport.cxx:124-130,
    258-263, 302, 334 (MakeChannelOpenFailure), Channel.cxx:103
    (MakeChannelWindowAdjust), 113-116, 127-131, 146-148, CSupport.cxx:189
    (MakeChannelClose), Channel.cxx:155-169 (MakeChannelReqest), 206-213.
    The first number of all but [COpen] is the peer's channel number. *)
Inductive cmsg :=
| COpen (type : bytes) (local window max_packet : N) (data : bytes)
| CConf (peer local window max_packet : N)
| COpenFail (peer code : N) (description : bytes)
| CAdjust (peer nbytes : N)
| CData (peer : N) (data : bytes)
| CExt (peer type : N) (data : bytes)
| CEof (peer : N)
| CClose (peer : N)
| CRequest (peer : N) (name data : bytes)
| CReply (peer : N) (success : bool).

(** ** Observable events *)

(** why the connection ended *)
Inductive cdeath :=
| DDisconnect (reason : N) (msg : bytes)   (* throw Disconnect{...} *)
| DError                                   (* another exception, CloseError() *)
| DAssert                                  (* an assertion failed *)
| DClosed.                                 (* ended by somebody else *)

(** calls of the virtual methods of a channel object *)
Inductive ccall :=
| CbData (data : bytes)
| CbExt (type : N) (data : bytes)
| CbEof
| CbAdjust (nbytes : N)
| CbRequest (id : N) (want_reply : bool) (name data : bytes)
| CbSuccess
| CbFailure.

(** calls of the virtual methods of a ChannelFactory *)
Inductive fcall := FCreate | FFailure (code : N) | FCancel.

(** [n] is our channel number, [u] a unique number of the channel object
    (zero: none). *)
Inductive cev :=
| Sent (n u : N) (m : cmsg)
| Received (msg : N) (payload : bytes)
| Opening (n peer window : N) (type data : bytes)  (* ChannelHandler::CreateChannel() *)
| Created (n u peer send_window receive_window : N) (* a channel object exists *)
| Called (n u : N) (c : ccall)
| Consumed (u k : N)                               (* ConsumeReceiveWindow() *)
| Dropped (n u : N) (data : bytes)                 (* data for a closed channel *)
| Finished (u id : N) (success : bool)             (* a request handler finished *)
| Asked (f : N)                                    (* OpenChannel() with factory f *)
| Factory (f : N) (c : fcall)
| Revoked (f : N)                                  (* the factory's owner canceled *)
| Destroyed (n u : N)
| Died (r : cdeath).

(** ** State *)

(** src/ssh/Channel.hxx:34-60 class Channel.  *)
Record chan := {
  c_uid : N;
  c_peer : N;
  c_rwin : N;
  c_swin : N;
  c_pending : list preq
}.

(** What a non-null element of ChannelSupport::channels points to:
    src/ssh/CSupport.cxx:47-104 class RequestedChannel ([window] is the value
    passed to OpenChannel(); the contract in Channel.hxx:63-67 demands that
    the factory creates the channel with it, and both factories use
    SocketChannel::RECEIVE_WINDOW), 159-169 class OpeningChannel, 143-146
    class TombstoneChannel, or a real channel. *)
Inductive slot :=
| SRequested (factory window : N) (canceled : bool)
| SOpening (peer send_window : N)
| STomb (c : chan)
| SChan (c : chan).

(** src/ssh/CSupport.hxx:55-62 class ChannelSupport.  The array [channels] is
    a function from indexes; CHANNELS is its size.  [cs_next] numbers channel
    objects and requests. *)
Record cstate := {
  cs_slots : N -> option slot;
  cs_next : N;
  cs_log : list cev;
  cs_dead : bool
}.

Definition CHANNELS : N := 64.
(** src/ssh/CSupport.hxx:57 *)
Definition MAXIMUM_PACKET_SIZE : N := 32768.

Definition cs_init : cstate :=
  {| cs_slots := fun _ => None; cs_next := 1; cs_log := []; cs_dead := false |}.

Definition upd (f : N -> option slot) (n : N) (v : option slot) : N -> option slot :=
  fun k => if k =? n then v else f k.

Definition log (e : cev) (s : cstate) : cstate :=
  {| cs_slots := cs_slots s; cs_next := cs_next s; cs_log := e :: cs_log s; cs_dead := cs_dead s |}.
Definition set_slot (n : N) (v : option slot) (s : cstate) : cstate :=
  {| cs_slots := upd (cs_slots s) n v; cs_next := cs_next s; cs_log := cs_log s; cs_dead := cs_dead s |}.
Definition fresh (s : cstate) : cstate :=
  {| cs_slots := cs_slots s; cs_next := cs_next s + 1; cs_log := cs_log s; cs_dead := cs_dead s |}.

(** [delete] of the object a slot points to.  CSupport.cxx:65-68
    ~RequestedChannel() calls the factory unless canceled; ~Channel()
    cancels all pending requests (Channel.cxx:80-83), silently. *)
Definition delete_slot (n : N) (o : option slot) (s : cstate) : cstate :=
  match o with
  | Some (SRequested f _ false) => log (Factory f FCancel) s
  | Some (SChan c) => log (Destroyed n (c_uid c)) s
  | _ => s
  end.

(** the indexes of the array, in order *)
Definition indexes : list N := map N.of_nat (seq 0 (N.to_nat CHANNELS)).

(** src/ssh/CSupport.cxx:563-573 OnDisconnecting(), 31-35 ~ChannelSupport() *)
Definition delete_all (s : cstate) : cstate :=
  fold_left (fun s n => set_slot n None (delete_slot n (cs_slots s n) s)) indexes s.

(** the connection ends: an exception left HandlePacket() (and was caught in
    src/ssh/Connection.cxx:949-956), or somebody disconnected or destroyed
    it *)
Definition die (r : cdeath) (s : cstate) : cstate :=
  let s := delete_all (log (Died r) s) in
  {| cs_slots := cs_slots s; cs_next := cs_next s; cs_log := cs_log s; cs_dead := true |}.

(** src/ssh/CSupport.cxx:203-214 AllocateChannelIndex(); [None]: throws *)
Fixpoint first_free (f : N -> option slot) (l : list N) : option N :=
  match l with
  | [] => None
  | n :: t => match f n with None => Some n | Some _ => first_free f t end
  end.
Definition AllocateChannelIndex (s : cstate) : option N := first_free (cs_slots s) indexes.

Definition BAD_CHANNEL : cdeath := DDisconnect 2 (bs "Bad channel").
(** MalformedPacket, caught in src/ssh/Connection.cxx:794-800 *)
Definition MALFORMED : cdeath := DDisconnect 2 (bs "Malformed packet").

(** src/ssh/CSupport.cxx:216-230 GetChannel(); the boolean tells whether it is
    a tombstone; [None]: throws Disconnect *)
Definition GetChannel (s : cstate) (n : N) : option (bool * chan) :=
  if CHANNELS <=? n then None
  else match cs_slots s n with
       | Some (SChan c) => Some (false, c)
       | Some (STomb c) => Some (true, c)
       | _ => None
       end.

Definition put (n : N) (tomb : bool) (c : chan) (s : cstate) : cstate :=
  set_slot n (Some (if tomb then STomb c else SChan c)) s.

Definition set_pending (c : chan) (p : list preq) : chan :=
  {| c_uid := c_uid c; c_peer := c_peer c; c_rwin := c_rwin c; c_swin := c_swin c; c_pending := p |}.
Definition set_rwin (c : chan) (w : N) : chan :=
  {| c_uid := c_uid c; c_peer := c_peer c; c_rwin := w; c_swin := c_swin c; c_pending := c_pending c |}.
Definition set_swin (c : chan) (w : N) : chan :=
  {| c_uid := c_uid c; c_peer := c_peer c; c_rwin := c_rwin c; c_swin := w; c_pending := c_pending c |}.

(** ** Operations *)

(** what ChannelHandler::CreateChannel() does: returns a channel (with this
    receive window), throws ChannelOpenFailure, throws something else, or
    returns nullptr (the channel is going to be opened asynchronously) *)
Inductive create_result :=
| CrNow (receive_window : N)
| CrFail (code : N) (description : bytes)
| CrThrow
| CrAsync.

(** the application's part in the processing of one packet: the result of
    ChannelHandler::CreateChannel() (CHANNEL_OPEN), whether another callback
    throws, and what OnRequest() does (CHANNEL_REQUEST) *)
Record reaction := {
  rx_create : create_result;
  rx_throws : bool;
  rx_request : routcome
}.

Inductive cop :=
| OpPacket (msg : N) (payload : bytes) (r : reaction)
| OpOpen (type : bytes) (window : N) (data : bytes) (factory : N)
| OpCancel (n : N)
| OpAsyncSuccess (n receive_window : N)
| OpAsyncFailure (n code : N) (description : bytes)
| OpClose (n : N)
| OpConsume (n k : N)
| OpAdjust (n k : N)
| OpData (n : N) (data : bytes)
| OpExt (n type : N) (data : bytes)
| OpEof (n : N)
| OpRequest (n : N) (name data : bytes)
| OpRequestDone (n id : N) (r : rresult)
| OpEnd.

(** src/ssh/CSupport.cxx:247-263 MakeChannelOpenConfirmation() and the
    creation of the object.  WriteU32() truncates the window.
    SerializeOpenConfirmation() is never overridden. *)
Definition confirm (n peer swin rwin : N) (s : cstate) : cstate :=
  let u := cs_next s in
  let s := log (Created n u peer swin rwin) (fresh s) in
  let s := log (Sent n u (CConf peer n (rwin mod pow32) MAXIMUM_PACKET_SIZE)) s in
  set_slot n (Some (SChan {| c_uid := u; c_peer := peer; c_rwin := rwin; c_swin := swin;
                             c_pending := [] |})) s.

(** src/ssh/CSupport.cxx:305-366 HandleChannelOpen() *)
Definition HandleChannelOpen (p : bytes) (r : reaction) (s : cstate) : cstate :=
  match ParseChannelOpen p with
  | None => die MALFORMED s
  | Some p =>
      match AllocateChannelIndex s with
      | None => die DError s
      | Some n =>
          let peer := co_peer_channel p in
          let swin := co_initial_window_size p in
          let s := set_slot n (Some (SOpening peer swin)) s in
          let s := log (Opening n peer swin (co_channel_type p) (co_data p)) s in
          match rx_create r with
          | CrFail code description =>
              log (Sent n 0 (COpenFail peer code description)) (set_slot n None s)
          | CrThrow => die DError s
          | CrAsync => s
          | CrNow rwin => confirm n peer swin rwin s
          end
      end
  end.

(** src/ssh/CSupport.cxx:232-242 PopRequestedChannel(); [None]: throws *)
Definition PopRequestedChannel (s : cstate) (n : N) : option (N * N * bool) :=
  if CHANNELS <=? n then None
  else match cs_slots s n with
       | Some (SRequested f w c) => Some (f, w, c)
       | _ => None
       end.

(** src/ssh/CSupport.cxx:368-394 HandleChannelOpenConfirmation(), 70-86
    RequestedChannel::OnChannelOpenConfirmation() *)
Definition HandleChannelOpenConfirmation (p : bytes) (r : reaction) (s : cstate) : cstate :=
  match ParseChannelOpenConfirmation p with
  | None => die MALFORMED s
  | Some p =>
      let n := cc_local_channel p in
      let peer := cc_peer_channel p in
      let w := cc_initial_window_size p in
      match PopRequestedChannel s n with
      | None => die BAD_CHANNEL s
      | Some (f, window, canceled) =>
          let s := set_slot n None s in
          let u := cs_next s in
          if canceled then
            let s := log (Sent n u (CClose peer)) (fresh s) in
            set_slot n (Some (STomb {| c_uid := u; c_peer := peer; c_rwin := w; c_swin := w;
                                       c_pending := [] |})) s
          else
            let s := log (Factory f FCreate) s in
            if rx_throws r then die DError s
            else
              let s := log (Created n u peer w window) (fresh s) in
              set_slot n (Some (SChan {| c_uid := u; c_peer := peer; c_rwin := window;
                                         c_swin := w; c_pending := [] |})) s
      end
  end.

(** src/ssh/CSupport.cxx:396-403 HandleChannelOpenFailure(), 88-98
    RequestedChannel::OnChannelOpenFailure(): "delete this" runs the
    destructor (65-68) while [canceled] is still false. *)
Definition HandleChannelOpenFailure (p : bytes) (s : cstate) : cstate :=
  match ParseChannelOpenFailure p with
  | None => die MALFORMED s
  | Some p =>
      let n := cf_local_channel p in
      match PopRequestedChannel s n with
      | None => die BAD_CHANNEL s
      | Some (f, window, canceled) =>
          let s := set_slot n None s in
          if canceled then s
          else
            let s := delete_slot n (Some (SRequested f window canceled)) s in
            log (Factory f (FFailure (cf_reason_code p))) s
      end
  end.

(** src/ssh/CSupport.cxx:405-414 HandleChannelWindowAdjust(), Channel.cxx:241-245
    OnWindowAdjust(); [send_window] is a size_t *)
Definition HandleChannelWindowAdjust (p : bytes) (r : reaction) (s : cstate) : cstate :=
  match ParseChannelWindowAdjust p with
  | None => die MALFORMED s
  | Some p =>
      if wa_nbytes p =? 0 then die DError s
      else
        let n := wa_local_channel p in
        match GetChannel s n with
        | None => die BAD_CHANNEL s
        | Some (tomb, c) =>
            let s := if tomb then s else log (Called n (c_uid c) (CbAdjust (wa_nbytes p))) s in
            let s := put n tomb (set_swin c ((c_swin c + wa_nbytes p) mod pow64)) s in
            if negb tomb && rx_throws r then die DError s else s
        end
  end.

(** the part common to HandleChannelData() and HandleChannelExtendedData():
    the window check and the callback.  The base class methods, which a
    tombstone inherits (Channel.cxx:247-258), consume the window. *)
Definition deliver (n : N) (data : bytes) (call : ccall) (r : reaction) (s : cstate) : cstate :=
  match GetChannel s n with
  | None => die BAD_CHANNEL s
  | Some (tomb, c) =>
      if c_rwin c <? len data then die DError s
      else if tomb then
        log (Dropped n (c_uid c) data) (put n true (set_rwin c (c_rwin c - len data)) s)
      else
        let s := log (Called n (c_uid c) call) s in
        if rx_throws r then die DError s else s
  end.

(** src/ssh/CSupport.cxx:417-427 HandleChannelData() *)
Definition HandleChannelData (p : bytes) (r : reaction) (s : cstate) : cstate :=
  match ParseChannelData p with
  | None => die MALFORMED s
  | Some p => deliver (cd_local_channel p) (cd_data p) (CbData (cd_data p)) r s
  end.

(** src/ssh/CSupport.cxx:429-439 HandleChannelExtendedData() *)
Definition HandleChannelExtendedData (p : bytes) (r : reaction) (s : cstate) : cstate :=
  match ParseChannelExtendedData p with
  | None => die MALFORMED s
  | Some p => deliver (ce_local_channel p) (ce_data p) (CbExt (ce_data_type p) (ce_data p)) r s
  end.

(** a callback without other effects on the state *)
Definition notify (n : N) (call : ccall) (r : reaction) (s : cstate) : cstate :=
  match GetChannel s n with
  | None => die BAD_CHANNEL s
  | Some (true, _) => s
  | Some (false, c) =>
      let s := log (Called n (c_uid c) call) s in
      if rx_throws r then die DError s else s
  end.

(** src/ssh/CSupport.cxx:441-448 HandleChannelEof() *)
Definition HandleChannelEof (p : bytes) (r : reaction) (s : cstate) : cstate :=
  match ParseChannelEof p with
  | None => die MALFORMED s
  | Some n => notify n CbEof r s
  end.

(** src/ssh/CSupport.cxx:450-461 HandleChannelClose() *)
Definition HandleChannelClose (p : bytes) (s : cstate) : cstate :=
  match ParseChannelClose p with
  | None => die MALFORMED s
  | Some n =>
      match GetChannel s n with
      | None => die BAD_CHANNEL s
      | Some (tomb, c) =>
          let s := if tomb then s else log (Sent n (c_uid c) (CClose (c_peer c))) s in
          set_slot n None (delete_slot n (cs_slots s n) s)
      end
  end.

(** sending the replies of Requests.submit *)
Fixpoint send_replies (n : N) (c : chan) (rs : list bool) (s : cstate) : cstate :=
  match rs with
  | [] => s
  | b :: t => send_replies n c t (log (Sent n (c_uid c) (CReply (c_peer c) b)) s)
  end.

Definition submit_replies (n : N) (tomb : bool) (c : chan) (x : submitted) (s : cstate) : cstate :=
  let '(rs, l, failed) := x in
  let s := put n tomb (set_pending c l) (send_replies n c rs s) in
  if failed then die DAssert s else s.

(** src/ssh/CSupport.cxx:463-470 HandleChannelRequest(), Channel.cxx:176-189
    HandleRequest().  A tombstone's OnRequest() is that of the base class
    (Channel.cxx:260-265), "co_return false". *)
Definition HandleChannelRequest (E : renv) (p : bytes) (r : reaction) (s : cstate) : cstate :=
  match ParseChannelRequest p with
  | None => die MALFORMED s
  | Some p =>
      let n := cr_local_channel p in
      match GetChannel s n with
      | None => die BAD_CHANNEL s
      | Some (tomb, c) =>
          let id := cs_next s in
          let s := fresh s in
          let o := if tomb then RSync false else rx_request r in
          let s := if tomb then s
                   else log (Called n (c_uid c)
                               (CbRequest id (cr_want_reply p) (cr_request_type p) (cr_data p))) s in
          let s := match o, tomb with
                   | RSync b, false => log (Finished (c_uid c) id b) s
                   | _, _ => s
                   end in
          match start_request E id (cr_want_reply p) o (c_pending c) with
          | None => die DError s
          | Some x => submit_replies n tomb c x s
          end
      end
  end.

(** src/ssh/CSupport.cxx:472-488 HandleChannelSuccess(), HandleChannelFailure() *)
Definition HandleChannelSuccess (p : bytes) (r : reaction) (s : cstate) : cstate :=
  match ParseChannelResponse p with
  | None => die MALFORMED s
  | Some n => notify n CbSuccess r s
  end.
Definition HandleChannelFailure (p : bytes) (r : reaction) (s : cstate) : cstate :=
  match ParseChannelResponse p with
  | None => die MALFORMED s
  | Some n => notify n CbFailure r s
  end.

(** src/ssh/CSupport.cxx:490-545 HandlePacket() on an encrypted and
    authenticated connection, the switch; [None]: returns false (not ours) *)
Definition HandlePacket (E : renv) (msg : N) (p : bytes) (r : reaction) (s : cstate) : option cstate :=
  let s' := log (Received msg p) s in
  match msg with
  | 90 => Some (HandleChannelOpen p r s')
  | 91 => Some (HandleChannelOpenConfirmation p r s')
  | 92 => Some (HandleChannelOpenFailure p s')
  | 93 => Some (HandleChannelWindowAdjust p r s')
  | 94 => Some (HandleChannelData p r s')
  | 95 => Some (HandleChannelExtendedData p r s')
  | 96 => Some (HandleChannelEof p r s')
  | 97 => Some (HandleChannelClose p s')
  | 98 => Some (HandleChannelRequest E p r s')
  | 99 => Some (HandleChannelSuccess p r s')
  | 100 => Some (HandleChannelFailure p r s')
  | _ => None
  end.

(** src/ssh/CSupport.cxx:494-495: with the test of the connection's state *)
Definition HandlePacketIf (E : renv) (encrypted authenticated : bool) (msg : N) (p : bytes)
    (r : reaction) (s : cstate) : option cstate :=
  if negb encrypted || negb authenticated then None else HandlePacket E msg p r s.

(** src/ssh/CSupport.cxx:115-137 OpenChannel().  If no number is free it
    throws to the caller, who destroys the factory
    (SocketForwardListener.cxx:140-149). *)
Definition OpenChannel (type : bytes) (window : N) (data : bytes) (f : N) (s : cstate) : cstate :=
  match AllocateChannelIndex s with
  | None => s
  | Some n =>
      let s := log (Asked f) s in
      let s := log (Sent n 0 (COpen type n (window mod pow32) MAXIMUM_PACKET_SIZE data)) s in
      set_slot n (Some (SRequested f window false)) s
  end.

(** src/ssh/CSupport.cxx:178-201 CloseChannel() of a real channel *)
Definition CloseChannel (n : N) (c : chan) (s : cstate) : cstate :=
  let s := log (Sent n (c_uid c) (CClose (c_peer c))) s in
  let s := set_slot n (Some (STomb (set_pending c []))) s in
  log (Destroyed n (c_uid c)) s.

(** an operation of the channel object in slot [n], if there is one *)
Definition on_chan (n : N) (s : cstate) (f : chan -> cstate) : cstate :=
  match cs_slots s n with
  | Some (SChan c) => f c
  | _ => s
  end.

(** One operation.  Operations on objects that do not exist (anymore) cannot
    happen: they are ignored. *)
Definition cstep (E : renv) (s : cstate) (o : cop) : cstate :=
  if cs_dead s then s else
  match o with
  | OpPacket msg p r => match HandlePacket E msg p r s with Some s' => s' | None => s end
  | OpOpen type window data f => OpenChannel type window data f s
  | OpCancel n =>
      (* src/ssh/CSupport.cxx:100-104 RequestedChannel::Cancel() *)
      match cs_slots s n with
      | Some (SRequested f w false) => log (Revoked f) (set_slot n (Some (SRequested f w true)) s)
      | _ => s
      end
  | OpAsyncSuccess n rwin =>
      (* src/ssh/CSupport.cxx:265-286 AsyncChannelOpenSuccess() *)
      match cs_slots s n with
      | Some (SOpening peer swin) => confirm n peer swin rwin (set_slot n None s)
      | _ => s
      end
  | OpAsyncFailure n code description =>
      (* src/ssh/CSupport.cxx:288-303 AsyncChannelOpenFailure() *)
      match cs_slots s n with
      | Some (SOpening peer _) =>
          log (Sent n 0 (COpenFail peer code description)) (set_slot n None s)
      | _ => s
      end
  | OpClose n => on_chan n s (fun c => CloseChannel n c s)
  | OpConsume n k =>
      (* src/ssh/Channel.cxx:91-97 ConsumeReceiveWindow() *)
      on_chan n s (fun c =>
        if c_rwin c <? k then die DAssert s
        else log (Consumed (c_uid c) k) (put n false (set_rwin c (c_rwin c - k)) s))
  | OpAdjust n k =>
      (* src/ssh/Channel.cxx:99-108 SendWindowAdjust() *)
      on_chan n s (fun c =>
        if (k =? 0) || (pow64 - 1 - c_rwin c <? k) then die DAssert s
        else put n false (set_rwin c (c_rwin c + k)) (log (Sent n (c_uid c) (CAdjust (c_peer c) k)) s))
  | OpData n data =>
      (* src/ssh/Channel.cxx:110-121 SendData() *)
      on_chan n s (fun c =>
        if c_swin c <? len data then die DAssert s
        else put n false (set_swin c (c_swin c - len data))
               (log (Sent n (c_uid c) (CData (c_peer c) data)) s))
  | OpExt n type data =>
      (* src/ssh/Channel.cxx:123-136 SendExtendedData() *)
      on_chan n s (fun c =>
        if c_swin c <? len data then die DAssert s
        else put n false (set_swin c (c_swin c - len data))
               (log (Sent n (c_uid c) (CExt (c_peer c) type data)) s))
  | OpEof n =>
      (* src/ssh/Channel.cxx:144-150 SendEof() *)
      on_chan n s (fun c => log (Sent n (c_uid c) (CEof (c_peer c))) s)
  | OpRequest n name data =>
      (* src/ssh/Channel.cxx:152-169 SendExitStatus(), SendExitSignal() *)
      on_chan n s (fun c => log (Sent n (c_uid c) (CRequest (c_peer c) name data)) s)
  | OpRequestDone n id r =>
      (* a suspended request coroutine finishes: src/ssh/Channel.cxx:63-68, 217-239 *)
      on_chan n s (fun c =>
        match find_request id (c_pending c) with
        | Some {| pq_done := None |} =>
            match r with
            | RError => die DError s
            | RDone b =>
                submit_replies n false c (finish_request (r_dbg E) id b (c_pending c))
                  (log (Finished (c_uid c) id b) s)
            end
        | _ => s
        end)
  | OpEnd => die DClosed s
  end.

Definition cruns (E : renv) (ops : list cop) : cstate := fold_left (cstep E) ops cs_init.
