# Formal model of CM4all/lukko in Rocq (Coq 8.16.1)

This document says what is modelled, how each property in
`properties.jsonl` is stated and proved, what the trusted base is, and
what was found.

## Layout

```
rocq/theories/Base/    byte strings, big-endian numbers, list facts
rocq/theories/Model/   the model, function by function; no proofs
rocq/theories/Spec/    small specifications that do not mention the model
rocq/theories/Proofs/  lemmas
rocq/theories/Props/   one file per property: theorem(s), witnesses
                       (Example), Print Assumptions
```

Every definition in `Model/` cites the file and lines in /repo it models
and states its simplifications.  Theorems in `Props/` are closed by
`exact <lemma>` or a short proof; each is followed by an `Example` showing
that its hypotheses are met by a concrete non-trivial case.

## Modelling conventions

* A byte is an `N`; a byte string is `list N`.  Where the byte range
  matters the hypothesis `bytes_ok` (every element < 256) is explicit.
* C++ exceptions are result constructors; `assert` failures and undefined
  behaviour are separate result constructors (never silently impossible).
* Machine arithmetic is written with explicit `mod 2^32` / `mod 2^64`
  where the code can wrap.
* Objects outside the repository (the `libcommon` submodule is empty in
  this checkout, OpenSSL, libsodium, kernel, translation server) are
  explicit parameters (functions, oracle inputs) of definitions and
  theorems.  No axioms.
* Threads: `ThreadQueue` runs one job at a time per object (contract of
  libcommon); each critical section and each unlocked stretch of
  `Run()` that only touches worker-private data is one atomic step; all
  interleavings of these steps with main-thread calls are considered.
* Asynchronous C++ coroutines are split at their suspension points; the
  completion is a separate event that may happen at any later time.

## Plan per property

| Id | Model | How it is proved |
|----|-------|------------------|
| C01 | Serializer (buffer, capacity), Deserializer | induction over the schema; inverse law; capacity iff |
| C02 | every `Parse*` | each parser: result re-encodes to the input (soundness) and every encoding parses (completeness) |
| C03 | `Padding`, `PacketSerializer` | arithmetic modulo block size; unframe after frame |
| C04 | `Input` without cipher | refinement: any trace of Feed/Read steps delivers the sequential decoding of the concatenated stream |
| C05 | `Input` with worker | small-step system; invariant "delivered ++ queued = sequential decoding of the consumed stream"; induction over the schedule |
| C06 | same | bounds on the sequential decoder plus stickiness of the error state |
| C07 | `Output` with worker | small-step system; invariant relating wire + queues to the specification stream |
| C08 | `SendQueue` | induction over operations; abstraction = concatenation of bytes |
| C09 | `WriteBignum2`, `CommitBignum2`, `DeserializeBN` | equality of the two functions; canonical form and value |
| C10 | `Output` + `Connection` disconnect logic | refutation by a concrete schedule; partial theorem for the remaining schedules |
| C11 | `KexStrings.hxx`, `KexFactory` | list reasoning against a first-common-element specification |
| C12 | `cipher/Factory.cxx` | case analysis over all lists |
| C13 | `KexState` inside the KEX machine | invariant over all histories |
| C14 | `DeriveKey(s)` | for an arbitrary hash function; RFC 4253 7.2 written separately |
| C15 | `CalcKexHash` input | injectivity of the encoding |
| C16 | client KEX handler | invariant over all packet sequences |
| C17 | KEX handlers of `SSH::Connection` | invariant over all packet and timer sequences, both roles; assertion failures are a distinct outcome shown unreachable |
| C18 | `HandlePacket` strict KEX logic | partial theorem and refutation (one-packet hole) |
| C19 | rekey gate and channels | refutation; partial theorem for program output |
| C20 | `ChannelSupport` | invariant over all event histories |
| C21 | channel windows | ghost counters; invariant |
| C22 | channel windows, `SessionChannel` readers | ghost counters; invariant |
| C23 | `ChannelSupport` close logic | trace invariant; refutation for replies after CLOSE |
| C24 | `Channel` pending requests | simulation with the list of requests |
| C25 | `GlobalRequestSupport` | same |
| C26 | `BufferedChannel` | invariant with delivered/received ghost streams |
| C27 | `RequestedChannel` life cycle | refutation of "exactly one callback" (use after free); partial theorem |
| C28 | `HandleChannelOpen` | refutation; what is guaranteed instead |
| C29 | connection dispatcher | invariant over all packet sequences |
| C30 | `OnUserAuthRequest` | case analysis + invariant over request sequences |
| C31 | signed byte strings | injectivity; client/server agreement |
| C32 | auth state | invariant |
| C33 | auth state | refutation (stale options) and partial theorem |
| C34 | auth flags | monotonicity over all histories |
| C35 | auth + translation cache | refutation; partial theorem |
| C36 | `TextFile.cxx`, `Options.cxx` | parser correctness against a grammar specification |
| C37 | `Restrict`, `HandleGlobalRequest` | order-theoretic statement; induction over requests |
| C38 | `OptionsRequest.cxx` | round trip |
| C39 | `SessionChannel::OnRequest` | refutation (SFTP and restricted commands); partial theorem |
| C40 | forwarding decisions | refutation (local sockets); partial theorem for TCP |
| C41 | `OnRequest`, `Exec` | case analysis for all payloads |
| C42 | session start state machine | refutation; partial theorem |
| C43 | `SetEnv`, exec size check | invariant |
| C44 | `no_more_sessions` | invariant over histories |
| C45 | `SplitCmdline`, `ShellUnescapeOneSingleQuoted` | parser correctness, quoting round trip |
| C46 | `ClientAccounting`, `Listener::OnAccept` | invariant over histories with time |
| C47 | `ParseTerminalModes` | refinement to a fold over decoded pairs |
| C48 | proxy handlers | trace refinement |
| C49 | `OnBufferedData` version exchange | chunk independence |
| C50 | `SecretKeyList` | induction over added keys |
| C51 | `UserAuthClient` | invariant over packet sequences |
| C52 | `UserAuthServer` | invariant over packet/completion sequences |
| C53 | both roles of the KEX machine side by side | relational invariant between the two machines |
| C54 | server KEX machine | trace invariant |
| C55 | `Model/Server.v`, `Session.v` | trace invariant over all histories |
| C56 | `Model/Relay.v` | refutation (deadlock); exact blocking condition and progress |
| C57 | `Model/Terminal.v` | refutation (argument 255); partial theorem |
| C58 | Output and Input with ciphers, end to end | composition of C05/C07 with the cipher round trip |
| C59 | `Model/Ciphers.v` | round trip, sizes, integrity; refutation for the AES assertion |
| C60 | sequence numbers of the ciphers | refutation at 2^32; partial theorem |
| C61 | key stream positions | arithmetic over all packet sequences |
| C62 | `OnUserAuthRequest`, `AuthMethods` | case analysis + invariant |
| C63 | `CheckTranslateResponse`, program starts | refutation (services); partial theorem |
| C64 | `OnUserAuthRequest` | acceptance for every valid request (`Spec/CredentialSpec.v`) |
| C65 | `Exec`, `GetShell`, `LoginShellName`, tty | trace invariant |
| C66 | `ParsePublicKeyBlob`, `SerializePublic` | round trip, injectivity; refutation (trailing bytes) |
| C67 | `Sign`, `Verify` | for arbitrary primitives which verify their own signatures |
| C68 | `ParseSecretKey` | parser correctness against `Spec/KeyFormatSpec.v`; refutation (RSA exponents) |
| C69 | `Model/Timed.v`: the server of C29-C45 with a clock and the timer `auth_timeout` | invariant (deadline bounded by the connect time) over all timed histories |
| C70 | `Model/Network.v`: the calls `connect`/`bind` which are made with the credentials of the account, in the server process or in the helper process (RConnect, RBind, Delegate) | origin of every call in a client request; identity from the login record; the literal target statement is refuted for names with null bytes |
| C71 | `Model/Server.v`: lists of pending and open listeners | invariant over all histories (`listeners_ok`), persistence by induction |
| C72 | `Model/TranslateClient.v`: writing the request, the reader of the response fed with arbitrary pieces | request = list of protocol packets (`carries`); reader invariant over all pieces: bytes consumed = whole packets handled + incomplete packet |
| C73 | `Model/ChannelIO.v` (session channels), `Model/Makers.v` (the report) | invariant over all histories linking programs, open outputs and sent messages; bit arithmetic of `wait()` |
| C74 | `Model/Packets.v`, `Model/Makers.v`: the message builders | each builder appends exactly the encoding of the fields (`appends`), composed with C03 |
| C75 | `Model/Cluster.v`: member list (list nodes with identities, so that dangling references show), `Pick` with an arbitrary scoring function and an arbitrary unstable sort | invariant over all histories against `announced`; refutations for ties and for the reference kept over a suspension |
| C76 | `Model/Admin.v`: control packets, listeners, connections | case analysis against the tag lists of `Spec/AdminSpec.v` |
| C77 | `Model/KexSecret.v`: both key exchange classes over abstract curves, plugged into the machine of C15-C19 (`with_curves`) | writer correctness (C09), the Diffie-Hellman law, then C53 without its assumption on the secret |
| C78 | `Model/Forwarders.v`: the `Factory` objects of forwarded ports and agents, their listeners, and every place that frees them, on top of the channel table of C20-C29 | invariant relating living objects to unanswered requests (uses the balance of C27); refutation for refused channels |
| C79 | `Model/Config.v`: the parsers of all sections, the nesting of sections, the defaults; the readers of single lines are parameters | every section's fold is exact for the set of acceptable lines (snoc induction); then the whole file; refutations by concrete files |
| C80 | `Model/RecvWindow.v`: `Channel`'s receive window on top of `BufferedChannel` (Model/Buffered.v), with the standard input of a session and with a forwarded socket as destinations; 64-bit wrap and assertions are explicit | invariant: window + sent = granted + waiting + discarded, for peers which obey; a second invariant (window between 512 KiB and 1 MiB) for peers which do not but send no extended data |
| C81 | `Model/Rekey.v`: the rekey timer, the byte counter and the flags of the key exchange with a clock; contents of messages are left out (Model/KexMachine.v has them) | invariants relating the timer's due time to the history; the history itself is shown to be sensible (a key exchange is completed only after it was begun, times do not decrease) |
| C82 | `Model/Metrics.v`: the functions of Model/Auth.v again, with the counters and token costs (an erasure lemma shows that nothing else differs); any number of connections of Model/Server.v with interleaved events | the share of each request in every sum by case analysis, then induction over the events; the forms of requests are specified by their encoding |
| C83 | `Model/Tarpit.v`: one PerClientAccounting object with a clock, the contract of the token bucket, its connections (held back at first) and their requests (sleeping, password passed on) | invariant with four kinds of refused passwords: paid for, while the delay rises, in flight when it is complete, and those which have waited (an area argument over connections and time); level of the bucket by windows |
| C84 | `Model/Environ.v`: the list of strings which is given to a new process, for each kind of program, on top of `Model/Session.v`'s description of a process | lookup in lists of strings (first and last match); C65 for the client's variables, C41 for rsync and git |
| C85 | `Model/Ciphers.v`, `Spec/CipherFormat.v` (the formats of OpenSSH's PROTOCOL.chacha20poly1305, RFC 5647, RFC 4344/4253) | the state of the cipher object after k packets, induction over the packets; receiving by C59's inverse |
| C86 | `Model/Dying.v` (the end of both connections of a proxy: DoDisconnect, OnDisconnecting, what is owned and what may still send), `Spec/DyingSpec.v` | invariant over all event sequences for both connections; the two races are excluded by `no_crossing`, which is stated with events only |
| C87 | `Model/Startup.v` (LoadHostKeys, LoadKeyFile, LoadGlobalAuthorizedKeys, the keys of a listener; key parsing from `Model/Keys.v`, the choice from `Model/KeyList.v`), `Spec/StartupSpec.v` | induction over the file names; composition with C50 (choice), C67 (algorithms), C68 (OpenSSH files), C36 (authorized_keys) |
| C88 | Server connection + session channel + output queue as byte counts (`Model/Backlog.v`) | Refuted by a flood of unknown messages (any configuration) and by window adjustments at an exhausted window; `C88_granted` by the window invariant of C22 over all schedules; `C88_linear_partial` by an invariant over attentive histories: programs are suspended whenever an attempt to write leaves something |
| C89 | `AuditLog` over `Auth`, `Server` | the lines of a request follow its outcome (parallel case analysis of both functions); invariants over all histories: accepted lines = logins, one end line, one domain after login; text: escaping yields no newline, splitting the text gives back the messages; counterexamples for raw text |
| C90 | `ConnCounters` over `Accounting` | each counter equals the number of its events (invariant over all histories); the opened connections are a permutation of the served and the closed ones; counterexamples for double counting |
| C91 | Both ends' key exchange machines (Model/KexMachine) and the server's authentication (Model/Server) together; nothing new is modelled | first exchange of each end is unique (LoginFacts); equal session ids give equal hash inputs or a collision; C31 binds the signature to the session id |
| C92 | `Fingerprint` over `Keys`, `AuditLog` | base64 as groups of six bits of a number; injectivity; composed with the log of a connection (C89), the formats of keys (C66) and of signatures (C67) |
| C93 | the composition of Output/Input (C58), Channels, Buffered and RecvWindow; no new model | invariant over channel operations which relates each object's calls to the messages handed in during its life; then composition of C58, C26 and C80 |
| C94 | Emit: the packet for each message of a channel; composed with ChannelIO, Channels, Frame and Output/Input (C58) | invariant over channel operations relating each message to the number of the object which sent it; decoding of each packet; composition of C22, C73, C58 and C03 |
| C95 | Channels, Emit, Packets composed in both directions with Output/Input (C58) | generic theorem on the fate of what is said on a channel (AnswerFacts.fate_of) applied to requests; invariant that each reply was sent by the object which the client knows by this number; composition of C24, C58, C93 and C94 |
| C96 | Globals, Makers composed in both directions with Output/Input (C58) | invariant of the calls of the handler; composition of C25, C58, C93 and C94 |
| C97 | Relay composed with two connections (Output/Input, C58) and the target's Channels | invariant: what is relayed is the connection-layer part of what was handled (TunnelFacts.faithful); composition of C58, C93, C94 |
| C98 | `Model/Lifetime.v`: job states, `Destroy()`, `Done()`, `~Connection()` with an event for every access to memory; the pipelines of Model/Input.v and Model/Output.v for the end | invariant over all interleavings; decreasing measures for the two workers |
| C99 | Delay (the control flow of OnUserAuthRequest with time and token costs), erased to Auth | case analysis of the timed function, inversion of the request's encoding; erasure lemma to Model/Auth.v; two-run corollary |
| C100 | the counter and PrepareChildProcess(), the helpers of Delegate.cxx, RConnect.cxx and RBind.cxx, over the history of process starts of the daemon | the counter is the number of earlier named starts modulo 2^32 (induction over the history); decimal notation is injective |
| C101 | class Input with its two threads on an arbitrary stream (Model/Input.v), the ciphers over arbitrary primitives (Model/Ciphers.v) | refinement of Input to the sequential reader (C05), then induction over the received messages: the receiver's cipher either is the mirror of the sender's after the same number of packets and the next packet is genuine, or the tag was never computed by the sender |
| C102 | the key exchange machine of both roles (Model/KexMachine.v) | invariant over all runs: every KEXINIT packet in the log has lukko's own lists; then C91 (same session id, same handshake) and C18 (strict handshakes) |
| C103 | the channel table (Model/Channels.v): CHANNEL_OPEN, asynchronous decisions, the end of the connection | a balance (received = answered + undecided, per peer number and per own number) kept by every step of every run |
| C104 | the key exchange machine in the server role (Model/KexMachine.v) | case analysis of the proposal's processing in an arbitrary reachable state; the lists are judged by Spec/NamesSpec.v |

## Not expressible here

Timing (the 100 ms failure delay), cryptographic strength, memory safety
of C++ in general (only the object life cycles named above), behaviour of
libcommon/OpenSSL/libsodium/kernel beyond the stated contracts.

## Trusted base

* Coq 8.16.1 kernel and the parts of its standard library that are used
  (`NArith`, `ZArith`, `List`, `Bool`, `Lia`, `String`, `Permutation`).
* `Print Assumptions` follows every property theorem; see "Assumptions".
* The correspondence between `Model/*.v` and the C++ text, by inspection:
  every definition cites the lines it models.
* The contracts of code that is not in this checkout, listed below.

## Assumptions

`Print Assumptions` prints "Closed under the global context" for every
theorem in `Props/`: no axioms at all, not even those of the standard
library.

## Contracts

The submodule `libcommon` is empty in this checkout; these parts of it (and
of other libraries) are modelled from their documented meaning and from how
they are called.

| Contract | Where in the model |
|----------|--------------------|
| `ThreadQueue`: one job object is run by one thread at a time; `Add()` while running makes it run again; `Done()` on the main thread; `Cancel()` removes a waiting job and fails for one which is running or not yet reported | Output, Input, Lifetime |
| `DefaultFifoBuffer`/`ForeignFifoBuffer`: `MoveFrom*` moves some prefix (the environment chooses how much), capacity 32 kB class | Input, Version |
| `IterableSplitString`, `StringListContains`, `Split`, `StripLeft`/`Strip`, `SkipPrefix`, `RemoveSuffix`, `IsWhitespace*` | StringList, KeyOptions, Keys |
| `Co::EagerInvokeTask`: `IsDone()` is true in the completion callback; its value directly after a synchronous completion is a parameter (`r_sync_done`) | Requests |
| `SocketEvent`/`PipeEvent`: level triggered, readiness delivered only while scheduled; `read()` returns available data, 0/error after all writers are gone | ChannelIO |
| `BufferQueue`: FIFO of chunks | Buffered |
| `BufferedReader`, `DecodeBase64`: lines / any function from text to bytes | KeyOptions, Keys |
| `DeferEvent`, `TimerEvent` (coarse, fine): run once, at any later time | KexMachine, Relay, Accounting |
| `TokenBucket`: an oracle (overdrawn or not) | Accounting |
| `IntrusiveHashSet`: set with one entry per key | Accounting, KeyOptions |
| hash functions, ChaCha20, Poly1305, AES-CTR, HMAC, AES-GCM, signatures, EC point arithmetic: arbitrary functions, with the algebraic laws a theorem needs as explicit hypotheses (e.g. `signs_well`, lengths of digests) | KexKeys, Ciphers, Keys |
| OpenSSL BIGNUM: a natural number; `BN_bn2bin` is the shortest big-endian form | Bignum, Keys |
| translation server, account database, file system, helper processes, spawner: answers chosen by the environment | Auth, Session, Server |

## What is modelled and what is not

Modelled: `ssh/Serializer`, `Deserializer`, `PacketSerializer`, `ParsePacket`,
`MakePacket`, `Queue`, `Input`, `Output`, `Connection` (packet dispatch, key
exchange, rekeying, disconnecting, version exchange, read/write blocking),
`KexStrings`, `KexFactory`, `KexHash`, `KexState`, `KexProposal`, `CSupport`,
`Channel`, `GSupport`, `BufferedChannel`, `UserAuthServer`, `UserAuthClient`,
`TerminalMode`, `SimpleHostKeyChooser`, `AuthMethods`; `cipher/*`; `key/*`
(except `Fingerprint`, `LoadFile`); `openssl/*`; `net/ClientAccounting`;
`Connection`, `SessionChannel`, `SocketChannel` (data flow), `Listener`
(accept decision), `DelayedConnection`, `OptionsRequest`,
`OutgoingConnection`, `ProxyConnectionHandler`, `ProxyCheck`.

See the header of each `Model/*.v` for what it leaves out, and the table
"Later additions" for files that were added after this list was written.

Later additions:

| Model | Code | Left out |
|-------|------|----------|
| `Timed` | `Connection`: the timer `auth_timeout` | other timers |
| `Network` | `RConnect`, `RBind`, `Delegate`, `GetNetworkChildOptions`, the callers in `Connection` | the resolver, the socket calls themselves, port numbers above 65535, `sun_path` limits |
| `TranslateClient` | `SendTranslateLogin`, `ReceiveResponse`; the packet reader of libcommon by its contract | the parser of the individual response packets (a parameter), connecting to the socket |
| `Makers` | the remaining message builders, `SendEarlyDisconnect`, the argument of `OnChildProcessExit` | - |
| `Cluster` | `ZeroconfCluster`: member list and `Pick`; `Listener::GetProxyTo` | the scoring function (a parameter), Avahi itself, reconnects of the browser |
| `Admin` | `Instance::OnControlPacket`, `ReloadState`, `Listener::TerminateChildren`, `Connection::HasTag` | the control protocol's datagram format (libcommon), cache flushing |
| `KexSecret` | `Curve25519Kex`, `ECDHKex` | the arithmetic of the curves (parameters with laws), wiping of memory |
| `Forwarders` | `SocketForwardListener`, `AgentForward`: classes `Factory`, `OnAccept()`, destructors; order of destruction in `~Connection()` and `OnDisconnecting()` | the sockets themselves, log messages, exceptions other than "no free channel" in `Open()` |
| `Config` | `LukkoConfigParser` with all its sections, `Config::Check()`, `LoadHostKeys()`, the use of keys and proxy targets by `Listener` | libcommon's line reader, includes, variables, comments, addresses, Zeroconf and spawn options (parameters of the environment record); `debug_mode`; `LoadGlobalAuthorizedKeys()` |
| `RecvWindow` | C80: receive windows. The socket's `Wrote n` answers, `EAGAIN` and failures come in any order; the WRITE event is an operation |
| `Rekey` | C81: when keys are renewed. Contract of FarTimerEvent: not early, at most `slack` late |
| `Metrics` | C82: the counters of authentication requests over all connections |
| `Tarpit` | C83: tarpit. Contract of TokenBucket (libcommon): one token per second up to ten, Update() subtracts and returns the level; exact arithmetic |
| `Environ` | C84: environment. libcommon's PreparedChildProcess is a list of C strings; the variables of ChildOptions and the path of the home directory in the container are parameters |
| `Dying` | C86: end of connections. Packets are numbers, flow control and rekeying by amount are events; what may send later (channels, programs, pending requests, listeners) is a list of ids |
| `Startup` | C87: keys at startup. A file is what open, fstat and read say about it; read returns the beginning of the file |
| `Backlog` | C88: output waiting for a client. Queues are numbers of payload bytes (headers, padding, MACs, EOF, exit status and CLOSE are not counted); one session channel; DeferWrite is a flag |
| `AuditLog` | C89: the log lines of a connection, their text with fmt's `{:?}` quoting, the logger's domain, `log_disconnect` |
| `ConnCounters` | C90: the counters of connections and packets, `Terminate()`, `DoDisconnect()` and the list of a listener |
| `Spec/LoginSpec, Proofs/LoginFacts` | C91: the first key exchange of both ends and a login (C91) |
| `Fingerprint` | C92: `GetFingerprint()`, base64, the text of a key in the log; instantiates the key oracles of C89 with the model of C66-C68 |
| `PipelineFacts` | C93: the composition needs an invariant of its own (PipelineFacts.track): at any time the objects which live are those created and not destroyed in the log, each number has at most one, and each was called only while it lived. From this PipelineFacts.fate cuts the sequence of operations into the parts before, during and after the object's life. |
| `Emit` | C94: ReturnFacts.voiced (every message to a channel number was sent by an object which was created with this number) makes the client's view of one channel equal to what one object said; ReturnFacts.eof_complete and speaks_eof show that CHANNEL_EOF is the last thing a session says and that all its sources are then drained. |
| `Channels` | C95: AnswerFacts.fate_of generalises C93's theorem to any kind of call of a channel object; AnswerFacts.answering (every reply goes to the number of an object created with it, or to a number in a CHANNEL_OPEN_CONFIRMATION for a channel which we had canceled); C95_demo shows both directions on concrete encrypted streams. |
| `Globals` | C96: GlobalAnswerFacts.gruns_told (the handler is asked exactly what the messages ask); C96_demo shows both directions on concrete encrypted streams. |
| `Relay` | C97: TunnelFacts.rrun_faithful; C97_demo_input and C97_demo_output show two concrete encrypted connections with a proxy between them, each way. |
| `Lifetime` | C98: lifetime of the pipeline objects. A job is an object with its state in the thread queue; what Run() does is only "uses memory, may ask to be run again" there, and the real Run() in the two theorems which bound the number of steps |
| `Delay` | C99: Model/Delay.v repeats the control flow of OnUserAuthRequest() with times and token costs; erasing them gives Model/Auth.v (C99_same). Contract of Co::LazySleep: resumed 100 ms after its construction, at once if that has passed. |
| `Cgroup` | C100: Model/Cgroup.v models src/Connection.cxx:387-411 and 522-541 and the preparation of the helper processes; CopyTo() of libcommon is a contract (copies all options). |
| `Props/C101.v` | C101: Spec/CutSpec.v defines a forgery without probabilities: the stream contains bytes which the receiver accepts as the next packet although the sender has never computed a tag for that input.  That this does not happen is an assumption about Poly1305, GHASH and HMAC, not a theorem. |
| `Props/C102.v` | C102: two ends are two independent runs of the machine with arbitrary inputs; the network in between is not modelled, only what the ends have seen. |
| `Props/C103.v` | C103: the decision of the application is an operation which may come at any time; how the application reaches it (resolving and connecting, Connection.cxx 612-707) is not modelled. |
| `Props/C104.v` | C104: one message after the proposal is considered; how the client computes its guess is outside of lukko. |

Not modelled: `Main`, `CommandLine`, `Instance` (event loop set-up), log
messages and counters, `memory/*`, `AllocatorPtr`, `system/SetupProcess`
(process limits), mount namespaces, the spawner protocol, D-Bus/Avahi.

## Findings

Each is a statement that a user would expect and that the faithful model
refutes, by a theorem `..._refuted`, or (where no theorem is named) an
observation made while modelling.

| Finding | Theorem |
|---------|---------|
| Two `SetCipher()` calls before the worker runs lose the first cipher | `C07_order_refuted`, `C58_refuted` |
| A write event during encryption closes before DISCONNECT is sent | `C10_disconnect_sent_refuted` |
| The rekey timer can expire before authentication and fail an assertion | `C17_assertions_refuted` |
| Strict key exchange is not enforced for one message after a wrong guess | `C18_strict_refuted` |
| Channel data is sent during a key exchange | `C19_refuted`, `C19_spawn_refuted` |
| Receive window is not charged for data that nobody consumes | `C21_delivered_refuted` |
| Output of a tty is truncated when its HANGUP arrives while reading is suspended; a socket channel with initial window zero never sends | `C22_*_refuted` |
| CHANNEL_FAILURE can follow our CHANNEL_CLOSE | `C23_nothing_after_refuted` |
| Requests without "want reply" that finish at once disturb the order of replies (or fail an assertion) | `C24_*_refuted`, `C25_order_refuted` |
| Data or EOF after EOF; EOF before the program's stdin exists is lost | `C26_*_refuted` |
| A rejected outgoing channel gets two callbacks | `C27_at_most_once_refuted` |
| Because of this, a client which refuses a forwarded connection with CHANNEL_OPEN_FAILURE makes the server use freed memory (the object deletes itself in the first callback) | `C78_safe_refuted` |
| `target_host` sections, which are documented, are a syntax error, because their parser is never created; therefore `proxy_to` can never succeed | `C79_target_refuted`, `C79_no_target` |
| `ack_timeout` is multiplied by 1000 in 32 bits: 4294968 seconds are 704 ms | `C79_timeout_refuted` |
| `mode` accepts what strtoul() accepts, e.g. the negative number `-1777777777777777777777` as mode 1 | `C79_mode_refuted` |
| CHANNEL_EXTENDED_DATA is ignored, uses up the receive window and is never granted back: an obeying peer stalls after 1 MiB of it | `C80_flow_refuted` |
| Data which waits in the buffer has not been subtracted from the window yet. With extended data a peer can use up the window meanwhile; passing on the waiting data then breaks the assertion in `ConsumeReceiveWindow()`, or the window wraps around to nearly 2^64 | `C80_any_refuted`, `C80_wrap` |
| For the same reason, a peer which ignores the window can make the server buffer any amount of data as long as the program does not read | `C80_memory_refuted` |
| The rekey timer is cancelled by a KEXINIT of the peer and is scheduled again only when the exchange is complete: a peer which withholds its NEWKEYS keeps the same keys in use forever, with data flowing in both directions | `C81_time_refuted`, `C81_stalled_works` |
| Only sent bytes count for rekeying, not received ones | `C81_received_refuted` |
| A refused key request for an account without password is counted as an accepted password | `C82_accepted_refuted` |
| Refused requests to change a password are counted in a counter which is not exported; refusals for another service are not counted | `C82_failed_refuted`, `C82_other_service` |
| Without `max_connections_per_ip` the tarpit does not limit the guessing of passwords: any number in two minutes, in parallel | `C83_refuted` |
| A client can send `env` with any name, also with a forced command: with `BASH_ENV` (or `LD_PRELOAD`, given a file) it runs something else. A key with `command=` does not restrict a client whose account has bash as its shell | `C84_forced_refuted` |
| The client's variables are appended to the server's without removing duplicates: programs which use the last string (bash) see the client's USER, HOME, SSH_CONNECTION, SSH_ORIGINAL_COMMAND | `C84_server_refuted` |
| When the client's connection is disconnected while the backend is still checking the user, the connection to the backend is kept; if the backend then accepts, `OnOutgoingUserauthSuccess()` adds handlers to and sends USERAUTH_SUCCESS on the dead connection: assertion failure, or packets after DISCONNECT | `C86_client_refuted` |
| While the connection to the backend is being disconnected, the client's packets are still forwarded to it: assertion failure, or packets after DISCONNECT | `C86_backend_refuted` |
| An unauthenticated client which sends unknown messages and never reads makes the server queue UNIMPLEMENTED answers without limit: `OnInputReady()` looks only at `read_blocked`, which only proxy mode sets | `C88_before_login_refuted` |
| `SessionChannel::OnWindowAdjust()` resumes reading from the program when the window was exhausted, even while writing is blocked; a client which never reads but extends its window makes the server queue program output without limit | `C88_data_refuted` |
| The description in a client's DISCONNECT message is logged without quoting (src/Connection.cxx:1312, `{}` instead of `{:?}`): a client which has not logged in writes any line into the log, e.g. one which looks like a login of another client | `C89_forged_refuted` |
| "Accepted password for USER" is logged for a login without any password (method "none" or any unknown method, NO_PASSWORD response; src/Connection.cxx:1127-1131) | `C89_password_refuted` |
| The 65th channel open ends the connection instead of being refused | `C28_refuted` |
| Options of a key that was only queried are inherited by a password login | `C33_refuted` |
| The refusing response to a wrong password is cached and refuses a valid key | `C35_refuted` |
| Documented `authorized_keys` options with upper case letters or digits are not parsed | `C36_documented_refuted` |
| A forced command does not stop sftp, rsync and git services | `C39_refuted` |
| `no-port-forwarding` does not stop connections to local sockets | `C40_refuted` |
| More than one program per session channel | `C42_refuted` |
| Environment accepted while an exec request is suspended exceeds the limit | `C43_refuted` |
| git's quoting of backslashes is not undone | `C45_git_refuted` |
| A version line of 255 bytes or more is accepted or not depending on chunks | `C49_refuted` |
| USERAUTH_REQUEST after success is answered with UNIMPLEMENTED | `C52_refuted` |
| Proxy: simultaneous rekeying on both connections deadlocks | `C56_refuted` |
| Terminal mode argument 255 (disabled) is not translated | `C57_refuted` |
| AES: an assertion depends on a received, unauthenticated length | `C59_no_assertion_refuted` |
| ChaCha20 nonce does not wrap at 2^32 | `C60_refuted` |
| Service options of the translation server are not checked for uid/gid/home | `C63_refuted` |
| Public key blobs: trailing bytes are ignored | `C66_refuted` |
| Host names and socket paths of forwarding requests are cut at the first null byte | `C70_target_refuted` |
| RSA keys offer `ssh-rsa` without libmd | `C67_refuted` |
| CRT exponents of RSA keys are computed with swapped arguments | `C68_refuted` |
| Packets already decrypted in a batch are dropped when a later one of the batch is malformed | (Model/Input.v) |
| `target_host` is documented but the parser does not know it | - |
| `NO_PASSWORD=sftp` restricts public key logins, too | - |
| Agent forwarding is accepted without looking at `no-agent-forwarding` | - |
| exit-signal carries the description (`sigdescr_np()`) instead of the name | `C73_signal_refuted` |
| Data behind the end of a translation response is an error or not, depending on how it arrives | `C72_pieces_refuted` |
| With equal scores the cluster member chosen for a login changes between logins | `C75_ties_refuted` |
| The address of the chosen member is read again after the connect was awaited, when the member may be gone (`Connection.cxx:1155`) | `C75_reference_refuted` |
| TERMINATE_CHILDREN ignores the tags of service-specific options | `C76_services_refuted` |
| A control packet TERMINATE_CHILDREN which reaches a connection that is already being disconnected counts it again as "closed" (src/Connection.cxx:216-228 increments before DoDisconnect() tests IsDead()) | `C90_closed_refuted` |
| A public key which cannot be decoded counts as a connection closed by a protocol error although the connection stays open (src/Connection.cxx:991, 1065; src/Instance.cxx "lukko_connections_closed") | `C90_bad_key_refuted` |
| An entry of authorized_keys may have bytes after the key; it is the same key with the same fingerprint, but another entry with other options: with entries "KEY restrict..." and "KEY+garbage" the log does not tell which options applied | `C92_refuted` |
| Data which still waits in the server when the client's CHANNEL_CLOSE arrives is discarded, because HandleChannelClose() destroys the channel with its buffer and its pipe; RFC 4254 5.3 recommends delivering it | `C93_refuted` |
| A program on a terminal which writes more than the client's window and exits: the rest of its output is discarded at the hangup, and the client is sent CHANNEL_EOF as if it had all of it | `C94_refuted` |
| The client decodes an answer to a request for which it wanted none and must take it for the answer to the next one (C24, seen from the client's end of the connection) | `C95_order_refuted` |
| The client decodes an answer to no-more-sessions@openssh.com, which it sends without want-reply, and must take it for the answer to the next global request (C25, seen from the client's end of the connection) | `C96_order_refuted` |
| A truncated "publickey" request (nothing after the method name) is answered with USERAUTH_FAILURE if the account does not exist and ends the connection if it does: accounts can be enumerated before login (src/Connection.cxx:953-971) | `C99_refuted` |
| A wrong signature with an authorized host key is refused without the 100 ms delay, an unknown host key with it: the time tells which host keys are authorized (src/Connection.cxx:1049-1081) | `C99_floor_refuted` |
| The delay of failures is measured from the reception of the request and runs out during the tarpit's delay, which is at least as long: while the tarpit is in force, nothing hides how long a request has really taken (src/Connection.cxx:806-824) | `C99_tarpit_refuted` |
| With a translation server, a rejected user is answered with an empty list of methods, an existing one with the full list (src/Connection.cxx:900-902, 1139) | `C99_methods_refuted` |
| Requests for accounts which do not exist cost no tokens, requests for existing ones do: only those who try existing accounts reach the tarpit (src/Connection.cxx:953-959) | `C99_cost_refuted` |
| The number in the name of a session's cgroup is a 32 bit counter of the whole daemon: after 2^32 starts a new program shares the group of a program which may still be running (src/Connection.cxx:398) | `C100_refuted` |
| The helper processes which connect or listen on behalf of a user copy ids, namespaces and seccomp flags, but neither the cgroup nor the limits of the account: what they use is accounted to the daemon (src/RConnect.cxx:86-98, src/RBind.cxx:105-117) | `C100_network_outside` |
| A session name given by the translation server is not checked against the names lukko generates ("session-1") | `C100_chosen_refuted` |
| Without strict key exchange, which lukko offers but does not require, the first messages encrypted with ChaCha20-Poly1305 can be removed by somebody in between (a message is inserted before NEWKEYS) | `C101_not_strict_refuted` |
| In a repeated key exchange the server processes a message which the client sent as a wrong guess, because `HandlePacket()` looks at `ignore_next_kex_packet` only before encryption is enabled (RFC 4253 section 7 demands to ignore it) | `C104_refuted` |
| A program that is refused after its request was answered with success (SFTP only, command too long, spawn failure) ends without exit-status | - |
| The maximum packet size of the peer is ignored | - |
| Re-padding in the proxy can exceed the maximum packet size | - |
| A noexcept packet builder that exceeds the buffer terminates the process | - |
