{"id": "C01", "title": "Field serialization round-trips", "statement": "For every sequence of SSH wire fields (byte, boolean, uint32, length-prefixed string, raw bytes) that the serializer accepts, reading the produced bytes back with the deserializer according to the same schema yields exactly the written values and leaves exactly the bytes that followed; the serializer accepts the sequence if and only if it fits into its 65536 byte buffer, otherwise it reports PacketTooLarge.", "quantifier": "every finite schema and every field value (any string contents and length, any 32 bit number), any trailing bytes", "why_tests_cant": "the set of schemas, lengths and contents is infinite; boundary values around 2^32 lengths and the 64 KiB capacity cannot be enumerated", "anchors": ["src/ssh/Serializer.hxx: BeginWriteN, WriteU32, WriteString, WriteLengthEncoded", "src/ssh/Deserializer.hxx: ReadN, ReadU32, ReadLengthEncoded, ExpectEnd", "src/ssh/Sizes.hxx: BUFFER_SIZE"]}
{"id": "C02", "title": "Packet parsers are exact", "statement": "Each packet parser, given an arbitrary byte string, either reports a malformed packet or returns fields whose canonical re-encoding is the given byte string (up to the value of ignored fields and of non-zero boolean bytes); strict parsers reject any trailing garbage, and no parser ever reads past the end of the packet.", "quantifier": "every byte string as payload, for every packet type that is parsed", "why_tests_cant": "an attacker controls the payload completely; only a proof covers all truncations, length lies and trailing bytes", "anchors": ["src/ssh/ParsePacket.hxx: Parse*", "src/ssh/Deserializer.hxx: Deserializer"]}
{"id": "C03", "title": "Framing is well-formed and reversible", "statement": "Every packet finished for sending has a total (or, for ciphers that exclude the header, header-less) size that is a multiple of the cipher block size and at least 16, has 4 to 255 bytes of padding, carries the correct packet_length and padding_length, and unframing it yields exactly message number and payload.", "quantifier": "every message number, every payload that fits, every padding contents, block sizes 8 and 16, header included or excluded", "why_tests_cant": "padding arithmetic has corner cases per residue class and per small size; tests check some residues only", "anchors": ["src/ssh/Protocol.hxx: Padding", "src/ssh/PacketSerializer.hxx: PacketSerializer::Finish, Pad", "src/ssh/Input.cxx: ReadUnencryptedPacket"]}
{"id": "C04", "title": "Plaintext packet stream is reassembled independently of chunking", "statement": "Before encryption, feeding the bytes of a sequence of well-framed packets in arbitrary chunks delivers exactly the payloads of these packets, in order, no matter where the chunk boundaries are; sequence numbers count delivered packets.", "quantifier": "every packet sequence, every split of the byte stream into chunks, every interleaving of feeding and reading", "why_tests_cant": "the number of chunkings is exponential in the stream length", "anchors": ["src/ssh/Input.cxx: Input::Feed, ReadUnencryptedPacket, ConsumePacket"]}
{"id": "C05", "title": "Encrypted input is decrypted with the right cipher and sequence number under every schedule", "statement": "For every interleaving of the main thread (feeding socket data, reading packets, installing the new cipher while handling NEWKEYS) with the decryption worker thread, the packets handed to the connection are exactly the packets obtained by decoding the received byte stream sequentially: each packet is decrypted with the cipher in force for its position (the cipher changes exactly after each NEWKEYS packet) and with consecutive sequence numbers (restarting at zero after NEWKEYS under strict key exchange).", "quantifier": "every byte stream, chunking, cipher, number of rekeys and thread schedule", "why_tests_cant": "thread interleavings between the main loop and the worker cannot be enumerated by tests; a race would show up only under rare timing", "anchors": ["src/ssh/Input.cxx: SetCipher, Feed, DecryptPacket, ReadDecryptedPacket, ConsumePacket, Run, Done"]}
{"id": "C06", "title": "Incoming packet size limits", "statement": "No packet whose announced length is below 2 or above 35000 bytes, or whose padding length does not leave room for a message number, is ever delivered: reception fails at this packet, everything delivered before it is correct, and nothing after it is ever delivered. Every delivered payload has between 1 and 34999 bytes.", "quantifier": "every received byte stream and chunking, plaintext or encrypted", "why_tests_cant": "hostile length and padding fields range over 2^32 x 256 values at every stream position", "anchors": ["src/ssh/Input.cxx: ParseHeader, ReadUnencryptedPacket, DecryptPacket, Run", "src/ssh/Sizes.hxx: MAX_PACKET_SIZE"]}
{"id": "C07", "title": "Outgoing packets keep their order, cipher and sequence number under every schedule", "statement": "For every interleaving of the main thread with the encryption worker, the bytes handed to the socket are a prefix of the concatenation, in SendPacket order, of each packet as it must appear on the wire: plaintext before the first cipher, afterwards encrypted with the cipher that was current when the packet was submitted and with consecutive sequence numbers (restarting at zero with each new cipher under strict key exchange). No packet is lost, duplicated or reordered.", "quantifier": "every sequence of sends, cipher changes, worker activations, partial socket writes; every cipher", "why_tests_cant": "depends on thread timing and on arbitrary partial writes", "anchors": ["src/ssh/Output.cxx: Push, Flush, Run", "src/ssh/Output.hxx: SetCipher", "src/ssh/Connection.cxx: SendPacket, SendNewKeys"]}
{"id": "C08", "title": "Send queue loses and duplicates nothing under partial writes", "statement": "For every sequence of pushed buffers and every sequence of partial write results that the kernel may return for the vectors offered to it, the bytes written are exactly a prefix of the concatenation of the pushed buffers, the remainder stays queued, and the offered vectors are never empty and never more than 32.", "quantifier": "every history of pushes and partial writes", "why_tests_cant": "partial write lengths are chosen by the kernel; histories are unbounded", "anchors": ["src/ssh/Queue.hxx: SendQueue::Push, Prepare, Consume, front", "src/ssh/Output.cxx: Flush"]}
{"id": "C09", "title": "Multi-precision integers are canonical", "statement": "Both ways of writing an unsigned big-endian integer (copying and in-place fixup) produce the same bytes: the unique shortest two's complement encoding of the same non-negative value (empty for zero, no redundant leading zero byte, most significant bit clear); reading it back gives the original value.", "quantifier": "every byte string as magnitude, at every buffer position", "why_tests_cant": "infinitely many magnitudes; the leading-zero and sign-bit cases interact", "anchors": ["src/ssh/Serializer.hxx: WriteBignum2, CommitBignum2, StripLeadingNullBytes, InsertNullByte", "src/openssl/SerializeBN.cxx", "src/openssl/DeserializeBN.cxx"]}
{"id": "C10", "title": "An initiated disconnect is reported to the peer", "statement": "When the server decides to disconnect an encrypted connection, the connection is closed locally only after the DISCONNECT message and everything queued before it has been handed to the socket, unless the socket fails, times out or the peer hangs up; after DISCONNECT no further packet is submitted.", "quantifier": "every schedule of main loop and worker thread, every queue contents", "why_tests_cant": "the loss window is a race between the worker holding packets privately and the main loop checking for emptiness", "anchors": ["src/ssh/Connection.cxx: DoDisconnect, OnBufferedWrite", "src/ssh/Output.hxx: IsEmpty", "src/ssh/Output.cxx: Run, Flush"]}
{"id": "C11", "title": "Algorithm negotiation follows RFC 4253 and both sides agree", "statement": "For every pair of name-lists the negotiated algorithm is the first one on the client's list that is also on the server's list, and nothing is chosen if there is none; a client and a server that exchange their lists compute the same algorithm for both directions.", "quantifier": "every pair of comma separated lists, both roles, both directions", "why_tests_cant": "lists are attacker controlled and unbounded", "anchors": ["src/ssh/KexStrings.hxx: FindCommonAlgorithm, GetPeerAlgorithms, FindNegotiatedAlgorithm", "src/ssh/KexFactory.cxx: MakeKex", "src/ssh/StringList.hxx"]}
{"id": "C12", "title": "No unauthenticated cipher is ever installed", "statement": "Whatever algorithm lists the peer sends, a connection that becomes encrypted uses in each direction a cipher that was negotiated from both sides' lists and that authenticates every packet; if no such combination exists the key exchange fails.", "quantifier": "every pair of encryption and MAC lists sent by the peer", "why_tests_cant": "peer controlled strings", "anchors": ["src/cipher/Factory.cxx: MakeCipher, MakeEncryptionCipher, MakeMacCipher", "src/ssh/Connection.cxx: SendNewKeys, HandleNewKeys"]}
{"id": "C13", "title": "The session identifier never changes", "statement": "The session identifier is the exchange hash of the first key exchange and keeps this value for the life of the connection, over any number of re-exchanges.", "quantifier": "every history of key exchanges", "why_tests_cant": "requires reasoning over arbitrarily many rekeys", "anchors": ["src/ssh/KexState.cxx: DeriveKeys", "src/ssh/Connection.cxx: SendECDHKexInitReply, HandleECDHKexInitReply"]}
{"id": "C14", "title": "Client and server derive matching directional keys", "statement": "From the same exchange hash, secret and session identifier, what a client uses for sending equals what a server uses for receiving and vice versa, for IV, encryption key and MAC key, and the six keys are the ones RFC 4253 section 7.2 assigns to the letters A to F, at least as long as requested.", "quantifier": "every hash function, hash value, secret and session identifier", "why_tests_cant": "needs to hold for all secrets and any hash; a swapped label still interoperates with itself in a test", "anchors": ["src/ssh/KexState.cxx: DeriveKey, DeriveKeys", "src/ssh/KexState.hxx"]}
{"id": "C15", "title": "The exchange hash binds the whole handshake", "statement": "If two handshakes yield the same hash input then both agree on the two version strings, both KEXINIT payloads, the host key blob, both ephemeral keys and the shared secret; so the host key signature covers every negotiated value, without ambiguity.", "quantifier": "every tuple of handshake values (shorter than 4 GiB each)", "why_tests_cant": "injectivity over unbounded strings", "anchors": ["src/ssh/KexHash.cxx: CalcKexHash", "src/ssh/Connection.cxx: SendECDHKexInitReply, HandleECDHKexInitReply"]}
{"id": "C16", "title": "A client connection never proceeds with an unverified server", "statement": "When acting as SSH client (proxy to another server) new keys are put into use only if the host key presented was accepted by the verifier and its signature over this handshake's exchange hash verified; otherwise the connection is disconnected and no NEWKEYS is sent.", "quantifier": "every byte sequence received from the server, any state of the connection", "why_tests_cant": "adversarial peer", "anchors": ["src/ssh/Connection.cxx: HandleECDHKexInitReply, SendNewKeys", "src/ssh/SimpleHostKeyVerifier.cxx", "src/ssh/KexSignature.cxx"]}
{"id": "C17", "title": "The key exchange state machine admits only complete exchanges", "statement": "For every sequence of packets from the peer and local rekey triggers: the connection becomes encrypted in a direction only by a complete exchange (KEXINIT sent and received, keys derived, NEWKEYS in that direction), out-of-order key exchange messages are answered with a disconnect, the sequence of own key exchange messages is always KEXINIT, (reply,) NEWKEYS in this order, and no internal assertion of the key exchange code can fail.", "quantifier": "every sequence of incoming messages and timer events, both roles", "why_tests_cant": "adversarial message orders over unbounded histories", "anchors": ["src/ssh/Connection.cxx: SendKexInit, SendNewKeys, HandleKexInit, HandleNewKeys, HandleECDHKexInit, HandleECDHKexInitReply, InitiateRekey", "src/ssh/Connection.hxx: kex_flags"]}
{"id": "C18", "title": "Strict key exchange rejects injected messages", "statement": "If the peer announced strict key exchange, then during the initial key exchange every message that is not part of it leads to a disconnect, the connection is only established if KEXINIT was the very first packet, and sequence numbers restart at zero with the new keys.", "quantifier": "every message sequence of the peer or of a man in the middle before encryption", "why_tests_cant": "injection can happen at any position with any message type", "anchors": ["src/ssh/Connection.cxx: HandlePacket, HandleKexInit, IsAllowedKexMessage", "src/ssh/Input.cxx: SetCipher", "src/ssh/Output.cxx: Run"]}
{"id": "C19", "title": "Nothing but key exchange messages is sent while rekeying", "statement": "Between sending KEXINIT for a re-exchange and sending NEWKEYS, only transport-level messages are sent (RFC 4253 section 7.1); in particular no channel data.", "quantifier": "every schedule of incoming messages, child output and timers during a rekey", "why_tests_cant": "rekeying is rare and its interleavings with channel activity are unbounded", "anchors": ["src/ssh/Connection.cxx: SendKexInit, SendNewKeys, IsRekeying, OnBufferedWrite", "src/ssh/CSupport.cxx: OnWriteBlocked", "src/SessionChannel.cxx: OnWriteBlocked, OnWindowAdjust", "src/ssh/Channel.cxx"]}
{"id": "C20", "title": "Channel numbers are unique and stable", "statement": "At any time at most 64 channels exist; a channel number announced to the peer refers to the same channel until both sides have sent CHANNEL_CLOSE for it, numbers in use are never handed out again, and channel messages for numbers that do not denote an open channel disconnect the peer without affecting any channel.", "quantifier": "every history of opens, asynchronous completions, closes from both sides and data", "why_tests_cant": "unbounded histories of asynchronous events", "anchors": ["src/ssh/CSupport.cxx: AllocateChannelIndex, GetChannel, HandleChannelOpen, CloseChannel, HandleChannelClose, AsyncChannelOpenSuccess, AsyncChannelOpenFailure"]}
{"id": "C21", "title": "Receive windows are enforced", "statement": "A peer can never make a channel accept more data than the windows granted to it: total delivered bytes never exceed the initial window plus all window adjustments sent; data beyond that is never delivered and terminates the connection.", "quantifier": "every sequence of data packets, consumption patterns and adjustments, per channel", "why_tests_cant": "depends on cumulative arithmetic over unbounded histories", "anchors": ["src/ssh/CSupport.cxx: HandleChannelData, HandleChannelExtendedData", "src/ssh/Channel.cxx: ConsumeReceiveWindow, SendWindowAdjust", "src/SessionChannel.cxx: OnBufferedData", "src/SocketChannel.cxx: OnBufferedData"]}
{"id": "C22", "title": "Send windows are respected", "statement": "The total number of data bytes sent on a channel never exceeds the peer's initial window plus all adjustments received, and output is never truncated by flow control: reading from the program is suspended exactly while the window is zero.", "quantifier": "every history of window adjustments, program output on stdout/stderr/tty and write blocking", "why_tests_cant": "cumulative arithmetic over unbounded histories and event orders", "anchors": ["src/ssh/Channel.cxx: SendData, SendExtendedData, OnWindowAdjust", "src/SessionChannel.cxx: OnStdoutReady, OnStderrReady, OnTtyReady, OnWindowAdjust", "src/SocketChannel.cxx: OnSocketReady"]}
{"id": "C23", "title": "Each channel is closed exactly once", "statement": "For each established channel exactly one CHANNEL_CLOSE is sent, it is sent whenever the peer closes or the local side ends, and nothing is sent on the channel after it.", "quantifier": "every history of channel events", "why_tests_cant": "close can be initiated by both sides in any order relative to requests and data", "anchors": ["src/ssh/CSupport.cxx: CloseChannel, HandleChannelClose, HandleChannelOpenConfirmation", "src/ssh/Channel.cxx: HandleRequest"]}
{"id": "C24", "title": "Channel requests are answered once, in order and only if wanted", "statement": "On every channel the k-th CHANNEL_SUCCESS/CHANNEL_FAILURE sent answers the k-th request that asked for a reply, with the result of exactly that request, whatever the order in which the (asynchronous) requests complete; requests that did not ask for a reply are never answered.", "quantifier": "every sequence of requests and every completion order", "why_tests_cant": "completion orders are factorially many", "anchors": ["src/ssh/Channel.cxx: HandleRequest, SubmitRequestResponses, OnRequestDone"]}
{"id": "C25", "title": "Global requests are answered once, in order, and are bounded", "statement": "Replies to global requests are sent in request order with the right result and only if wanted; never more than 16 are pending, and a peer exceeding this is disconnected.", "quantifier": "every sequence of global requests and every completion order", "why_tests_cant": "completion orders are factorially many", "anchors": ["src/ssh/GSupport.cxx: HandleGlobalRequest, SubmitGlobalRequestResponses, OnGlobalRequestDone"]}
{"id": "C26", "title": "Channel data reaches the program in order, with end-of-file last", "statement": "The bytes consumed by a channel's destination are always a prefix of the bytes received on the channel, none lost, duplicated or reordered, whatever portions the destination accepts at a time; end-of-file is delivered only once and only after all data.", "quantifier": "every sequence of data packets, partial consumptions and resume events", "why_tests_cant": "partial consumption patterns are unbounded", "anchors": ["src/ssh/BufferedChannel.cxx: OnData, OnEof, ReadBuffer", "src/ssh/Queue.hxx", "src/SessionChannel.cxx: OnBufferedData"]}
{"id": "C27", "title": "Channel factories are called back exactly once", "statement": "For each channel the server itself requests (remote forwarding, agent forwarding) the requester's factory gets exactly one of: channel created, open failed, canceled; and it is never used afterwards (it destroys itself in the callback).", "quantifier": "every history of confirmation, failure, cancel and disconnect events", "why_tests_cant": "lifetime errors appear only in particular event orders", "anchors": ["src/ssh/CSupport.cxx: RequestedChannel, OpenChannel, HandleChannelOpenConfirmation, HandleChannelOpenFailure, OnDisconnecting", "src/ssh/CFactory.hxx", "src/SocketForwardListener.cxx", "src/AgentForward.cxx"]}
{"id": "C28", "title": "Exhausting the channel table only fails the open request", "statement": "If all 64 channel slots are in use, a further CHANNEL_OPEN is answered with CHANNEL_OPEN_FAILURE (resource shortage) and nothing else changes.", "quantifier": "every state with a full channel table and every open request", "why_tests_cant": "state dependent; needs all fillings of the table", "anchors": ["src/ssh/CSupport.cxx: AllocateChannelIndex, HandleChannelOpen"]}
{"id": "C29", "title": "Nothing happens before authentication", "statement": "Before user authentication has succeeded no channel is created, no global request is executed, nothing is forwarded or bound and no program is started for the client, whatever packets arrive; the account database, translation server and key files are consulted only for the user named in a received request (a helper reading authorized_keys runs only under that account's identity).", "quantifier": "every packet sequence of an unauthenticated peer", "why_tests_cant": "adversarial sequences are unbounded", "anchors": ["src/ssh/CSupport.cxx: HandlePacket", "src/ssh/GSupport.cxx: HandlePacket", "src/ssh/UserAuthServer.cxx: HandlePacket", "src/Connection.cxx: OnUserAuthRequest, OnEncrypted"]}
{"id": "C30", "title": "Authentication requires a proof", "statement": "A connection becomes authenticated only by a userauth request for service ssh-connection with a valid user name for which, in that very request, (a) a public key listed for that user signed this session's identifier and this request, or (b) a host key listed in the authorized host keys did so, or (c) the translation server accepted the given non-empty password, or (d) the translation server waived the password for this user. In all other cases the peer gets a failure reply or a disconnect.", "quantifier": "every sequence of userauth requests, every translation server behaviour, every key file contents, every signature scheme", "why_tests_cant": "adversarial request sequences with state carried between attempts", "anchors": ["src/Connection.cxx: OnUserAuthRequest, IsAcceptedPublicKey, IsAcceptedHostPublicKey, LazyTranslate, IsValidUsername", "src/ssh/UserAuthServer.cxx"]}
{"id": "C31", "title": "Signatures are bound to session and request", "statement": "The byte string whose signature is verified determines the session identifier and the complete request (user name, service, method, algorithm, key and, for hostbased, client host and user); the string the client side signs is the one the server side verifies. A signature made for another session, user or method is therefore never accepted in its place.", "quantifier": "every pair of sessions and requests", "why_tests_cant": "injectivity over unbounded strings", "anchors": ["src/Connection.cxx: OnUserAuthRequest 999-1090", "src/ssh/UserAuthClient.cxx: SendUserAuthRequestPublicKey, SendUserAuthRequestHostbased"]}
{"id": "C32", "title": "The account used is the account that was authenticated", "statement": "After successful authentication the user name, and the account data used to start programs (translation response or passwd entry), are those of the request that succeeded, not of an earlier failed request for another user.", "quantifier": "every sequence of userauth requests with varying users", "why_tests_cant": "state leaks between attempts show up only for particular sequences", "anchors": ["src/Connection.cxx: OnUserAuthRequest, LazyTranslate, PrepareChildProcess"]}
{"id": "C33", "title": "Restrictions of a login follow from the credential used", "statement": "The authorized_keys options in force after login (forced command, no-pty, no-port-forwarding, home-read-only) are exactly those of the key that authenticated the user, and none if no key was used.", "quantifier": "every sequence of userauth requests ending in success", "why_tests_cant": "depends on the whole history of attempts", "anchors": ["src/Connection.cxx: OnUserAuthRequest, IsAcceptedPublicKey, IsAcceptedHostPublicKey"]}
{"id": "C34", "title": "Account restrictions are never loosened", "statement": "Once a response or token restricted the connection to SFTP (no exec), no later event during the life of the connection allows exec again; an account without execute options can never start a shell or command.", "quantifier": "every sequence of userauth requests, translation responses and session events", "why_tests_cant": "history property", "anchors": ["src/Connection.cxx: OnUserAuthRequest 905-929", "src/Connection.hxx: IsExecAllowed, IsSftpOnly"]}
{"id": "C35", "title": "A wrong attempt does not change the outcome of later ones", "statement": "A failed authentication attempt does not influence whether a later attempt of the same user with valid credentials succeeds.", "quantifier": "every sequence of failed attempts followed by a valid one", "why_tests_cant": "history property", "anchors": ["src/Connection.cxx: LazyTranslate, OnUserAuthRequest"]}
{"id": "C36", "title": "authorized_keys: unknown or malformed options reject the key", "statement": "A line of an authorized_keys file authorizes a key only if all its options are known and well-formed; the resulting restrictions are exactly those the line's options denote, and the first line for a key wins.", "quantifier": "every file content and every key", "why_tests_cant": "arbitrary text; quoting, escapes and malformed options", "anchors": ["src/key/TextFile.cxx: ParseOptionName, ParseOptionValue, ParseOptions, ExtractPublicKeyBlobFromLine, PublicKeysTextFileContains", "src/key/Options.cxx: Set"]}
{"id": "C37", "title": "Forwarded key options only restrict", "statement": "Applying options received from a proxy can only add restrictions; applying them repeatedly or in any order never lifts one; the request is honoured only from a host-authenticated peer; and a conflict of forced commands is refused.", "quantifier": "every sequence of options requests, every option values", "why_tests_cant": "sequences are unbounded", "anchors": ["src/key/Options.cxx: Restrict", "src/Connection.cxx: HandleGlobalRequest", "src/OptionsRequest.cxx"]}
{"id": "C38", "title": "Key options survive the trip to the target server", "statement": "Options serialized by the proxy and parsed by the target are identical, for every set of options; malformed option requests are rejected as a whole.", "quantifier": "every option record, every byte string as request", "why_tests_cant": "unbounded strings (forced command)", "anchors": ["src/OptionsRequest.cxx: SerializeAuthorizedKeyOptions, DeserializeAuthorizedKeyOptions", "src/Connection.cxx: SendAuthorizedKeyOptions"]}
{"id": "C39", "title": "A forced command is always enforced", "statement": "If the login key carries a forced command then every program started on the connection is that command.", "quantifier": "every sequence of session requests", "why_tests_cant": "all request types, orders and contents", "anchors": ["src/SessionChannel.cxx: Exec, StartSftpServer, OnRequest", "doc/index.rst"]}
{"id": "C40", "title": "no-port-forwarding is always enforced", "statement": "If the login key carries no-port-forwarding then no forwarding channel of any kind (TCP or local socket) is opened and no listener is bound.", "quantifier": "every sequence of channel opens and global requests", "why_tests_cant": "all request types and orders", "anchors": ["src/Connection.cxx: IsForwardingAllowed, IsLocalForwardingAllowed, CreateChannel, HandleGlobalRequest"]}
{"id": "C41", "title": "Session requests are authorized", "statement": "A shell, command, pty or environment variable is granted only if the account allows exec (and pty only if the key allows it); with exec disallowed only SFTP, rsync --server and the two git commands can be started, each only if the translation server provided options for it (SFTP falls back to the account's general options).", "quantifier": "every sequence of session requests with arbitrary payloads, every account configuration", "why_tests_cant": "adversarial inputs", "anchors": ["src/SessionChannel.cxx: OnRequest, Exec, ExecRsync, ExecGit, StartSftpServer"]}
{"id": "C42", "title": "At most one program per session channel", "statement": "RFC 4254 section 6.5: on each session channel at most one of shell, exec and subsystem requests succeeds in starting a program.", "quantifier": "every sequence and timing of requests and child exits", "why_tests_cant": "depends on asynchronous spawn timing", "anchors": ["src/SessionChannel.cxx: OnRequest, Exec, OnChildProcessExit", "src/SessionChannel.hxx: WasStarted"]}
{"id": "C43", "title": "Environment and command size are bounded", "statement": "The total size of environment variables and the command accepted on a session stays below the documented limit; a peer exceeding the environment limit is disconnected and an oversized command is refused.", "quantifier": "every sequence of env, pty-req and exec requests", "why_tests_cant": "cumulative bound over unbounded sequences", "anchors": ["src/SessionChannel.cxx: SetEnv, OnRequest", "src/SessionChannel.hxx: MAX_ENV_SIZE"]}
{"id": "C44", "title": "no-more-sessions is permanent", "statement": "After the client requested no-more-sessions no further session channel is ever created; an attempt disconnects the client.", "quantifier": "every history after the request", "why_tests_cant": "history property", "anchors": ["src/Connection.cxx: HandleGlobalRequest, CreateChannel"]}
{"id": "C45", "title": "Restricted commands are passed without shell interpretation", "statement": "For restricted rsync and git the client's command line is split/unquoted without a shell: the arguments passed are exactly those of the documented quoting rules, an argument quoted by the client's quoting function arrives unchanged, and malformed quoting is rejected; no argument can introduce another command.", "quantifier": "every command string", "why_tests_cant": "arbitrary text with escapes", "anchors": ["src/SessionChannel.cxx: SplitCmdline, ShellUnescapeOneSingleQuoted, ExecRsync, ExecGit"]}
{"id": "C46", "title": "Per-client connection limit and tarpit are bounded", "statement": "The number of simultaneous connections (including delayed ones) of a client address never exceeds the configured maximum; the tarpit delay is always a multiple of 100 ms and at most 60 seconds; a client is not delayed any more a minute after it was last found to be too fast, and cannot escape the delay before that by reconnecting; accounting entries with live connections are never dropped, the others are eventually deleted.", "quantifier": "every history of accepts, token bucket results, closes and cleanup timers, every limit", "why_tests_cant": "unbounded histories with time", "anchors": ["src/net/ClientAccounting.cxx", "src/Listener.cxx: OnAccept", "src/DelayedConnection.cxx"]}
{"id": "C47", "title": "Pseudo-terminal modes are decoded exactly", "statement": "Encoded terminal modes are processed as opcode/argument pairs up to the terminating opcode, a truncated pair or an opcode of 160 or more; each known mode is applied to exactly its flag or control character, unknown ones are skipped without losing synchronization, later settings win, and nothing outside the buffer is read.", "quantifier": "every byte string and every initial terminal state", "why_tests_cant": "arbitrary attacker-controlled bytes", "anchors": ["src/ssh/TerminalMode.cxx: ParseTerminalModes"]}
{"id": "C48", "title": "The proxy relays only connection-layer messages, in order, after the restrictions", "statement": "In proxy mode exactly the connection-layer messages (80-82, 90-100) are relayed, unchanged and in order, in both directions; and the options of the login key are sent to the target before any message of the client.", "quantifier": "every packet sequence in both directions with blocking", "why_tests_cant": "unbounded relay histories", "anchors": ["src/ProxyCheck.hxx", "src/ProxyConnectionHandler.cxx", "src/Connection.cxx: OnOutgoingUserauthSuccess, SendAuthorizedKeyOptions"]}
{"id": "C49", "title": "Version exchange", "statement": "For every byte stream and chunking the peer's version string is the first line without its line terminator if that line starts with SSH- and is accepted, everything after the line terminator is treated as packets; a first line of 255 or more bytes without terminator, or one not starting with SSH-, closes the connection.", "quantifier": "every byte stream and chunking", "why_tests_cant": "chunkings and contents are unbounded", "anchors": ["src/ssh/Connection.cxx: OnBufferedData"]}
{"id": "C50", "title": "Host key choice", "statement": "The server picks the first algorithm of the client's list for which it has a key, the key returned supports this algorithm, and the advertised algorithm list contains each supported algorithm exactly once.", "quantifier": "every sequence of added keys and every client list", "why_tests_cant": "unbounded lists", "anchors": ["src/key/List.cxx: Add, Choose"]}
{"id": "C51", "title": "Client-side authentication state machine", "statement": "As SSH client the connection is only considered authenticated after service request accepted, a request sent and the server's success reply, in this order; any channel or global message during authentication, or an unexpected reply, disconnects the server, and nothing the server sends is forwarded before success.", "quantifier": "every packet sequence from the server", "why_tests_cant": "adversarial sequences", "anchors": ["src/ssh/UserAuthClient.cxx"]}
{"id": "C52", "title": "One authentication attempt at a time", "statement": "While an authentication attempt is being processed asynchronously any other message except key exchange, ignore, new-compress and disconnect terminates the connection, so attempts never overlap; after success further attempts are ignored.", "quantifier": "every packet sequence and every completion timing", "why_tests_cant": "asynchronous interleavings", "anchors": ["src/ssh/UserAuthServer.cxx: HandlePacket, HandleUserauthRequest, OnUserAuthCompletion"]}
{"id": "C53", "title": "Both ends put the same ciphers into use", "statement": "If the messages of a key exchange between a client connection and a server connection arrive unchanged, then whatever one side uses for sending the other side uses for receiving: the same encryption algorithm, the same MAC, the same key, IV and MAC key, one of them encrypting and the other decrypting; and both have the same session id.", "quantifier": "every pair of runs of a client and a server with arbitrary messages before, between and after, every algorithm combination, initial and later exchanges", "why_tests_cant": "both endpoints choose independently; mirrored mistakes are invisible to tests of one side, and the combinations and histories are unbounded", "anchors": ["src/ssh/Connection.cxx: SendNewKeys, HandleNewKeys, HandleECDHKexInit, HandleECDHKexInitReply", "src/ssh/KexState.cxx: DeriveKeys, MakeCipher", "src/cipher/Factory.cxx: MakeCipher"]}
{"id": "C54", "title": "The server signs exactly this exchange", "statement": "As server, the connection never sends NEWKEYS or uses new keys without having sent, in the same exchange, a reply with one of its host keys and a signature by this key of the hash over both version strings, both KEXINIT packets, this host key, both ephemeral keys and the shared secret.", "quantifier": "every sequence of packets and events", "why_tests_cant": "the client decides what is hashed; histories with several exchanges cannot be enumerated", "anchors": ["src/ssh/Connection.cxx: HandleECDHKexInit", "src/ssh/KexHash.cxx: CalcKexHash"]}
{"id": "C55", "title": "Programs start only because they were asked for", "statement": "Every program started in a session answers an earlier shell, exec or subsystem request of the same session: what is run is the account's shell, the requested command, the requested subsystem or the forced command, never anything else, and no request starts more than one program.", "quantifier": "every sequence of packets, helper replies and completions", "why_tests_cant": "requests, their asynchronous preparation and process exits interleave arbitrarily; a stale continuation shows up only in particular orders", "anchors": ["src/SessionChannel.cxx: OnRequest, Exec, PrepareSftpServer", "src/Connection.cxx: CreateChannel"]}
{"id": "C56", "title": "Backpressure in proxy mode does not stall", "statement": "In proxy mode, reading from one connection is suspended only while the other one cannot send; whenever that ends, everything received meanwhile is passed on and reading resumes, so that no sequence of blocking and unblocking, in combination with key exchanges on both connections, brings the relay to a permanent standstill.", "quantifier": "every interleaving of socket events, worker thread completions, deferred events and key exchanges on both connections", "why_tests_cant": "a lost wakeup or a deadlock needs one particular interleaving of two connections, two worker threads and two timers", "anchors": ["src/ProxyConnectionHandler.cxx", "src/ssh/Connection.hxx: BlockRead, UnblockRead", "src/ssh/Connection.cxx: OnInputReady, OnBufferedWrite, SendKexInit, SendNewKeys"]}
{"id": "C57", "title": "Disabled control characters stay disabled", "statement": "If the client's terminal has no character for a control function (argument 255 in the encoded terminal modes), then the pseudo-terminal of the session has none either; all other characters are taken over unchanged.", "quantifier": "every byte string of terminal modes, every initial terminal state and every control character", "why_tests_cant": "arbitrary attacker-controlled bytes", "anchors": ["src/ssh/TerminalMode.cxx: ParseTerminalModes"]}
{"id": "C58", "title": "What one endpoint sends is what the other endpoint receives", "statement": "If the network delivers the bytes one lukko endpoint writes, in order and in any chunks, to another lukko endpoint with the matching ciphers, then the receiver sees exactly the messages that were sent, in the same order, each once, with the same sequence numbers and under the matching cipher, across any number of cipher changes and whatever the worker threads of both ends do; it never closes the connection because of what it received; and when everything has arrived, everything is delivered.", "quantifier": "all interleavings of main and worker thread on both sides, all chunkings of the byte stream, all packet sequences with cipher changes, all cipher algorithms and any cryptographic primitives", "why_tests_cant": "a test runs a few schedules on one pair of endpoints; the claim is about all schedules of four threads and all places where the stream can be cut", "anchors": ["src/ssh/Output.cxx: Output::Push, Flush, Run", "src/ssh/Output.hxx: SetCipher", "src/ssh/Input.cxx: Input::Feed, ReadPacket, Run, SetCipher", "src/cipher/ChaCha20Poly1305Cipher.cxx", "src/cipher/OsslCipher.cxx", "src/cipher/HmacSHA256Cipher.cxx"]}
{"id": "C59", "title": "Ciphers: round trip, integrity, no assertion failure", "statement": "For each negotiated cipher, the object made for receiving decrypts any sequence of packets encrypted by the object made for sending to the same packets; each cipher text is longer by the tag size; encrypting a packet which was padded for the cipher never fails. Whatever is accepted in place of the next packet is that packet, or it carries a valid tag for something the sender never authenticated (a forgery of the MAC). No data received from a peer makes an assertion fail.", "quantifier": "all cipher algorithms, keys, packet sequences and first sequence numbers, any bytes received, any cryptographic primitives", "why_tests_cant": "tests encrypt a few packets; replay, reordering, truncation and splicing of cipher texts and all lengths announced by an attacker cannot be enumerated", "anchors": ["src/cipher/Factory.cxx: MakeCipher", "src/cipher/ChaCha20Poly1305Cipher.cxx: Encrypt, DecryptHeader, DecryptPayload", "src/cipher/OsslCipher.cxx: Encrypt, DecryptHeader, DecryptPayload", "src/cipher/HmacSHA256Cipher.cxx: Encrypt, DecryptHeader, DecryptPayload"]}
{"id": "C60", "title": "The sequence number in packet authentication wraps at 2^32", "statement": "A peer whose packet sequence number wraps to zero after 2^32 packets, as RFC 4253 demands, can decrypt every packet of this program and vice versa, however many packets were exchanged.", "quantifier": "all sequence numbers up to 2^64, all packets, all ciphers", "why_tests_cant": "nobody sends 2^32 packets in a unit test", "anchors": ["src/cipher/HmacSHA256Cipher.cxx: InitState", "src/cipher/ChaCha20Poly1305Cipher.cxx: Encrypt, DecryptHeader, DecryptPayload", "src/ssh/Output.hxx: seq", "src/ssh/Input.hxx: read_seq, decrypt_seq"]}
{"id": "C61", "title": "No key stream byte is used for two packets", "statement": "With one cipher object, fewer than 2^64 packets are encrypted with pairwise disjoint parts of the key stream: no nonce, counter or stream position is used for two packets, and the cipher text depends on no other key stream bytes.", "quantifier": "all cipher algorithms, keys, packet sequences shorter than 2^64 and first sequence numbers", "why_tests_cant": "key stream reuse shows only by comparing all pairs of packets of arbitrarily long sequences", "anchors": ["src/cipher/ChaCha20Poly1305Cipher.cxx: Encrypt", "src/cipher/OsslCipher.cxx: IncrementIV, Encrypt", "src/cipher/HmacSHA256Cipher.cxx: Encrypt"]}
{"id": "C62", "title": "A failure reply lists the methods which can succeed", "statement": "Each authentication failure reply names either no method at all (user or service unusable) or exactly those which are configured: publickey always, hostbased if host keys are authorized, password if there is a translation server. Whoever logs in has used one of these, unless the password was waived.", "quantifier": "all configurations, all sequences of events and requests, all answers of account database and translation server", "why_tests_cant": "the list must agree with what any later request can do, over all configurations and histories", "anchors": ["src/Connection.cxx: OnUserAuthRequest", "src/ssh/AuthMethods.hxx: ToString", "src/ssh/MakePacket.hxx: MakeUserauthFailure"]}
{"id": "C63", "title": "Programs run with a complete identity", "statement": "Each program started for a client runs with a user id, a group id and a home directory which somebody has decided (translation server or account database); an incomplete answer of the translation server ends the connection instead.", "quantifier": "all sequences of events, all requests and all responses of the translation server", "why_tests_cant": "the responses come from another server and can lack any attribute; the claim is about every program of every session", "anchors": ["src/Connection.cxx: CheckTranslateResponse, PrepareChildProcess, OnUserAuthRequest"]}
{"id": "C64", "title": "A valid credential is accepted", "statement": "On a new connection a user whose account exists and who sends a well-formed request with a valid credential (a signature made with a key which is listed in the text of the translation server, in the configuration or in the readable authorized_keys file; a signature made with an authorized host key; a password which the translation server accepts; or nothing if it waives the password) is logged in under exactly this name.", "quantifier": "all user names, accounts, key lists, files, session identifiers and requests up to the packet size limit", "why_tests_cant": "a test tries a few keys and files; the claim is that no valid combination is rejected", "anchors": ["src/Connection.cxx: OnUserAuthRequest, IsAcceptedPublicKey, IsAcceptedHostPublicKey, LazyTranslate, OpenInHome", "src/key/Set.cxx", "src/key/TextFile.cxx"]}
{"id": "C65", "title": "Programs run with the account's shell, terminal and environment", "statement": "A shell or command which a client starts is run by the account's login shell (what the translation server says, else the account database, else /bin/sh), an interactive shell under a login shell's name. The client-supplied part of its environment is exactly what was accepted on this channel. It has a terminal only if one was allocated on this channel, and then it has it unless that terminal was closed meanwhile; file transfer programs never have one.", "quantifier": "all sequences of events and requests, all accounts and translation responses", "why_tests_cant": "the claim is about every program of every interleaving of requests, spawner answers and exits on any number of channels", "anchors": ["src/SessionChannel.cxx: Exec, OnRequest, SpawnChildProcess, LoginShellName, SetStderrString", "src/Connection.cxx: GetShell"]}
{"id": "C66", "title": "Public keys are written and read in the standard format", "statement": "Writing a public key gives its blob as the RFCs define it (RFC 8709, RFC 4253 6.6, RFC 5656 3.1), reading this blob gives the key back, a key has exactly one blob and a blob belongs to exactly one key, and nothing but such blobs is accepted.", "quantifier": "all Ed25519, RSA and ECDSA P-256 keys and all byte strings offered as a key", "why_tests_cant": "keys are numbers of thousands of bits with encoding corner cases (leading zeroes, sign bit); tests try a handful", "anchors": ["src/key/Parser.cxx: ParsePublicKeyBlob", "src/key/Ed25519Key.cxx: SerializePublic", "src/key/RSAKey.cxx: SerializePublic", "src/key/ECDSAKey.cxx: SerializePublic", "src/openssl/SerializeBN.cxx", "src/openssl/DeserializeBN.cxx", "src/openssl/DeserializeRSA.cxx", "src/openssl/DeserializeEC.cxx"]}
{"id": "C67", "title": "Signatures made with a key verify with it, and only valid ones do", "statement": "A signature made with a private key and an algorithm names this algorithm and verifies with the public key. A signature is accepted only if it names an algorithm of the key and the cryptographic primitive accepts it for exactly this message with the hash function of this algorithm. Every algorithm which a key offers can be used.", "quantifier": "all keys, messages, algorithm names and byte strings offered as a signature; all primitives which verify what they have signed", "why_tests_cant": "the claim is over all signatures an attacker can send and all messages", "anchors": ["src/key/Ed25519Key.cxx: Sign, Verify, GetAlgorithms", "src/key/RSAKey.cxx: Sign, Verify, GetAlgorithms", "src/key/ECDSAKey.cxx: Sign, Verify, GetAlgorithms", "src/openssl/Sign.cxx", "src/openssl/Verify.cxx"]}
{"id": "C68", "title": "Private key files are loaded as they are", "statement": "An unencrypted OpenSSH private key file (binary or text form, any comment, padding and white space) loads as exactly the key in it; a file which needs a passphrase is refused; nothing else is loaded.", "quantifier": "all keys, comments, paddings, check numbers, base64 texts and file contents", "why_tests_cant": "files come from other programs with arbitrary numbers and lengths; a wrong component of a key shows only in some signatures", "anchors": ["src/key/Parser.cxx: ParseSecretKey, ParseOpenSSHV1, ParseOpenSSHV1PrivateKeys, ParseSSHAgentKey", "src/openssl/DeserializeRSA.cxx: CalcFactorExponent, DeserializeRSA"]}
{"id": "C69", "title": "A client which does not log in is disconnected in time", "statement": "A client which has not authenticated is disconnected: at the latest 130 seconds after it connected (10 seconds until its first authentication request, then 120 seconds, each plus the delay with which the event loop runs timers) the connection is over or the client has logged in. The timeout never strikes before these times, and never after the login.", "quantifier": "every server configuration, every sequence of packets, answers of the outside world and times at which they happen, every delay of the event loop", "why_tests_cant": "A test would have to try every interleaving of slow requests, failed attempts and suspended authentication with the timer; that no such interleaving postpones the deadline again is an invariant over all histories.", "anchors": ["src/Connection.cxx: Connection, OnUserAuthRequest, OnAuthTimeout, OnDisconnecting", "src/Connection.hxx: auth_timeout"]}
{"id": "C70", "title": "Forwarded connections are made as the user and to the requested target", "statement": "With a translation server, every TCP connection, listener and local socket connection which a client requests is made by a process with the user id, group id and namespaces which the translation server has sent for the user who logged in, never by the SSH server itself; if these ask for an isolated network, no TCP connection and no listener is made. Without one, local sockets are connected with the ids of the passwd entry. Every such connection is made for a packet of the client which asks for exactly this target (host or path, port; \"localhost\" and the empty address as in RFC 4254), and what an account may ask for is attempted.", "quantifier": "every configuration, every sequence of packets and answers of the outside world, every account, every host name, path and port", "why_tests_cant": "It concerns every combination of account, request and history; a test can only try a few requests with a few accounts, and would not try host names with null bytes.", "anchors": ["src/RConnect.cxx: ResolveConnectTCP, NsResolveConnectTCPFunction", "src/RBind.cxx: ResolveBindTCP, SshResolveBindStreamSocket, NsResolveBindTCPFunction", "src/Delegate.cxx: DelegateLocalConnect, ReceivePath", "src/Connection.cxx: GetNetworkChildOptions, CreateChannel, HandleGlobalRequest, IsForwardingAllowed"]}
{"id": "C71", "title": "A forwarded port accepts connections from its request to its cancellation", "statement": "A connection accepted on a server-side forwarded port (tcpip-forward) is offered to the client only if the client asked for this address and port, the server bound it, and the client has not cancelled it since; conversely, after the server has reported success every connection to the port is offered to the client until it cancels the forwarding or the connection ends; a cancel-tcpip-forward request is answered with success exactly if such a forwarding existed, and then no further connections are offered.", "quantifier": "every history of client packets and environment events, every address and port, every point of binding, accepting and cancelling", "why_tests_cant": "The set of open listeners depends on the whole history of forwarding requests, asynchronous binding results and cancellations.", "anchors": ["src/Connection.cxx: HandleGlobalRequest", "src/SocketForwardListener.hxx: IsBindAddress", "src/SocketForwardListener.cxx: OnAccept"]}
{"id": "C72", "title": "The conversation with the translation server is exact", "statement": "The request sent to the translation server carries exactly the service name, the listener's tag, the user name and, if one was given, the password, each as one packet of the translation protocol, and two different logins never give the same request; a user name or password of more than 256 bytes is refused before anything is sent. The login record is built from exactly the packets of the response up to its end, however the response is cut into pieces by the network, and nothing is returned before the end of the response has arrived; whether data behind the end is rejected does not depend on how it arrives.", "quantifier": "every tag, user name and password, every response and every way it is cut into pieces, including end of file and read errors at every point", "why_tests_cant": "The cuts and the contents of requests and responses are unbounded; tests see whole responses of a friendly server.", "anchors": ["src/translation/LoginClient.cxx: TranslateLogin, SendTranslateLogin, ReceiveResponse", "src/Connection.cxx: LazyTranslate", "src/Config.cxx: ConfigParser (tag)"]}
{"id": "C73", "title": "The end of a program is reported, then the channel is closed", "statement": "On a session channel no data and no second end-of-file follows end-of-file; each program's end is reported exactly once, after it was started and when it ends; the server closes the channel only after all ends were reported and end-of-file was sent, sends nothing after that, and does close it as soon as no program runs and nobody can produce output any more. The report carries the exit code of the program, or the name of the signal and whether a core was dumped.", "quantifier": "every interleaving of output, end of output, exit, window adjustments, key exchanges and blocked writes; every exit code and signal", "why_tests_cant": "The events race: output may end before or after the exit, descendants may hold the pipes, writing may be blocked at each of these points.", "anchors": ["src/SessionChannel.cxx: OnChildProcessExit, OnStdoutReady, OnStderrReady, OnTtyReady, CloseIfInactive", "src/SessionChannel.hxx: MaybeSendEofAndClose, IsActive", "src/ssh/Channel.cxx: SendExitStatus, SendExitSignal"]}
{"id": "C74", "title": "Messages are built in the standard format", "statement": "Each message the server builds itself (disconnect, unimplemented, service request and accept, extension info, authentication results and requests, channel opening, confirmation, failure, data, extended data, window adjustment, end-of-file, close, requests and answers, global answers) is the message number followed by the fields of the RFC in order, for all values of the fields, or it is not built at all because it does not fit into the buffer; finished for any cipher it arrives as it is. A client which is turned away gets an identification line and exactly one disconnect message.", "quantifier": "every value of every field, every buffer contents before, every padding and block size", "why_tests_cant": "A swapped or missing field shows only with values tests do not use; sizes near the limit of the buffer are rare.", "anchors": ["src/ssh/MakePacket.hxx", "src/ssh/Channel.cxx", "src/ssh/CSupport.cxx: OpenChannel, AsyncChannelOpenSuccess, AsyncChannelOpenFailure", "src/ssh/Connection.cxx: SendExtInfo", "src/ssh/EarlyDisconnect.cxx: SendEarlyDisconnect", "src/SocketForwardListener.cxx: SerializeOpen", "src/AgentForward.cxx: SerializeOpen"]}
{"id": "C75", "title": "Logins are sent to the right member of a cluster", "statement": "If logins are passed on to a cluster found by Zeroconf, the chosen server is one which is currently announced and has the best score for the login's architecture and its site (or user name). The choice depends on nothing but the set of announced servers (as long as scores differ): not on the order of announcements, earlier choices or the state of the sort. Removing another server never changes it; a new server either takes over or changes nothing. An empty cluster is reported, and an own server is skipped if so configured.", "quantifier": "all sequences of announcements, updates, removals and choices; all scoring functions, architectures, names and results of unstable sorting", "why_tests_cant": "the claim is about all histories of members coming and going and about every permutation an unstable sort may leave", "anchors": ["src/ZeroconfCluster.cxx: Pick, OnAvahiNewObject, OnAvahiRemoveObject, FillMemberList", "src/Listener.cxx: GetProxyTo", "src/Connection.cxx: OnUserAuthRequest"]}
{"id": "C76", "title": "Administrative commands do what they say", "statement": "The control command TERMINATE_CHILDREN ends exactly the connections whose programs carry one of the tags sent by the translation server equal to the given one, on all listeners, and all others go on unchanged; no other command ends a connection. The log level and the publication of services are changed only by local senders and only by the commands for this purpose. RELOAD_STATE makes each tagged listener's service visible or not exactly as the state directory says.", "quantifier": "all control packets, senders, sets of listeners and connections, tag lists and contents of state files", "why_tests_cant": "tags are matched inside lists sent by another server; the claim is over all lists, all sets of connections and all senders", "anchors": ["src/Control.cxx: OnControlPacket", "src/Instance.cxx: ReloadState", "src/Listener.cxx: TerminateChildren, SetZeroconfVisible", "src/Connection.cxx: HasTag, Terminate"]}
{"id": "C77", "title": "Both ends of a key exchange compute the same secret", "statement": "The shared secret is the number on which both ends agree, in the one representation which the RFCs prescribe (a string with the shortest mpint); it is computed for exactly the acceptable public keys: a Curve25519 key of a wrong size or one which leads to the all-zero secret is rejected. If the messages of an exchange arrive unchanged, client and server have the same secret, the same session identifier and matching ciphers and keys, without further assumptions.", "quantifier": "all curves which satisfy the Diffie-Hellman law, all secrets and public keys, all runs of a client and a server", "why_tests_cant": "a leading zero or sign bit occurs in 1 of 256 exchanges; the claim is for all secrets and both algorithms", "anchors": ["src/ssh/KexCurve25519.cxx: GenerateSharedSecret, SerializeEphemeralPublicKey", "src/ssh/KexECDH.cxx: GenerateSharedSecret, EVP_PKEY_derive", "src/ssh/Serializer.hxx: WriteBignum2, CommitBignum2", "src/ssh/Connection.cxx: HandleECDHKexInit, HandleECDHKexInitReply"]}
{"id": "C78", "title": "Connections waiting to be forwarded are handed over or closed exactly once", "statement": "Every connection accepted on a forwarded port or on a forwarded agent socket is announced to the client in a channel of its own (or closed at once if no channel number is free) and then waits. It is handed over to the new channel only after the client has confirmed it, or is closed when its peer hangs up, when the listener is canceled, when the session that owns the listener ends or when the SSH connection ends: exactly one of these, exactly once. While it waits, the client's answer is still to come and the listener still exists; after the end of the SSH connection nothing waits. The waiting object is never used after it was freed. (False as it stands: a client which refuses the channel makes the server use a freed object; proved for all histories without such a refusal.)", "quantifier": "all sequences of new listeners, accepted connections, hangups, cancellations, client packets and channel operations, of any length", "why_tests_cant": "The order of hangup, confirmation, cancellation and disconnect is up to the network and the client; the freed object is rarely noticed without a sanitizer.", "anchors": ["src/SocketForwardListener.cxx: SocketForwardListener::Factory, OnAccept, ~SocketForwardListener", "src/AgentForward.cxx: AgentForward::Factory, OnAccept, ~AgentForward", "src/ssh/CSupport.cxx: RequestedChannel, OpenChannel", "src/Connection.cxx: ~Connection, OnDisconnecting"]}
{"id": "C79", "title": "The configuration file means exactly what it says", "statement": "The server starts exactly with those configuration files whose sections, options and values are known and complete, and refuses all others; the resulting configuration is, for every option, the value of its last line (all lines, for key files) or the documented default; without a listener section there is one listener on port 2200; every listener has an address and a host key; a proxy only forwards to a cluster defined above it in the file, for which host keys are known; ack_timeout is in seconds, and mode is an octal permission.", "quantifier": "every configuration file as a sequence of lines, every set of compile-time options, every behaviour of the address, key and Zeroconf parsers", "why_tests_cant": "tests read a few example files; they cannot show that no other file is accepted, nor that an option keeps its meaning after any other lines", "anchors": ["src/Config.cxx: LukkoConfigParser, LoadConfigFile, Config::Check", "src/Config.hxx: ListenerConfig, ZeroconfClusterConfig, Config", "src/Main.cxx: LoadHostKeys", "src/Listener.cxx: LoadProxyHostKeys, GetSendClientAddress"]}
{"id": "C80", "title": "Flow control of incoming channel data", "statement": "A peer which never sends more on a channel than the server granted (with the confirmation of the channel and later CHANNEL_WINDOW_ADJUST packets) is never disconnected for exceeding the window, however slowly the program or the forwarded connection takes the data; what the server buffers plus what the peer may still send never exceeds 1 MiB per channel; and when everything has been passed on, the peer may send at least 512 KiB more, so that transfers never stall. Data of a forwarded connection arrives in order, and the server waits for the socket while something is left. No assertion about the window can fail.", "quantifier": "every sequence of data, extended data and end-of-file packets, interleaved in every way with the program being started, and every sequence of short, failing or blocking writes", "why_tests_cant": "the window is right only if every path which consumes bytes accounts for them exactly once; a stall appears only after a megabyte of a particular mix of partial writes", "anchors": ["src/ssh/Channel.cxx:ConsumeReceiveWindow,SendWindowAdjust,OnExtendedData", "src/ssh/CSupport.cxx:HandleChannelData,HandleChannelExtendedData", "src/SessionChannel.cxx:OnBufferedData", "src/SocketChannel.cxx:OnBufferedData,OnSocketReady", "src/ssh/BufferedChannel.cxx:OnData,ReadBuffer"]}
{"id": "C81", "title": "Keys are renewed in time", "statement": "After authentication the encryption keys of a connection are renewed: while no key exchange is in progress the last one was completed (or the user logged in) at most one hour ago, and as soon as one GiB has been sent with the same keys the server begins a key exchange; it never begins one without such a reason, and the peer can always complete it. Keys are never older or used for more data than that.", "quantifier": "every sequence of packets sent and received, key exchange messages in any order and with any failure, authentication, timer expiry and passing of time, in both roles", "why_tests_cant": "the limits are reached after an hour or a gigabyte, and the timer is cancelled and rescheduled in six places whose order depends on the peer", "anchors": ["src/ssh/Connection.cxx:SetAuthenticated,InitiateRekey,OnRekeyTimer,SendPacket,SendNewKeys,HandleKexInit,HandleNewKeys", "src/ssh/Connection.hxx:REKEY_BYTES,REKEY_INTERVAL,kex_flags"]}
{"id": "C82", "title": "The counters for authentication requests count what happened", "statement": "The exported counters agree with what clients were told: as many requests are counted as received as have arrived and can be read; as many are counted as accepted as have logged in a client, each under the method that was used; and as many are counted as failed as were refused (other than requests of the method \"none\"), each once and under its method. Connections do not disturb each other's requests.", "quantifier": "every number of connections, every interleaving of their events, every request (readable or not) and every answer of the translation server, the passwd database and the file system", "why_tests_cant": "each of the two dozen exits of the request handler has its own increments; a missing or additional one shows only in the sum over a particular history of many connections", "anchors": ["src/Connection.cxx:OnUserAuthRequest,LazyTranslate", "src/Instance.hxx:counters", "src/Instance.cxx:OnPrometheusExporterRequest"]}
{"id": "C83", "title": "The tarpit limits the guessing of passwords", "statement": "With the tarpit enabled, the number of passwords a client address can try without success is limited by the time it has taken: after a one-off allowance, at most one for every nine seconds plus one for every minute and allowed connection, however many connections it uses and however its requests are timed. Every refused password costs nine tokens. A client that stays within its tokens (ten, and one per second) is never delayed.", "quantifier": "every sequence and timing of connections, requests of any method, cancelled requests and answers of the translation server; every limit on connections; every request", "why_tests_cant": "the delay is shared by all connections of an address, rises and falls with every request, and is read when a request begins; the limit is about all interleavings over an unbounded time", "anchors": ["src/net/ClientAccounting.cxx:PerClientAccounting::UpdateTokenBucket,Check,AddConnection,RemoveConnection", "src/Listener.cxx:OnAccept", "src/DelayedConnection.cxx:OnTimer", "src/Connection.cxx:OnUserAuthRequest"]}
{"id": "C84", "title": "The environment of a program", "statement": "A shell or command is told the name under which its client has logged in (USER, LOGNAME), the login shell, the addresses of the connection, the home directory if there is one, and with a forced command what the client has asked for; every program which looks a variable up with getenv() gets the server's value, whatever the client has sent; the remaining variables are those which this channel's own requests have set, the last one of a name prevailing; rsync and git get none of them.  It is not true that a program cannot see the client's value of such a variable (a shell which imports the environment string by string, like bash, sees the client's), nor that with a forced command the client decides about nothing but TERM: a variable of any name is accepted.", "quantifier": "all sequences of packets and events, all accounts, all addresses, all environments and home directories given by the translation server, all names and values in requests (also with null bytes and equals signs)", "why_tests_cant": "depends on the order in which several functions append to one list, for all names; the dangerous cases are names nobody has thought of", "anchors": ["src/SessionChannel.cxx: PrepareExec, PrepareAddressEnv, PrepareHome, PrepareAgentForward, PrepareSftpServer, SpawnChildProcess, SetEnv, Exec, ExecRsync, ExecGit", "src/Connection.cxx: PrepareChildProcess, GetShell"]}
{"id": "C85", "title": "Encrypted packets have the standard format", "statement": "For every negotiated cipher, every key material, every first sequence number and every sequence of packets, the bytes which the server sends for them are those of the standards (chacha20-poly1305@openssh.com: the first half of the key for the payload and the one-time Poly1305 key, the second half for the length, the sequence number as nonce, payload from block 1 on; AES-GCM: the length in clear as additional data, the invocation counter starting at the derived IV and incremented per packet; AES-CTR with hmac-sha2-256: one continuous key stream and a MAC of sequence number and plain packet); conversely the server decrypts everything that a peer has made this way; the method is the first known one of the negotiated list, and the derived keys suffice for each.", "quantifier": "all lists of algorithm names, keys, IVs, MAC keys, sequence numbers, all finite sequences of packets of any contents, all primitives", "why_tests_cant": "A test compares a few packets with one other implementation; a mistake which both ends of the same implementation share (swapped keys, a counter off by one) passes every round-trip test.", "anchors": ["src/cipher/ChaCha20Poly1305Cipher.cxx ChaCha20Poly1305Cipher()", "src/cipher/ChaCha20Poly1305Cipher.cxx Encrypt()", "src/cipher/OsslCipher.cxx Encrypt()", "src/cipher/HmacSHA256Cipher.cxx Encrypt()", "src/cipher/Factory.cxx MakeCipher()"]}
{"id": "C86", "title": "Nothing is sent after DISCONNECT, and everything else has stopped", "statement": "In every history of a client's connection and of its connection to a backend, DISCONNECT is the last packet of each connection, it is sent at most once, and no assertion fails; while it is being written, authentication, timers, channels and port forwardings are stopped, packets of the client have no effect, and the connection is destroyed as soon as the output is empty. When the connection to the backend is lost, the client's connection is ended, and the other way round.", "quantifier": "all sequences of packets, timeouts, program output, accepted connections, socket events and results of authentication, on both connections of a proxy, with assertions enabled or disabled", "why_tests_cant": "What breaks it is a race between the end of one connection and an event on the other one; a unit test sees only the interleavings its author thought of.", "anchors": ["src/ssh/Connection.cxx: DoDisconnect, OnBufferedWrite, OnInputReady, SendPacket", "src/Connection.cxx: OnDisconnecting, OnOutgoingUserauthSuccess, OnOutgoingError, OnAuthTimeout", "src/OutgoingConnection.cxx", "src/ProxyConnectionHandler.cxx", "src/ssh/CSupport.cxx: OnDisconnecting", "src/ssh/GSupport.cxx: OnDisconnecting"]}
{"id": "C87", "title": "The server identifies itself with the keys it was given", "statement": "The server starts with exactly the keys in its host key files; missing files are skipped, but if one of them cannot be opened, is not a regular file, is larger than 32 kB or contains no key, the server does not start. New keys are made only if there is no file at all. A listener uses its own keys and, if it has none, those of the server. A client gets the key for the first algorithm in its list for which there is a key, and if there is none, no key. The global authorized_keys file authorizes the keys listed in it and nothing else.", "quantifier": "all contents of the configuration directory, all results of open, fstat and read, all lists of algorithms of clients, all listeners", "why_tests_cant": "Which key is presented depends on the combination of files, file errors and the client's list; a test tries a few directories, and a server which silently presents a different identity after a file error is noticed only by its users.", "anchors": ["src/Main.cxx: LoadHostKeys, LoadOptionalKeyFile, LoadGlobalAuthorizedKeys", "src/key/LoadFile.cxx: LoadKeyFile", "src/key/List.cxx: SecretKeyList", "src/Listener.cxx", "src/ssh/SimpleHostKeyChooser.cxx"]}
{"id": "C88", "title": "Output waiting for a client which does not read", "statement": "What the server keeps in memory for a client that does not read its answers is limited. Proved: the output of a program that waits is within what the client has granted (its window and all adjustments); a server that encrypts and writes promptly keeps its own answers plus 4096 bytes for each time a suspended program may go on. Refuted: there is no limit independent of what the client sends. Before any login, a client that sends unknown messages and never reads makes the server queue answers without limit; after login, a client that never reads but extends an exhausted window makes the server queue program output without limit although writing is blocked.", "quantifier": "all configurations, client messages, program outputs, window adjustments, schedules of the worker thread and of the socket, and every amount which the kernel takes", "why_tests_cant": "A test observes one client for a finite time; the claim is about the largest backlog over all histories, and the refutation needs histories of any length.", "anchors": ["src/ssh/Connection.cxx:OnBufferedWrite", "src/ssh/Connection.cxx:SendPacket", "src/ssh/Output.cxx:Push", "src/ssh/Output.cxx:Flush", "src/SessionChannel.cxx:OnWindowAdjust", "src/SessionChannel.cxx:OnStdoutReady"]}
{"id": "C89", "title": "The log tells who logged in and how the connection ended, and only the server writes it", "statement": "For every connection, the lines 'Accepted publickey/hostkey/password for USER' in its log name exactly the users who were logged in, in that order, and the key named in such a line is the key whose signature over this very request was verified; 'Failed password for USER' is only written for a request with a password which was refused. After a login every line carries the user name. There is exactly one line about the end of the connection once it has ended and never more than one, and it gives the reason (timeout, termination, the client's own message, or a plain close). Full statement: every line of the log is a message of the server, and 'Accepted password' means that there was a password. Both do not hold: the description in a client's DISCONNECT message is logged as it is, so a client which has not logged in adds any line it likes; and a user who needs no password is logged as 'Accepted password'.", "quantifier": "all configurations, session ids, request payloads, answers of the translation server, orders of events and ends of the connection, all texts a client may send", "why_tests_cant": "a test sees the log of a few connections; that no history exists whose log lacks a login, invents one or has two ends is a statement about all of them", "anchors": ["src/Connection.cxx: Connection::OnUserAuthRequest, LogVFmt, OnDisconnecting, OnDisconnected, OnAuthTimeout, Terminate, ~Connection", "src/Connection.hxx: log_disconnect", "src/ssh/Connection.cxx: HandleDisconnect"]}
{"id": "C90", "title": "The counters for connections and packets count what happened", "statement": "At any time the exported counters are the numbers of events since the start of the server: clients which arrived, clients which were refused, delays applied, connections terminated, unsupported services asked for, violations of the protocol. The gauge of active connections is the number of connections opened and not yet closed; none is opened or closed twice. The counters of closed connections (by reason) together never exceed the number of connections which the server has disconnected. The bytes counted as sent are whole binary packets without authentication code, those counted as received are messages.", "quantifier": "for every history of arriving clients, delays, authentication requests, control packets, disconnects for any reason and closed sockets, with any accounting settings", "why_tests_cant": "a connection stays in the list of its listener while its last packet is being encrypted, and other events (such as a control packet) can reach it there; unit tests do not enumerate such interleavings, nor do they compare counters over arbitrary histories", "anchors": ["src/Listener.cxx: Listener::OnAccept", "src/Connection.cxx: Connection::Terminate, Connection::OnDisconnecting, Connection::OnUnsupportedService, Connection::OnUserAuthRequest", "src/ssh/Connection.cxx: Connection::DoDisconnect, Connection::SendPacket, Connection::OnInputReady", "src/Instance.cxx: Instance::OnPrometheusExporterRequest"]}
{"id": "C91", "title": "A login by key cannot be relayed by somebody in between", "statement": "If the server reports that a client was logged in by a key signature, then the owner of that key has signed this request in a session of their own client, and that client's first key exchange is the server's first key exchange: same version strings, same KEXINIT packets, same host key, same ephemeral keys, same secret; the client has accepted this host key and verified the server's signature, and the ciphers which the two ends put into use in this exchange match. What a client signs for another server does not log anybody in here. The only way out is a collision of the hash function between these two handshakes.", "quantifier": "all servers and clients of the modelled program with the same 32 byte hash function, all histories of packets, versions, timers and random values at both ends with whatever an attacker does in between, all configurations, user names, keys and requests, under the assumption that signatures are not forged and that clients sign only in their own sessions", "why_tests_cant": "a test shows one man in the middle failing; the claim is about every interleaving of two key exchanges and about everything an attacker may replay or alter", "anchors": ["src/ssh/Connection.cxx: HandleECDHKexInit, HandleECDHKexInitReply, HandleNewKeys", "src/ssh/KexHash.cxx: CalcKexHash", "src/Connection.cxx: OnUserAuthRequest"]}
{"id": "C92", "title": "The log names the key of a login", "statement": "The line about a login by key (\"Accepted publickey for U: TYPE FINGERPRINT\", and the one for host keys) shows the type and the SHA-256 fingerprint, as in RFC 4648 base64 of the hash of the canonical public key, of the very key whose signature over this session and this user was verified. The fingerprint is never cut off, is in one line, and two lines which show the same fingerprint are about the same key (or a collision of SHA-256 has been found). Full statement: the fingerprint also tells which of the authorized entries was used.", "quantifier": "all keys, requests, connections, configurations and histories of events; any two log lines of any two connections", "why_tests_cant": "a test compares the fingerprint of some keys; that no two keys ever share one, and that the key in the log is always the one which was verified, is a statement about all keys and all histories", "anchors": ["src/key/Fingerprint.cxx GetFingerprint", "src/Connection.cxx:968-1036 OnUserAuthRequest", "src/Connection.cxx:1037-1125 OnUserAuthRequest", "src/key/Parser.cxx ParsePublicKeyBlob"]}
{"id": "C93", "title": "Data sent by the client reaches the program end to end, unchanged and in order", "statement": "The bytes which a client puts into CHANNEL_DATA messages for a channel are the bytes which the program behind that channel reads on its standard input (or which the peer of a forwarded connection reads from its socket): nothing is altered, duplicated, reordered, taken from or given to another channel, whatever the transport threads, rekeying, the network, other channels and the reading program do. Precisely: what has been written to the program (or discarded after an error), followed by what is still waiting in the server, is the data of the messages submitted by the client for this channel since it was opened; if no write() fails and nothing follows the client's CHANNEL_EOF, nothing is discarded. Everything sent before CHANNEL_CLOSE is delivered.", "quantifier": "all interleavings of both transports' threads and the network, all sequences of messages and channel operations, all partial writes and errors of the program's pipe or the forwarded socket", "why_tests_cant": "the property spans six components (output queue, cipher worker, input queue, packet parser, channel table, buffered channel) whose interleavings cannot be enumerated by tests of single components", "anchors": ["src/ssh/Output.cxx: Output::Push, Flush", "src/ssh/Input.cxx: Input::Feed, ReadPacket", "src/ssh/CSupport.cxx: ChannelSupport::HandleChannelData, HandleChannelEof, HandleChannelClose", "src/ssh/BufferedChannel.cxx: BufferedChannel::OnData, OnEof, ReadBuffer", "src/SessionChannel.cxx: SessionChannel::OnBufferedData", "src/SocketChannel.cxx: SocketChannel::OnBufferedData"]}
{"id": "C94", "title": "What a program writes is what the client receives, end to end", "statement": "On one of the client's channels the client hears, in CHANNEL_DATA and CHANNEL_EXTENDED_DATA messages decoded from the encrypted byte stream, exactly the beginning of what the program wrote to standard output (or of what the forwarded socket delivered), and of what it wrote to standard error: nothing is added, changed, reordered, repeated, or taken from another channel. If the client hears CHANNEL_EOF on the channel of a program with pipes, it has heard all of both. Once every packet has arrived, it has heard everything which was sent.", "quantifier": "all programs' writes and exits, all interleavings of reads, window adjustments, key exchanges, blocked writes, worker threads and fragmentation by the network, all numbers of concurrent channels and all client channel numbers", "why_tests_cant": "The property composes the event loop, the flow control, the packet building, the cipher threads and the network; tests try a handful of schedules of one layer at a time.", "anchors": ["src/SessionChannel.cxx: OnStdoutReady, OnStderrReady, OnTtyReady", "src/SessionChannel.hxx: MaybeSendEofAndClose", "src/SocketChannel.cxx: OnSocketReady", "src/ssh/Channel.cxx: SendData, SendExtendedData, SendEof", "src/ssh/PacketSerializer.hxx", "src/ssh/Output.cxx", "src/ssh/Input.cxx"]}
{"id": "C95", "title": "A client's requests on a channel are answered in order, end to end", "statement": "Every CHANNEL_REQUEST which a client sends on a channel (pty-req, env, shell, exec, subsystem, ...) is handed to the session of that channel, with its type, its data and its 'want reply' flag, in the order in which it was sent, and to no other session. The k-th CHANNEL_SUCCESS or CHANNEL_FAILURE which the client decodes from the encrypted byte stream for this channel is the result of the k-th request for which it wanted a reply, however long each handler takes and in whatever order handlers finish. Once everything has arrived and all handlers have finished, each such request has its answer. No answer is made up or belongs to another channel.", "quantifier": "all interleavings of both transports' threads and networks in both directions, all sequences of messages and channel operations, all completion orders of asynchronous request handlers, all numbers of concurrent channels and all client channel numbers", "why_tests_cant": "The replies carry no identifier: a client can only count them. The order depends on the schedule of handlers, channels, cipher threads and the network, which tests of single layers cannot enumerate.", "anchors": ["src/ssh/CSupport.cxx: ChannelSupport::HandleChannelRequest", "src/ssh/Channel.cxx: Channel::HandleRequest, SubmitRequestResponses", "src/ssh/ParsePacket.hxx: ParseChannelRequest", "src/ssh/PacketSerializer.hxx", "src/ssh/Output.cxx", "src/ssh/Input.cxx"]}
{"id": "C96", "title": "A client's global requests are answered in order, end to end", "statement": "Every GLOBAL_REQUEST which a client sends after its login (tcpip-forward, cancel-tcpip-forward, no-more-sessions@openssh.com, ...) is handed to the connection's handler with its name, its data and its 'want reply' flag, in the order in which it was sent, as long as the connection lives. The k-th REQUEST_SUCCESS or REQUEST_FAILURE which the client decodes from the encrypted byte stream is the result of the k-th global request for which it wanted a reply, however long each handler takes (resolving and binding an address in a helper process) and in whatever order handlers finish. Once everything has arrived and all handlers have finished, each such request has its answer.", "quantifier": "all interleavings of both transports' threads and networks in both directions, all sequences of global requests between other messages, all completion orders of asynchronous handlers", "why_tests_cant": "The replies carry no identifier: a client can only count them, and an extra or swapped reply makes it believe that a port is forwarded which is not. The order depends on the schedule of handlers, cipher threads and the network, which tests of single layers cannot enumerate.", "anchors": ["src/ssh/GSupport.cxx: GlobalRequestSupport::HandleGlobalRequest, SubmitGlobalRequestResponses, OnGlobalRequestDone", "src/ssh/ParsePacket.hxx: ParseGlobalRequest", "src/Connection.cxx: Connection::HandleGlobalRequest", "src/ssh/Output.cxx", "src/ssh/Input.cxx"]}
{"id": "C97", "title": "A session through a proxy is the client's session, end to end", "statement": "When lukko is a proxy, the connection-layer messages (80-82, 90-100) which the target decodes from its encrypted connection are, after the restrictions of the login which the proxy sends first, the beginning of those which the client has put into its own encrypted connection since it logged in: none is added, lost, changed or reordered, whatever the threads on all three machines, both networks, key exchanges on either connection and backpressure do; once everything has arrived, all of them are there. The same holds from the target to the client. So what a channel of the target is told is what the client has said on it, and what the client hears on its channel is what this channel has said on the target.", "quantifier": "all interleavings of the threads of client, proxy and target and of both networks, all sequences of messages, all points at which either connection blocks or exchanges keys, both directions", "why_tests_cant": "Loss or reordering would need a certain schedule of two sockets, two decrypting threads, blocking and key exchanges; it would corrupt a session silently, as the messages are re-encrypted with a new sequence number.", "anchors": ["src/ProxyConnectionHandler.cxx: ProxyConnectionHandler::HandlePacket, OnWriteBlocked, OnWriteUnblocked", "src/ProxyCheck.hxx: ShouldProxy", "src/ssh/Connection.cxx: OnInputReady, SendPacket", "src/ssh/Output.cxx", "src/ssh/Input.cxx"]}
{"id": "C98", "title": "A connection can be destroyed at any moment", "statement": "Whenever a connection is destroyed - while worker threads encrypt or decrypt for it, while its jobs wait or are about to be reported as done, or from within the callback which reports one - no memory is used after it was freed or freed twice, nothing is freed while a worker is inside, nobody calls back into the connection which is gone, and both pipeline objects are freed after finitely many further steps of the workers.", "quantifier": "every interleaving of the main thread, the worker threads and the thread queue, every moment of destruction; for the finiteness: every reachable state of the pipelines with every cipher", "why_tests_cant": "The races depend on the moment of destruction relative to the workers; tests see only a few schedules and use-after-free often goes unnoticed.", "anchors": ["src/ssh/Input.cxx Input::Destroy, Input::Done, Input::Run", "src/ssh/Output.cxx Output::Destroy, Output::Done, Output::Run", "src/ssh/Connection.cxx Connection::~Connection", "src/ssh/Sizes.hxx BUFFER_SIZE", "src/memory/fb_pool.cxx"]}
{"id": "C99", "title": "The answer to a refused login does not tell which accounts exist", "statement": "As long as the services which are consulted answer quickly, a client whose login is refused learns nothing from the answer or from its time about which accounts exist, which keys they list or which host keys are authorized: every refusal comes 100 ms after the request, with the same content.", "quantifier": "all requests, accounts, key files, translation responses, latencies and tarpit delays", "why_tests_cant": "Timing and content must be equal for all pairs of worlds (a two-run property); tests compare single runs with fixed accounts", "anchors": ["src/Connection.cxx: Connection::OnUserAuthRequest, fail_sleep", "src/Connection.cxx: Connection::IsAcceptedPublicKey", "src/Connection.cxx: Connection::OpenInHome", "src/Connection.cxx: Connection::LazyTranslate"]}
{"id": "C100", "title": "Each program of a user runs in a resource group of its own, with exactly the configured confinement", "statement": "When the translation server gives a resource group (cgroup) to an account and leaves it to lukko to name the sessions, every program and every file helper started for that account is put in a child group of that group, and no two of the processes of the daemon (of any connections, at any times) are put in the same one. Apart from that name, user and group ids, namespaces, limits and prohibitions of a program are exactly those of the account; no process gets the group of another account. The helpers which connect or listen for a user have the user's ids and prohibitions.", "quantifier": "all histories of process starts of the daemon, on any connections and for any accounts, all answers of the translation server", "why_tests_cant": "the names come from a counter shared by all connections and the claim is about any two processes in the life of the daemon; a test starts a few programs", "anchors": ["src/Connection.cxx PrepareChildProcess", "src/Delegate.cxx SpawnOpen", "src/RConnect.cxx SpawnNsResolveConnectTCPFunction", "src/RBind.cxx SpawnNsResolveBindTCPFunction"]}
{"id": "C101", "title": "Somebody in between can only cut an encrypted connection short", "statement": "Whatever bytes somebody between the two ends composes, the messages which a connection delivers between one change of keys and the next are the first messages which the other end has sent with these keys, unchanged, complete and in order: no message can be altered, inserted, repeated, reordered, or removed without removing all the later ones as well, unless a MAC is forged (the stream contains the right tag for data for which the sender never computed one). If the connection goes on to other keys, nothing was lost.", "quantifier": "all ciphers and keys, all message sequences with all paddings, all byte streams composed by somebody in between before and after the change of keys, all schedules of the two threads", "why_tests_cant": "A test can only replay a few manipulations; the claim is about every byte stream, which includes manipulations of the clear text before the keys are used, and every interleaving of the decryption worker.", "anchors": ["src/ssh/Input.cxx:Input::SetCipher, Input::Run, Input::ReadPacket, Input::AutoResetSeq", "src/cipher/ChaCha20Poly1305Cipher.cxx", "src/cipher/OsslCipher.cxx", "src/cipher/HmacSHA256Cipher.cxx", "src/ssh/Connection.cxx:Connection::HandleKexInit"]}
{"id": "C102", "title": "Strict key exchange cannot be switched off by somebody in between", "statement": "Every key exchange which lukko starts or answers announces strict key exchange. If a client and a server have completed their first key exchange with the same session id, then each end has received exactly the announcement which the other one has sent: as long as they run, nothing but the key exchange itself was accepted by either of them before encryption, and both count packets from zero with each new key (which is what C101 needs). Somebody in between who removes the announcement or inserts packets changes the session id, unless there is a collision of the hash function; a client which accepts only host keys of lukko servers therefore always has a strict connection.", "quantifier": "all runs of the client and of the server, all packets received by either, all random values and all applications on top", "why_tests_cant": "A test can try some manipulations of the negotiation; the claim is about all of them, at any point of the handshake, and about all histories of both ends.", "anchors": ["src/ssh/Connection.cxx:Connection::SendKexInit, Connection::HandleKexInit, Connection::HandlePacket", "src/ssh/KexHash.cxx:CalcKexHash", "src/ssh/KexProposal.cxx"]}
{"id": "C103", "title": "Each request to open a channel is answered exactly once", "statement": "As long as the connection lives, for every channel number the peer uses, the CHANNEL_OPEN messages received for it are exactly as many as the confirmations and refusals sent for it plus the requests about which the application has not decided yet (it may connect to a remote host first). The answer names the peer's number of its own request, and a confirmation the number of ours under which the request was handed to the application; when the application decides, the answer is sent at once and nothing else happens. Nothing is ever answered twice or without having been asked, not even if the connection ends in between.", "quantifier": "all sequences of packets from the peer and of operations of the application, in any order, with any number of pending requests, any reuse of numbers, and the end of the connection at any point", "why_tests_cant": "The answer may come much later than the request, after other channels with the same numbers were opened and closed; a test exercises a few interleavings, the claim is about all of them.", "anchors": ["src/ssh/CSupport.cxx:ChannelSupport::HandleChannelOpen, ChannelSupport::AsyncChannelOpenSuccess, ChannelSupport::AsyncChannelOpenFailure, ChannelSupport::OnDisconnecting", "src/ssh/CSupport.hxx:ChannelSupport"]}
{"id": "C104", "title": "A guessed key exchange message is skipped exactly when the guess was wrong", "statement": "A client may send the first message of a key exchange together with its proposal, guessing the outcome of the negotiation. The server skips the next message of the key exchange, without any effect but on the log, if the client announced a guess and the first key exchange method or the first host key algorithm in its lists is not the one negotiated; in all other cases it processes the message. This holds in every key exchange of a connection.", "quantifier": "all histories of a server connection, all proposals of the client, all random values, and all messages that follow", "why_tests_cant": "A test can try a few proposals; the claim ranges over all pairs of lists and over all histories before the proposal, including repeated key exchanges.", "anchors": ["src/ssh/Connection.cxx:Connection::HandleKexInit, Connection::HandlePacket", "src/ssh/StringList.hxx:FirstStringListItem", "src/ssh/Protocol.hxx:IsKex"]}
