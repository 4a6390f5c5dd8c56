{
 "claims": [
  {
   "property": "C01",
   "status": "proved",
   "theorems": [
    "C01_write_exact",
    "C01_roundtrip",
    "C01_deferred_length"
   ],
   "note": ""
  },
  {
   "property": "C02",
   "status": "proved",
   "theorems": [
    "C02_disconnect",
    "C02_service_request",
    "C02_service_accept",
    "C02_kexinit",
    "C02_ecdh_init",
    "C02_ecdh_reply",
    "C02_channel_open",
    "C02_channel_open_confirmation",
    "C02_channel_open_failure",
    "C02_window_adjust",
    "C02_channel_data",
    "C02_channel_extended_data",
    "C02_channel_eof",
    "C02_channel_close",
    "C02_channel_request",
    "C02_channel_response",
    "C02_global_request"
   ],
   "note": ""
  },
  {
   "property": "C03",
   "status": "proved",
   "theorems": [
    "C03_finish_well_formed",
    "C03_finish_total",
    "C03_channel_data_end_to_end"
   ],
   "note": ""
  },
  {
   "property": "C04",
   "status": "proved",
   "theorems": [
    "C04_messages_in_order",
    "C04_all_messages"
   ],
   "note": ""
  },
  {
   "property": "C05",
   "status": "proved",
   "theorems": [
    "C05_like_sequential_reader",
    "C05_nothing_held_back",
    "C05_fails_only_on_bad_packet",
    "C05_no_race"
   ],
   "note": ""
  },
  {
   "property": "C06",
   "status": "proved",
   "theorems": [
    "C06_message_sizes",
    "C06_bad_plain_packet",
    "C06_bad_encrypted_packet",
    "C06_nothing_after_bad_packet",
    "C06_bad_packet_fails"
   ],
   "note": ""
  },
  {
   "property": "C07",
   "status": "partial",
   "theorems": [
    "C07_wire_prefix_partial",
    "C07_nothing_lost_partial",
    "C07_not_stuck_partial",
    "C07_no_assertion_fails_partial",
    "C07_order_refuted"
   ],
   "note": "The claim holds under the condition that a cipher is not installed before the worker has picked up the previous one; without it it is false of the code (C07_order_refuted)."
  },
  {
   "property": "C08",
   "status": "proved",
   "theorems": [
    "C08_no_loss_no_duplication",
    "C08_empty_means_sent"
   ],
   "note": ""
  },
  {
   "property": "C09",
   "status": "proved",
   "theorems": [
    "C09_writers_agree",
    "C09_canonical",
    "C09_unique",
    "C09_serialize_roundtrip",
    "C09_deserialize_exact"
   ],
   "note": ""
  },
  {
   "property": "C10",
   "status": "partial",
   "theorems": [
    "C10_disconnect_sent_partial",
    "C10_disconnect_last",
    "C10_disconnect_sent_refuted"
   ],
   "note": "False in general: a write event handled while the worker encrypts closes the connection early (C10_disconnect_sent_refuted). Proved when the worker is not in the middle of encrypting."
  },
  {
   "property": "C11",
   "status": "proved",
   "theorems": [
    "C11_first_common",
    "C11_per_direction",
    "C11_agreement",
    "C11_kex_method"
   ],
   "note": ""
  },
  {
   "property": "C12",
   "status": "proved",
   "theorems": [
    "C12_cipher_is_negotiated",
    "C12_encrypted_by_cipher",
    "C12_no_combination_fails",
    "C12_no_incoming_combination_fails"
   ],
   "note": ""
  },
  {
   "property": "C13",
   "status": "proved",
   "theorems": [
    "C13_first_exchange_hash",
    "C13_constant"
   ],
   "note": ""
  },
  {
   "property": "C14",
   "status": "proved",
   "theorems": [
    "C14_rfc4253_keys",
    "C14_both_sides_match",
    "C14_ciphers_use_them"
   ],
   "note": ""
  },
  {
   "property": "C15",
   "status": "proved",
   "theorems": [
    "C15_hash_input",
    "C15_injective",
    "C15_any_change_is_hashed"
   ],
   "note": ""
  },
  {
   "property": "C16",
   "status": "proved",
   "theorems": [
    "C16_verified_before_use",
    "C16_else_disconnected",
    "C16_encrypted_means_verified"
   ],
   "note": ""
  },
  {
   "property": "C17",
   "status": "partial",
   "theorems": [
    "C17_order_of_messages",
    "C17_out_of_order_disconnects",
    "C17_nothing_after_the_end",
    "C17_complete_exchange",
    "C17_assertions_refuted",
    "C17_assertions_partial"
   ],
   "note": "Order, disconnection and completeness are proved in full. The claim that no assertion can fail is refuted for a rekey timer which expires before authentication (C17_assertions_refuted); the partial theorem shows that no other operation can make one fail."
  },
  {
   "property": "C18",
   "status": "partial",
   "theorems": [
    "C18_strict_partial",
    "C18_strict_refuted",
    "C18_other_message_disconnects",
    "C18_only_guesses_are_dropped",
    "C18_input_restarts",
    "C18_output_restarts"
   ],
   "note": "Refuted for a server whose client sends a wrong guess (C18_strict_refuted): the one message after KEXINIT is not subject to the strict check. Proved for all other runs."
  },
  {
   "property": "C19",
   "status": "partial",
   "theorems": [
    "C19_session_partial",
    "C19_suspended_partial",
    "C19_resumed",
    "C19_socket_partial",
    "C19_refuted",
    "C19_spawn_refuted"
   ],
   "note": "Channel data only, for calm runs; refuted when the peer opens an exhausted window or starts a program during the key exchange (C19_refuted, C19_spawn_refuted)."
  },
  {
   "property": "C20",
   "status": "proved",
   "theorems": [
    "C20_limit",
    "C20_reuse_only_when_free",
    "C20_protocol",
    "C20_same_channel",
    "C20_right_channel",
    "C20_delivered",
    "C20_bad_number"
   ],
   "note": ""
  },
  {
   "property": "C21",
   "status": "partial",
   "theorems": [
    "C21_each_packet",
    "C21_consumed",
    "C21_delivered_partial",
    "C21_delivered_refuted",
    "C21_over_window"
   ],
   "note": "Each packet is checked against the granted windows minus the bytes declared as consumed, and data beyond that ends the connection. The claim about the total delivered is false for a channel that has not consumed yet (C21_delivered_refuted); it is proved for channels that consume promptly."
  },
  {
   "property": "C22",
   "status": "partial",
   "theorems": [
    "C22_channel",
    "C22_session",
    "C22_socket_partial",
    "C22_socket_refuted",
    "C22_suspended",
    "C22_never_without_window",
    "C22_socket_suspended_partial",
    "C22_not_truncated_partial",
    "C22_complete_partial",
    "C22_tty_partial",
    "C22_truncated_refuted",
    "C22_socket_not_truncated_partial",
    "C22_socket_truncated_refuted"
   ],
   "note": "The window is never exceeded and reading is suspended exactly while it is zero; nothing is truncated from pipes. Refuted for a tty whose HANGUP arrives while reading is suspended (C22_truncated_refuted) and for a socket channel with initial window zero (C22_socket_refuted, C22_socket_truncated_refuted)."
  },
  {
   "property": "C23",
   "status": "partial",
   "theorems": [
    "C23_at_most_once",
    "C23_nothing_after_partial",
    "C23_nothing_after_refuted",
    "C23_peer_closes",
    "C23_we_close",
    "C23_never_forgotten"
   ],
   "note": "At most one CHANNEL_CLOSE, sent in all cases, and nothing after it except CHANNEL_FAILURE for a request that crossed it (C23_nothing_after_refuted shows that exception)."
  },
  {
   "property": "C24",
   "status": "partial",
   "theorems": [
    "C24_order_partial",
    "C24_closed_partial",
    "C24_complete_partial",
    "C24_order_refuted",
    "C24_assertion_refuted"
   ],
   "note": "Proved when handlers of requests without \"want reply\" do not finish synchronously; refuted without that condition (C24_order_refuted, C24_assertion_refuted)."
  },
  {
   "property": "C25",
   "status": "partial",
   "theorems": [
    "C25_bounded",
    "C25_bounded_calls_partial",
    "C25_excess_partial",
    "C25_handled",
    "C25_order_partial",
    "C25_complete_partial",
    "C25_order_refuted"
   ],
   "note": "Bounded, each request answered once and in order when handlers of requests without \"want reply\" do not finish synchronously behind others; refuted otherwise (C25_order_refuted)."
  },
  {
   "property": "C26",
   "status": "partial",
   "theorems": [
    "C26_in_order",
    "C26_eof_last",
    "C26_eof_bounded",
    "C26_eof_once_partial",
    "C26_eof_once_refuted",
    "C26_assertion_refuted",
    "C26_stdin_in_order",
    "C26_stdin_written",
    "C26_stdin_not_stuck",
    "C26_stdin_eof_last",
    "C26_stdin_eof_partial",
    "C26_stdin_eof_refuted"
   ],
   "note": "In-order delivery and EOF-after-all-data are proved for any destination and for a session's stdin. EOF exactly once is proved for peers that send nothing after EOF; refuted otherwise, and refuted for an EOF that arrives before the program's stdin exists."
  },
  {
   "property": "C27",
   "status": "partial",
   "theorems": [
    "C27_at_most_once_partial",
    "C27_at_least_once",
    "C27_exact_partial",
    "C27_at_most_once_refuted",
    "C27_rejection"
   ],
   "note": "Refuted for a rejected channel (C27_at_most_once_refuted): the factory gets two callbacks. Proved for all others; exact count for all."
  },
  {
   "property": "C28",
   "status": "partial",
   "theorems": [
    "C28_own_open_partial",
    "C28_rejected_partial",
    "C28_exhaustion_is_fatal",
    "C28_refuted"
   ],
   "note": "Refuted (C28_refuted): exhaustion ends the connection (C28_exhaustion_is_fatal). Proved for our own opens and for opens the application rejects."
  },
  {
   "property": "C29",
   "status": "proved",
   "theorems": [
    "C29_nothing_before",
    "C29_questions",
    "C29_layers"
   ],
   "note": ""
  },
  {
   "property": "C30",
   "status": "proved",
   "theorems": [
    "C30_proof",
    "C30_only_way",
    "C30_otherwise"
   ],
   "note": ""
  },
  {
   "property": "C31",
   "status": "proved",
   "theorems": [
    "C31_injective",
    "C31_no_replay",
    "C31_client_publickey",
    "C31_client_hostbased",
    "C31_client_server"
   ],
   "note": ""
  },
  {
   "property": "C32",
   "status": "proved",
   "theorems": [
    "C32_account",
    "C32_program",
    "C32_proxy"
   ],
   "note": ""
  },
  {
   "property": "C33",
   "status": "partial",
   "theorems": [
    "C33_refuted",
    "C33_options_partial",
    "C33_without_key_partial"
   ],
   "note": "The full statement is refuted: a signature-less public key query leaves the key's options behind, and a later password login inherits them. Proved: a key login has exactly that key's options, forever; a host login at least those of the host key; without any key request on the connection there are no restrictions."
  },
  {
   "property": "C34",
   "status": "proved",
   "theorems": [
    "C34_permanent",
    "C34_restricted",
    "C34_no_options"
   ],
   "note": ""
  },
  {
   "property": "C35",
   "status": "partial",
   "theorems": [
    "C35_refuted",
    "C35_password_partial",
    "C35_passwd_partial",
    "C35_keys_partial"
   ],
   "note": "Refuted: the refusing answer to a wrong password is cached and makes a valid signature fail on the same connection. Proved: passwords are judged independently of any history; without a translation server every attempt is; with one, attempts of the same user without passwords are."
  },
  {
   "property": "C36",
   "status": "partial",
   "theorems": [
    "C36_line",
    "C36_text",
    "C36_text_lines",
    "C36_file",
    "C36_loaded",
    "C36_only",
    "C36_rejected",
    "C36_restrictions",
    "C36_documented_partial",
    "C36_documented_refuted"
   ],
   "note": "Parsing is exact for the grammar the code implements (proved in full); the documented option names with upper-case letters or digits are not all parseable (C36_documented_refuted), proved for the others."
  },
  {
   "property": "C37",
   "status": "proved",
   "theorems": [
    "C37_restrict",
    "C37_sequence",
    "C37_request",
    "C37_only_requests",
    "C37_never_lifted"
   ],
   "note": ""
  },
  {
   "property": "C38",
   "status": "proved",
   "theorems": [
    "C38_exact",
    "C38_round_trip",
    "C38_sent",
    "C38_rejected"
   ],
   "note": ""
  },
  {
   "property": "C39",
   "status": "partial",
   "theorems": [
    "C39_refuted",
    "C39_forced_partial",
    "C39_login_partial"
   ],
   "note": "The full statement is refuted: while a forced command is in force, the sftp subsystem and rsync/git service commands are still started instead of it. Proved: every ordinary shell or exec request starts exactly the forced command, for every login whose credential carries it."
  },
  {
   "property": "C40",
   "status": "partial",
   "theorems": [
    "C40_refuted",
    "C40_tcp_partial",
    "C40_login_partial"
   ],
   "note": "The full statement is refuted: no-port-forwarding does not stop direct-streamlocal connections. Proved: no TCP connection and no TCP listener is ever opened while the option is in force, for every login whose credential carries it."
  },
  {
   "property": "C41",
   "status": "proved",
   "theorems": [
    "C41_authorized",
    "C41_without_exec",
    "C41_identity"
   ],
   "note": ""
  },
  {
   "property": "C42",
   "status": "partial",
   "theorems": [
    "C42_refuted",
    "C42_exit_refuted",
    "C42_channel",
    "C42_requests_partial",
    "C42_waiting_partial"
   ],
   "note": "The full statement is refuted: a second exec while the first is waiting for its service translation starts two programs on one channel, and exit-status messages of both are sent. Proved: every program start follows its own successful request, no more starts than requests, and at most one start when the client waits for each answer."
  },
  {
   "property": "C43",
   "status": "partial",
   "theorems": [
    "C43_refuted",
    "C43_environment",
    "C43_program_partial",
    "C43_waiting_partial",
    "C43_env_exceeded",
    "C43_term_exceeded",
    "C43_disconnect",
    "C43_command_too_long"
   ],
   "note": "The full statement is refuted: environment variables accepted while an exec is suspended bring the total above the limit. Proved: accepted variables alone never exceed the limit, a program's variables and command never do when the client waits for replies, and exceeding requests are rejected without side effects."
  },
  {
   "property": "C44",
   "status": "proved",
   "theorems": [
    "C44_permanent",
    "C44_attempt"
   ],
   "note": ""
  },
  {
   "property": "C45",
   "status": "partial",
   "theorems": [
    "C45_words",
    "C45_words_roundtrip",
    "C45_words_contents",
    "C45_unquote",
    "C45_git_refuted",
    "C45_git_partial",
    "C45_programs"
   ],
   "note": "Word splitting and unquoting are proved exactly; that git's quoting is always undone is refuted (backslash inside single quotes), proved for paths without a backslash."
  },
  {
   "property": "C46",
   "status": "proved",
   "theorems": [
    "C46_limit",
    "C46_admits",
    "C46_delay",
    "C46_recovers",
    "C46_no_escape",
    "C46_kept",
    "C46_cleanup"
   ],
   "note": "The token bucket itself is an oracle (overdrawn or not); C46_cleanup assumes that no constructor of a connection fails: an entry created for such a client is only removed when the cleanup timer runs for another one."
  },
  {
   "property": "C47",
   "status": "proved",
   "theorems": [
    "C47_split",
    "C47_decode"
   ],
   "note": "Linux values of the termios constants; the two speeds are fields of their own."
  },
  {
   "property": "C48",
   "status": "proved",
   "theorems": [
    "C48_relayed",
    "C48_options_first",
    "C48_options",
    "C48_blocking"
   ],
   "note": "Server level (which messages, order, options first) and with blocking, worker threads and key exchanges on both connections."
  },
  {
   "property": "C49",
   "status": "partial",
   "theorems": [
    "C49_version",
    "C49_nothing_before",
    "C49_refuted",
    "C49_short_partial"
   ],
   "note": "Proved for all lines of less than 255 bytes and for unterminated ones; a longer terminated line is accepted or rejected depending on the chunks (C49_refuted)."
  },
  {
   "property": "C50",
   "status": "proved",
   "theorems": [
    "C50_choice",
    "C50_advertised",
    "C50_available"
   ],
   "note": "Keys are numbers with their list of algorithm names; the names are assumed to be non-empty, as in all key classes."
  },
  {
   "property": "C51",
   "status": "proved",
   "theorems": [
    "C51_authenticated",
    "C51_steps",
    "C51_nothing_forwarded",
    "C51_early_message",
    "C51_unexpected_reply",
    "C51_other_messages"
   ],
   "note": ""
  },
  {
   "property": "C52",
   "status": "partial",
   "theorems": [
    "C52_refuted",
    "C52_occupied_partial",
    "C52_no_overlap_partial",
    "C52_start_partial",
    "C52_afterwards_partial"
   ],
   "note": "The full statement is refuted: a user authentication request after success is answered with UNIMPLEMENTED instead of being ignored silently. Proved: everything but the listed messages ends the connection while an attempt is pending, attempts never overlap, an attempt starts only from a request, and a later request changes nothing."
  },
  {
   "property": "C53",
   "status": "proved",
   "theorems": [
    "C53_ciphers_match",
    "C53_session_ids_match"
   ],
   "note": ""
  },
  {
   "property": "C54",
   "status": "proved",
   "theorems": [
    "C54_signed_before_use",
    "C54_client_would_verify"
   ],
   "note": ""
  },
  {
   "property": "C55",
   "status": "proved",
   "theorems": [
    "C55_requested",
    "C55_once"
   ],
   "note": ""
  },
  {
   "property": "C56",
   "status": "partial",
   "theorems": [
    "C56_standstill",
    "C56_refuted",
    "C56_blocked_partial",
    "C56_wakeup_partial",
    "C56_writable_partial",
    "C56_rekey_partial"
   ],
   "note": "The full statement is refuted: when both connections start a key exchange at the same time, each suspends reading on the other, and neither exchange can complete. Proved: the exact condition of being blocked, no lost wakeups, and progress when at most one connection is in a key exchange."
  },
  {
   "property": "C57",
   "status": "partial",
   "theorems": [
    "C57_refuted",
    "C57_enabled_partial"
   ],
   "note": "False as stated: the argument 255 (no character) is copied instead of disabling the character (C57_refuted). Proved for all other arguments."
  },
  {
   "property": "C58",
   "status": "partial",
   "theorems": [
    "C58_received_is_sent_partial",
    "C58_no_failure_partial",
    "C58_everything_arrives_partial",
    "C58_refuted"
   ],
   "note": "proved for a sender which does not install a second cipher before the worker has picked up the first one (C58_*_partial); without that restriction it is false (C58_refuted, same cause as C07)"
  },
  {
   "property": "C59",
   "status": "partial",
   "theorems": [
    "C59_other_end_exists",
    "C59_round_trip",
    "C59_padded_packets_encrypt",
    "C59_integrity",
    "C59_no_assertion_refuted",
    "C59_no_assertion_partial"
   ],
   "note": "round trip, tag size, padding, integrity: proved; the last part (no assertion on received data) is false for AES (C59_no_assertion_refuted: length not multiple of the block size); proved for ChaCha20-Poly1305 and for AES with proper lengths (C59_no_assertion_partial)"
  },
  {
   "property": "C60",
   "status": "partial",
   "theorems": [
    "C60_refuted",
    "C60_wraps_partial"
   ],
   "note": "false for chacha20-poly1305@openssh.com from sequence number 2^32 on (C60_refuted); proved for all AES ciphers and for all sequence numbers below 2^32 (C60_wraps_partial)"
  },
  {
   "property": "C61",
   "status": "proved",
   "theorems": [
    "C61_only_these_bytes",
    "C61_no_reuse"
   ],
   "note": ""
  },
  {
   "property": "C62",
   "status": "proved",
   "theorems": [
    "C62_listed",
    "C62_only_listed_succeed"
   ],
   "note": "method list in failure replies; C62_listed and C62_only_listed_succeed; that each listed method can succeed is C64"
  },
  {
   "property": "C63",
   "status": "partial",
   "theorems": [
    "C63_refuted",
    "C63_identity_partial",
    "C63_shell_partial"
   ],
   "note": "full statement refuted: the options of the services sftp, rsync and git are not checked (finding 63); proved: shells and commands always have uid, gid and home, and other programs lack them only if the translation server has sent incomplete options for that very service"
  },
  {
   "property": "C64",
   "status": "proved",
   "theorems": [
    "C64_accepted"
   ],
   "note": "valid_request in Spec/CredentialSpec.v; keys which only the helper process can read (w_delegate) are not in found"
  },
  {
   "property": "C65",
   "status": "proved",
   "theorems": [
    "C65_shell",
    "C65_environment",
    "C65_terminal",
    "C65_terminal_used"
   ],
   "note": "The environment is the client-supplied part; variables which lukko itself adds (USER, HOME, SSH_CONNECTION ...) are not modelled."
  },
  {
   "property": "C66",
   "status": "partial",
   "theorems": [
    "C66_written",
    "C66_read",
    "C66_unique",
    "C66_refuted",
    "C66_accepted_partial"
   ],
   "note": "C66_refuted: bytes after the key in a blob (and non-canonical numbers) are ignored; proved: writing, reading, one-to-one, and that every accepted blob begins with the fields of the key (C66_accepted_partial)"
  },
  {
   "property": "C67",
   "status": "partial",
   "theorems": [
    "C67_format",
    "C67_verifies",
    "C67_sound",
    "C67_algorithms",
    "C67_announced",
    "C67_refuted",
    "C67_offered_partial"
   ],
   "note": "C67_refuted: without libmd, RSA keys offer ssh-rsa but cannot sign with it; proved with libmd (C67_offered_partial); the other parts are proved in full"
  },
  {
   "property": "C68",
   "status": "partial",
   "theorems": [
    "C68_refuted",
    "C68_loads_partial",
    "C68_rsa_partial",
    "C68_encrypted",
    "C68_text",
    "C68_only"
   ],
   "note": "C68_refuted: the CRT exponents of RSA keys are computed with swapped arguments; Ed25519 and ECDSA load exactly (C68_loads_partial), RSA with all numbers of the file (C68_rsa_partial)"
  },
  {
   "property": "C69",
   "status": "proved",
   "theorems": [
    "C69_disconnected",
    "C69_not_early",
    "C69_not_after_login"
   ],
   "note": "Model/Timed.v: the server of Model/Server.v with a clock. Contract of the event loop: a timer which is due is run at most 'slack' late. Consequence: the rekey timer (one hour) cannot expire on an unauthenticated server connection, so C17_assertions_refuted concerns the client role."
  },
  {
   "property": "C70",
   "status": "partial",
   "theorems": [
    "C70_identity",
    "C70_local_identity",
    "C70_target_refuted",
    "C70_target_cut_partial",
    "C70_target_partial",
    "C70_connect_made",
    "C70_local_made",
    "C70_bind_made"
   ],
   "note": "Model/Network.v. C70_target_refuted: the helper process cuts host names and paths at the first null byte; C70_target_partial is the statement without null bytes, C70_target_cut_partial says exactly what is used. Resolver, port numbers above 65535 and sun_path limits are outside of the model."
  },
  {
   "property": "C71",
   "status": "proved",
   "theorems": [
    "C71_only_requested",
    "C71_accepts",
    "C71_cancel"
   ],
   "note": ""
  },
  {
   "property": "C72",
   "status": "partial",
   "theorems": [
    "C72_request",
    "C72_request_distinct",
    "C72_response",
    "C72_response_whole",
    "C72_pieces_refuted"
   ],
   "note": "Whether data behind the end of the response is an error depends on how it arrives (C72_pieces_refuted)."
  },
  {
   "property": "C73",
   "status": "partial",
   "theorems": [
    "C73_order",
    "C73_reported",
    "C73_no_zombie",
    "C73_status",
    "C73_signal_partial",
    "C73_signal_refuted"
   ],
   "note": "The signal is reported with the C library's description instead of the name of RFC 4254 (C73_signal_refuted); everything else is proved."
  },
  {
   "property": "C74",
   "status": "proved",
   "theorems": [
    "C74_transport",
    "C74_userauth",
    "C74_connection",
    "C74_channel",
    "C74_arrives",
    "C74_early_disconnect"
   ],
   "note": "For each message builder: equal to the specification for all values."
  },
  {
   "property": "C75",
   "status": "partial",
   "theorems": [
    "C75_first_choice",
    "C75_sticky",
    "C75_remove",
    "C75_add",
    "C75_target",
    "C75_login",
    "C75_ties_refuted",
    "C75_reference_refuted"
   ],
   "note": "Proved for every history, scoring function and sort result. Not true as stated where scores are equal (C75_ties_refuted), and the address read for logging after the connection was awaited can be gone (C75_reference_refuted)."
  },
  {
   "property": "C76",
   "status": "partial",
   "theorems": [
    "C76_terminate",
    "C76_local",
    "C76_reload",
    "C76_services_refuted"
   ],
   "note": "Proved for all packets, senders and connection sets with respect to the tags of the general options; tags of service-specific options are ignored by the code (C76_services_refuted)."
  },
  {
   "property": "C77",
   "status": "proved",
   "theorems": [
    "C77_secret",
    "C77_same",
    "C77_session_ids",
    "C77_ciphers"
   ],
   "note": "For all curves with the Diffie-Hellman law (curve_laws, stated in Spec/CurveSpec.v); the arithmetic of libsodium and OpenSSL itself is a parameter."
  },
  {
   "property": "C78",
   "status": "partial",
   "theorems": [
    "C78_safe_refuted",
    "C78_safe_partial",
    "C78_once_partial",
    "C78_waiting_partial",
    "C78_confirmable_partial",
    "C78_given_partial",
    "C78_announced"
   ],
   "note": "safe/once/waiting/confirmable/given for all histories without CHANNEL_OPEN_FAILURE; with it, the memory error is refuted as C78_safe_refuted"
  },
  {
   "property": "C79",
   "status": "partial",
   "theorems": [
    "C79_exact",
    "C79_bound",
    "C79_proxy",
    "C79_host_keys",
    "C79_mode",
    "C79_mode_bits",
    "C79_mode_refuted",
    "C79_timeout_partial",
    "C79_timeout_refuted",
    "C79_target_refuted",
    "C79_no_target"
   ],
   "note": "exact for all files; refuted: target_host sections and proxy_to are never accepted although documented, ack_timeout wraps at 2^32 milliseconds (C79_timeout_partial below that), mode accepts signs and spaces"
  },
  {
   "property": "C80",
   "status": "partial",
   "theorems": [
    "C80_obeying_session",
    "C80_obeying_socket",
    "C80_memory_session",
    "C80_memory_socket",
    "C80_flow_session_partial",
    "C80_flow_socket_partial",
    "C80_any_session_partial",
    "C80_any_socket_partial",
    "C80_socket_order",
    "C80_any_refuted",
    "C80_wrap",
    "C80_flow_refuted",
    "C80_memory_refuted"
   ],
   "note": "Obeying peers: never refused, buffer plus remaining window at most 1 MiB, at least 512 KiB granted again when nothing is waiting. False for extended data, which is never granted back (C80_flow_refuted) and with which a peer that ignores the window breaks an assertion or makes the window wrap around (C80_any_refuted, C80_wrap); a peer that ignores the window can also fill any amount of memory (C80_memory_refuted)."
  },
  {
   "property": "C81",
   "status": "partial",
   "theorems": [
    "C81_hour_partial",
    "C81_bytes_partial",
    "C81_needed",
    "C81_can_finish",
    "C81_time_refuted",
    "C81_received_refuted"
   ],
   "note": "Proved while no key exchange is in progress, for every run, with the latency of the event loop as a parameter; C81_needed and C81_can_finish in full. Refuted: a peer which begins a key exchange and withholds NEWKEYS keeps the keys in use forever, because the timer was cancelled and data flows as usual (C81_time_refuted); received data is not counted (C81_received_refuted)."
  },
  {
   "property": "C82",
   "status": "partial",
   "theorems": [
    "C82_received",
    "C82_accepted_partial",
    "C82_failed_partial",
    "C82_alone",
    "C82_accepted_refuted",
    "C82_failed_refuted"
   ],
   "note": "The full claims are refuted (C82_accepted_refuted: accounts without password; C82_failed_refuted: password changes). Proved: received exactly; logins by key and host exactly, every login is counted, and exactly when no account is without a password; failures at most once, under their method, and all of them but password changes and other services."
  },
  {
   "property": "C83",
   "status": "partial",
   "theorems": [
    "C83_guesses_partial",
    "C83_refuted",
    "C83_modest",
    "C83_greedy",
    "C83_held",
    "C83_price"
   ],
   "note": "Proved with a limit on connections (C83_guesses_partial); refuted without one (C83_refuted): the delay grows, but any number of connections can wait at the same time. For the life of one accounting record; its removal after five idle minutes is C46."
  },
  {
   "property": "C84",
   "status": "partial",
   "theorems": [
    "C84_login",
    "C84_address",
    "C84_home",
    "C84_original",
    "C84_server_partial",
    "C84_client",
    "C84_services",
    "C84_server_refuted",
    "C84_forced_refuted"
   ],
   "note": "Full statements refuted (C84_server_refuted: duplicate names, the client's comes last; C84_forced_refuted: BASH_ENV with a forced command).  Proved: values of USER, LOGNAME, SHELL, SSH_CLIENT, SSH_CONNECTION, HOME, SSH_ORIGINAL_COMMAND; the server's values prevail with getenv(); exactly the channel's own variables otherwise; none for rsync and git."
  },
  {
   "property": "C85",
   "status": "proved",
   "theorems": [
    "C85_sent",
    "C85_received",
    "C85_made"
   ],
   "note": "format of every packet, for any number of packets; the primitives (ChaCha20, Poly1305, AES, HMAC) are parameters"
  },
  {
   "property": "C86",
   "status": "partial",
   "theorems": [
    "C86_client_refuted",
    "C86_backend_refuted",
    "C86_last_partial",
    "C86_local",
    "C86_once",
    "C86_stopped",
    "C86_deaf",
    "C86_causes",
    "C86_told",
    "C86_backend_told",
    "C86_not_before",
    "C86_both",
    "C86_gone"
   ],
   "note": "The full statement is refuted by two races (C86_client_refuted: the backend accepts the user after the client's connection has been disconnected; C86_backend_refuted: the client's packets are forwarded to a backend connection which is being disconnected). C86_last_partial: it holds in all other histories; C86_local: in particular for all clients which are not proxied. The other parts are proved for all histories."
  },
  {
   "property": "C87",
   "status": "proved",
   "theorems": [
    "C87_loaded",
    "C87_broken",
    "C87_presented",
    "C87_ed25519",
    "C87_authorized"
   ],
   "note": "C87_loaded and C87_broken: which keys the server starts with, for all contents of the directory; C87_presented: which key a client gets; C87_ed25519: from the OpenSSH file to the client; C87_authorized: the global authorized_keys. open/fstat/read are given by their results; the generated keys are a parameter."
  },
  {
   "property": "C88",
   "status": "partial",
   "theorems": [
    "C88_before_login_refuted",
    "C88_refuted",
    "C88_data_refuted",
    "C88_granted",
    "C88_linear_partial"
   ],
   "note": "The full claim (a limit that depends only on what the client accepts) is refuted, before login (C88_before_login_refuted) and after it (C88_data_refuted). C88_granted holds in every schedule; C88_linear_partial bounds the backlog by the answers and 4096 bytes per resumption, without key exchanges."
  },
  {
   "property": "C89",
   "status": "partial",
   "theorems": [
    "C89_login",
    "C89_supported",
    "C89_attribution",
    "C89_end",
    "C89_reason",
    "C89_address",
    "C89_address_marks",
    "C89_quoted",
    "C89_users_differ",
    "C89_lines_partial",
    "C89_forged_refuted",
    "C89_refuted",
    "C89_password_refuted"
   ],
   "note": "Proved: C89_login, C89_supported, C89_attribution, C89_end, C89_reason. Proved in part: C89_lines_partial (one line per message if no text which is logged as received contains a newline). Refuted: the full statement (C89_forged_refuted, C89_refuted: the description of a DISCONNECT packet forges any line before login) and C89_password_refuted ('Accepted password' without a password). Messages of levels above 1, of channels and of listeners are not modelled."
  },
  {
   "property": "C90",
   "status": "partial",
   "theorems": [
    "C90_counts",
    "C90_arrivals",
    "C90_active",
    "C90_once",
    "C90_closed_partial",
    "C90_closed_refuted",
    "C90_bad_key_refuted",
    "C90_traffic"
   ],
   "note": "All counters are exactly numbers of events (C90_counts, C90_arrivals), the gauge is exact (C90_active), DISCONNECT at most once (C90_once). The claim that no connection is counted as closed twice is refuted (C90_closed_refuted: a second control packet while the first DISCONNECT waits to be written; C90_bad_key_refuted: a key which cannot be decoded counts as a closed connection) and proved for all other histories (C90_closed_partial)."
  },
  {
   "property": "C91",
   "status": "proved",
   "theorems": [
    "C91_same_session",
    "C91_same_ciphers",
    "C91_no_relay",
    "C91_other_server"
   ],
   "note": "Composition of the key exchange machine (client and server role) with the authentication of the server; the way out is an explicit collision of the two hash inputs."
  },
  {
   "property": "C92",
   "status": "partial",
   "theorems": [
    "C92_format",
    "C92_identifies",
    "C92_collision",
    "C92_line",
    "C92_same_key",
    "C92_same_line",
    "C92_one_line",
    "C92_refuted"
   ],
   "note": "The fingerprint identifies the key and the key is the one which has signed (composition of the log, authentication and key models); refuted: it does not identify the authorized entry, because a key blob with trailing bytes is accepted as the same key (C92_refuted)."
  },
  {
   "property": "C93",
   "status": "partial",
   "theorems": [
    "C93_messages",
    "C93_channel",
    "C93_transport",
    "C93_stdin",
    "C93_complete",
    "C93_socket",
    "C93_refuted"
   ],
   "note": "End-to-end composition of the transport (C58), the channel table, and the program's stdin (C26) or a forwarded socket (C80): C93_stdin, C93_complete and C93_socket hold for all executions; C93_channel says that each channel object is told exactly what is said on its number during its life. The full statement is refuted (C93_refuted): CHANNEL_CLOSE destroys the object together with the data still waiting for the program."
  },
  {
   "property": "C94",
   "status": "partial",
   "theorems": [
    "C94_packets",
    "C94_channel",
    "C94_pipes",
    "C94_terminal_partial",
    "C94_socket",
    "C94_complete",
    "C94_refuted"
   ],
   "note": "C94_packets, C94_channel, C94_pipes, C94_socket and C94_complete are proved in full. For a program with a terminal, C94_terminal_partial assumes that nothing is lost by a hangup; without it the claim is false of the code (C94_refuted)."
  },
  {
   "property": "C95",
   "status": "partial",
   "theorems": [
    "C95_messages",
    "C95_channel",
    "C95_heard",
    "C95_order_partial",
    "C95_complete_partial",
    "C95_order_refuted"
   ],
   "note": "C95_messages, C95_channel, C95_heard hold for all handlers. C95_order_partial and C95_complete_partial assume that handlers of requests without want-reply do not finish synchronously (considerate) and that we have not closed the channel; without the first assumption the statement is refuted end to end (C95_order_refuted), as in C24."
  },
  {
   "property": "C96",
   "status": "partial",
   "theorems": [
    "C96_messages",
    "C96_asked",
    "C96_heard",
    "C96_order_partial",
    "C96_complete_partial",
    "C96_order_refuted"
   ],
   "note": "C96_messages, C96_asked, C96_heard hold for all handlers. C96_order_partial and C96_complete_partial assume that handlers of requests without want-reply do not finish synchronously (gconsiderate); without this the statement is refuted end to end (C96_order_refuted), as in C25."
  },
  {
   "property": "C97",
   "status": "proved",
   "theorems": [
    "C97_relay",
    "C97_order",
    "C97_complete",
    "C97_input",
    "C97_output"
   ],
   "note": "C97_order and C97_complete for both directions; C97_input and C97_output compose them with the target's channels (C93, C94)."
  },
  {
   "property": "C98",
   "status": "proved",
   "theorems": [
    "C98_safe",
    "C98_alive",
    "C98_freed",
    "C98_output_ends",
    "C98_input_ends"
   ],
   "note": "The thread queue (libcommon) is a contract, see DESIGN.md. C98_input_ends assumes that DecryptPayload() returns the expected size, authentication tags of at most 64 bytes and that MoveFrom() moves something if there is space (capacity 65536)."
  },
  {
   "property": "C99",
   "status": "partial",
   "theorems": [
    "C99_same",
    "C99_floor_partial",
    "C99_time_partial",
    "C99_hidden_partial",
    "C99_password",
    "C99_refuted",
    "C99_floor_refuted",
    "C99_tarpit_refuted",
    "C99_slow_refuted",
    "C99_methods_refuted",
    "C99_cost_refuted"
   ],
   "note": "Proved: no refusal within 100 ms except for listed requests (C99_floor_partial); without a translation server, every complete refused request is answered with the same list at exactly the same time (C99_time_partial, C99_hidden_partial); a password refused by the translation server looks the same for known and unknown users (C99_password). Refuted: a truncated publickey request ends the connection only if the account exists (C99_refuted); a wrong signature with an authorized host key is refused at once (C99_floor_refuted); the tarpit and the delay overlap (C99_tarpit_refuted); with a translation server the list of methods tells (C99_methods_refuted); only existing accounts cost tokens (C99_cost_refuted)."
  },
  {
   "property": "C100",
   "status": "partial",
   "theorems": [
    "C100_sessions_partial",
    "C100_options",
    "C100_others",
    "C100_network_partial",
    "C100_network_outside",
    "C100_refuted",
    "C100_chosen_refuted"
   ],
   "note": "C100_sessions_partial: any two of the user's programs and file helpers fewer than 2^32 starts apart get different sessions. The full statement is refuted: the counter is 32 bit and wraps (C100_refuted), and the helpers for connections and listeners are in no group at all and have no limits (C100_network_outside, C100_network_partial); a configured name may be one of lukko's (C100_chosen_refuted)."
  },
  {
   "property": "C101",
   "status": "partial",
   "theorems": [
    "C101_strict_partial",
    "C101_complete_partial",
    "C101_gcm_partial",
    "C101_not_strict_refuted",
    "C101_refuted"
   ],
   "note": "Proved for all ciphers if the sequence numbers are reset (strict key exchange), with the corollary that nothing is lost if the keys are changed again, and for AES-GCM in any case. Refuted without strict key exchange, which lukko does not require: with ChaCha20-Poly1305, whatever the primitives are, somebody in between can remove the first encrypted messages without forging anything (C101_not_strict_refuted; C101_refuted is a run of class Input)."
  },
  {
   "property": "C102",
   "status": "proved",
   "theorems": [
    "C102_always_announced",
    "C102_both_strict",
    "C102_client"
   ],
   "note": "Collision freedom of the hash function appears as a disjunct, unforgeability of signatures as a hypothesis of C102_client. The exception of C18 (a wrong guess) does not apply because lukko never announces a guess."
  },
  {
   "property": "C103",
   "status": "proved",
   "theorems": [
    "C103_exactly_once",
    "C103_never_twice",
    "C103_own_number",
    "C103_decision"
   ],
   "note": "A CHANNEL_OPEN which ends the connection (no free number, see C28; an exception of the application) is not answered; C103_never_twice covers that case."
  },
  {
   "property": "C104",
   "status": "partial",
   "theorems": [
    "C104_first_partial",
    "C104_again_used",
    "C104_refuted"
   ],
   "note": "Proved for the first key exchange (C104_first_partial). The full statement is refuted (C104_refuted): on an encrypted connection, i.e. in later key exchanges, nothing is ever skipped (C104_again_used), so a wrong guess is processed as if it had been meant."
  }
 ]
}