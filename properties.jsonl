{"id": "C01", "title": "Replay window is exact", "statement": "Feed record numbers to a fresh replay window, recording every number that passed the check and was then marked. A number passes the check exactly when it has not been marked before and is either larger than every marked number or less than 64 below the largest one. In particular no number is ever accepted twice.", "quantifier": "every finite history of check/update calls on 64-bit record numbers, in any order, with gaps and jumps of any size", "why_tests_cant": "The window is a 64-bit shift register; off-by-one errors appear only for particular distances between record numbers (63, 64, jumps > 63) combined with particular earlier histories.", "anchors": ["src/window.rs: ReplayWindow::check, ReplayWindow::update"]}
{"id": "C02", "title": "DTLS 1.2: a protected record is opened at most once", "statement": "On a DTLS 1.2 connection with receive protection on, whatever datagrams arrive, two records carrying the same epoch and sequence number are never both accepted, so duplicated or replayed datagrams never produce the same application data twice.", "quantifier": "every sequence of datagrams (arbitrary bytes, any number, any order, any duplication), every cipher suite implementation", "why_tests_cant": "Requires reasoning over all histories, including records that fail authentication in between and several records per datagram.", "anchors": ["src/dtls12/incoming.rs: Record::parse", "src/dtls12/engine.rs: replay_check, replay_update", "src/window.rs"]}
{"id": "C03", "title": "DTLS 1.3: a protected record is opened at most once per epoch", "statement": "On a DTLS 1.3 connection, whatever datagrams arrive and however keys are rotated, two records with the same full epoch and record number are never both accepted.", "quantifier": "every sequence of datagrams and key updates, every AEAD and record-number mask", "why_tests_cant": "The record number is reconstructed from 8 or 16 encrypted bits and each epoch has its own window and key slot, so the history space is unbounded.", "anchors": ["src/dtls13/incoming.rs: Record::parse", "src/dtls13/engine.rs: replay_check, replay_update, resolve_epoch, resolve_sequence, update_recv_keys"]}
{"id": "C04", "title": "Records that fail authentication change no receive state", "statement": "A record that fails the AEAD check (or is too short, too old, or for an unknown epoch) leaves the replay windows, the expected record numbers, the receive queue and every timer of the connection unchanged.", "quantifier": "every connection state, every datagram none of whose records authenticates", "why_tests_cant": "An attacker chooses the bytes; only a proof covers every forged header/length/epoch combination.", "anchors": ["src/dtls12/incoming.rs", "src/dtls13/incoming.rs", "src/dtls13/engine.rs: decrypt_record path"]}
{"id": "C05", "title": "DTLS 1.3 record-number reconstruction is right inside the window and never ambiguous", "statement": "If the receiver expects record number e and the sender's real number s is within half of the truncated range of e (2^7 for 8-bit, 2^15 for 16-bit headers) and in 48-bit range, reconstruction from the truncated bits returns exactly s. In all cases the result agrees with the received bits.", "quantifier": "all expected numbers, all real numbers, both header widths", "why_tests_cant": "2^48 x 2^48 pairs, errors live at window edges and at zero.", "anchors": ["src/dtls13/engine.rs: reconstruct_sequence, resolve_sequence"]}
{"id": "C06", "title": "DTLS 1.2 record header codec is a bijection on valid headers", "statement": "Serializing any valid DTLS 1.2 record and parsing it again yields the same record and consumes exactly its bytes; parsing any byte string either fails or yields a record whose serialization is the consumed prefix. Parsing never reads outside the datagram.", "quantifier": "all byte strings and all records with in-range fields", "why_tests_cant": "Unbounded input space; truncation at every byte position.", "anchors": ["src/dtls12/message/record.rs: DTLSRecord::parse, DTLSRecord::serialize"]}
{"id": "C07", "title": "DTLS 1.3 record header codec round-trips", "statement": "Every unified header written by the sender (16-bit sequence, explicit length) and every plaintext header parses back to the same fields; the parser accepts 8-bit sequence and length-less forms, refuses headers with the connection-id bit, and never reads outside the datagram.", "quantifier": "all byte strings and all in-range field values", "why_tests_cant": "Flag combinations x truncation positions x values.", "anchors": ["src/dtls13/message/record.rs"]}
{"id": "C08", "title": "Datagram splitting loses nothing and bounds work", "statement": "A datagram is cut into consecutive records whose concatenation is the datagram; the number of records handled is bounded (8 for 1.2, 16 for 1.3) and anything malformed stops with a non-fatal result.", "quantifier": "all datagrams", "why_tests_cant": "Unbounded inputs; loops over attacker controlled lengths.", "anchors": ["src/dtls12/incoming.rs: Records::parse", "src/dtls13/incoming.rs: Records::parse"]}
{"id": "C09", "title": "Handshake fragmentation covers each message exactly once", "statement": "For any MTU that leaves room for at least one payload byte, the fragments produced for a handshake message are contiguous, non-overlapping, start at 0, end at the message length, carry the message's type, sequence and total length, and concatenate to the message.", "quantifier": "all message bodies, all MTUs, any amount of already queued data in the current datagram", "why_tests_cant": "Interaction of datagram fill level and MTU creates unboundedly many split patterns.", "anchors": ["src/dtls12/engine.rs: create_handshake", "src/dtls13/engine.rs: create_handshake"]}
{"id": "C10", "title": "Reassembly returns the original message for any delivery order", "statement": "If all fragments of a message are delivered, in any order, with any duplicates, interleaved with fragments of later messages, the handshake message handed to the protocol is byte-for-byte the message that was fragmented, and it is handed over exactly once.", "quantifier": "all messages, fragmentations, permutations, duplications and interleavings within queue limits", "why_tests_cant": "Factorially many schedules.", "anchors": ["src/dtls12/engine.rs: insert_incoming, has_complete_handshake, next_handshake", "src/dtls12/message/handshake.rs: defragment", "src/dtls13/engine.rs: insert_incoming_handshake", "src/dtls13/message/handshake.rs: defragment"]}
{"id": "C11", "title": "Handshake messages are consumed in order, without gaps", "statement": "The sequence of peer handshake messages consumed has consecutive message numbers; a message is only consumed once all of its bytes are present, and stale or duplicate message numbers are never consumed again.", "quantifier": "all datagram histories", "why_tests_cant": "Histories are unbounded and attacker-controlled.", "anchors": ["src/dtls12/engine.rs: next_handshake, has_complete_handshake", "src/dtls13/engine.rs: next_handshake, advance_peer_handshake_seq"]}
{"id": "C12", "title": "Transcript does not depend on fragmentation", "statement": "The transcript bytes contributed by a message are the same on the sender and on the receiver, for every MTU, split and delivery order (1.2: full unfragmented header + body; 1.3: type, length, body).", "quantifier": "all messages, MTUs, schedules", "why_tests_cant": "A mismatch breaks Finished only for specific splits.", "anchors": ["src/dtls12/engine.rs: create_handshake", "src/dtls12/message/handshake.rs: defragment", "src/dtls13/engine.rs: create_handshake", "src/dtls13/message/handshake.rs: defragment"]}
{"id": "C13", "title": "DTLS 1.3 never reuses a record number / nonce", "statement": "For one sending key the record numbers of all protected records ever produced (handshake, retransmission, application data, ACK, alert, key update) are pairwise distinct, hence the AEAD nonces are pairwise distinct; when numbers run out sending fails instead of wrapping.", "quantifier": "every sequence of API calls and incoming packets, including retransmissions and key updates", "why_tests_cant": "Needs an invariant over unbounded histories; 2^48 records cannot be executed in a test.", "anchors": ["src/dtls13/engine.rs: create_ciphertext_record, MAX_SEQUENCE_NUMBER", "src/crypto/dtls_aead.rs: Nonce::xor"]}
{"id": "C14", "title": "DTLS 1.2 send record numbers are strictly increasing", "statement": "Records produced in one epoch carry strictly increasing sequence numbers, also across retransmissions, as long as fewer than 2^48 records are sent in the epoch.", "quantifier": "every sequence of sends, retransmissions and flights", "why_tests_cant": "Unbounded histories.", "anchors": ["src/dtls12/engine.rs: create_record_inner, flight_resend"]}
{"id": "C15", "title": "AEAD nonce and additional data bind the record", "statement": "With a fixed IV, different 64-bit record numbers give different nonces; different (epoch, sequence, type, length) give different DTLS 1.2 additional data; sender and receiver compute the same nonce and additional data for the same record.", "quantifier": "all IVs, epochs, sequence numbers, lengths", "why_tests_cant": "2^64 x 2^64 pairs.", "anchors": ["src/crypto/dtls_aead.rs: Nonce, Aad", "src/dtls12/engine.rs", "src/dtls13/engine.rs"]}
{"id": "C16", "title": "A protected record opens to what was sealed", "statement": "If the AEAD is correct (open inverts seal), a record produced by one endpoint's send path, delivered unmodified, is accepted by the other endpoint (if fresh) and yields exactly the sealed content type and bytes, for every cipher suite shape (explicit nonce or not, any tag length).", "quantifier": "all plaintexts, sequence numbers, epochs, IVs, AEADs", "why_tests_cant": "Header, nonce, AAD and length arithmetic must agree on both sides for all values.", "anchors": ["src/dtls12/engine.rs: create_record_inner, decrypt_record", "src/dtls12/incoming.rs: Record::parse", "src/dtls13/engine.rs: create_ciphertext_record", "src/dtls13/incoming.rs"]}
{"id": "C17", "title": "Datagrams respect the MTU", "statement": "Every datagram built from handshake messages is at most the configured MTU when the MTU leaves room for one payload byte; packing several records never makes a datagram exceed the MTU unless a single record alone exceeds it.", "quantifier": "all sequences of messages, MTUs and queue states", "why_tests_cant": "Packing depends on the whole queue history.", "anchors": ["src/dtls12/engine.rs: create_record_inner, create_handshake", "src/dtls13/engine.rs: create_handshake, create_ciphertext_record"]}
{"id": "C18", "title": "Queues stay within the configured limits", "statement": "The receive queue never exceeds max_queue_rx entries and the transmit queue never exceeds max_queue_tx datagrams; overflow is reported as an error, and does not grow memory.", "quantifier": "every history of packets and sends", "why_tests_cant": "Attacker-controlled unbounded input histories.", "anchors": ["src/dtls12/engine.rs: insert_incoming, create_record_inner", "src/dtls13/engine.rs"]}
{"id": "C19", "title": "A too small output buffer loses nothing", "statement": "When poll_output answers that the buffer is too small, nothing is consumed: polling again with a buffer of the announced size returns the pending output, identical to what the first call would have returned with a large enough buffer.", "quantifier": "every connection state, every buffer size, any number of too-small polls", "why_tests_cant": "All states x all sizes.", "anchors": ["src/lib.rs: Output::BufferTooSmall", "src/dtls12/engine.rs: poll_output", "src/dtls13/engine.rs: poll_output", "src/auto.rs: ClientPending::poll_output"]}
{"id": "C20", "title": "Output polling drains and ends with Timeout", "statement": "Repeated poll_output with a large enough buffer returns queued datagrams in the order they were produced, each once, and after finitely many calls returns Timeout; once Timeout was returned, further polls at the same time return the same Timeout until new input arrives.", "quantifier": "every connection state", "why_tests_cant": "Termination and order over unbounded queues.", "anchors": ["src/dtls12/engine.rs: poll_output", "src/dtls13/engine.rs: poll_output", "src/lib.rs: Output::Timeout"]}
{"id": "C21", "title": "Application data only after the handshake, each record once", "statement": "No ApplicationData output is produced before the handshake completed, and every delivered application data item equals the decrypted content of one accepted application-data record, delivered exactly once.", "quantifier": "every datagram history, every interleaving of polls", "why_tests_cant": "Early data may be queued in any position during the handshake.", "anchors": ["src/dtls12/engine.rs: poll_app_data, release_application_data", "src/dtls13/engine.rs"]}
{"id": "C22", "title": "close_notify is reported once, after earlier data, and ends delivery", "statement": "After an authenticated close_notify, poll_output reports CloseNotify exactly once, after application data that preceded it in the receive queue, and application data that follows it (by arrival in 1.2, by record number in 1.3) is never delivered.", "quantifier": "every interleaving of data, close_notify and polls", "why_tests_cant": "Unbounded interleavings.", "anchors": ["src/dtls12/engine.rs: classify_record, poll_output", "src/dtls13/engine.rs: classify_record, poll_output"]}
{"id": "C23", "title": "Unauthenticated alerts cannot kill an established connection", "statement": "Once receive protection is on, an alert in an unprotected record is dropped without an error or close; before that, and for authenticated alerts, a fatal alert surfaces as an error (1.3: everything other than close_notify and user_canceled).", "quantifier": "every alert level and description byte, every epoch, every state", "why_tests_cant": "All byte values x states.", "anchors": ["src/dtls12/engine.rs: classify_record", "src/dtls13/engine.rs: classify_record"]}
{"id": "C24", "title": "Retransmission timer: exponential back-off and bounded retries", "statement": "While no progress is made, a flight is retransmitted at intervals that double each time (up to jitter of at most a quarter second either way, never below 50 ms), at most flight_retries times, after which the handshake fails with a timeout error; calling handle_timeout before the deadline does nothing.", "quantifier": "all configurations, all random jitters, all call times", "why_tests_cant": "Continuous time and random jitter; unbounded call patterns.", "anchors": ["src/timer.rs", "src/dtls12/engine.rs: handle_timeout", "src/dtls13/engine.rs: handle_timeout"]}
{"id": "C25", "title": "Handshake overall deadline", "statement": "An unfinished handshake fails at the first handle_timeout at or after handshake_timeout from the first handle_timeout call, whatever packets were received meanwhile; once the handshake finished this deadline never fires.", "quantifier": "every history of packets and times", "why_tests_cant": "Histories and times are unbounded.", "anchors": ["src/dtls12/engine.rs: handle_timeout, flight_stop_resend_timers", "src/dtls13/engine.rs"]}
{"id": "C26", "title": "Announced timeout is the earliest deadline", "statement": "The instant returned in Output::Timeout is never later than any armed deadline, so a caller that sleeps until it never misses a retransmission, and calling handle_timeout strictly earlier than it has no effect.", "quantifier": "every engine state and instant", "why_tests_cant": "All combinations of timers.", "anchors": ["src/dtls12/engine.rs: poll_timeout", "src/dtls13/engine.rs: poll_timeout"]}
{"id": "C27", "title": "Retransmission repeats the flight's content under fresh numbers", "statement": "A retransmitted flight consists of exactly the saved handshake records of the flight (1.3: those not acknowledged), same epoch, type and payload in the same order, with record numbers not used before.", "quantifier": "every flight, every number of retransmissions, every set of acknowledgements", "why_tests_cant": "Arbitrary flights and ACK patterns.", "anchors": ["src/dtls12/engine.rs: flight_resend", "src/dtls13/engine.rs: flight_resend, process_ack"]}
{"id": "C28", "title": "ACKs acknowledge exactly the listed record numbers", "statement": "Processing an ACK marks exactly those sent records whose (epoch, number) is listed; a flight stops being retransmitted only when every one of its records was listed; the ACK encoder and decoder are inverse.", "quantifier": "every ACK content (arbitrary bytes), every set of sent records", "why_tests_cant": "All subsets, all byte strings.", "anchors": ["src/dtls13/engine.rs: process_ack, send_ack, received_record_numbers"]}
{"id": "C29", "title": "DTLS 1.3 key update switches keys only when safe", "statement": "New sending keys are used only after the KeyUpdate record has been acknowledged; at most one own KeyUpdate is in flight; receive keys for the next epoch are installed exactly once per peer KeyUpdate and earlier epochs remain readable until evicted.", "quantifier": "every interleaving of key updates, ACKs, losses and retransmissions", "why_tests_cant": "Concurrency of two half-connections.", "anchors": ["src/dtls13/engine.rs: create_key_update, process_ack, update_recv_keys, needs_key_update"]}
{"id": "C30", "title": "AEAD usage limit triggers key update in time", "statement": "The randomized encryption threshold lies between 3/4 of the configured limit and the limit, and once the number of records protected under a key reaches it the next application poll initiates a key update.", "quantifier": "all limits and all random values", "why_tests_cant": "2^64 limits x 2^64 random values.", "anchors": ["src/dtls13/engine.rs: jittered_aead_threshold, needs_key_update", "src/dtls13/client.rs", "src/dtls13/server.rs"]}
{"id": "C31", "title": "Inner content type recovery", "statement": "For DTLS 1.3, appending the content type and any zero padding to a plaintext and recovering it yields the same plaintext and type; an all-zero inner plaintext is discarded without error.", "quantifier": "all plaintexts (including ones ending in zero bytes) and paddings", "why_tests_cant": "Unbounded inputs.", "anchors": ["src/dtls13/engine.rs: recover_inner_content_type"]}
{"id": "C32", "title": "Garbage never hurts an established connection", "statement": "On an established connection, a datagram none of whose records authenticates makes handle_packet return Ok and has no observable effect: all later outputs are the same as if it had not arrived (a DTLS 1.2/1.3 server whose peer has not yet confirmed may retransmit its last flight).", "quantifier": "all byte strings, all established connection states", "why_tests_cant": "All byte strings.", "anchors": ["src/lib.rs: Dtls::handle_packet", "src/dtls12/engine.rs: parse_packet", "src/dtls13/engine.rs: parse_packet", "src/error.rs"]}
{"id": "C33", "title": "Connected means the peer's Finished verified", "statement": "Connected is emitted only after a Finished message from the peer whose verify_data equals the one computed over the local transcript and secrets was processed; never twice.", "quantifier": "every message history, for both roles and both versions", "why_tests_cant": "All handshake histories, including out-of-order and repeated messages.", "anchors": ["src/dtls12/client.rs: await_finished", "src/dtls12/server.rs: await_finished", "src/dtls13/client.rs: await_finished", "src/dtls13/server.rs: await_finished"]}
{"id": "C34", "title": "The client authenticates the server's key", "statement": "A certificate-authenticated client emits Connected only if the server presented a certificate and a signature over the handshake (1.2: key exchange parameters and both randoms; 1.3: transcript) verified under that certificate with an offered algorithm.", "quantifier": "every server behaviour", "why_tests_cant": "Adversarial message sequences (skipped, repeated, reordered messages).", "anchors": ["src/dtls12/client.rs: await_certificate, await_server_key_exchange", "src/dtls13/client.rs: await_certificate, await_certificate_verify"]}
{"id": "C35", "title": "A client certificate is only accepted with proof of possession", "statement": "A server that received a non-empty client certificate completes only after a CertificateVerify verified under that certificate; the PeerCert event is exactly the presented leaf certificate.", "quantifier": "every client behaviour", "why_tests_cant": "Adversarial message sequences.", "anchors": ["src/dtls12/server.rs: await_certificate, await_certificate_verify", "src/dtls13/server.rs"]}
{"id": "C36", "title": "require_client_certificate is enforced", "statement": "With require_client_certificate set, a server never completes a handshake in which the client did not present a certificate (documented: 'makes the server fail if the client does not send a certificate').", "quantifier": "every client behaviour", "why_tests_cant": "Adversarial client.", "anchors": ["src/config.rs: require_client_certificate", "src/dtls12/server.rs: await_certificate", "src/dtls13/server.rs: await_certificate"]}
{"id": "C37", "title": "PSK: unknown identities never connect", "statement": "A PSK server never emits Connected for an identity its resolver does not know, and the flight it sends up to that point has the same shape as for a known identity.", "quantifier": "every identity, resolver and client behaviour", "why_tests_cant": "All identities/resolvers.", "anchors": ["src/dtls12/server.rs: await_client_key_exchange, await_finished"]}
{"id": "C38", "title": "Extended master secret is mandatory", "statement": "Neither DTLS 1.2 role completes a handshake in which the peer's hello lacked the extended_master_secret extension.", "quantifier": "every hello", "why_tests_cant": "Extension lists are unbounded.", "anchors": ["src/dtls12/client.rs: await_server_hello", "src/dtls12/server.rs: await_client_hello"]}
{"id": "C39", "title": "Negotiated parameters were offered and allowed", "statement": "The negotiated cipher suite was offered by the client and is allowed by the local configuration; the negotiated SRTP profile was offered by the client; the negotiated group is one both sides listed; otherwise the handshake fails.", "quantifier": "every configuration pair, every hello", "why_tests_cant": "All lists in all orders.", "anchors": ["src/dtls12/server.rs: await_client_hello", "src/dtls12/client.rs: await_server_hello", "src/dtls13/server.rs", "src/dtls13/client.rs", "src/config.rs"]}
{"id": "C40", "title": "Cookie exchange: no server flight before address validation", "statement": "With the cookie enabled, a server only answers a ClientHello without a valid cookie by a HelloVerifyRequest / HelloRetryRequest, and never sends its ServerHello flight before it received the cookie it issued for that client.", "quantifier": "every sequence of ClientHellos", "why_tests_cant": "Adversarial histories.", "anchors": ["src/dtls12/server.rs: await_client_hello", "src/dtls13/server.rs: await_client_hello"]}
{"id": "C41", "title": "HelloRetryRequest at most once", "statement": "A DTLS 1.3 client follows at most one HelloRetryRequest per handshake and a server sends at most one.", "quantifier": "every peer behaviour", "why_tests_cant": "Adversarial histories.", "anchors": ["src/dtls13/client.rs: await_server_hello", "src/dtls13/server.rs: await_client_hello"]}
{"id": "C42", "title": "Data written before completion is sent after it, in order", "statement": "Application data accepted by send_application_data before the handshake finishes is transmitted after it, in the order it was written, exactly once; nothing is transmitted as application data before.", "quantifier": "every interleaving of sends and handshake progress", "why_tests_cant": "Unbounded interleavings.", "anchors": ["src/dtls12/client.rs: send_application_data, await_application_data", "src/dtls12/server.rs", "src/dtls13/client.rs", "src/dtls13/server.rs"]}
{"id": "C43", "title": "Close is final for sending", "statement": "After close() every send_application_data fails with ConnectionClosed, close is idempotent, and a close_notify is sent exactly once if the handshake had completed.", "quantifier": "every history after close", "why_tests_cant": "All histories.", "anchors": ["src/dtls12/client.rs: close", "src/dtls12/server.rs: close", "src/dtls13/client.rs: close", "src/dtls13/server.rs: close", "src/lib.rs"]}
{"id": "C44", "title": "Writing while the version is undecided is refused without effect", "statement": "While an auto-sensing endpoint has not determined the version, send_application_data and close return HandshakePending and change nothing.", "quantifier": "every state before the decision", "why_tests_cant": "All histories.", "anchors": ["src/lib.rs: send_application_data, close"]}
{"id": "C45", "title": "Version auto-sensing picks the version the peer speaks", "statement": "The auto-sensing client becomes a DTLS 1.3 client exactly when the server's first flight is a ServerHello/HelloRetryRequest selecting DTLS 1.3, a DTLS 1.2 client for HelloVerifyRequest or another ServerHello, and never panics on any datagram.", "quantifier": "all datagrams", "why_tests_cant": "All byte strings.", "anchors": ["src/auto.rs: server_hello_version, server_hello_version_inner", "src/lib.rs"]}
{"id": "C46", "title": "Hybrid ClientHello retransmission", "statement": "Before the version is known the client sends its hello once per deadline with delays 1,2,4,...,32 s capped, at most flight_retries retransmissions, then fails with a timeout; a too small buffer does not lose it.", "quantifier": "all call times and buffer sizes", "why_tests_cant": "Unbounded call patterns.", "anchors": ["src/auto.rs: ClientPending"]}
{"id": "C47", "title": "Configuration validation", "statement": "A built configuration has MTU >= 64, a non-zero AEAD limit and at least one usable cipher suite with a key exchange group if needed; suite filters never add a suite the provider does not support and never allow a PSK suite without PSK configuration.", "quantifier": "all builder inputs and providers", "why_tests_cant": "All lists.", "anchors": ["src/config.rs: ConfigBuilder::build, dtls12_cipher_suites, dtls13_cipher_suites, kx_groups"]}
{"id": "C48", "title": "Key derivation labels are unambiguous", "statement": "The HKDF label encoding is injective in (length, label, context) within its limits, rejects out-of-limit inputs, and HKDF-Expand and the TLS 1.2 PRF output exactly the requested number of bytes, as a prefix-consistent stream.", "quantifier": "all labels, contexts, lengths, all hash functions", "why_tests_cant": "Unbounded inputs.", "anchors": ["src/crypto/prf_hkdf.rs"]}
{"id": "C49", "title": "Both sides derive the same, disjoint traffic keys", "statement": "Given equal secrets, what the client writes with is what the server reads with and vice versa; the key block is cut into non-overlapping parts of the right length.", "quantifier": "all secrets, suites", "why_tests_cant": "All byte strings.", "anchors": ["src/dtls12/context.rs: derive_keys", "src/dtls13/engine.rs: derive keys"]}
{"id": "C50", "title": "Hello and extension codecs round-trip and reject duplicates", "statement": "Serializing and parsing a ClientHello, ServerHello, HelloVerifyRequest, certificate list, key share, supported versions/groups, signature algorithms, use_srtp or cookie extension is the identity; unknown extensions are ignored; a repeated known extension is rejected.", "quantifier": "all field values within wire limits, all byte strings", "why_tests_cant": "Unbounded nested lists.", "anchors": ["src/dtls12/message/*.rs", "src/dtls13/message/*.rs"]}
{"id": "C51", "title": "Renegotiation is refused", "statement": "After the handshake, a new authenticated handshake message (1.3: other than KeyUpdate) that is not a stale retransmission fails with a renegotiation error and is never processed.", "quantifier": "every message after completion", "why_tests_cant": "All messages.", "anchors": ["src/dtls12/engine.rs: insert_incoming", "src/dtls13/engine.rs: insert_incoming"]}
{"id": "C52", "title": "No panic on network input", "statement": "No datagram, in any state, makes the library panic.", "quantifier": "all byte strings and states", "why_tests_cant": "All byte strings.", "anchors": ["src/auto.rs: server_hello_version_inner", "src/dtls12/engine.rs: insert_incoming", "src/dtls13/engine.rs: flight_saved_records"]}
{"id": "C53", "title": "Handshake fragment header codec is exact", "statement": "Writing a handshake fragment (type, total length, message number, offset, fragment length, bytes) produces the RFC 6347 layout; parsing any valid fragment yields exactly its fields and stops at its end; whatever is parsed successfully is such a fragment, and the parser never reads outside the record.", "quantifier": "all byte strings, all field values in wire range", "why_tests_cant": "It quantifies over all byte strings and all combinations of six integer fields.", "anchors": ["src/dtls12/message/handshake.rs: Handshake::parse, parse_header, serialize", "src/dtls13/message/handshake.rs"]}
{"id": "C54", "title": "An auto-sensing endpoint is an endpoint of the detected version", "statement": "At every moment an auto-sensing endpoint is either undecided (and then a client only resends one and the same hello) or behaves exactly as an endpoint of one version with its own history of calls; a server that falls back to DTLS 1.2 processes only datagrams it has received, in their order, so every guarantee about the endpoints of that version holds of it.", "quantifier": "every history of calls from Dtls::new_auto, with or without set_active(true)", "why_tests_cant": "Histories are unbounded; the switch can happen after any number of calls.", "anchors": ["src/lib.rs: handle_pending_auto_client, handle_pending_auto_server, set_active", "src/auto.rs", "src/dtls13/server.rs: retained_hello"]}
{"id": "C55", "title": "Every call ends", "statement": "No datagram, configuration or state makes a call on an endpoint loop for ever: the state machine reaches a state it stays in, fails or panics after finitely many rounds; splitting a received datagram into records ends; cutting a handshake message into fragments ends, also for an MTU that leaves no room for a single byte of the message.", "quantifier": "every received datagram, every endpoint state (reachable or not), every MTU and queue limit, both versions and both roles", "why_tests_cant": "A test that hangs shows one bad input; that none exists is a statement about all inputs and states.", "anchors": ["src/dtls12/client.rs, src/dtls12/server.rs, src/dtls13/client.rs, src/dtls13/server.rs: make_progress", "src/dtls12/incoming.rs, src/dtls13/incoming.rs: Records::parse", "src/dtls12/engine.rs, src/dtls13/engine.rs: create_handshake"]}
{"id": "C56", "title": "Every accepted configuration can run a handshake", "statement": "For every configuration that the builder accepts and every certificate, an endpoint whose application fetches all output before each call is able to send its handshake flights: no call made on receipt of a genuine handshake message fails because the endpoint's own send queue is full.", "quantifier": "every accepted configuration (MTU, queue limits), every certificate, every reachable state with an empty send queue and every received handshake datagram", "why_tests_cant": "Tests use a few MTUs and small certificates; the claim is about all combinations of MTU, queue limit and certificate size.", "anchors": ["src/config.rs: ConfigBuilder::build", "src/dtls13/engine.rs: create_handshake, enqueue of ciphertext records", "src/dtls12/engine.rs: create_record_inner"]}
