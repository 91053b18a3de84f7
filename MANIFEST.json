{
 "claims": [
  {
   "property": "C01",
   "status": "proved",
   "theorems": [
    "C01_replay_window_exact",
    "C01_no_number_admitted_twice"
   ],
   "note": ""
  },
  {
   "property": "C02",
   "status": "proved",
   "theorems": [
    "C02_opened_once12",
    "C02_C21_delivered_once12_partial"
   ],
   "note": "Each record number is opened at most once, over every history; delivered data come from records with distinct numbers. The second theorem needs that no application-data record of epoch 2 and up is received during the handshake (see C21 refutation)."
  },
  {
   "property": "C03",
   "status": "partial",
   "theorems": [
    "C03_handshake_once13",
    "C03_application_once13_partial"
   ],
   "note": "Handshake epoch: full, over every history of calls. Application epochs: over every sequence of calls made after the installation of the application keys, assuming the keys were installed once (a retried server SendFinished installs epoch 3 twice) and the 16-bit epoch does not wrap around."
  },
  {
   "property": "C04",
   "status": "partial",
   "theorems": [
    "C04_forged_key_update13_refuted",
    "C04_forgery_changes_nothing13_partial",
    "C04_forgery_burns_nothing13_partial",
    "C04_unauthenticated_no_change12",
    "C04_unauthenticated_record12"
   ],
   "note": "DTLS 1.2: once receive protection is on, a datagram without authentic record and without unprotected handshake record leaves the connection state unchanged. DTLS 1.3: the same for a connected endpoint; refuted for unprotected handshake records (a forged KeyUpdate replaces the receive keys)."
  },
  {
   "property": "C05",
   "status": "partial",
   "theorems": [
    "C05_reconstruction_exact",
    "C05_reconstruction_bits_partial",
    "C05_reconstruction_bits_refuted"
   ],
   "note": "Exact within half the range. Agreement with the received bits is proved when the expected number is at least half the range; below that it is refuted (the code clamps to 0)."
  },
  {
   "property": "C06",
   "status": "proved",
   "theorems": [
    "C06_record_serialize",
    "C06_record_parse_complete",
    "C06_record_parse_sound"
   ],
   "note": ""
  },
  {
   "property": "C07",
   "status": "proved",
   "theorems": [
    "C07_unified_serialize13",
    "C07_plain_serialize13",
    "C07_unified_parse13",
    "C07_unified_roundtrip13",
    "C07_plain_parse13",
    "C07_plain_roundtrip13",
    "C07_parse_sound13",
    "C07_cid_refused13"
   ],
   "note": "Unified and plaintext headers, serializer layout, parser completeness and soundness, connection-id refusal."
  },
  {
   "property": "C08",
   "status": "proved",
   "theorems": [
    "C08_split12",
    "C08_split13",
    "C08_bounded12",
    "C08_bounded13",
    "C08_malformed12",
    "C08_malformed13"
   ],
   "note": "Both versions: exact cut into whole records, bounded number of records, malformed tails are not fatal."
  },
  {
   "property": "C09",
   "status": "proved",
   "theorems": [
    "C09_fragments_cover12",
    "C09_fragments_cover13"
   ],
   "note": "Both protocol versions."
  },
  {
   "property": "C10",
   "status": "proved",
   "theorems": [
    "C10_reassembly12",
    "C10_reassembly13",
    "C10_datagram12",
    "C10_datagram13"
   ],
   "note": "Both versions: every order, repetition and interleaving of the datagrams of a flight, with at most 50 pieces per message and a queue that is not full. The datagram theorems connect unprotected datagram bytes with the fragments; protected records are covered from the opened record on."
  },
  {
   "property": "C11",
   "status": "partial",
   "theorems": [
    "C11_taken12",
    "C11_taken13_partial",
    "C11_in_order12",
    "C11_number_reused13_refuted"
   ],
   "note": "DTLS 1.2: proved for every history: a message is taken only when its number is the next expected one and all its bytes are present, and the messages added to the transcript are exactly consecutive. DTLS 1.3: the message taken has the expected number and is complete; that each number is taken once is refuted (C11_number_reused13_refuted: a message that fails to be processed is consumed but its number is expected again)."
  },
  {
   "property": "C12",
   "status": "proved",
   "theorems": [
    "C12_sender12",
    "C12_sender13",
    "C12_transcripts12",
    "C12_transcripts13"
   ],
   "note": "Both versions; the sender side holds for every MTU and even if queueing fails."
  },
  {
   "property": "C13",
   "status": "partial",
   "theorems": [
    "C13_record_numbers13_partial",
    "C13_client_handshake_numbers13_partial",
    "C13_numbers_run_out13",
    "C13_handshake_nonce13_refuted"
   ],
   "note": "Over every history of a server, and of a client except its handshake epoch; for that epoch if no call failed between installing handshake keys and leaving the wait for ServerHello. Without that condition it is refuted: C13_handshake_nonce13_refuted (an attacker makes a default client seal two contents under one key and nonce). Assumes fewer than 65533 KeyUpdates (16-bit epoch)."
  },
  {
   "property": "C14",
   "status": "proved",
   "theorems": [
    "C14_record_numbers_increase12"
   ],
   "note": "Both DTLS 1.2 roles, for every history; while fewer than 2^48 numbers of the epoch are used."
  },
  {
   "property": "C15",
   "status": "proved",
   "theorems": [
    "C15_nonce_value",
    "C15_nonce_injective",
    "C15_explicit_nonce_injective",
    "C15_aad_injective"
   ],
   "note": ""
  },
  {
   "property": "C16",
   "status": "proved",
   "theorems": [
    "C16_roundtrip12",
    "C16_roundtrip13"
   ],
   "note": "Both versions: every record created by one endpoint is parsed by an endpoint holding the same keys to the sealed type and bytes, given that open inverts seal. In 1.3 the receiver must take the two epoch bits for the sender's epoch (current13) and the truncated number must reconstruct; both are explicit hypotheses about the receiver."
  },
  {
   "property": "C17",
   "status": "partial",
   "theorems": [
    "C17_hybrid_hello_refuted",
    "C17_datagrams12",
    "C17_datagrams13"
   ],
   "note": "Proved for DTLS 1.2 (C17_datagrams12) and DTLS 1.3 (C17_datagrams13), over every history and including retransmissions. Refuted for the hybrid hello of the auto-sensing client, which is not fragmented."
  },
  {
   "property": "C18",
   "status": "proved",
   "theorems": [
    "C18_queues_bounded",
    "C18_send_all_or_error",
    "C18_receive_overflow",
    "C18_queues_bounded13",
    "C18_send_all_or_error13",
    "C18_receive_overflow13"
   ],
   "note": "Both versions."
  },
  {
   "property": "C19",
   "status": "partial",
   "theorems": [
    "C19_too_small_loses_nothing",
    "C19_certificate_buffer_refuted",
    "C19_too_small_loses_nothing13",
    "C19_certificate_buffer13_refuted"
   ],
   "note": "Holds for datagrams and application data, both versions; refuted for the peer certificate event, which panics instead (C19_certificate_buffer_refuted, C19_certificate_buffer13_refuted)."
  },
  {
   "property": "C20",
   "status": "proved",
   "theorems": [
    "C20_poll_drains",
    "C20_timeout_stable",
    "C20_poll_drains13",
    "C20_timeout_stable13"
   ],
   "note": "Both versions."
  },
  {
   "property": "C21",
   "status": "partial",
   "theorems": [
    "C21_not_before_connected13",
    "C21_delivered_once13_partial",
    "C21_injected_data13_refuted",
    "C21_injected_data12_refuted",
    "C21_not_before_connected12",
    "C21_delivered_once12_partial"
   ],
   "note": "DTLS 1.2: nothing before Connected (unconditional); delivered data are contents of distinct authentic records if no epoch>=2 application-data record was received; refuted otherwise (attacker-injected plaintext is delivered). DTLS 1.3: nothing before Connected (unconditional); what an established connection delivers is contained, with multiplicity, in what was waiting when it was established and one item per protected record taken since. Refuted for what was waiting (C21_injected_data13_refuted: one datagram sent by anyone before the handshake is delivered as application data after it)."
  },
  {
   "property": "C22",
   "status": "partial",
   "theorems": [
    "C22_reported_once13",
    "C22_close_is_last13",
    "C22_no_later_data13",
    "C22_close_noted13",
    "C22_noted_is_authentic13",
    "C22_close_is_reported13",
    "C22_later_number13_refuted",
    "C22_forged_close13_refuted",
    "C22_no_later_data12",
    "C22_close_noted12",
    "C22_reported_is_authentic12_partial",
    "C22_reported_once12",
    "C22_close_is_last12",
    "C22_close_is_reported12",
    "C22_close_before_data12_refuted"
   ],
   "note": "DTLS 1.2: reported at most once, only after all queued data on a connected endpoint, nothing delivered after it; refuted for an endpoint that is not yet connected. DTLS 1.3: reported at most once, only when nothing else is waiting, noted from an authentic record and then reported, and later data has a number not after it (connected endpoint). Refuted: data with a later number that arrived first is delivered; before the peer's keys are in use a forged unprotected close_notify is reported."
  },
  {
   "property": "C23",
   "status": "proved",
   "theorems": [
    "C23_fatal_is_authentic13",
    "C23_plain_alert_dropped13",
    "C23_fatal_alert_reported13",
    "C23_early_alert_reported13",
    "C23_fatal_is_authentic12",
    "C23_plain_alert_dropped12",
    "C23_early_alert_reported12",
    "C23_fatal_alert_reported12"
   ],
   "note": "Both versions: on an established connection a fatal-alert error comes from an authentic record, unprotected alerts are ignored (1.3: the call acts like one with an empty datagram), and a record taken for a fatal alert is reported."
  },
  {
   "property": "C24",
   "status": "partial",
   "theorems": [
    "C24_timeout12",
    "C24_bounded_retries12",
    "C24_timeout13_partial",
    "C24_bounded_retries13"
   ],
   "note": "Both versions for endpoints that wait for the peer. DTLS 1.3: a server that has received a client certificate no longer retransmits at all (C25_server_stalled13_refuted)."
  },
  {
   "property": "C25",
   "status": "partial",
   "theorems": [
    "C25_deadline_fires12",
    "C25_deadline_only12",
    "C25_deadline_fires13_partial",
    "C25_deadline_hybrid13_partial",
    "C25_deadline_only13_partial",
    "C25_connected_client13_refuted",
    "C25_server_stalled13_refuted"
   ],
   "note": "DTLS 1.2 in full. DTLS 1.3: the deadline fires for clients and for servers that do not ask for a client certificate, and never early. Refuted: an established DTLS 1.3 client times out, a DTLS 1.3 server that received a client certificate never does."
  },
  {
   "property": "C26",
   "status": "partial",
   "theorems": [
    "C26_announced_is_earliest12_partial",
    "C26_early_call12_partial",
    "C26_unset_deadline12_refuted",
    "C26_announced_is_earliest13_partial",
    "C26_early_call13_partial",
    "C26_unset_deadline13_refuted"
   ],
   "note": "Both versions. Refuted for both: the announced timeout can lie beyond a deadline that is not set yet, see DESIGN.md."
  },
  {
   "property": "C27",
   "status": "partial",
   "theorems": [
    "C27_resend12",
    "C27_saved_is_sent12",
    "C27_new_flight12",
    "C27_resend13_partial",
    "C27_flight_resend13",
    "C27_new_flight13",
    "C27_flight_lost13_refuted"
   ],
   "note": "DTLS 1.2 proved. DTLS 1.3: proved for every retransmission that succeeds (and for the resent prefix of one that fails); refuted that a failed retransmission keeps the flight. See DESIGN.md, findings."
  },
  {
   "property": "C28",
   "status": "partial",
   "theorems": [
    "C28_ack_marks13",
    "C28_ack_serialize13",
    "C28_ack_parse13",
    "C28_ack_roundtrip13"
   ],
   "note": "The codec is inverse both ways; processing an ACK marks exactly the listed records. A handshake flight ends when its epoch-2 records are all listed; its plaintext records need not be (the source does not wait for them), so the \"every one of its records\" clause holds only for the protected ones."
  },
  {
   "property": "C29",
   "status": "partial",
   "theorems": [
    "C29_switch13",
    "C29_one_in_flight13_partial",
    "C29_receive13_partial",
    "C29_two_in_flight13_refuted",
    "C29_update_applied_twice13_refuted",
    "C29_never_acknowledged13_refuted"
   ],
   "note": "C29_switch13: for every history, new sending keys come into use only in handle_packet and only when every KeyUpdate record kept was acknowledged by ACK records opened under a receive key, and they are those of the next traffic secret and epoch. C29_one_in_flight13_partial and C29_receive13_partial cover the in-flight rule without an owed answer and the receive keys per call. The rest of the statement is false: C29_two_in_flight13_refuted, C29_update_applied_twice13_refuted, C29_never_acknowledged13_refuted (findings). DTLS 1.2 has no key update."
  },
  {
   "property": "C30",
   "status": "partial",
   "theorems": [
    "C30_threshold13",
    "C30_counted13",
    "C30_update_started13_partial",
    "C30_update_lost13_refuted"
   ],
   "note": "The threshold range, the counting and the start of the update are proved. \"In time\" is false when the send queue is full: C30_update_lost13_refuted shows the request forgotten (finding). C30_counted13 covers open connections before the 16-bit epoch wraps."
  },
  {
   "property": "C31",
   "status": "proved",
   "theorems": [
    "C31_opened13",
    "C31_zeros_dropped13",
    "C31_recovered13",
    "C31_all_zero13",
    "C31_sound13"
   ],
   "note": "Codec recovery, the engine hands on exactly the recovered content, and an all-zero plaintext is dropped."
  },
  {
   "property": "C32",
   "status": "partial",
   "theorems": [
    "C32_forged_handshake13_refuted",
    "C32_garbage_ignored13_partial",
    "C32_garbage_ignored12_partial",
    "C32_handshake_garbage12_partial"
   ],
   "note": "DTLS 1.2; the exceptions (receive queue full, unconfirmed peer) are in the second theorem's hypotheses. DTLS 1.3: a datagram of forged records acts like the empty datagram or changes nothing; refuted for unprotected handshake records (C32_forged_handshake13_refuted)."
  },
  {
   "property": "C33",
   "status": "proved",
   "theorems": [
    "C33_connected_finished12",
    "C33_connected_once12",
    "C33_connected_finished13",
    "C33_connected_once13"
   ],
   "note": "Both versions, both roles, every history from a new endpoint (DTLS 1.3 including the client that continues an auto-sensing one)."
  },
  {
   "property": "C34",
   "status": "proved",
   "theorems": [
    "C34_server_authenticated12",
    "C34_server_authenticated13"
   ],
   "note": "Both versions. DTLS 1.3: hello, certificate list, CertificateVerify and Finished are in the transcript in this order, the secrets come from the client's own key pair."
  },
  {
   "property": "C35",
   "status": "proved",
   "theorems": [
    "C35_client_cert_proved12",
    "C35_client_cert_held12",
    "C35_client_cert_proved13",
    "C35_client_cert_held13"
   ],
   "note": "Both versions; for the certificate reported and for one held and not yet reported."
  },
  {
   "property": "C36",
   "status": "partial",
   "theorems": [
    "C36_require_client_certificate13_refuted",
    "C36_require_client_certificate12_refuted"
   ],
   "note": "Refuted for both versions: a server with require_client_certificate completes with a client that sends an empty certificate list. See DESIGN.md, findings."
  },
  {
   "property": "C37",
   "status": "proved",
   "theorems": [
    "C37_plain_before_finished12",
    "C37_same_flight12",
    "C37_psk_known12",
    "C37_psk_client12"
   ],
   "note": "Connected implies an identity the resolver knows (C37_psk_known12); from ServerHelloDone on, what the server sends is the flight made before the identity arrived, unless the identity is known (C37_same_flight12), and it is all in the clear (C37_plain_before_finished12)."
  },
  {
   "property": "C38",
   "status": "proved",
   "theorems": [
    "C38_ems12"
   ],
   "note": "Both DTLS 1.2 roles."
  },
  {
   "property": "C39",
   "status": "partial",
   "theorems": [
    "C39_client_group12_refuted",
    "C39_client_parameters12",
    "C39_server_parameters12",
    "C39_keying12",
    "C39_client_parameters13",
    "C39_server_parameters13",
    "C39_keying13"
   ],
   "note": "Suite, SRTP profile and group for DTLS 1.3 (both roles) and for the DTLS 1.2 server; keying material is the exporter output, once, after Connected. DTLS 1.2 client: suite and profile; the group clause is refuted (C39_client_group12_refuted: it connects in a group its configuration excludes)."
  },
  {
   "property": "C40",
   "status": "proved",
   "theorems": [
    "C40_nothing_before_cookie12",
    "C40_nothing_before_cookie13",
    "C40_connected_cookie12",
    "C40_connected_cookie13"
   ],
   "note": "Both versions: in every history of a server with the cookie enabled, the datagrams sent are HelloVerifyRequest records (1.2) or fragments of HelloRetryRequest (1.3) only, or the transcript holds a ClientHello with the cookie the server computes under its secret for that hello's random (C40_nothing_before_cookie12/13); a server that reports Connected has seen it (C40_connected_cookie12/13). The cookie binds the random and the secret, as the code does, not the peer's address."
  },
  {
   "property": "C41",
   "status": "partial",
   "theorems": [
    "C41_client_follows_one13",
    "C41_server_sends_one13_partial",
    "C41_server_sends_one13_refuted"
   ],
   "note": "Proved for the client. For the server it is proved for steps that succeed and refuted in general: a HelloRetryRequest cut by a full send queue is made again (C41_server_sends_one13_refuted)."
  },
  {
   "property": "C42",
   "status": "partial",
   "theorems": [
    "C42_at_most_once13",
    "C42_nothing_lost13",
    "C42_write_lost13_refuted",
    "C42_in_order_at_most_once12",
    "C42_nothing_lost12",
    "C42_write_lost12_refuted"
   ],
   "note": "Both versions: application data records are protected, appear only after completion, hold accepted writes, none twice; and they are exactly the accepted writes in order unless a call failed because the send queue was full or protection failed (1.2: or the connection was closed before completion). Unconditionally it is refuted: C42_write_lost12_refuted, C42_write_lost13_refuted."
  },
  {
   "property": "C43",
   "status": "proved",
   "theorems": [
    "C43_close_is_final13",
    "C43_one_close_notify13",
    "C43_close_is_final12",
    "C43_one_close_notify12"
   ],
   "note": "Both versions. After a close that returned Ok; a close that fails because the alert does not fit the send queue leaves the connection open."
  },
  {
   "property": "C44",
   "status": "proved",
   "theorems": [
    "C44_pending_refused"
   ],
   "note": "For configurations with a nonzero handshake timeout (with zero, see C54_no_time_refuted) and every history that starts with Dtls::new_auto and at most one set_active(true)."
  },
  {
   "property": "C45",
   "status": "partial",
   "theorems": [
    "C45_server_hello",
    "C45_hello_verify_request",
    "C45_other_datagrams",
    "C45_panic_refuted"
   ],
   "note": "The choice of the version is proved for every well-formed ServerHello and HelloVerifyRequest, and every other datagram is refused without effect. 'Never panics' is refuted: C45_panic_refuted."
  },
  {
   "property": "C46",
   "status": "proved",
   "theorems": [
    "C46_hello_schedule",
    "C46_hello_poll"
   ],
   "note": "All histories of the pending client."
  },
  {
   "property": "C47",
   "status": "proved",
   "theorems": [
    "C47_usable_suites12",
    "C47_usable_suites13",
    "C47_usable_groups",
    "C47_build_valid"
   ],
   "note": ""
  },
  {
   "property": "C48",
   "status": "proved",
   "theorems": [
    "C48_label_injective",
    "C48_label_limits",
    "C48_hkdf_expand",
    "C48_prf_tls12"
   ],
   "note": ""
  },
  {
   "property": "C49",
   "status": "proved",
   "theorems": [
    "C49_key_block12",
    "C49_peers12",
    "C49_handshake_keys13",
    "C49_application_keys13",
    "C49_updated_keys13"
   ],
   "note": "Both versions. 1.2: key block cut into disjoint parts, symmetric. 1.3: handshake, application and updated keys agree, each from the secret with the sender's label."
  },
  {
   "property": "C50",
   "status": "proved",
   "theorems": [
    "C50_client_hello12_roundtrip",
    "C50_client_hello12_duplicate",
    "C50_client_hello12_sound",
    "C50_server_hello12_roundtrip",
    "C50_server_hello12_duplicate",
    "C50_hello_verify_roundtrip",
    "C50_certificate12_roundtrip",
    "C50_certificate_verify12_roundtrip",
    "C50_certificate_request12_roundtrip",
    "C50_key_exchange12_roundtrip",
    "C50_extensions12_roundtrip",
    "C50_client_hello13_roundtrip",
    "C50_client_hello13_duplicate",
    "C50_client_hello13_sound",
    "C50_server_hello13_roundtrip",
    "C50_server_hello13_duplicate",
    "C50_encrypted_extensions13_roundtrip",
    "C50_encrypted_extensions13_duplicate",
    "C50_certificate13_roundtrip",
    "C50_extensions13_roundtrip"
   ],
   "note": "DTLS 1.2 and 1.3 hellos, certificate lists and extension payloads."
  },
  {
   "property": "C51",
   "status": "partial",
   "theorems": [
    "C51_renegotiation_refused13",
    "C51_renegotiation_hidden12_refuted",
    "C51_renegotiation_refused12_partial"
   ],
   "note": "DTLS 1.2, for a handshake record that is first in its datagram. For one behind another record the claim is false: C51_renegotiation_hidden12_refuted. DTLS 1.3: C51_renegotiation_refused13 covers every handshake record whose first message is not a KeyUpdate and is not older than the next expected one."
  },
  {
   "property": "C52",
   "status": "partial",
   "theorems": [
    "C52_connected_panics12_partial",
    "C52_unauthentic_no_panic12_partial",
    "C52_connected_no_panic13_partial",
    "C52_many_fragments_panic13_refuted",
    "C52_poll_panic_is_certificate12_partial",
    "C52_poll_panic_is_certificate13_partial",
    "C52_duplicate_panics12_refuted"
   ],
   "note": "Refuted for DTLS 1.2: two copies of one unauthenticated datagram make an endpoint panic during the handshake. Refuted for DTLS 1.3: a server whose flight needs more than 12 records (small MTU, large certificate) panics on a ClientHello. Proved for connected DTLS 1.3 endpoints: no datagram, timeout, send or close panics. Proved for connected DTLS 1.2 endpoints: no timeout, send or close panics, nor does a datagram without an authentic record; with one, the only panic is the assertion of engine.rs:364. Both versions, every reachable state: poll_output panics only on a certificate that is larger than the buffer. Missing: the handshake states, and the assertion of engine.rs:364 under authentic records."
  },
  {
   "property": "C53",
   "status": "proved",
   "theorems": [
    "C53_fragment_serialize",
    "C53_fragment_parse_complete",
    "C53_fragment_parse_sound"
   ],
   "note": ""
  },
  {
   "property": "C54",
   "status": "proved",
   "theorems": [
    "C54_auto_endpoint",
    "C54_no_time_refuted",
    "C54_role_refuted"
   ],
   "note": "For a nonzero handshake timeout; the refuted theorems show what happens with a zero timeout and with a role change while undecided."
  },
  {
   "property": "C55",
   "status": "proved",
   "theorems": [
    "C55_steps_end_client12",
    "C55_steps_end_server12",
    "C55_steps_end_client13",
    "C55_steps_end_server13",
    "C55_datagram_ends12",
    "C55_datagram_ends13",
    "C55_fragments_end12",
    "C55_fragments_end13"
   ],
   "note": "One theorem per loop of the code: the state machines (4), the splitting of a datagram (2), the cutting of a message into fragments (2). The remaining recursion of the model is structural; the version scan is C54's find_version_fuel."
  },
  {
   "property": "C56",
   "status": "partial",
   "theorems": [
    "C56_flight_exceeds_queue13_refuted",
    "C56_flight_exceeds_queue12_refuted"
   ],
   "note": "Refuted for both versions: with the smallest accepted MTU (64), the default queue limits and a certificate of 301 bytes (DTLS 1.2: 401), a server with an empty send queue answers the genuine ClientHello with TransmitQueueFull. No positive part: a bound on the size of a flight relative to MTU and queue limit is missing."
  }
 ]
}