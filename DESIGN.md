# Design of the formal model of dimpl

The source modelled is the pinned commit in /repo (`src/`).  The model is written
in Rocq (Coq 8.16.1), standard library only, in `rocq/theories`.

## Approach

* Bytes are natural numbers (`N`) below 256, byte strings are lists.  All wire
  formats are modelled at byte level, so header layouts, length fields and
  truncations are part of the model.
* Every Rust function is a total Gallina function.  `&mut self` functions are
  functions from state to (outcome, state); the outcome is `Ok`, `Err` or
  `Panic`, and the state after an error is kept, because Rust keeps it.
* Cryptography (AEAD seal/open, hashes, signatures, key exchange), the random
  number generator and the result of a binary search over an unsorted queue are
  parameters (an environment record); theorems hold for every environment.
  Where a theorem needs e.g. "open inverts seal", it is a hypothesis of that
  theorem.
* Time is an integer number of nanoseconds.
* Model files contain definitions only; proofs are in separate files; property
  statements are collected in `Prop*.v`, each followed by a concrete
  instance of its hypotheses and by `Print Assumptions`.
* A property that is false of the code is kept in full as stated and proved
  *refuted* by a concrete witness computed on the model; the strongest true
  restriction is proved next to it.

## Plan per property

* **C01 Replay window is exact.** Model: Window.v: ReplayWindow on N with explicit 64-bit truncation. Proof: Invariant: max/bitmap describe exactly the set of marked numbers; induction over the history.
* **C02 DTLS 1.2: a protected record is opened at most once.** Model: Engine12.v: Records/Record parse with AEAD oracle and replay window. Proof: Invariant over arbitrary datagram histories; accepted (epoch,seq) list has no duplicates.
* **C03 DTLS 1.3: a protected record is opened at most once per epoch.** Model: Engine13.v: per-epoch windows, epoch/sequence resolution. Proof: Same, per key slot.
* **C04 Records that fail authentication change no receive state.** Model: Engine12.v / Engine13.v receive path. Proof: Case analysis on the parse path: state equality for every datagram no record of which opens.
* **C05 DTLS 1.3 record-number reconstruction is right inside the window and never ambiguous.** Model: SeqRecon.v: reconstruct_sequence on N. Proof: Arithmetic proof with lia over div/mod.
* **C06 DTLS 1.2 record header codec is a bijection on valid headers.** Model: Record12.v byte codec. Proof: Round trip both directions; prefix consumption lemma.
* **C07 DTLS 1.3 record header codec round-trips.** Model: Record13.v byte codec. Proof: Round trip; flag case analysis.
* **C08 Datagram splitting loses nothing and bounds work.** Model: Engine12.v/Engine13.v splitting loops. Proof: Induction on datagram length.
* **C09 Handshake fragmentation covers each message exactly once.** Model: Engine12.v/Engine13.v create_handshake loop. Proof: Induction on remaining bytes; loop invariant offset/chunk.
* **C10 Reassembly returns the original message for any delivery order.** Model: Receive queue insertion + completeness test + defragment. Proof: Queue sortedness invariant, permutation argument.
* **C11 Handshake messages are consumed in order, without gaps.** Model: next_handshake. Proof: Invariant over histories of consumed message numbers.
* **C12 Transcript does not depend on fragmentation.** Model: create_handshake and defragment transcript writes. Proof: Equality of contributed bytes, both sides.
* **C13 DTLS 1.3 never reuses a record number / nonce.** Model: Engine13.v send path with record-number guard. Proof: Ghost log of sealed (key slot, number); invariant: all logged numbers < next number, pairwise distinct.
* **C14 DTLS 1.2 send record numbers are strictly increasing.** Model: Engine12.v send path. Proof: Ghost-free: numbers in the queue log strictly increase; plus refutation of nonce freshness past 2^48.
* **C15 AEAD nonce and additional data bind the record.** Model: Aead.v: nonce/AAD byte construction. Proof: Injectivity by byte arithmetic / xor.
* **C16 A protected record opens to what was sealed.** Model: Send path composed with receive path, AEAD oracle with open(seal x)=x hypothesis. Proof: Computation of header, nonce, AAD on both sides.
* **C17 Datagrams respect the MTU.** Model: create_record packing. Proof: Invariant: every queued datagram <= mtu or a single record.
* **C18 Queues stay within the configured limits.** Model: Queue guards. Proof: Invariant over all engine operations.
* **C19 A too small output buffer loses nothing.** Model: poll_output of both engines and the pending client. Proof: State equality (up to purge of handled records) after BufferTooSmall, and equality of the next answer.
* **C20 Output polling drains and ends with Timeout.** Model: poll_output. Proof: Measure-based termination, FIFO lemma, idempotence of Timeout.
* **C21 Application data only after the handshake, each record once.** Model: poll_app_data. Proof: Provenance invariant; for DTLS 1.2 the unrestricted statement is false (epoch >= 2 record queued before encryption): proved refuted with a witness, proved under the restriction.
* **C22 close_notify is reported once, after earlier data, and ends delivery.** Model: classify_record and poll_output. Proof: Invariants on close_notify flags.
* **C23 Unauthenticated alerts cannot kill an established connection.** Model: classify_record. Proof: Case analysis over all alerts.
* **C24 Retransmission timer: exponential back-off and bounded retries.** Model: Timer.v and handle_timeout. Proof: Induction over attempts.
* **C25 Handshake overall deadline.** Model: handle_timeout. Proof: Invariant over histories: armed deadline never moves until disabled.
* **C26 Announced timeout is the earliest deadline.** Model: poll_timeout/handle_timeout. Proof: Case analysis + no-op lemma.
* **C27 Retransmission repeats the flight's content under fresh numbers.** Model: flight_resend. Proof: Induction over the saved flight.
* **C28 ACKs acknowledge exactly the listed record numbers.** Model: process_ack, ACK codec. Proof: List induction; round trip.
* **C29 DTLS 1.3 key update switches keys only when safe.** Model: KeyUpdate part of Engine13.v. Proof: Fin13.v reduces a call on a connected endpoint to the engine operations it makes, Open13.v says which records of a datagram were opened with a receive key, KeyUpd13.v carries through every history that what is marked acknowledged was, Recv13.v gives the effect of one call on the receive keys.
* **C30 AEAD usage limit triggers key update in time.** Model: jittered threshold arithmetic and needs_key_update. Proof: Arithmetic.
* **C31 Inner content type recovery.** Model: recover_inner_content_type. Proof: List induction.
* **C32 Garbage never hurts an established connection.** Model: handle_packet after completion. Proof: State equality.
* **C33 Connected means the peer's Finished verified.** Model: Client/server state machines. Proof: Invariant: Connected event implies ghost Finished verification.
* **C34 The client authenticates the server's key.** Model: Client state machines. Proof: Path invariant over all message histories.
* **C35 A client certificate is only accepted with proof of possession.** Model: Server state machines. Proof: Path invariant.
* **C36 require_client_certificate is enforced.** Model: Server state machines. Proof: Refuted by a concrete history: empty certificate list is accepted.
* **C37 PSK: unknown identities never connect.** Model: DTLS 1.2 server PSK path. Proof: Invariant psk_valid. Second half (Flight12.v): in the states between ServerHelloDone and the client's Finished no record is created except by retransmission, so every datagram is made of the saved flight.
* **C38 Extended master secret is mandatory.** Model: Hello processing. Proof: Invariant.
* **C39 Negotiated parameters were offered and allowed.** Model: Hello processing + Config filters. Proof: List lemmas + invariants.
* **C40 Cookie exchange: no server flight before address validation.** Model: Hello processing on the server. Proof: Invariant over histories: until a hello with the right cookie was accepted the send queue and the saved flight hold HelloVerifyRequest / HelloRetryRequest only and there are no keys to send with (Cookie12.v, Cookie13.v).
* **C41 HelloRetryRequest at most once.** Model: HRR flags. Proof: Invariant over histories.
* **C42 Data written before completion is sent after it, in order.** Model: queued_data handling. Proof: Invariant over histories.
* **C43 Close is final for sending.** Model: close handling. Proof: Invariant over histories.
* **C44 Writing while the version is undecided is refused without effect.** Model: Dtls wrapper. Proof: Case analysis.
* **C45 Version auto-sensing picks the version the peer speaks.** Model: Auto.v: server_hello_version on bytes with explicit panic on out-of-range index. Proof: Refuted (out-of-bounds index) with a witness datagram; proved for the remaining inputs.
* **C46 Hybrid ClientHello retransmission.** Model: ClientPending. Proof: Induction over calls.
* **C47 Configuration validation.** Model: Config.v. Proof: Case analysis, list lemmas.
* **C48 Key derivation labels are unambiguous.** Model: Hkdf.v. Proof: Injectivity on byte lists, length lemmas.
* **C49 Both sides derive the same, disjoint traffic keys.** Model: KeySched.v. Proof: Length arithmetic, symmetry.
* **C50 Hello and extension codecs round-trip and reject duplicates.** Model: Codec files. Proof: Round trip lemmas by composition.
* **C51 Renegotiation is refused.** Model: insert_incoming. Proof: Case analysis + invariant; PropReneg12.v refutes it for a DTLS 1.2 record that is not the first of its datagram.
* **C52 No panic on network input.** Model: Panic is an explicit outcome of the model. Proof: Refuted for one reachable panic of DTLS 1.2 and one of the DTLS 1.3 handshake. Positive part (NoPanic13.v, NoPanic13End.v, PropPanic13.v): an invariant of the DTLS 1.3 engine (suite known, keys within their arrays, at most four receive epochs, no empty entry in the receive queue) rules out every panic of a connected DTLS 1.3 endpoint in all calls but `poll_output`; `poll_output` panics in both versions only on a certificate larger than the buffer (PropPollPanic.v). A connected DTLS 1.2 endpoint panics in no call but `poll_output` and `handle_packet`, and in the latter only by the assertion on duplicates and only on a datagram with an authentic record (NoPanic12.v, PropPanic12.v). Missing: the handshake states of DTLS 1.2, and those of DTLS 1.3 (where a bound on the number of fragments would be needed).
* **C53 Handshake fragment header codec is exact.** Model: Record12.v. Proof: Round trip and prefix lemmas.
* **C54 An auto-sensing endpoint is an endpoint of the detected version.** Model: Auto.v: the `Dtls` wrapper, the pending client and the two switches. Proof: Invariant over the histories of `dtls_call`.
* **C55 Every call ends.** Model: the unbounded loops of the code (`make_progress`, `Records::parse`, `create_handshake`) are fixpoints on a fuel argument. Proof: Loops.v gives each loop as an inductive relation without fuel and shows, with a measure that goes down in every round, that the result of the model's function is the one of the relation, so that the fuel is never what ends the loop. (Comments in the model files that say "proved" of a fuel refer to Loops.v.)
* **C56 Every accepted configuration can run a handshake.** Model: the send queue and its limit, the fragmentation loop, `config_build`. Proof: refuted by a concrete run (PropTxFull.v).

## Trusted base

* Coq 8.16.1's kernel and its `vm_compute` (used for concrete runs only).
* No axioms.  `Print Assumptions` under every `C.._` theorem of the `Prop*.v`
  files answers "Closed under the global context".  (`vcheck` also lists the
  seven parameters of `Coq.ssr.ssrunder`, which come with the standard library's
  ssreflect plugin and are used by no theorem.)
* The reading of the Rust source: the model was written by hand from the text of
  /repo; each definition cites the lines it models.  Nothing was extracted or run.
* The meaning of the statements: `History12.v`/`History13.v` (what a history of
  API calls is), `Spec.v`, `Evidence12.v` and the definitions at the top of each
  `Prop*.v`.

## What is modelled

| Source | Model |
|---|---|
| src/window.rs | Window.v |
| src/timer.rs | Timer.v (seconds as `f32` become integer nanoseconds; jitter is an oracle in the range of the code) |
| src/config.rs, validation of suites/groups | Config.v |
| src/types.rs constants | Types.v |
| src/crypto/dtls_aead.rs | Aead.v |
| src/crypto/prf_hkdf.rs, keying.rs | Prf.v, Kdf files (HMAC is a parameter) |
| src/dtls12/message/* and src/dtls13/message/* | Codec.v, Codec12.v, Codec13.v, Record12.v, Record13.v |
| src/dtls12/{context,engine,incoming,queue,client,server}.rs | Context12.v, Engine12.v, Client12.v, Server12.v |
| src/dtls13/{engine,incoming,queue,client,server}.rs | Engine13.v, Client13.v, Server13.v, SeqRecon.v |
| the calls of lib.rs on one endpoint of a fixed version | History12.v, History13.v |
| src/auto.rs; `Dtls`, `set_active` and the version switches of src/lib.rs | Auto.v |

Parameters (record `Env`, universally quantified in every theorem): AEAD seal and
open, record-number masks, hashes/HMAC, signature creation and verification, key
exchange, certificate parsing, the random number generator, the jitter, and
`binary_search_by` on slices that need not be sorted.

## What is not modelled

* The crypto providers (src/crypto/aws_lc_rs, src/crypto/rust_crypto,
  ccm_cipher.rs): they are the parameters above.
* Certificate generation (src/certificate.rs), logging, zeroisation, buffer
  pools (src/buffer.rs: only contents matter), `Debug`/`Display`.
* Memory limits, wall-clock time, `Duration` overflow, threads (the library has
  none).
* Transient errors are one constructor: the API turns each into `Ok`.

## Findings

Statements that are false of the model, hence (if the model is faithful) of the
code.  Each has a `_refuted` theorem with a concrete reachable witness.

| Property | Theorem | What happens |
|---|---|---|
| C05 | `C05_reconstruction_bits_refuted` | Below half the range the reconstructed number is clamped to 0 and need not agree with the received bits. |
| C13 | `C13_handshake_nonce13_refuted` | DTLS 1.3, serious: a network attacker makes a client with the default configuration seal two different contents under the same handshake key and nonce. Forged records fill the queue so that ServerHello fails after the keys were installed; a forged HelloRetryRequest then resets the record number and keeps the key. |
| C11 | `C11_number_reused13_refuted` | A DTLS 1.3 message that fails to be processed is consumed and added to the transcript, but its number is expected again: an injected bad ServerHello and then the genuine one are both added, so the handshake fails later. |
| C17 | `C17_hybrid_hello_refuted` | The hello of the auto-sensing client is one unfragmented datagram, longer than a small MTU. |
| C19 | `C19_certificate_buffer_refuted`, `C19_certificate_buffer13_refuted` | `poll_output` panics when the buffer is smaller than the peer certificate. |
| C21 | `C21_injected_data13_refuted` | DTLS 1.3, serious: one datagram that anyone can send, before the handshake, is delivered by the server as application data after it. A record with the epoch bits 00 or 01 received before peer encryption is on is queued as it came and never decrypted. |
| C04 | `C04_forged_key_update13_refuted` | DTLS 1.3, serious: an unprotected handshake record with a KeyUpdate is accepted on an established connection; four of them make the receive keys in use disappear, and nothing the peer sends is delivered any more. |
| C32 | `C32_forged_handshake13_refuted` | DTLS 1.3: any other unprotected handshake record makes handle_packet return RenegotiationAttempt on an established connection. |
| C21 | `C21_injected_data12_refuted` | DTLS 1.2: an attacker without keys gets data delivered: an application-data record of epoch 2 behind the ChangeCipherSpec is delivered without being opened. |
| C22 | `C22_close_before_data12_refuted` | DTLS 1.2: data and a close alert that overtake Finished are reported in the wrong order, CloseNotify before Connected and before the data. |
| C22 | `C22_forged_close13_refuted` | DTLS 1.3: before the peer's keys are in use, an unprotected close_notify sent by anyone is reported as CloseNotify (src/dtls13/engine.rs, classify_record). |
| C22 | `C22_later_number13_refuted` | DTLS 1.3: data numbered after the close_notify that arrived before it is delivered after the close_notify was received. |
| C25 | `C25_connected_client13_refuted` | DTLS 1.3, serious: the overall deadline of a client is never switched off. An established client announces it and fails with the handshake timeout once `handshake_timeout` (40 s) has passed. |
| C25 | `C25_server_stalled13_refuted` | DTLS 1.3: a server switches off both deadlines when a client Certificate arrives. If the rest of the client's flight is lost, the unfinished handshake neither retransmits nor fails. |
| C27 | `C27_flight_lost13_refuted` | A retransmission that fails because the send queue is full loses the flight: later deadlines resend nothing (src/dtls13/engine.rs:689-737). |
| C26 | `C26_unset_deadline12_refuted`, `C26_unset_deadline13_refuted` | The retransmission deadline of a flight is not announced until the next `handle_timeout`; a caller that sleeps until the announced instant never retransmits. |
| C29 | `C29_two_in_flight13_refuted` | DTLS 1.3: an owed KeyUpdate answer and an own KeyUpdate are sent in one call; only the second can be retransmitted. |
| C29 | `C29_update_applied_twice13_refuted` | DTLS 1.3: with a full send queue a KeyUpdate is applied again for each retransmission, and the two sides lose each other's keys. |
| C29 | `C29_never_acknowledged13_refuted` | DTLS 1.3: a KeyUpdate that shares a datagram with application data before it is never acknowledged; although nothing is lost, its sender's connection ends with a timeout. |
| C30 | `C30_update_lost13_refuted` | DTLS 1.3: a key update that fails on a full send queue is forgotten although the AEAD limit stays exceeded. |
| C36 | `C36_require_client_certificate12_refuted` | DTLS 1.2: a server that requires a client certificate accepts an empty list. |
| C36 | `C36_require_client_certificate13_refuted` | DTLS 1.3: the same, a server that requires a client certificate reports Connected to a client whose certificate list is empty (src/dtls13/server.rs:944-1010). |
| C41 | `C41_server_sends_one13_refuted` | DTLS 1.3: with a full send queue a server sends a second HelloRetryRequest. |
| C42 | `C42_write_lost12_refuted` | DTLS 1.2: writes held back during the handshake are lost if they do not fit the send queue. |
| C42 | `C42_write_lost13_refuted` | DTLS 1.3: the same. |
| C45 | `C45_panic_refuted` | A 69-byte unauthenticated datagram makes the auto-sensing client index out of bounds. |
| C52 | `C52_many_fragments_panic13_refuted` | DTLS 1.3: the records of a flight are kept in an array of 12 and the number of fragments is not bounded. A server with an accepted MTU of 100 and a certificate of 351 bytes panics on the ClientHello of an ordinary client. |
| C52 | `C52_duplicate_panics12_refuted` | DTLS 1.2: two copies of a 14-byte unauthenticated datagram make either endpoint panic during the handshake. |
| C56 | `C56_flight_exceeds_queue13_refuted`, `C56_flight_exceeds_queue12_refuted` | A flight has to fit into the send queue as a whole. With an accepted MTU of 64, a queue limit of 10 (default) and a certificate of 301 bytes (DTLS 1.2: 401), a server answers the ClientHello of an ordinary client with `TransmitQueueFull`. |
| C39 | `C39_client_group12_refuted` | A DTLS 1.2 client accepts a ServerKeyExchange in a group that its `kx_groups` filter excludes and that it did not list in its ClientHello: `process_ecdh_params` looks the group up in the provider, not in the configuration. |
| C51 | `C51_renegotiation_hidden12_refuted` | A connected DTLS 1.2 endpoint gives no renegotiation error for an authentic handshake record that comes behind another record in its datagram: `insert_incoming` looks at the first record only. The record is queued and never reported. |
| C54 | `C54_no_time_refuted`, `C54_role_refuted` | With a zero handshake timeout the version switch leaves the endpoint empty and the next call panics; `set_active(false)` on an undecided client panics. |
