{
 "claims": [
  {
   "property": "C01",
   "status": "proved",
   "theorems": [
    "C01_record_decode_total",
    "C01_other_headers_refused",
    "C01_handshake_decode_total",
    "C01_alert_decode_total",
    "C01_only_payload"
   ],
   "note": ""
  },
  {
   "property": "C02",
   "status": "proved",
   "theorems": [
    "C02_unknown_skipped",
    "C02_misplaced_aborts",
    "C02_accepted_only_allowed",
    "C02_server_hello_yields"
   ],
   "note": ""
  },
  {
   "property": "C03",
   "status": "proved",
   "theorems": [
    "C03_content_type",
    "C03_alert_level",
    "C03_alert_description",
    "C03_handshake_type",
    "C03_cipher_suite",
    "C03_extension_type",
    "C03_named_group",
    "C03_signature_scheme",
    "C03_max_fragment_length",
    "C03_psk_mode",
    "C03_round_trip"
   ],
   "note": ""
  },
  {
   "property": "C04",
   "status": "proved",
   "theorems": [
    "C04_u8",
    "C04_u16",
    "C04_u24",
    "C04_truncation_malformed"
   ],
   "note": ""
  },
  {
   "property": "C05",
   "status": "proved",
   "theorems": [
    "C05_single_write",
    "C05_history",
    "C05_writer",
    "C05_truncate",
    "C05_views"
   ],
   "note": ""
  },
  {
   "property": "C08",
   "status": "proved",
   "theorems": [
    "C08_key_schedule",
    "C08_labels_separate"
   ],
   "note": ""
  },
  {
   "property": "C09",
   "status": "proved",
   "theorems": [
    "C09_nonce_value",
    "C09_nonce_injective",
    "C09_counter",
    "C09_starts_at_zero"
   ],
   "note": ""
  },
  {
   "property": "C11",
   "status": "proved",
   "theorems": [
    "C11_server_finished",
    "C11_client_finished"
   ],
   "note": ""
  },
  {
   "property": "C06",
   "status": "proved",
   "theorems": [
    "C06_client_hello",
    "C06_open",
    "C06_alpn_limit_needed_refuted"
   ],
   "note": "C06_open is the statement for what open hands to the transport first, whatever transport and server do.  The refuted lemma shows that the wire-limit hypothesis is needed: an ALPN name of 256 bytes gives a malformed hello."
  },
  {
   "property": "C07",
   "status": "proved",
   "theorems": [
    "C07_encode",
    "C07_parse",
    "C07_round_trip",
    "C07_too_many",
    "C07_owned",
    "C07_owned_built_refuted",
    "C07_built"
   ],
   "note": "Owned conversion is lossless for received certificates; for a certificate assembled with with_context/add it silently loses the entries (C07_owned_built_refuted)."
  },
  {
   "property": "C12",
   "status": "proved",
   "theorems": [
    "C12_binders",
    "C12_no_psk",
    "C12_open"
   ],
   "note": "C12_open is the statement for what open hands to the transport first, with the binder key of the configured PSK, whatever transport and server do.  Concrete cases: C12_example, C12_open_case."
  },
  {
   "property": "C10",
   "status": "partial",
   "theorems": [
    "C10_nonces_distinct_partial",
    "C10_refuted",
    "C10_numbers",
    "C10_shared",
    "C10_reuse_refuted"
   ],
   "note": "The full statement is false.  Exactly what happens, in every history: a record carries the number that counts the records the transport took before it (C10_numbers), so that two records share number and key exactly if the transport took neither the first nor any between them (C10_shared); on every connection two messages of which the transport fails the first are protected with the same number (C10_reuse_refuted, first witness C10_refuted).  Proved: every record has its own number as long as no sending call has failed (C10_nonces_distinct_partial)."
  },
  {
   "property": "C13",
   "status": "proved",
   "theorems": [
    "C13_peer_gets_what_was_accepted"
   ],
   "note": ""
  },
  {
   "property": "C19",
   "status": "partial",
   "theorems": [
    "C19_records_partial",
    "C19_open_records_partial",
    "C19_over_limit",
    "C19_limit_refuted",
    "C19_alert_type_refuted"
   ],
   "note": "Headers, lengths and associated data are right for every record of every history. The size limit holds up to 16389 bytes of write buffer (16517 once open) and fails beyond (C19_over_limit, C19_limit_refuted); plaintext alerts carry type 20 instead of 21 (C19_alert_type_refuted)."
  },
  {
   "property": "C20",
   "status": "proved",
   "theorems": [
    "C20_write",
    "C20_only_sending_calls_send",
    "C20_room",
    "C20_133_never_progresses"
   ],
   "note": "Progress needs a write buffer of 134 bytes; C20_room shows that with 65-byte key shares open cannot succeed with fewer than 152."
  },
  {
   "property": "C21",
   "status": "proved",
   "theorems": [
    "C21_flush_policy",
    "C21_empty_flush",
    "C21_open_flushes",
    "C23_close_partial"
   ],
   "note": ""
  },
  {
   "property": "C23",
   "status": "partial",
   "theorems": [
    "C23_close_partial",
    "C23_after_peer_closed",
    "C23_refuted"
   ],
   "note": "Holds as long as the peer has not closed; after the peer's close_notify the alert goes out in the clear with record type 20 (C23_after_peer_closed, C23_refuted)."
  },
  {
   "property": "C24",
   "status": "proved",
   "theorems": [
    "C24_no_io_without_session",
    "C24_failed_open_is_not_a_session"
   ],
   "note": ""
  },
  {
   "property": "C41",
   "status": "partial",
   "theorems": [
    "C41_no_gap_partial",
    "C41_refuted",
    "C41_gap_refuted"
   ],
   "note": "The full statement is false on every connection: if none of a record reaches the wire when the transport fails it, the peer reads the following message in its place (C41_gap_refuted, first witness C41_refuted).  Proved: no gap as long as the application stops at the first sending call that fails."
  },
  {
   "property": "C16",
   "status": "proved",
   "theorems": [
    "C16_in_order",
    "C16_chunking",
    "C16_too_long",
    "C16_unknown_type",
    "C16_truncated"
   ],
   "note": ""
  },
  {
   "property": "C17",
   "status": "partial",
   "theorems": [
    "C17_boundary_partial",
    "C17_refuted",
    "C17_panic_refuted",
    "C17_header_refuted",
    "C17_body_refuted",
    "C17_next_refuted",
    "C17_panics_refuted"
   ],
   "note": "The full statement is false, at every point inside every record.  C17_header_refuted: of an interrupted header every byte is lost, the connection is the one that never received them.  C17_body_refuted: of an interrupted body the header is lost and the part of the body stays in front.  C17_next_refuted: the next read takes the following five bytes for a header and fills its body with what was left over.  C17_panics_refuted: if the two do not fit into the read buffer together the second call panics.  C17_refuted and C17_panic_refuted are the first witnesses.  Proved: an error between two records loses nothing (C17_boundary_partial)."
  },
  {
   "property": "C14",
   "status": "proved",
   "theorems": [
    "C14_in_order",
    "C14_reads",
    "C14_complete"
   ],
   "note": "Stated with respect to a transport without errors; errors between or inside records are C17."
  },
  {
   "property": "C15",
   "status": "proved",
   "theorems": [
    "C15_only_authentic",
    "C15_prefix_or_forgery"
   ],
   "note": ""
  },
  {
   "property": "C22",
   "status": "proved",
   "theorems": [
    "C22_handle",
    "C22_len",
    "handle_fifo"
   ],
   "note": ""
  },
  {
   "property": "C25",
   "status": "partial",
   "theorems": [
    "C25_close_after_data",
    "C25_closed_by_alert_partial",
    "C25_refuted",
    "C25_clear_refuted"
   ],
   "note": "Delivery before close and the closed session afterwards are proved for every history. That only an authenticated close_notify closes is false: one in the clear does, too (C25_refuted; for every connection C25_clear_refuted); C25_closed_by_alert_partial proves that nothing else does."
  },
  {
   "property": "C18",
   "status": "partial",
   "theorems": [
    "C18_exact",
    "C18_zeros",
    "C18_refuted"
   ],
   "note": "Exactness for every content, type and padding, and rejection of all-zero plaintexts, are proved. An authentic record with an empty inner plaintext panics instead of being rejected (C18_refuted)."
  },
  {
   "property": "C32",
   "status": "proved",
   "theorems": [
    "C32_forged",
    "C32_next"
   ],
   "note": ""
  },
  {
   "property": "C33",
   "status": "partial",
   "theorems": [
    "C33_reported_partial",
    "C33_refuted"
   ],
   "note": "The alert is reported to the reading call; the session is not ended: C33_refuted proves that sending and receiving go on unchanged."
  },
  {
   "property": "C35",
   "status": "partial",
   "theorems": [
    "C35_refuted",
    "C35_any_refuted",
    "C35_exactly",
    "C35_causes_partial",
    "C18_refuted",
    "C14_in_order"
   ],
   "note": "False as stated: every post-handshake message but NewSessionTicket, a CertificateRequest for one, and an empty inner plaintext panic (C35_any_refuted, C35_refuted, C18_refuted). C35_exactly says for every byte stream whether the next call panics; C35_causes_partial lists the causes also after transport errors between records; tickets are absorbed by C14_in_order."
  },
  {
   "property": "C43",
   "status": "proved",
   "theorems": [
    "C43_window",
    "C18_exact",
    "C22_handle"
   ],
   "note": ""
  },
  {
   "property": "C26",
   "status": "proved",
   "theorems": [
    "C26_finished"
   ],
   "note": "For every provider, configuration, buffer size and transport; the secrets and verify_data are those of the RFC functions in SpecKeys.v."
  },
  {
   "property": "C27",
   "status": "partial",
   "theorems": [
    "C27_submitted_partial",
    "C27_rejected_partial",
    "C27_refuted",
    "C69_refuted"
   ],
   "note": "Every Certificate and CertificateVerify received is submitted with the right transcript and must be accepted. That the server sends them is not checked: with a verifier that rejects everything, open succeeds against a server that omits both (C27_refuted; for every client without a pre-shared key C69_refuted)."
  },
  {
   "property": "C28",
   "status": "partial",
   "theorems": [
    "C28_records_partial",
    "C28_refuted",
    "C28_clear_refuted",
    "C25_refuted",
    "C25_clear_refuted"
   ],
   "note": "False as stated: a whole server flight in the clear is accepted (C28_refuted; for every client and every flight it can follow C28_clear_refuted), and so is a clear alert on the open connection (C25_refuted). C28_records_partial lists exactly which records open takes messages from."
  },
  {
   "property": "C29",
   "status": "partial",
   "theorems": [
    "C29_known_partial",
    "C29_refuted",
    "C29_any_refuted"
   ],
   "note": "False as stated: another suite, no or another version, another group and a HelloRetryRequest are accepted (C29_refuted; by every client, with any choice of all of them at once, C29_any_refuted). Proved: suite and group are known ones and the key agreement with the share succeeded."
  },
  {
   "property": "C30",
   "status": "proved",
   "theorems": [
    "C30_answer"
   ],
   "note": ""
  },
  {
   "property": "C40",
   "status": "partial",
   "theorems": [
    "C40_refuted",
    "C40_refuted_open",
    "C26_finished",
    "C28_records_partial"
   ],
   "note": "False as stated: the announced length makes no difference at all (C40_refuted, for every message and pair of lengths). Proved: the plaintext of a protected record is exactly the concatenation of the messages taken from it, and each enters the transcript."
  },
  {
   "property": "C45",
   "status": "proved",
   "theorems": [
    "C45_session_keys"
   ],
   "note": "If a certificate was requested and messages follow the Finished, the code takes the transcript through the end of the server's flight instead (key_messages); the two agree when nothing follows the Finished."
  },
  {
   "property": "C31",
   "status": "proved",
   "theorems": [
    "C31_open",
    "C31_read",
    "C31_every_call"
   ],
   "note": "The loops of open and of the reading calls are given as relations without fuel (SpecOpen.v); every run is finite, with a bound on the number of rounds, and no call of any history of a connection fails to return. Assumes that the functions supplied by the user return."
  },
  {
   "property": "C34",
   "status": "partial",
   "theorems": [
    "C34_refuted",
    "C34_refuted_clear",
    "C34_refuted_silent",
    "C34_signer",
    "C23_close_partial",
    "C19_open_records_partial"
   ],
   "note": "The claim is false of the code for alerts during the handshake: whenever open aborts, the alert is sent in the clear in a record of type 20 or not at all (C34_refuted, for all inputs; both cases occur). What holds: on an established connection close_notify goes out in a protected record (C23_close_partial) and everything sent is a protected record (C19_open_records_partial). The one protected alert of open is the close_notify after a failing signer (C34_signer)."
  },
  {
   "property": "C37",
   "status": "partial",
   "theorems": [
    "C37_match",
    "C37_rfc_partial",
    "C37_names",
    "C37_refuted_label",
    "C37_empty_label_refuted",
    "C37_refuted_common_name"
   ],
   "note": "C37_match describes the matcher for all strings; for a host that is a DNS name it is RFC 6125 (C37_rfc_partial). False: the wildcard also stands for an empty label (C37_refuted_label; for every wildcard name C37_empty_label_refuted) and the common name counts even when there are subject alternative names (C37_refuted_common_name)."
  },
  {
   "property": "C38",
   "status": "proved",
   "theorems": [
    "C38_sound",
    "C38_complete",
    "C38_raw_key",
    "C38_host_set"
   ],
   "note": "The crates for DER and signatures are parameters. As in the code, any certificate may issue another (no basicConstraints, no issuer names), and without a host name a certificate must carry no names; an empty list is then accepted."
  },
  {
   "property": "C39",
   "status": "partial",
   "theorems": [
    "C39_accepts",
    "C39_webpki_partial",
    "C39_sha384_refuted",
    "C39_order_refuted",
    "C39_order_refuted_open",
    "C39_any_refuted"
   ],
   "note": "pki.rs accepts exactly the signatures over the right message, for both hash sizes (C39_accepts); webpki.rs does so for 32-byte hashes and refuses everything with SHA-384 (C39_sha384_refuted). Both panic on a CertificateVerify without a Certificate before it (C39_order_refuted), which a server can cause (C39_order_refuted_open), and anybody, with every such client and without any key (C39_any_refuted)."
  },
  {
   "property": "C46",
   "status": "partial",
   "theorems": [
    "C46_certificate",
    "C46_refuted_chain"
   ],
   "note": "Exact characterisation; the intermediates sent by the server are ignored (C46_refuted_chain), and without a clock the time is the epoch (web_good)."
  },
  {
   "property": "C47",
   "status": "partial",
   "theorems": [
    "C47_pki_partial",
    "C47_webpki_partial",
    "C47_refuted",
    "C47_refuted_webpki",
    "C69_refuted"
   ],
   "note": "C69_refuted: an impostor without any certificate completes the handshake with every client that has no pre-shared key.  Proved for every CertificateVerify in the server's flight. That there is one is not checked by the code: C47_refuted and C47_refuted_webpki."
  },
  {
   "property": "C48",
   "status": "partial",
   "theorems": [
    "C48_common_name",
    "C48_sans",
    "C48_sans_complete_partial",
    "C48_refuted"
   ],
   "note": "Nothing else is taken for a name (C48_sans, C48_common_name); complete for up to three dNSNames; from the fourth on they are ignored (C48_refuted). Of several common names the last one counts."
  },
  {
   "property": "C49",
   "status": "partial",
   "theorems": [
    "C49_certificate_partial",
    "C49_signature_partial",
    "C49_webpki",
    "C49_refuted",
    "C49_refuted_signature",
    "C39_order_refuted"
   ],
   "note": "False of pki.rs: with the ed25519 feature one unsigned certificate naming Ed25519 panics the client unless the CA key has 32 bytes (C49_refuted); likewise signatures (C49_refuted_signature). The partial theorems show that there are no other causes; webpki.rs has only the one of C39_order_refuted."
  },
  {
   "property": "C36",
   "status": "proved",
   "theorems": [
    "C36_order",
    "C36_calls",
    "C36_progress",
    "C36_reader",
    "C36_writer",
    "C36_closed",
    "C36_histories",
    "C36_panic"
   ],
   "note": "Every interleaving of accesses to the shared flag is equivalent to whole calls one after the other. The single AtomicBool is modelled as sequentially consistent; the two clones of the socket are its two directions."
  },
  {
   "property": "C42",
   "status": "proved",
   "theorems": [
    "C42_builder",
    "C42_capacity"
   ],
   "note": "Complete description of the configuration after every sequence of builder calls."
  },
  {
   "property": "C44",
   "status": "partial",
   "theorems": [
    "C44_handshake",
    "C44_server_flight",
    "C44_server_exists",
    "C44_session",
    "C44_message",
    "C44_refuted",
    "C44_cut_refuted"
   ],
   "note": "Proved for every flight in which each message is whole in one record, with at most 16 certificates and 4/16/6/2 known extensions per message, and a suitable write buffer; C44_message says exactly which messages the client decodes. False without the first condition: a message spread over two records, which RFC 8446 section 5.1 allows, makes open fail (C44_refuted; every client, every message, every point, and with which error: C44_cut_refuted)."
  },
  {
   "property": "C50",
   "status": "partial",
   "theorems": [
    "C50_causes_partial",
    "C50_sound",
    "C50_refuted",
    "C50_empty_panics"
   ],
   "note": "False as stated: an authentic record that is empty inside makes open panic, in every client (C50_empty_panics; C50_refuted shows one). C50_causes_partial lists all causes of a panic of open; for a user whose functions are sound, C50_sound leaves that record alone (and 2^64 bytes of input)."
  },
  {
   "property": "C51",
   "status": "proved",
   "theorems": [
    "C51_exactly"
   ],
   "note": ""
  },
  {
   "property": "C52",
   "status": "proved",
   "theorems": [
    "C52_same",
    "C52_no_verify",
    "C52_defaults",
    "C52_exactly",
    "C52_anyone",
    "C52_no_key",
    "C52_panics"
   ],
   "note": "The p256 crate is a parameter; C52_panics assumes that its DER signatures have at most 72 bytes."
  },
  {
   "property": "C53",
   "status": "proved",
   "theorems": [
    "C53_first",
    "C53_later",
    "C53_no_other"
   ],
   "note": "For bytes that are no message the error is the one for their first fault (C79).  If the record was protected, what is told to the peer is stated too.  What open does after a complete flight is C51 and C67."
  },
  {
   "property": "C54",
   "status": "proved",
   "theorems": [
    "C54_start",
    "C54_run",
    "C54_determined",
    "C54_never_stuck",
    "C54_nothing_else"
   ],
   "note": "The machine (SpecReceiver.v) says also which error a garbled handshake message gives (SpecDefect.v).  It contains the flaws of C18, C33 and C35: unprotected alerts and tickets are taken, an authentic empty record and other handshake messages panic."
  },
  {
   "property": "C55",
   "status": "proved",
   "theorems": [
    "C55_start",
    "C55_run",
    "C55_determined",
    "C55_never_stuck",
    "C55_nothing_else",
    "C55_independent"
   ],
   "note": "For write buffers of at least 133 bytes (in smaller ones no record fits) and, on the receiving side, a transport that delivers bytes and then end-of-file.  The machines contain the flaws of C10, C34 and C41: the number of a record that the transport did not take is used again, and the unprotected close_notify has the wrong content type."
  },
  {
   "property": "C56",
   "status": "proved",
   "theorems": [
    "C56_sessions",
    "C56_bytewise",
    "C56_in_use",
    "C56_errors_refuted"
   ],
   "note": "For transports that deliver non-empty pieces and then end-of-file, and without any hypothesis on the cryptography for a new connection.  C56_errors_refuted shows why errors of the receiving transport are excluded: after one inside a record the cuts do show."
  },
  {
   "property": "C57",
   "status": "proved",
   "theorems": [
    "C57_session",
    "C57_declined_psk_refuted",
    "C57_declined_any_refuted"
   ],
   "note": "Concrete cases: C57_premises, C57_psk, C57_declined_case.  The server (SpecServer.v) is a function of the client's bytes, written from the RFC.  The hypothesis that the server knows the client's pre-shared key is needed: C57_declined_psk_refuted shows that a server which, as RFC 8446 4.2.11 allows, goes on without the pre-shared key makes open fail, because the client keeps its key whether the ServerHello selects it or not; C57_declined_any_refuted shows it of every client with a pre-shared key, which then gives CryptoError."
  },
  {
   "property": "C58",
   "status": "proved",
   "theorems": [
    "C58_calls",
    "C58_open",
    "C58_open_refuted",
    "C58_session",
    "C58_kind",
    "C58_kind_exact"
   ],
   "note": "Concrete case: C58_case.  C58_calls holds in every state, reachable or not.  C58_open_refuted shows that the premise of C58_open is needed: a verifier can return a transport error of its own, which open passes on."
  },
  {
   "property": "C59",
   "status": "proved",
   "theorems": [
    "C59_agreement"
   ],
   "note": "The alternatives same_hash, same_hmac and same_derived name coincidences of specific values of the two exchanges (two different transcripts with one hash, two different HMAC inputs with one output, two different derivation inputs with one key): they are what an attack on the cryptography would have to produce, and are not assumed away by an axiom.  Concrete case: C59_premises."
  },
  {
   "property": "C60",
   "status": "partial",
   "theorems": [
    "C60_refuted",
    "C60_refuted_any_holder",
    "C60_refuted_open",
    "C60_partial",
    "C60_key_only",
    "C60_webpki"
   ],
   "note": "The full statement is false of pki.rs: whoever holds any accepted certificate can vouch for any host (C60_refuted_any_holder, for all settings; C60_refuted and C60_refuted_open are concrete).  Of the certificate that vouches only the key is looked at.  It holds for webpki.rs, and for pki.rs if only authorities sign certificates."
  },
  {
   "property": "C61",
   "status": "proved",
   "theorems": [
    "C61_veiled",
    "C61_visible"
   ],
   "note": "How much the AEAD hides is not modelled; the theorem says that only its output depends on the data.  Concrete case: C61_case."
  },
  {
   "property": "C62",
   "status": "proved",
   "theorems": [
    "C62_loops",
    "C62_writes",
    "C62_session",
    "C62_too_much"
   ],
   "note": "The loops are those of embedded-io 0.7, whose source is not in /repo (Loops.v says so).  134: see C20; an established connection with a 65-byte key share has at least 152 (C20_room).  Concrete case: C62_case."
  },
  {
   "property": "C63",
   "status": "partial",
   "theorems": [
    "C63_read",
    "C63_open",
    "C63_exact",
    "C63_hello",
    "C63_largest_refuted",
    "C63_overhead_refuted"
   ],
   "note": "Proved: the documented read buffer size is safe (C63_read, C63_open) and the exact room a record needs (C63_exact).  False of the code: that the larger of the two buffers is used for the ClientHello (C63_largest_refuted; C63_hello says what holds) and that a write buffer of TLS_RECORD_OVERHEAD bytes will do (C63_overhead_refuted; the panic is a debug assertion).  Concrete cases: C63_exact_case, C63_case, C63_hello_case."
  },
  {
   "property": "C64",
   "status": "proved",
   "theorems": [
    "C64_write_all",
    "C64_programs",
    "C64_records",
    "C64_pieces",
    "C64_cost"
   ],
   "note": "C64_write_all and C64_programs need no hypothesis on connection, transport or crypto.  C64_records gives the exact calls to the transport, C64_pieces that the cut into records is unique and how many there are, C64_cost the bytes.  Concrete cases: C64_case, pieces_200."
  },
  {
   "property": "C65",
   "status": "partial",
   "theorems": [
    "C65_any",
    "C65_refuted",
    "C65_form_partial"
   ],
   "note": "The full statement is false of the code, which decodes EncryptedExtensions and then ignores it: C65_any (for every configuration and every list of extensions the client can decode there is a server that answers with it and with which open succeeds) and C65_refuted (for every configuration there is one that answers nothing but what was not offered).  C65_form_partial is what does hold: on success every EncryptedExtensions was decodable, with only extensions that may appear there.  Concrete case: C65_case."
  },
  {
   "property": "C66",
   "status": "partial",
   "theorems": [
    "C66_read",
    "C66_open",
    "C66_messages",
    "C66_write_partial",
    "C66_write_refuted"
   ],
   "note": "C66_read: the quoted read buffer is enough for all data.  C66_open: and for every handshake whose messages lie whole in their records.  The full statement is false of the code in two ways: a server that keeps to the length can have no message longer than it, for any buffers, since messages are not put together from several records (C66_messages); and with a write buffer of more than length + 133 bytes one long write sends a record beyond the length (C66_write_refuted; the documentation admits that writes are not fragmented).  C66_write_partial: with a write buffer of at most length + 5 bytes every record of the handshake and of the open connection keeps to it.  Concrete cases: C66_case, C66_write_case."
  },
  {
   "property": "C67",
   "status": "proved",
   "theorems": [
    "C67_answer",
    "C67_one",
    "C67_open"
   ],
   "note": "C67_answer: after a complete flight open ends as answer_ends says, and the log of the transport is exactly the ClientHello and the protected records of the answer.  C67_one: answer_ends leaves only one end, down to which error a message gives that does not fit.  C67_open: with C53, every run of open is in the closed list opens_with (SpecAnswer.v), which leaves one end and one log only.  A finding on the way: a record for which only the tag misses room is refused with InvalidApplicationData, since the check before the encryption leaves out the 5 bytes of the header (ns_tag).  Concrete cases: C67_case (five clients that differ in certificate and key)."
  },
  {
   "property": "C68",
   "status": "partial",
   "theorems": [
    "C68_update_refuted",
    "C68_usage_refuted",
    "C15_only_authentic"
   ],
   "note": "False of the code in both directions, for all connections.  C68_update_refuted: after any KeyUpdate of the server the call that meets it ends with Unimplemented, keys and record number stay, and every record with other keys is a CryptoError, for ever; the client does not answer and believes the session to be open.  C68_usage_refuted: the client sends any number of full-size records (short of 2^64 bytes) with one key.  What holds is that nothing wrong is delivered after such an error: C15_only_authentic, which is for every history.  Concrete cases: C68_update_case (with the new keys of RFC 8446 section 7.2), C68_usage_case (10^8 records)."
  },
  {
   "property": "C69",
   "status": "partial",
   "theorems": [
    "C69_refuted",
    "C69_psk_partial",
    "C27_submitted_partial"
   ],
   "note": "False of the code for every client without a pre-shared key: C69_refuted gives an impostor, a function of the ClientHello that uses no key but a fresh secret for the key agreement, with whom open returns Ok whatever the verifier accepts, whose data the application then reads and who reads all the application writes (as in C57).  What holds: with a pre-shared key the server's Finished is a MAC under a key derived from it (C69_psk_partial; that nobody else can compute it is a matter of cryptography), and the certificates that are sent are verified (C27_submitted_partial).  Concrete case: C69_case, a verifier that rejects everything."
  },
  {
   "property": "C70",
   "status": "partial",
   "theorems": [
    "C70_one_handshake",
    "C70_half_written",
    "C70_no_room",
    "C70_refused_name",
    "C70_flag_refuted",
    "C24_no_io_without_session"
   ],
   "note": "C70_one_handshake: after any history whose first call is an open that sent something, an open that returns Ok gives, for every server with the same messages and a right Finished, a collision of the hash or the HMAC of explicit values (the transcript is not started afresh).  The connection considered has no record half read or half written; a record being filled makes open fail without sending (C70_half_written); after a first open one of whose messages did not fit the write buffer, no further one, however many there are, succeeds or sends anything (C70_no_room); not covered: a record half read, and such a message in a later open.  C70_refused_name: the failure before anything is sent changes nothing; C24_no_io_without_session: with no open ever successful nothing is accepted.  The last part is false of the code: C70_flag_refuted, for every client a failed second open leaves the flag of the first session and write takes data.  Concrete cases: C70_honest_case (the honest server is refused), C70_carried_case (the hypotheses are met by a server that carries on the old secrets), C70_flag_case."
  },
  {
   "property": "C71",
   "status": "proved",
   "theorems": [
    "C71_sent",
    "C71_received",
    "C71_duplex"
   ],
   "note": "Put together from C36 (threads), C13 and C14 (whole histories).  C71_duplex and C71_received take a server that sends well-formed data and ticket records and then ends its stream; C71_sent makes no assumption about what arrives.  Concrete cases: C71_premises, C71_case."
  },
  {
   "property": "C72",
   "status": "partial",
   "theorems": [
    "C72_refuted",
    "C72_cookie"
   ],
   "note": "False of the code for every client: C72_refuted (whatever the HelloRetryRequest asks for, open fails and only the one ClientHello was sent).  The random that marks the message is never looked at: with a cookie only, the message is taken for a ServerHello without key share (C72_cookie: InvalidKeyShare); a ServerHello that carries that random and a key share is followed as an ordinary one (C29_any_refuted, for every random).  What holds of the statement is that open fails cleanly.  Concrete cases: C72_case."
  },
  {
   "property": "C73",
   "status": "partial",
   "theorems": [
    "C73_oversize_refuted",
    "C73_oversize_partial",
    "C73_hollow_refuted",
    "C73_second_alert_refuted",
    "C73_forged_refuted",
    "C73_ccs_refuted",
    "C73_duplicates_refuted"
   ],
   "note": "False of the code in each of these cases, for every connection or client.  What holds is C73_oversize_partial: with a read buffer of at most 16640 bytes a record that is too long is refused (InsufficientSpace) and nothing of it is delivered, though the session is not ended and the reader goes on behind the header.  Concrete cases: C73_oversize_case, C73_case, C73_ccs_case, C73_duplicates_case."
  },
  {
   "property": "C74",
   "status": "partial",
   "theorems": [
    "C74_never_zero_partial",
    "C74_closed_refuted",
    "C74_cut_partial",
    "C74_kinds_refuted"
   ],
   "note": "False of the code: after close_notify read gives ConnectionClosed and then MissingHandshake, never Ok(0) (C74_closed_refuted), and the kinds of the errors are the same for an orderly end and for a cut, whatever receiving calls are made (C74_kinds_refuted).  What holds: no read into a non-empty buffer returns Ok(0) and no fill_buf an empty slice, so no cut is taken for the end (C74_never_zero_partial); all data of whole records is delivered and a cut gives IoError from then on, which a caller that looks at the TlsError itself can tell from ConnectionClosed (C74_cut_partial).  Concrete case: C74_case."
  },
  {
   "property": "C75",
   "status": "partial",
   "theorems": [
    "C75_refuted",
    "C75_any_refuted",
    "C75_causes_partial"
   ],
   "note": "False of the code: eleven bytes, a handshake record in the clear with an empty EncryptedExtensions, crash every open connection that waits for data (C75_refuted), and so does any other handshake message the client can decode but NewSessionTicket (C75_any_refuted): the handler calls unimplemented!().  What holds: without a forged record a panic is always due to such a record (C75_causes_partial).  During open the built-in verifiers can be crashed by outsiders too (C39_any_refuted).  Concrete case: C75_case."
  },
  {
   "property": "C76",
   "status": "partial",
   "theorems": [
    "C76_extension",
    "C76_hello",
    "C76_message",
    "C76_alert",
    "C76_writes",
    "C76_psk_refuted",
    "C76_name_refuted",
    "C76_names_only",
    "C76_exactly",
    "C76_retry",
    "C76_retry_back",
    "C76_retry_group",
    "C76_ccs_refuted",
    "C76_copy",
    "C76_rest"
   ],
   "note": "C76_extension, C76_message, C76_alert: the round trip for each kind; C76_hello: for the whole extension list of a ClientHello; C76_exactly: the converse, for every extension in every message.  C76_retry, C76_retry_back, C76_retry_group: the extensions of a HelloRetryRequest, which nothing in the crate calls; C76_copy, C76_rest: the two ways to copy bytes out of a parse buffer, likewise.  Four exceptions in the code: of an ALPN extension the parser checks the names and keeps none (as_read), and the parser of the ClientHello's pre_shared_key is unimplemented!() (C76_psk_refuted); a server name that is not ASCII is written but not read (C76_name_refuted; C76_names_only says exactly which server name extensions are read); change_cipher_spec is written but its parser reads nothing (C76_ccs_refuted, not called either).  ServerHello, NewSessionTicket and the ClientHello as whole messages have no encoder or no parser in the crate.  Concrete cases: C76_case, C76_name_case, C76_names_case, C76_exactly_case, C76_retry_case."
  },
  {
   "property": "C77",
   "status": "proved",
   "theorems": [
    "C77_call",
    "C77_open",
    "C77_session",
    "C77_handshake",
    "C77_data",
    "C77_record",
    "C77_no_wait",
    "C77_flushed"
   ],
   "note": "C77_call, C77_open, C77_session: every call in every state and whole sessions.  C77_handshake, C77_data, C77_record: what is enough for open and for a read.  C77_no_wait: calls that do not wait.  C77_flushed: however open ends, short of a panic.  That no call diverges is C31.  Concrete cases: C77_case, C77_record_case, C77_flushed_case."
  },
  {
   "property": "C78",
   "status": "proved",
   "theorems": [
    "C78_new",
    "C78_in_use"
   ],
   "note": "C78_new: from new on, whole sessions.  C78_in_use: at any moment, with the positions that still count spelled out.  Concrete cases: C78_case (a whole session on buffers full of 0xAA), C78_in_use_case (everything but one unread byte and a begun record overwritten)."
  },
  {
   "property": "C79",
   "status": "proved",
   "theorems": [
    "C79_exactly",
    "C79_one_of",
    "C53_first",
    "C53_later",
    "C54_determined",
    "C55_determined"
   ],
   "note": "C79_exactly: the decoder fails with e exactly if the bytes are faulty with e; C79_one_of: one error, and none exactly if a message is understood (C44_message).  C53_first, C53_later: open returns it; C54_determined, C55_determined: so do the calls that receive (the machines of SpecReceiver.v and SpecEndpoint.v now say which error).  Concrete cases: misplaced_faulty, suite_faulty, client_hello_faulty."
  },
  {
   "property": "C80",
   "status": "partial",
   "theorems": [
    "C80_unopened",
    "C80_failed",
    "C80_goodbye_partial",
    "C80_hello_refuted",
    "C80_certificate_refuted"
   ],
   "note": "Holds before open (C80_unopened) and after every open that was interrupted or failed with an error that does not tell of missing room in the write buffer (C80_goodbye_partial).  If a message of the client had no room, close may first send an empty handshake record, or panic and send nothing (C80_failed: there is nothing else it does).  False for every client whose ClientHello does not fit (C80_hello_refuted: empty record) and for every client whose certificate does not fit (C80_certificate_refuted: panic when only content type and tag had no room, an empty protected record when the message had none).  The close_notify has the record type of C19.  Concrete cases: C80_unopened_case, C80_unanswered_case, C80_hello_case, C80_certificate_case."
  }
 ]
}