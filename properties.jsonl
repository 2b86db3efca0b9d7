{"id": "C01", "title": "Decoding a server record never panics, loops or reads outside the record", "statement": "For every 5-byte record header the client accepts and every payload of the length it announces, turning that record into a message (alert, change-cipher-spec, handshake message or protected data) returns either a value or an error; it never panics, never fails to terminate and never inspects a byte outside the payload.", "quantifier": "every record header and every payload byte string of any length up to 65535, every hash state", "why_tests_cant": "the input is an attacker-chosen byte string with nested length fields; a test tries finitely many of them and a missed length combination is a remote panic", "anchors": ["src/parse_buffer.rs: ParseBuffer::*", "src/record.rs: RecordHeader::decode, ServerRecord::decode", "src/handshake/mod.rs: ServerHandshake::read, parse", "src/extensions/*", "src/handshake/*.rs: parse"]}
{"id": "C02", "title": "Unknown extensions are skipped, misplaced ones abort with illegal_parameter", "statement": "In every extension block sent by the server, an extension whose type is not recognised is ignored whatever its body and the remaining extensions parse as if it were absent; an extension whose type is recognised but not allowed in that message makes the parse fail with a fatal illegal_parameter abort; no message ever yields an extension that is not allowed in it.", "quantifier": "every extension block, every extension type code (0..65535), every body, every message kind", "why_tests_cant": "the set of unknown codes and bodies is unbounded for a test and order/nesting matter", "anchors": ["src/extensions/extension_group_macro.rs: parse, parse_vector", "src/extensions/messages.rs"]}
{"id": "C03", "title": "Code points map one-to-one", "statement": "For each enumerated wire type (content type, alert level, alert description, handshake type, cipher suite, extension type, named group, signature scheme) decoding the code of a value gives the value back, and a code decodes to a value only if it is that value's code; distinct values have distinct codes.", "quantifier": "every 8-bit or 16-bit code and every enum value", "why_tests_cant": "tests check a few constants; the claim is about all codes in both directions", "anchors": ["src/content_types.rs", "src/alert.rs", "src/handshake/mod.rs: HandshakeType", "src/cipher_suites.rs", "src/extensions/mod.rs: ExtensionType", "src/extensions/extension_data/supported_groups.rs: NamedGroup", "src/extensions/extension_data/signature_algorithms.rs: SignatureScheme"]}
{"id": "C04", "title": "Length prefixes are correct whenever the body fits", "statement": "Whenever a length-prefixed item is written and the write succeeds, the bytes added are exactly the prefix followed by the body, the prefix being the body length as a big-endian integer, provided the body is shorter than 2^8, 2^16 or 2^24 respectively; without that bound the prefix is the truncated length (so the item is malformed).", "quantifier": "every buffer state, every body writer that appends any number of bytes, every capacity", "why_tests_cant": "the back-patching position depends on the nesting and buffer state; tests only cover short bodies and one nesting", "anchors": ["src/buffer.rs: with_u8_length, with_u16_length, with_u24_length, set, set_u16, set_u24"]}
{"id": "C05", "title": "The outgoing buffer never overruns and keeps what was already written", "statement": "Every write into the outgoing buffer either appends exactly the given bytes after the current contents, leaving all earlier bytes and all bytes beyond the window unchanged, or fails with an out-of-space error when they do not fit; it never panics on a well-formed buffer and never stores outside the caller's slice.", "quantifier": "every buffer size, offset, length and sequence of writes", "why_tests_cant": "needs all buffer positions and all sequences of operations, including those just at capacity", "anchors": ["src/buffer.rs: CryptoBuffer::*"]}
{"id": "C06", "title": "ClientHello is a well-formed TLS 1.3 ClientHello that offers exactly the configuration", "statement": "For every configuration whose fields respect the wire limits, the ClientHello bytes sent parse under the RFC 8446 grammar (written independently of the encoder) to: legacy version 0x0303, the generated 32-byte random, empty session id, exactly the configured cipher suite, null compression, and the extensions supported_versions [1.3], signature_algorithms, optional max_fragment_length, supported_groups, psk_key_exchange_modes, key_share with the generated public key, optional server_name, optional ALPN, optional pre_shared_key in last position, each with exactly the configured contents.", "quantifier": "every configuration (server name, ALPN list, schemes, groups, fragment length, PSK identities), every random and key share, every buffer size", "why_tests_cant": "round trip over an unbounded space of configurations; tests fix one", "anchors": ["src/handshake/client_hello.rs: ClientHello::encode", "src/extensions/messages.rs: ClientHelloExtension", "src/extensions/extension_data/*"]}
{"id": "C07", "title": "Certificate message encode/parse round trip", "statement": "For every list of X.509 certificate entries and request context within the wire limits, parsing the bytes of the encoded Certificate message gives back the same context and the same entries in order, consuming exactly the encoded bytes; and converting to the owned form and back is lossless whenever it fits, and reports an error when it does not.", "quantifier": "every number and size of entries, every context, every owned-capacity", "why_tests_cant": "unbounded lists of unbounded blobs with three nested length fields", "anchors": ["src/handshake/certificate.rs"]}
{"id": "C08", "title": "Traffic secrets, keys and IVs follow the RFC 8446 key schedule", "statement": "For every PSK (or none), every ECDHE secret and every transcript, the handshake and application write/read keys and IVs that protect records are exactly those of RFC 8446 section 7.1/7.3 computed from HKDF-Extract/Expand on the transcript hash at the points the RFC fixes, and no step fails for lack of label space.", "quantifier": "every hash/HKDF function, PSK, shared secret, transcript; any point of the handshake", "why_tests_cant": "known-answer tests cover single vectors; the claim is the whole formula for all inputs, including label framing and order of operations", "anchors": ["src/key_schedule.rs", "src/connection.rs: process_server_hello, client_finished_finalize", "src/config.rs: LabelBuffer"]}
{"id": "C09", "title": "Per-record nonces are distinct under one key and the counter never wraps", "statement": "The nonce of the n-th record is the IV xor the big-endian counter; two different counters below 2^64 give different nonces; the counter starts at 0 for each traffic key, increases by one per protected record and stops (by panicking) rather than wrapping.", "quantifier": "every IV, every pair of counters below 2^64", "why_tests_cant": "2^64 counters", "anchors": ["src/key_schedule.rs: get_nonce, pad, increment_counter, calculate_traffic_secret"]}
{"id": "C10", "title": "No two protected records ever use the same key and nonce", "statement": "Over the life of an opened connection, whatever sequence of write, flush, close and whatever the transport does (including failing or being cancelled part-way through a write and the caller carrying on), no two different records handed to the transport were protected with the same key and nonce.", "quantifier": "every history of API calls and every transport behaviour", "why_tests_cant": "depends on the exact failure point inside a write and on what is called afterwards", "anchors": ["src/blocking.rs / src/asynch.rs: write, flush, close_internal", "src/connection.rs: respond", "src/write_buffer.rs: close_record", "src/key_schedule.rs: increment_counter"]}
{"id": "C11", "title": "Server Finished is accepted exactly when its MAC is right", "statement": "A server Finished message is accepted iff its verify_data equals HMAC(finished_key(server handshake traffic secret), transcript hash of everything up to but excluding it); the client Finished carries HMAC(finished_key(client handshake traffic secret), transcript hash so far).", "quantifier": "every verify_data, transcript, secret and hash function", "why_tests_cant": "all byte strings; a test only tries one right and one wrong MAC", "anchors": ["src/key_schedule.rs: verify_server_finished, create_client_finished", "src/handshake/mod.rs: ServerHandshake::read"]}
{"id": "C12", "title": "PSK binders cover the truncated ClientHello and sit at its tail", "statement": "When a PSK is configured, the ClientHello put on the wire ends with one binder per identity, each equal to HMAC(finished_key(binder key), Hash(ClientHello up to and excluding the binders list)), all other bytes (including lengths) being those hashed; the transcript contains exactly the bytes sent.", "quantifier": "every PSK, 0..4 identities, every other configuration, every buffer size", "why_tests_cant": "back-patching at computed offsets over all configurations", "anchors": ["src/handshake/client_hello.rs: finalize", "src/handshake/mod.rs: ClientHandshake::finalize", "src/extensions/extension_data/pre_shared_key.rs", "src/key_schedule.rs: create_psk_binder"]}
{"id": "C13", "title": "What the application writes is what the peer decrypts, in order", "statement": "For every sequence of write, flush and write-policy changes on an open connection over a transport that does not fail, the peer that opens the emitted records in order with counters 0,1,2,... obtains exactly the concatenation of the bytes each write reported as accepted, minus what is still buffered; after a successful flush nothing is still buffered.", "quantifier": "every sequence of writes of every size, every write buffer size (>= 134), every AEAD with open(seal)=id", "why_tests_cant": "unbounded histories and all alignments of writes with record boundaries", "anchors": ["src/write_buffer.rs", "src/connection.rs: encrypt", "src/blocking.rs / src/asynch.rs: write, flush", "src/record.rs"]}
{"id": "C14", "title": "What the peer sends is what the application reads, in order, whatever the fragmentation", "statement": "For every sequence of protected records sent by the peer (application data of any sizes that fit the buffer, with any padding, possibly interleaved with NewSessionTicket), for every way the transport splits the byte stream into reads and every sequence of read / read_buffered / pop / peek / revert / fill_buf / consume calls, the bytes delivered are exactly the concatenated application data in order, without loss, duplication or reordering.", "quantifier": "every record sequence, chunking, buffer size, read size and API call sequence", "why_tests_cant": "unbounded histories and chunkings; in-place decryption and window arithmetic have position-dependent bugs", "anchors": ["src/record_reader.rs", "src/connection.rs: decrypt_record", "src/read_buffer.rs", "src/common/*", "src/blocking.rs / src/asynch.rs: read, read_buffered, read_application_data"]}
{"id": "C15", "title": "Only authenticated data is ever delivered", "statement": "Whatever bytes the network delivers and whatever errors occur on the way, the application data delivered is a prefix of the concatenation of the application-data contents of records that opened under the read key with consecutive counters starting at 0; hence if the AEAD opens only what the server sealed for that counter, the delivered data is a prefix of what the server sent.", "quantifier": "every (adversarial) transport behaviour and every API call sequence", "why_tests_cant": "adversarial inputs; replay, reorder, truncation, injection cannot be enumerated", "anchors": ["src/connection.rs: decrypt_record", "src/common/decrypted_read_handler.rs", "src/blocking.rs / src/asynch.rs: read*"]}
{"id": "C16", "title": "Record framing is independent of transport chunking", "statement": "Reading records from a transport gives the same records, in the same order, for every way of cutting the same byte stream into non-empty reads; every record whose length does not exceed the read buffer is returned wherever in the buffer earlier records ended; a longer record is refused with an out-of-space error.", "quantifier": "every byte stream, every chunking, every buffer size and buffer position", "why_tests_cant": "exponentially many chunkings; buffer rotation depends on history", "anchors": ["src/record_reader.rs: read, next_record_header, advance, consume, ensure_contiguous"]}
{"id": "C17", "title": "A transport error or cancellation during a read loses nothing", "statement": "If a read fails or is cancelled because of a transport error in the middle of a record and the caller reads again, the reader continues with the same record: no bytes are lost and it does not panic.", "quantifier": "every error point inside a record and every continuation", "why_tests_cant": "depends on the crash point inside the record and on what was already buffered", "anchors": ["src/record_reader.rs: next_record_header, advance", "src/asynch.rs: read (cancellation)"]}
{"id": "C18", "title": "Padding removal is exact and malformed inner plaintext is rejected without panic", "statement": "For every content, every non-zero inner type byte and every number of padding zeros, a protected record yields exactly that content and type; an inner plaintext that is empty or all zeros is rejected with an error, without panicking.", "quantifier": "every content, type byte, padding length", "why_tests_cant": "all lengths, contents ending in zeros, degenerate all-zero and empty cases", "anchors": ["src/connection.rs: decrypt_record"]}
{"id": "C19", "title": "Emitted records are well-formed and within limits", "statement": "Every record handed to the transport has a 5-byte header with the right type and version and a length equal to the number of bytes that follow; protected records authenticate exactly that header; no record exceeds the TLS limit of 2^14 plaintext bytes (2^14+256 ciphertext bytes).", "quantifier": "every history of writes, every write buffer size", "why_tests_cant": "all write buffer sizes and histories; u16 truncation only appears for big buffers", "anchors": ["src/write_buffer.rs: start_record, close_record", "src/record.rs: ClientRecordHeader", "src/connection.rs: encrypt"]}
{"id": "C20", "title": "Buffered writing: what is accepted, when it is sent, and progress", "statement": "write(buf) accepts min(len(buf), free space) bytes and returns that number; nothing is handed to the transport until the record is full or flush/close is called; with a write buffer large enough every write of a non-empty slice makes progress (accepts at least one byte) and writing never panics.", "quantifier": "every buffer size, every fill level, every slice length", "why_tests_cant": "boundary cases at full/empty buffer and minimal buffer sizes over all histories", "anchors": ["src/write_buffer.rs: append, is_full, space, max_block_size", "src/blocking.rs / src/asynch.rs: write, flush"]}
{"id": "C21", "title": "Flush policy", "statement": "After every successful record send in write/flush the transport's flush is called iff the policy is Strict; handshake flights and close_notify are always followed by a transport flush; flush with nothing buffered performs no I/O.", "quantifier": "every history of calls and policy changes", "why_tests_cant": "history dependent", "anchors": ["src/flush_policy.rs", "src/blocking.rs / src/asynch.rs: flush, close_internal", "src/connection.rs: respond"]}
{"id": "C22", "title": "Read-buffer handle semantics", "statement": "For a handle on n decrypted bytes: any sequence of pop/pop_all/peek/peek_all/pop_into returns the bytes in order exactly as a FIFO; dropping it after use consumes exactly the popped bytes; dropping it unused consumes everything; revert consumes nothing; a later read sees exactly the rest.", "quantifier": "every content and every sequence of handle operations with any sizes", "why_tests_cant": "all operation sequences", "anchors": ["src/read_buffer.rs", "src/common/decrypted_buffer_info.rs"]}
{"id": "C23", "title": "Closing sends everything buffered and then an authenticated close_notify, nothing after", "statement": "close on an open connection whose transport does not fail sends, in order, the buffered application data (if any) and one close_notify alert protected under the write key, and then hands the transport back; nothing else is sent.", "quantifier": "every buffered state and history before close, including after the peer closed", "why_tests_cant": "history dependent (who closed first, what is buffered)", "anchors": ["src/blocking.rs / src/asynch.rs: close, close_internal", "src/record.rs: close_notify, header_content_type"]}
{"id": "C24", "title": "No application I/O outside an established session", "statement": "Before open has succeeded, and after the peer's close_notify, read and write of non-empty data fail with MissingHandshake without touching the transport or the buffers; a failed open never makes the connection usable.", "quantifier": "every history of API calls", "why_tests_cant": "history dependent", "anchors": ["src/blocking.rs / src/asynch.rs: write, read, read_buffered, open"]}
{"id": "C25", "title": "close_notify ends the session and only an authenticated alert can", "statement": "When the peer's close_notify is processed the read reports ConnectionClosed, all data sent before it has been delivered, and the session stays closed; the session is closed only by a close_notify that was authenticated under the read key.", "quantifier": "every incoming record sequence and API history", "why_tests_cant": "adversarial injection points and histories", "anchors": ["src/common/decrypted_read_handler.rs", "src/connection.rs: decrypt_record"]}
{"id": "C26", "title": "open succeeds only after a correct server Finished over the exact handshake transcript", "statement": "If open returns Ok then a ServerHello was received, and a Finished message was received whose verify_data is the RFC value for the server handshake secret derived from ClientHello..ServerHello and the transcript hash of every handshake message exchanged before it, byte for byte as sent and received.", "quantifier": "every server behaviour (any byte stream, chunking, errors), every provider and configuration", "why_tests_cant": "adversarial server; all message orders and contents", "anchors": ["src/connection.rs: process*, process_server_verify", "src/handshake/mod.rs: ServerHandshake::read", "src/key_schedule.rs"]}
{"id": "C27", "title": "A configured verifier must accept the server before open succeeds", "statement": "If a verifier is configured and no PSK is used, open returns Ok only if the verifier accepted a certificate and a signature from the server. In particular every Certificate and CertificateVerify received is submitted to the verifier and a rejection makes open fail.", "quantifier": "every server message sequence, every verifier", "why_tests_cant": "requires all message orders, including omission of messages", "anchors": ["src/connection.rs: process_server_verify", "src/config.rs: TlsVerifier, CryptoProvider"]}
{"id": "C28", "title": "After ServerHello only protected handshake messages are processed", "statement": "Once the ServerHello has been processed, handshake messages and alerts are accepted only from records protected under the current read key; the same holds on the open connection.", "quantifier": "every server record sequence", "why_tests_cant": "adversarial interleavings of plaintext and protected records", "anchors": ["src/connection.rs: decrypt_record, process_server_verify", "src/common/decrypted_read_handler.rs"]}
{"id": "C29", "title": "The client only proceeds with parameters it offered", "statement": "open succeeds only if the ServerHello selects TLS 1.3, the offered cipher suite and the offered key-share group.", "quantifier": "every ServerHello", "why_tests_cant": "all combinations of selected values", "anchors": ["src/handshake/server_hello.rs", "src/connection.rs: process_server_hello", "src/extensions/extension_data/supported_versions.rs, key_share.rs"]}
{"id": "C30", "title": "Client authentication flight", "statement": "If the server requested a certificate, the client sends, protected under its handshake key and in this order, a Certificate (its own chain echoing the request context, or empty), then iff it has a usable certificate and signer a CertificateVerify whose signature is over 64 spaces, the RFC context string, a zero byte and the transcript hash up to its Certificate, then Finished; if none was requested only Finished.", "quantifier": "every request, certificate, signer, transcript", "why_tests_cant": "combination of provider behaviours and contents", "anchors": ["src/connection.rs: client_cert, client_cert_verify, client_finished"]}
{"id": "C31", "title": "Handshake and read calls terminate on every finite input", "statement": "open and every read return after finitely many transport reads on every transport that delivers finitely many bytes: each loop iteration consumes at least one byte or returns.", "quantifier": "every byte stream and chunking", "why_tests_cant": "termination over all inputs", "anchors": ["src/blocking.rs / src/asynch.rs: open, read_buffered", "src/record_reader.rs", "src/parse_buffer.rs: read_list"]}
{"id": "C32", "title": "A record that fails authentication changes nothing", "statement": "If a record fails to open under the read key, read reports CryptoError, delivers no data, and neither the read counter nor previously decrypted data nor the write side changes; the next genuine record is still accepted.", "quantifier": "every forged record, every state", "why_tests_cant": "all forged records", "anchors": ["src/connection.rs: decrypt_record", "src/blocking.rs / src/asynch.rs: read_application_data"]}
{"id": "C33", "title": "A fatal alert from the peer ends the session", "statement": "After an authenticated alert other than close_notify is received, the read reports an error and the connection accepts no further application data in either direction.", "quantifier": "every alert level and description, every later history", "why_tests_cant": "all alerts and later histories", "anchors": ["src/common/decrypted_read_handler.rs"]}
{"id": "C34", "title": "Alerts are sent as alert records, protected once keys are available", "statement": "Every alert the client sends travels in a record of content type alert (21) before keys are established and in a protected record afterwards; when the peer's handshake message is illegal the corresponding alert is sent.", "quantifier": "every abort point and description", "why_tests_cant": "error paths at every point of the handshake", "anchors": ["src/record.rs: header_content_type, alert, close_notify", "src/connection.rs: handle_processing_error"]}
{"id": "C35", "title": "Post-handshake messages never crash the client", "statement": "On an open connection every authenticated record from the server leads to a value or an error from the read call, never to a panic; NewSessionTicket is absorbed without affecting data.", "quantifier": "every inner plaintext the server may send", "why_tests_cant": "all server messages", "anchors": ["src/common/decrypted_read_handler.rs", "src/connection.rs: decrypt_record"]}
{"id": "C36", "title": "Split halves do not interfere", "statement": "After split, for every interleaving of reader and writer steps, the data read and the bytes sent are those of running each half alone on its own calls; the only interaction is that once the reader has seen close_notify the writer's later calls fail with MissingHandshake.", "quantifier": "every interleaving of any number of calls on both halves", "why_tests_cant": "schedules cannot be enumerated", "anchors": ["src/blocking.rs / src/asynch.rs: split, TlsReader, TlsWriter", "src/key_schedule.rs: as_split"]}
{"id": "C37", "title": "Host name matching follows RFC 6125", "statement": "A certificate name matches a host iff it is a well-formed DNS name equal to it ignoring ASCII case, or is '*.' plus a suffix with at least two labels, without further wildcard, and the host is one non-empty label followed by that suffix; when the certificate has subject alternative names the common name is ignored.", "quantifier": "every pair of byte strings, every list of SANs", "why_tests_cant": "all strings", "anchors": ["src/pki.rs: tls_hostname_match, tls_hostname_match_impl"]}
{"id": "C38", "title": "Certificate chain verification is sound", "statement": "The built-in pki verifier accepts a server certificate list only if every certificate decodes, is within its validity period, is signed by the key of its predecessor starting from the configured CA, and the leaf matches the configured host name.", "quantifier": "every list of certificates, every CA, time and host name", "why_tests_cant": "unbounded chains; order of checks", "anchors": ["src/pki.rs: CertificateChain, CertVerifier::verify_certificate, verify_certificate"]}
{"id": "C39", "title": "CertificateVerify is checked against the right message and key", "statement": "The built-in verifiers accept a CertificateVerify only if the signature verifies under the leaf certificate's key over 64 spaces, 'TLS 1.3, server CertificateVerify', a zero byte and the transcript hash up to and including the Certificate message; they do so for both supported hash sizes and never panic on any message order.", "quantifier": "every transcript, signature, certificate and message order", "why_tests_cant": "all message orders and hash sizes", "anchors": ["src/pki.rs: CertVerifier::verify_signature", "src/webpki.rs: CertVerifier::verify_signature"]}
{"id": "C40", "title": "The handshake message length field is respected", "statement": "A handshake message is accepted only if its body occupies exactly the announced number of bytes; messages coalesced in one record are split at the announced lengths and each is added to the transcript.", "quantifier": "every handshake message and every coalescing", "why_tests_cant": "all lengths that disagree with the content", "anchors": ["src/handshake/mod.rs: ServerHandshake::parse, read", "src/record.rs: ServerRecord::decode", "src/connection.rs: decrypt_record"]}
{"id": "C41", "title": "A failed or partial send never leaves a gap in the authenticated stream", "statement": "If a flush or write fails because of the transport and the application keeps using the connection, the peer never accepts later data while earlier accepted data is missing.", "quantifier": "every failure point and later history", "why_tests_cant": "crash points inside a send", "anchors": ["src/blocking.rs / src/asynch.rs: write, flush", "src/write_buffer.rs: close_record"]}
{"id": "C42", "title": "Configuration builder", "statement": "A default configuration offers P-256 and the documented signature schemes; builder calls only change their own field; a PSK with up to four identities is kept in order; more identities than capacity panic instead of being silently dropped; repeated additions never exceed capacity silently.", "quantifier": "every sequence of builder calls", "why_tests_cant": "sequences of calls with repeated additions", "anchors": ["src/config.rs: TlsConfig::*"]}
{"id": "C43", "title": "Pointer arithmetic on decrypted data is in bounds", "statement": "The window remembered for unread decrypted data always lies inside the record buffer, is exactly where the decrypted bytes are, and the debug assertions guarding the pointer difference never fire; unread data is never overwritten by a later record.", "quantifier": "every record sequence, buffer size and API history", "why_tests_cant": "history-dependent aliasing; a violation is undefined behaviour", "anchors": ["src/common/decrypted_read_handler.rs", "src/common/decrypted_buffer_info.rs", "src/record_reader.rs: ensure_contiguous"]}
{"id": "C45", "title": "The keys of an open connection are the application traffic keys of RFC 8446", "statement": "When open returns Ok, the write key and IV are those RFC 8446 derives from the client application traffic secret, and the read key and IV those from the server application traffic secret, of the (EC)DHE secret, the configured PSK if any, and the handshake messages through the server's Finished.", "quantifier": "every configuration, provider and byte stream from the server", "why_tests_cant": "an error that is symmetric in the test peer stays invisible; depends on the whole history of messages", "anchors": ["src/connection.rs: client_finished_finalize, client_cert, process_server_verify", "src/key_schedule.rs: initialize_master_secret"]}
{"id": "C46", "title": "The webpki verifier accepts exactly what webpki accepts", "statement": "The webpki-based verifier accepts a server certificate list iff the rustls-webpki crate accepts the end-entity certificate under the configured CA at the current time, with the intermediates the server sent, and, when a host name is set, for that name.", "quantifier": "every list of certificates, CA, time, host name and every behaviour of the crate", "why_tests_cant": "all combinations of outcomes of the crate's calls", "anchors": ["src/webpki.rs: verify_certificate, CertVerifier::verify_certificate"]}
{"id": "C47", "title": "A successful handshake with a built-in verifier authenticates the server", "statement": "When open returns Ok with the pki or webpki verifier, the server sent a Certificate whose chain leads to the configured CA and whose leaf is for the configured server name, and a CertificateVerify by the leaf's key over exactly the handshake messages of this connection up to that Certificate.", "quantifier": "every server, byte stream, configuration, provider and chunking", "why_tests_cant": "composes the verifier with the whole handshake state machine and every message order", "anchors": ["src/pki.rs", "src/webpki.rs", "src/connection.rs: process_server_verify"]}
{"id": "C48", "title": "Names are read from the certificate completely", "statement": "The names compared with the host are the dNSNames of the subjectAltName extension and the common name of the subject; no other bytes of the certificate are taken for a name and none of those names is missed.", "quantifier": "every certificate", "why_tests_cant": "all DER contents, any number of extensions, general names and attributes", "anchors": ["src/der_certificate.rs: extract_common_name, extract_san_dns_names"]}
{"id": "C49", "title": "The built-in verifiers do not panic on what a server sends", "statement": "Whatever certificates and signature a server sends, the verifiers return Ok or an error; they neither panic nor loop.", "quantifier": "every certificate list and CertificateVerify", "why_tests_cant": "hostile inputs in all combinations of algorithm and key", "anchors": ["src/pki.rs: verify_certificate, verify_signature", "src/webpki.rs"]}
{"id": "C44", "title": "A handshake with a server that follows RFC 8446 succeeds", "statement": "If the server answers the ClientHello as RFC 8446 says (a ServerHello with a key share for the client's secret, well-formed messages, a Finished that confirms them, certificates the verifier accepts, any division of the messages into records) and the transport works, open returns Ok; both sides then hold the keys of RFC 8446, and application data sent either way arrives unchanged.", "quantifier": "every configuration, provider, server flight, division into records, padding and chunking by the transport", "why_tests_cant": "tests run against a few servers; liveness over all well-formed flights, extensions, certificate chains and framings", "anchors": ["src/handshake/mod.rs: ServerHandshake::read", "src/connection.rs: State::process", "src/blocking.rs: open", "src/asynch.rs: open"]}
{"id": "C50", "title": "A server cannot crash the client during the handshake", "statement": "Whatever bytes the server sends and however the transport delivers them, open returns Ok or an error: it does not panic, unless a function supplied by the user (verifier, signer) panics itself.", "quantifier": "every configuration, provider, byte stream, buffer size and behaviour of the transport", "why_tests_cant": "hostile flights of any length in every state of the handshake, including authentic ones", "anchors": ["src/connection.rs: State::process, decrypt_record, client_cert, client_cert_verify", "src/key_schedule.rs: increment_counter", "src/record_reader.rs", "src/write_buffer.rs: write_record"]}
{"id": "C51", "title": "The handshake succeeds with exactly the servers it should", "statement": "With a transport that works, open returns Ok if and only if the ClientHello fits the write buffer, the verifier takes the server name, and the bytes the server sends begin with a flight of records that fit the read buffer, of messages the client decodes, with a usable key share, Finished messages that each confirm everything before them, certificates and signatures the verifier accepts, and the client's answer can be built: its messages fit the write buffer and its signature the signature buffer. Nothing else about the server, the chunking, the provider or the configuration matters.", "quantifier": "every configuration, provider, buffer sizes, byte stream and chunking by the transport", "why_tests_cant": "an if-and-only-if over all byte streams: soundness (no other stream is accepted) and completeness (no such stream is rejected)", "anchors": ["src/blocking.rs: open", "src/asynch.rs: open", "src/connection.rs: State::process", "src/handshake/mod.rs: ServerHandshake::read"]}
{"id": "C52", "title": "The providers that come with the crate do what their names say", "statement": "With an UnsecureProvider, whatever calls of with_priv_key and with_cert built it, open succeeds exactly with the servers whose flight is well formed and whose Finished is right: certificates and signatures play no part, so anyone on the path is let in. A server's certificate request is answered with the certificate given last, signed with the key given last as ecdsa_secp256r1_sha256, or with an empty Certificate if none was given; without a usable key open sends close_notify and returns InvalidPrivateKey. A provider with NoVerify is indistinguishable from one without a verifier, and an UnsecureProvider that was given nothing from one with the trait's default methods. open can then panic only for a raw public key certificate or an empty authentic record.", "quantifier": "every sequence of builder calls, every configuration, byte stream, transport behaviour and key library", "why_tests_cant": "indistinguishability is a statement about all pairs of runs; exact acceptance is a statement about all byte streams", "anchors": ["src/config.rs: NoVerify, CryptoProvider, UnsecureProvider", "src/connection.rs: client_cert, client_cert_verify, process_server_verify"]}
{"id": "C53", "title": "Each way a handshake can go wrong has one definite outcome", "statement": "With a transport that works, what open returns for a bad server is determined by what the server sent, and only the ClientHello was sent (besides an alert that the user's verifier asked for): a stream that ends early gives IoError, an unknown record type InvalidRecord, a record too long for the read buffer InsufficientSpace; an alert as the first record HandshakeAborted with its level and description, another message in place of the ServerHello InvalidHandshake, a ServerHello without a usable key share InvalidKeyShare; later on a record that does not open CryptoError, an alert or application data InvalidRecord, a ServerHello or ticket InvalidHandshake, a wrong Finished InvalidSignature, a rejected certificate or signature the error of the verifier, bytes that are no message an error. There are no other ways for the server's flight to fail.", "quantifier": "every configuration, provider, buffer sizes, byte stream and chunking by the transport", "why_tests_cant": "which error a caller gets for each of infinitely many bad flights, in every state of the handshake, and that the list of cases is complete", "anchors": ["src/blocking.rs: open", "src/asynch.rs: open", "src/connection.rs: State::process, process_server_hello, process_server_verify, decrypt_record", "src/record_reader.rs: read, advance", "src/record.rs: ServerRecord::decode"]}
{"id": "C54", "title": "The receiving side of an open connection is one definite machine over the incoming bytes", "statement": "After open, over a transport that works, what read, fill_buf, read_buffered and consume return, in any history of calls, is determined by the read key, the size of the read buffer and the bytes to come alone: a call returns bytes of the current record while there are any; otherwise it looks at the records in order, passing over empty data records and records of NewSessionTickets, and returns the data of the first data record, the error of the first record that is bad (one fixed error for each kind), ConnectionClosed at a close_notify, whereafter waiting calls give MissingHandshake; a record counts towards the sequence number only if it was authentic and was data or tickets. How the transport splits the bytes, and writes in between, make no difference.", "quantifier": "every established connection, every history of calls, every byte stream and chunking by the transport", "why_tests_cant": "a refinement between the code and a small machine over all byte streams and call histories, with the machine shown to be deterministic and never stuck", "anchors": ["src/blocking.rs: read, read_buffered, fill_buf, consume", "src/asynch.rs: read, read_buffered, fill_buf, consume", "src/common/decrypted_read_handler.rs: handle", "src/connection.rs: decrypt_record", "src/record_reader.rs: read, advance", "src/common/decrypted_buffer_info.rs", "src/read_buffer.rs"]}
{"id": "C55", "title": "An open connection is exactly two machines that share only the open flag", "statement": "After open, any history of calls of write, flush, set_flush_policy, read, fill_buf, read_buffered, consume and close has the results of two small machines: the receiving machine of C54, and a sending machine whose state is the content collected so far, the number of the next record and the flush policy. A write collects what fits into one record and sends the record when it is full; flush sends it; a record is counted when the transport took all of it and is lost otherwise; the transport is flushed as the policy says; close sends what was collected and then close_notify, protected exactly if the session is still open. The transport may fail, or the future be dropped, at any write or flush. What is received has no influence on what is sent except that a received close_notify ends writing.", "quantifier": "every established connection, every history of calls, every byte stream received, every behaviour of the transport on the sending side", "why_tests_cant": "a refinement for all call histories interleaving both directions with any failures of the transport, and a non-interference statement about pairs of runs", "anchors": ["src/blocking.rs: write, flush, close, read, fill_buf, read_buffered", "src/asynch.rs: write, flush, close, read, fill_buf, read_buffered", "src/write_buffer.rs: append, close_record, write_record", "src/flush_policy.rs", "src/connection.rs: encrypt"]}
{"id": "C56", "title": "How the transport cuts the incoming bytes is unobservable", "statement": "Take two new connections over transports that deliver the same bytes and then end-of-file, cut into pieces in different ways (for example everything at once, or one byte per read). Any session on them - open, read, fill_buf, consume, write, flush, close in any order, with any configuration, provider and server bytes, honest or not - gives the same result for every call, the same data, the same records handed to the transport in the same writes, and the same state at the end. The same holds when the pieces are changed in the middle of a session. Only after the transport has failed inside a record the cuts can show.", "quantifier": "All crypto implementations, configurations, providers that return, buffer sizes, byte streams, ways to cut the stream into non-empty pieces, call sequences, and behaviours of the sending transport.", "why_tests_cant": "A test runs one or a few ways of cutting; a stream of n bytes has 2^(n-1) of them, for every stream and every sequence of calls.", "anchors": ["src/record_reader.rs: read, next_record_header, advance", "src/blocking.rs: open, read, fill_buf, read_buffered", "src/asynch.rs: open, read, fill_buf, read_buffered", "src/connection.rs: State::process"]}
{"id": "C57", "title": "Client and RFC server understand each other over a whole session", "statement": "Take any client and any server that follows RFC 8446, each computing from the bytes it receives only: the server reads the ClientHello with the grammar of the RFC, chooses a pre-shared key it knows and checks its binder, does the key agreement and key schedule from its side, sends messages of its choice (also a request for a certificate), reads the client's answer, checks the signature and the Finished, and opens the records that follow. If the two fit (same suite, same result of the key agreement, a pre-shared key known to both if the client has one, each accepts the other's certificate, buffers big enough), then open succeeds, everything the server sends is read by the application, and from all bytes the client ever sent the server obtains the client's certificate and exactly what the application wrote, after close followed by the closure alert. (With a pre-shared key the server does not know this fails, although RFC 8446 lets the server go on without.)", "quantifier": "All crypto implementations meeting the laws in Crypto.v, client configurations, providers, verifiers, buffer sizes, servers (random bytes, secrets, messages, ways to put them into records), ways to cut the server's bytes, and sequences of calls.", "why_tests_cant": "A test runs one client against one server implementation with a few configurations; the claim is about all RFC-conforming servers and all call sequences at once, and ties the bytes of the first flight to the last.", "anchors": ["src/connection.rs: State::process, client_hello, process_server_hello, process_server_verify, client_cert, client_cert_verify, client_finished", "src/handshake/client_hello.rs: encode, finalize", "src/key_schedule.rs: KeySchedule", "src/blocking.rs: open, read, write, flush, close", "src/asynch.rs: open, read, write, flush, close"]}
{"id": "C58", "title": "Transport errors are reported, unchanged, by the call in which they happen", "statement": "Whatever state a connection is in: if the transport fails with an error of some kind during a call, that call returns Io with that kind (and through embedded_io the same ErrorKind), and the call met no other fault; if the future is dropped while the transport is pending, that is the only fault met; if the stream ends, the call returns IoError; a call that returns anything else met no fault. So over a whole session no transport error is swallowed, invented, altered or reported twice. (open needs that the user's verifier and signer do not return transport errors themselves.)", "quantifier": "All crypto implementations, all connection states (also after earlier failures), all calls and sequences of calls, and all behaviours of the transport: any errors at any read, write or flush.", "why_tests_cant": "A test injects one error at one place; the claim is about every place where the transport is used, every state in which an error can arrive, and the absence of masking over whole sessions.", "anchors": ["src/record_reader.rs: read, advance, next_record_header", "src/blocking.rs: open, write, flush, close, read, fill_buf, read_buffered, consume", "src/asynch.rs: open, write, flush, close, read, fill_buf, read_buffered, consume", "src/connection.rs: respond, handle_processing_error, State::process", "src/lib.rs: kind"]}
{"id": "C59", "title": "A client that accepts a server's Finished agrees with that server on the whole handshake", "statement": "Whatever an attacker does to the bytes in either direction: if open succeeds and the Finished it accepted is the one a server (following RFC 8446) computed, then the record the server received is exactly the ClientHello the client sent, with all its offers (versions, cipher suites, groups, key share, server name, ALPN, PSK identities), the client received exactly the ServerHello and handshake messages the server sent, and both hold the same PSK, Diffie-Hellman secret, handshake traffic secrets and keys, and application keys - unless the values of the two exchanges exhibit a hash, HMAC or key-derivation collision. So there is no downgrade and no tampering with the offers.", "quantifier": "All crypto implementations, providers, configurations, servers, and all bytes arriving at client and server.", "why_tests_cant": "Quantifies over every manipulation of the two byte streams by an attacker and every server; tests can only try some manipulations.", "anchors": ["src/handshake/client_hello.rs: encode", "src/connection.rs: process_server_hello, process_server_verify, State::process", "src/key_schedule.rs: verify_server_finished, initialize_handshake_secret", "src/write_buffer.rs: close_record"]}
{"id": "C60", "title": "Only a certificate authority can vouch for a server certificate", "statement": "A server certificate list is accepted only if every certificate that vouches for another one is the configured CA or is itself marked as a certificate authority (basicConstraints cA TRUE, RFC 5280 4.2.1.9); in particular the holder of an ordinary server certificate cannot issue certificates for other host names that the client accepts.", "quantifier": "Every CA, every certificate list, every time and host name; both built-in verifiers.", "why_tests_cant": "The attack needs a chain a test author would have to think of; the claim is about all lists of all lengths.", "anchors": ["src/pki.rs: CertificateChain, CertVerifier::verify_certificate, verify_certificate", "src/webpki.rs: verify_certificate"]}
{"id": "C61", "title": "Application data reaches the transport only inside protected records", "statement": "What an observer of the transport sees does not depend on the bytes the application writes except inside the AEAD: if two applications make the same calls on a connection and write equally many but different bytes, every call returns the same to both, and the transport is handed the same writes and flushes, except that where one gets protected record number n with one content, the other gets record number n under the same key with a content of the same length; in particular record headers, lengths, the order, the cuts and the flushes are the same.", "quantifier": "Every connection in use, every sequence of calls, all data, every behaviour of the transport (errors, partial writes, cancellation) and every incoming byte stream.", "why_tests_cant": "A relation between two executions for all data and histories; a test can compare two particular runs only.", "anchors": ["src/write_buffer.rs: append, close_record", "src/blocking.rs: write, flush, close_internal", "src/connection.rs: encrypt"]}
{"id": "C62", "title": "write_all and read_exact do what they say on an open connection", "statement": "The loops that embedded-io builds on write and read are safe to use: write_all accepts all the bytes, in order, or ends with the error of a write, unchanged, and never panics because a write made no progress; read_exact fills its buffer with the next bytes of the peer's stream or ends with the error of a read, and never reports UnexpectedEof; with a working transport a program of write_all, flush and read_exact calls that does not ask for more than the peer sends succeeds, gets the peer's bytes in order, each call the number it asked for, and after a flush the peer has exactly what was written; one that asks for more ends with the error read gives at the end of the stream.", "quantifier": "Every established connection with a write buffer of at least 134 bytes, every program of these calls with any sizes, every incoming byte stream and every behaviour of the transport.", "why_tests_cant": "How a loop of calls ends depends on progress of each call in every state the connection can be in; tests run a few sizes.", "anchors": ["src/blocking.rs: read, write, flush (embedded_io::Read, embedded_io::Write)", "examples/blocking/src/main.rs: write_all", "tests/early_data_test.rs: write_all, read_exact"]}
{"id": "C63", "title": "The documented buffer sizes suffice, and which sizes are really needed", "statement": "What the documentation of new says of its buffers: a read buffer of 16640 bytes is enough for every record a server may send, in the handshake and after; the write buffer must have at least TLS_RECORD_OVERHEAD bytes; the ClientHello is encoded in the larger of the two buffers, so one of them must be large enough.  In truth a record is read exactly when its fragment fits the read buffer and gives InsufficientSpace otherwise (2^14+17 bytes suffice); new panics with a write buffer of exactly TLS_RECORD_OVERHEAD bytes; the ClientHello is encoded in the write buffer whatever the size of the read buffer, and open fails with nothing sent if it does not fit there.", "quantifier": "Every configuration, every pair of buffer sizes, every flight and every sequence of records of legal size.", "why_tests_cant": "The sizes that matter are at boundaries that depend on the configuration and on the peer; tests use two 16 KiB buffers.", "anchors": ["src/blocking.rs: TlsConnection::new (documentation)", "src/asynch.rs: TlsConnection::new (documentation)", "src/write_buffer.rs: WriteBuffer::new, write_record", "src/record_reader.rs: advance"]}
{"id": "C64", "title": "How the application cuts its data into write_all calls cannot be observed", "statement": "Two programs of write_all, flush and read_exact calls that write the same bytes between the same flushes and reads, however they cut these bytes into write_all calls (empty ones included), end with the same failure or none, are given the same bytes, leave the connection in the same state and make the same calls to the transport with the same bytes.  And it is known what is sent: on a connection just opened, over a transport that takes what it is handed, data that is written and flushed leaves as the protected records 0, 1, 2, ... with the data of each flushed part cut into pieces of the size of the write buffer minus 133, each handed over in one write and followed by a flush; n bytes cost n + 22 * ceil(n / (L - 133)) bytes.", "quantifier": "Every connection state, every transport and peer, all programs; for the records: every established connection with a write buffer of at least 134 bytes and all data.", "why_tests_cant": "The cuts of an application are unbounded in number and position; tests write one short request.", "anchors": ["src/blocking.rs: TlsConnection::write, flush", "src/asynch.rs: TlsConnection::write, flush", "src/write_buffer.rs: append, is_full, contains, start_record, close_record", "embedded_io::Write::write_all (as used in examples/blocking/src/main.rs)"]}
{"id": "C65", "title": "What the server selects in EncryptedExtensions answers what the client offered", "statement": "open succeeds only if every extension in EncryptedExtensions answers something that the client offered, with a value that the offer allows (RFC 8446 section 4.2, RFC 6066 section 4, RFC 7301 section 3.1): the application protocol is one of those given to with_alpn (whose documentation says that the server selects one of the offered protocols), the maximum fragment length the one that was asked for, and nothing appears there that the client did not send.", "quantifier": "Every crypto suite, provider, configuration, buffer and transport; every server, every list of extensions the client can decode.", "why_tests_cant": "A test server selects what was offered; no test has a server that selects something else.", "anchors": ["src/handshake/encrypted_extensions.rs: parse", "src/extensions/messages.rs: EncryptedExtensionsExtension", "src/config.rs: with_alpn, with_max_fragment_length", "src/connection.rs: process_server_verify"]}
{"id": "C66", "title": "With a maximum fragment length the buffers can be sized by it", "statement": "With a maximum fragment length of 512, 1024, 2048 or 4096 (with_max_fragment_length, RFC 6066 section 4), a client whose read buffer has the size that the documentation quotes (length + 256 + 32; 5 more for the header) completes the handshake with, and reads all data from, every server that keeps to the length; and no record it sends itself is longer.", "quantifier": "Every crypto suite, provider, configuration, server, transport, program, and every length; all handshake flights and all data that keep to the length.", "why_tests_cant": "The size of a record depends on buffer sizes, data lengths and certificates together; tests use one large buffer and short messages.", "anchors": ["src/config.rs: with_max_fragment_length", "src/extensions/extension_data/max_fragment_length.rs: MaxFragmentLength", "src/write_buffer.rs: max_block_size, append, is_full", "src/record_reader.rs: read, advance", "src/connection.rs: process_server_verify"]}
{"id": "C67", "title": "How open ends is decided by the server's bytes and the client's certificate, key and buffers", "statement": "As long as the transport takes what is written, what open returns and every byte it sends after the ClientHello are one of a closed list of cases, each recognised from the bytes the server sent, the pre-shared key, the answers of the verifier, the client's certificate and key, and the lengths of the two buffers. In particular after a complete and right flight of the server: the messages of the client go out, one in each record, up to the first that does not fit the write buffer or cannot be made; a missing certificate gives an empty Certificate, a missing private key a close_notify, a signer that gives nothing or too much a panic, a raw public key a panic.", "quantifier": "Every crypto suite, provider, configuration, pair of buffers, and every byte stream of less than 2^64 bytes, however it is cut.", "why_tests_cant": "The list is closed: that no other ending exists is a statement over all byte streams. Each ending depends on sizes to the byte.", "anchors": ["src/connection.rs: State::process, process_server_verify, client_cert, client_cert_verify, client_finished, handle_processing_error", "src/asynch.rs: open_internal", "src/write_buffer.rs: close_record, append", "src/connection.rs: encrypt", "src/handshake/certificate.rs: encode", "src/handshake/certificate_verify.rs: encode"]}
{"id": "C68", "title": "Long sessions: keys are changed as RFC 8446 wants", "statement": "A session can go on for as long as both sides want: when the server announces with a KeyUpdate message that it changes its keys (RFC 8446 section 4.6.3), the client follows and reads go on; and the client changes its own keys, or ends the session, before it has sent more records with one key than the cipher allows (section 5.5, about 2^24.5 full-size records for AES-GCM).", "quantifier": "Every crypto suite, every established connection, every point in the stream at which the server changes its keys, any number of records.", "why_tests_cant": "Tests do not send millions of records, and no test server updates its keys.", "anchors": ["src/handshake/mod.rs: ServerHandshake::parse", "src/common/decrypted_read_handler.rs: handle", "src/connection.rs: decrypt_record", "src/key_schedule.rs: SharedState, WriteKeySchedule, ReadKeySchedule", "src/blocking.rs: write, flush, fill_buf"]}
{"id": "C69", "title": "Nobody without the server's key can take its place", "statement": "With a verifier configured and no pre-shared key, someone on the network who has no certificate and no private key cannot make open return Ok, cannot have the application read data of their choice, and cannot read what the application writes.  With a pre-shared key configured, only someone who knows it can.", "quantifier": "Every crypto suite, every provider and verifier (even one that rejects everything), every configuration, every secret of the impostor, every chunking of the stream, every history of calls afterwards.", "why_tests_cant": "A test of the impostor needs a server that breaks the protocol in just this way; and one such test says nothing about other verifiers and configurations.", "anchors": ["src/connection.rs: process_server_verify", "src/config.rs: TlsVerifier", "src/blocking.rs: open, read, write, flush"]}
{"id": "C70", "title": "A connection object serves one handshake", "statement": "open requires a new connection instance after an error, but takes &mut self and may be called again.  If it is, whether the first open failed or succeeded, no session comes of a mixture of two handshakes: with every server that computes its Finished from its own handshake the second open fails; an open that failed before sending anything leaves the connection as it was; and a connection whose last open failed accepts no application data.", "quantifier": "Every crypto suite, providers and configurations of all the calls, every history of calls with any results (errors, interruptions, failed transports) between the first open that sent something and the one considered.", "why_tests_cant": "A test calls open again after one chosen failure with one server; that nothing any earlier call left behind makes another handshake succeed is about all histories.", "anchors": ["src/blocking.rs: open, write, is_opened", "src/asynch.rs: open, write", "src/key_schedule.rs: initialize_early_secret, transcript_hash", "src/connection.rs: State::process"]}
{"id": "C71", "title": "Reading in one thread and writing in another gives each side exactly what the other sent", "statement": "After split, one thread reads while another writes and flushes.  However the two are interleaved: at every moment what the reader has read is a prefix of what the server sent, and what the server has decrypted is a prefix of what the writer's write calls reported as accepted; everything once the reader has asked often enough or the writer has flushed; no call fails before the stream has ended.  What is written arrives whatever the server sends and whatever becomes of the reader, even if the reading thread panics; writes are refused only after the reader was told that the peer closed.", "quantifier": "every interleaving, every number and size of calls on both halves, every split of the incoming bytes; for the writer every incoming byte sequence", "why_tests_cant": "A test runs two threads with the few interleavings the scheduler happens to take and one sequence of records.", "anchors": ["src/blocking.rs: split, TlsReader, TlsWriter", "src/asynch.rs: split, TlsReader, TlsWriter"]}
{"id": "C72", "title": "A server may answer the ClientHello with a HelloRetryRequest", "statement": "A server may answer with a HelloRetryRequest, to ask for a key share of another group or to hand out a cookie (RFC 8446 section 4.1.4); the client then sends a second ClientHello and the handshake goes on.  If it does not, open fails with an error instead of treating the request as a ServerHello.", "quantifier": "every client configuration, provider and buffer sizes, every HelloRetryRequest, every chunking by the transport", "why_tests_cant": "A test server that never sends a HelloRetryRequest shows nothing, and one that does shows one of the many forms it may have.", "anchors": ["src/handshake/server_hello.rs:18-55", "src/extensions/extension_data/key_share.rs:14-16", "src/connection.rs: process_server_hello"]}
{"id": "C73", "title": "What RFC 8446 tells a receiver to refuse is refused", "statement": "Records and messages that RFC 8446 tells a receiver to answer with a fatal alert end the session: records longer than 2^14+256 bytes, handshake records with an empty content, records with more than one alert, records that do not decrypt, change_cipher_spec records other than the single byte 1, extension blocks with the same extension twice.", "quantifier": "every open connection at any time, every client and server flight, any number and content of such records", "why_tests_cant": "Each of these needs a peer that misbehaves in one particular way at one particular moment; tests use peers that follow the protocol.", "anchors": ["src/record_reader.rs: read_blocking, advance", "src/record.rs: ServerRecord::decode", "src/connection.rs: decrypt_record", "src/extensions/extension_group_macro.rs", "src/application_data.rs"]}
{"id": "C74", "title": "The end of the peer's data is reported as embedded_io has it, and a cut is not taken for it", "statement": "After the peer's close_notify, once all its data has been read, read returns Ok(0) and fill_buf an empty slice, which is how embedded_io reports the end of a stream; before that a read into a non-empty buffer never returns Ok(0).  If the transport ends without close_notify, inside or between records, the caller gets an error instead, so that a truncation by an attacker can be told from the end of the data - also by code that is written for any embedded_io stream and sees only the kind of an error.", "quantifier": "every established connection, every sequence of records by the server, every place of a cut, every sequence of reading calls", "why_tests_cant": "A test reads to the end of one stream; that no read of any size, in any history and at any cut returns Ok(0), and that two endings cannot be told apart by any sequence of calls, is about all of them.", "anchors": ["src/asynch.rs: read, read_buffered, fill_buf", "src/blocking.rs: read, read_buffered, fill_buf", "src/connection.rs: handle_alert / ConnectionClosed", "src/lib.rs:131-140", "src/record_reader.rs: advance (IoError at end of file)"]}
{"id": "C75", "title": "Nobody without the session keys can crash an open connection", "statement": "Someone who can put bytes on the network but cannot make a record that passes authentication cannot make a call on an open connection panic: whatever arrives, each receiving call returns a value or an error, as long as the server itself sends only application data and NewSessionTicket messages.", "quantifier": "every open connection in every state, every byte stream from the network, every receiving call", "why_tests_cant": "A test injects one packet at one point of one session; that a fixed packet crashes every session at every point where it waits, and that no other kind of packet does, is about all states and all bytes.", "anchors": ["src/common/decrypted_read_handler.rs:53-61", "src/connection.rs:28-100 decrypt_record (records in the clear go straight to the handler)", "src/record.rs ServerRecord::decode"]}
{"id": "C76", "title": "What the crate's encoders write, its parsers read back", "statement": "Encoding is undone by parsing: each extension the crate can represent in a message (ClientHello or server message), each alert, and each Certificate, CertificateVerify and Finished message, written into a buffer with room and given to the crate's parser of the same kind, comes back as the same value, wherever it stands among other bytes, and exactly the written bytes are consumed.  The same holds for all extensions of a ClientHello together.  Conversely an extension is read from nothing but the bytes that are written for it, up to bytes behind them within the extension that are not looked at.", "quantifier": "every extension type and payload within the capacities of the crate's vectors, every alert, every certificate list, signature and MAC, every configuration, every surrounding bytes", "why_tests_cant": "The unit tests encode and parse single literals of a few types; the claim is about every value of every type and about not reading into the neighbouring bytes.", "anchors": ["src/extensions/extension_group_macro.rs", "src/extensions/messages.rs", "src/extensions/extension_data/*.rs", "src/alert.rs:100-120", "src/handshake/certificate.rs", "src/handshake/certificate_verify.rs", "src/handshake/finished.rs", "src/handshake/mod.rs:82-110,202-240"]}
{"id": "C77", "title": "No call waits for more than it needs", "statement": "open and every other call return as soon as what they need has arrived and never ask the transport for anything behind it: if with the bytes that have come a call does not run into their end, then it returns the same, sends the same and leaves the rest on the transport, whatever comes later - bytes, errors or nothing at all.  So open returns once the server's flight is there and a read once one record with data is there; a call with decrypted bytes in front of it, a write, a flush or a close do not touch the incoming side at all; and while open waits, all it has sent has been flushed.", "quantifier": "every connection state, every call and session, every prefix of the incoming bytes and every continuation", "why_tests_cant": "A test with a scripted transport always has the continuation there or none; that no call ever needs a byte of the peer's next message (which the peer may be holding back until it hears from us: deadlock) is a claim about all states and all prefixes.", "anchors": ["src/record_reader.rs:108-226", "src/connection.rs:165-385", "src/blocking.rs:96-240", "src/asynch.rs:97-250"]}
{"id": "C78", "title": "What was in the buffers is not observable", "statement": "Of the two buffers handed to new only the lengths count: whatever they contain - zeros, uninitialised memory, the plaintext of an earlier connection - every session of open and other calls returns the same, sends the same bytes in the same writes and leaves the same on the transport, so nothing of the old contents reaches the peer, the application or the keys.  The same holds at any later moment for everything in the buffers except the plaintext the application has not taken yet, the part of a record that has arrived, and the bytes written and not yet sent.", "quantifier": "every pair of buffer contents of the same lengths, every peer and transport behaviour (errors and cancellations included), every session", "why_tests_cant": "Tests start from one buffer content, nearly always zeros, where a read of a stale byte looks like a read of a zero; that no byte is used before it was written is a claim about all contents and all runs.", "anchors": ["src/write_buffer.rs:10-287", "src/buffer.rs:1-304", "src/record_reader.rs:11-265", "src/connection.rs:28-129", "src/blocking.rs:57-261"]}
{"id": "C79", "title": "A message that cannot be decoded gives the error for its first fault", "statement": "Of the bytes of a handshake message from the server the client either understands the message or returns one particular error, and which one depends only on the first field that is wrong: message type and length, version, random, session identifier, cipher suite, compression method, extension block (missing length, cut off, an extension cut off, misplaced - illegal_parameter -, with content that is malformed, one too many), certificate list and its entries, signature scheme, signature, verify_data, ticket fields; a type the client never takes gives Unimplemented.  Bytes after the first fault, the transcript and everything that happened before do not matter, and open or the reading call returns this very error.", "quantifier": "every byte string, every cipher suite; for open and the reading calls every configuration, peer and chunking", "why_tests_cant": "Each field has its own ways of being wrong and the message may be cut at every byte or wrong in several places; tests sample a few of them and usually only check that there is an error.", "anchors": ["src/handshake/mod.rs:118-241", "src/handshake/server_hello.rs:1-83", "src/handshake/certificate.rs:1-174", "src/handshake/certificate_request.rs:1-50", "src/handshake/certificate_verify.rs:1-56", "src/handshake/new_session_ticket.rs:1-33", "src/handshake/encrypted_extensions.rs:1-19", "src/handshake/finished.rs:1-52", "src/extensions/extension_group_macro.rs:1-102", "src/extensions/messages.rs:1-106", "src/parse_buffer.rs:1-173"]}
{"id": "C80", "title": "close can be called whatever became of open", "statement": "close gives the transport back and may be called at any time: on a connection on which open was never called, or on which it failed, was refused by the peer or was interrupted.  It then tells the peer with one close_notify, sends nothing else and does not panic.", "quantifier": "every configuration, provider, cipher suite, peer and chunking, both buffers of every size, transports that fail or are interrupted anywhere during open and work again afterwards", "why_tests_cant": "What close does depends on what open left in the write buffer, and open can end after any of its messages and in the middle of building each of them; tests close connections that were opened, or do not look at what is sent.", "anchors": ["src/blocking.rs:233-261", "src/asynch.rs:233-270", "src/write_buffer.rs:222-287", "src/connection.rs:167-320", "src/record.rs:36-122"]}
