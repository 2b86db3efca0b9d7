# Formal model of embedded-tls in Rocq: design

Subject: `drogue-iot/embedded-tls` at the pinned commit, source in `/repo/src` (read as text only).
Properties: `properties.jsonl`. Claim status: `MANIFEST.json`. Mutation log: `seeded/LOG.jsonl`.

## 1. Modelling approach

* Every Rust function that matters is a total, computable Gallina function whose comment cites file and lines.
* `byte` is `Coq.Init.Byte.byte` (so every byte list is a legal Rust `[u8]`). Lengths and indices (`usize`) are
  `nat`; `u8/u16/u32/u64` values are `N`, and every `as u8`/`as u16` cast is an explicit `mod`.
* Results: `outcome E A := Ok a | Err e | Panic site | Diverge | Cancelled`.
  * `Panic` is produced by every out-of-range slice, `unwrap` on `None`, `unimplemented!()`, `todo!()`, `assert!`,
    `debug_assert!`, checked-arithmetic overflow and `usize` subtraction underflow (the debug-build reading;
    a release build would wrap).
  * `Diverge` = fuel of a modelled `while` exhausted; theorems show it does not occur.
  * `Cancelled` = an async future dropped at an await point; the state is the one at that point.
* `&mut` state is threaded explicitly: `M S E A := S -> outcome E A * S`. The state is kept on error, as in Rust.
* Crypto (hash, HMAC, HKDF, AEAD, ECDH), signer, verifier and RNG are fields of records passed as parameters.
  Laws about them (lengths, `open (seal m) = m`) are explicit premises (`crypto_ok`); a computable toy instance
  shows that the premises are satisfiable and is used to run complete handshakes in `Example`s.
* The transport is an oracle stored in the state: a list of read events (`chunk of bytes | error | cancel`, end of
  list = end of file) and a list of write/flush outcomes (`ok | error after a prefix | cancel after a prefix`);
  everything the client sends is appended to a log.
* Blocking and async variants are textually the same modulo `await`; one model stands for both, with `Cancelled`
  events only meaningful for the async one.

Layout (`rocq/theories`):

* model: `Base ParseBuffer Buffer Codes Extensions Crypto KeySchedule Config Handshake Record WriteBuffer Transport
  RecordReader ReadBuffer Connection Api Lib Providers Pki WebPki Split Loops`;
* specifications, written from the RFCs and the API documentation: `Spec*.v`. They may name the types of the model
  (connection, call, result) but not the functions under test;
* proofs: `*Proofs.v`, `HsWrite.v`;
* theorems: `Prop*.v`, each with `Print Assumptions` and at least one `Example` on a concrete case;
* concrete instances: `Toy.v` (computable primitives satisfying `crypto_ok`), `ToyRun ToyServer ToyPki` (complete
  handshakes over them; each is evaluated once and stored in normal form, because `coqchk` has no virtual machine).

## 2. Per-property plan

| id | model | proof |
|----|-------|-------|
| C01 | ParseBuffer, all parsers, record decode, with `Panic` for every slice | compositional safety predicate (`no panic, no divergence, window stays inside`) closed under bind and loops |
| C02 | extension group parse / parse_vector | induction over the extension list against a declarative skip/allow spec |
| C03 | all enum codecs | case analysis, both directions, for all N |
| C04 | CryptoBuffer, with_uN_length | `encodes m bs` predicate: success appends exactly `bs`; failure iff no space |
| C05 | CryptoBuffer ops | invariant + frame lemmas over arbitrary operation lists |
| C06 | ClientHello::encode and all extension encoders; `cn_open` (PropFirst.v) | encoder = byte list; independent RFC grammar parser in Spec returns the configuration |
| C07 | certificate encode/parse and owned conversion | induction over entries |
| C08 | key_schedule.rs on abstract HKDF | equality with an RFC 8446 §7.1 spec function; label capacity lemma |
| C09 | get_nonce/pad/increment_counter | xor injectivity, big-endian injectivity |
| C10 | write path + transport failures; `answer`, `successes` (SpecNumbers.v) | invariant on the log without failures (`_partial`); with failures the exact number of every record, by induction over the history on the machine of C55, hence which records share one (`_refuted`) |
| C11 | verify_server_finished / create_client_finished | equality with RFC formula |
| C12 | finalize of ClientHello; `cn_open` (PropFirst.v) | offset computation on the byte list |
| C13 | write buffer, encrypt, write/flush | refinement: log + buffer = accepted bytes, by induction on the history |
| C14 | record reader, decrypt, read API | refinement to a FIFO byte queue by induction on the history, any chunking |
| C15 | same, adversarial transport | invariant: delivered+pending = contents of records opened at counters 0..n-1 |
| C16 | record_reader.rs | for all chunkings: equality with a framing spec on the concatenated stream |
| C17 | record_reader.rs with error/cancel events; `fault`, `struck`, `left_over` (SpecInterrupt.v) | refuted for every point inside every record: the two loops followed up to the fault, then the next read from what is left over; positive part at record boundaries `_partial` |
| C18 | decrypt_record | list lemma; empty inner plaintext panic refuted by witness |
| C19 | write buffer records | log invariant; size limit needs a bound on the buffer; refuted for 16640 |
| C20 | append/write | exact characterisation; refuted for buffers 129..133 |
| C21 | flush/close/respond | log shape theorem |
| C22 | ReadBuffer | refinement to FIFO |
| C23 | close | exact log; refuted after peer close |
| C24 | all API ops | case analysis on opened flag + histories |
| C25 | read path | monotone flag; refuted: plaintext alert closes, any connection; positive part |
| C26 | handshake machine | ghost-free: transcript kept as bytes; invariant of the process loop |
| C27 | handshake machine with verifier call log | refuted (server may omit the messages); `_partial`: every message received is submitted and honoured |
| C28 | decrypt_record plaintext path | refuted for every client and flight; positive part for ApplicationData |
| C29 | process_server_hello | refuted for every client and choice; positive part: known suite and group |
| C30 | client_cert* | exact emitted plaintexts |
| C31 | loops with fuel from input size; loops again as relations without fuel (SpecOpen) | every run of the relation is finite, with a bound; fuel never runs out |
| C32 | decrypt failure | state equality |
| C33 | handler | refuted |
| C34 | alert paths | refuted for all inputs (an alert of `open` goes out in the clear with type 20, or not at all); positive: everything sent on an established connection is protected |
| C35 | handler | refuted (`unimplemented!`); positive for NewSessionTicket and characterisation of panics |
| C36 | small-step machine: two threads, accesses to the shared flag, any schedule (Split) | linearisation by induction on the schedule; non-interference of each half |
| C37 | pki host name functions | iff with declarative spec; CN fallback refuted |
| C38 | pki verify on abstract DER/signature | induction over chain |
| C39 | verify_signature of both verifiers | message equality; refuted for SHA-384 in webpki and for missing Certificate in both, any client |
| C40 | ServerHandshake::parse | refuted; positive: transcript = parsed bytes |
| C41 | write path with failures | refuted, for every connection |
| C42 | TlsConfig builder | induction over builder calls |
| C43 | handler + reader | invariant |
| C44 | message parsers, handshake machine, whole sessions | forward execution: each parser succeeds on every message of the declarative grammar, each state of the machine on every such flight; message spread over records: refuted for every client, message and cut |
| C45 | traffic keys after `open` | equality with the RFC key schedule on the transcript |
| C46 | WebPki | exact characterisation; intermediates ignored: refuted |
| C47 | handshake with the built-in verifiers | from C26/C27 and C38/C39; omission of the messages: refuted |
| C48 | names taken from a certificate | soundness and completeness up to three names; refuted beyond |
| C49 | Pki, WebPki panics | characterisation of the panics; refuted |
| C50 | `open` | invariant over the states of the handshake machine: counters, keys and the part of the byte stream read so far; every panic traced to its cause; refuted by an empty authentic record |
| C51 | `open` | the two directions: the run of a successful handshake is taken apart step by step (C09, C26), a flight of the declarative grammar is run forward (C44); both use the same specification |
| C52 | `UnsecureProvider`, `NoVerify`, default methods | a simulation between two lenient providers that are the same client (equal outcomes and connections); C51 and C50 specialised; the failing signer by running the flight forward |
| C53 | `open` | the flight is run forward up to the record at fault, whose handling is computed; `C53_no_other` decides, by recursion on the byte stream, which of the cases of SpecFailure.v is there |
| C54 | `run` | refinement: SpecReceiver.v is a machine over the bytes to come, without buffers, windows or chunks; each receiving call is simulated (`fill_hears` follows the loop over records); the machine is shown deterministic and total, so the results are exactly its results |
| C55 | `run` | refinement: SpecEndpoint.v adds a sending machine (a total function) to the machine of C54; `transmit_step` evaluates each sending call exactly, for every behaviour of the transport; determinism of both gives that nothing else matters and that what is received does not influence what is sent |
| C56 | `session` (`cn_open` and `run`) | relational: two runs with the same bytes in different cuts stay `twin` (equal but for the cuts); each function that reads is shown to preserve it (`par`), the loops for every fuel that is enough; `chunked` is the only hypothesis on the transport and C56_errors_refuted shows that it is needed |
| C57 | `cn_open`, `run`, `step` against `server_reads` (SpecServer.v) | composition: C06/C12 give what the server's grammar finds in the ClientHello and that the binder verifies, C44 that `open` succeeds on the flight the server computes, C13/C23 what the peer opens; the server is a function of the client's bytes and shares no code with the model; C57_declined_psk_refuted, and for every client C57_declined_any_refuted (PropDeclined.v): a server that declines the pre-shared key cannot be talked to |
| C58 | `step`, `cn_open`, `err_kind` (Lib.v) against `faults` (SpecFaults.v), the faults still ahead of the transport | one compositional walk over every definition: code without transport never yields `Io`, `IoError` or `Cancelled`; each use of the transport removes a fault exactly if it reports it; the invariant of `advance` (what is missing never exceeds what is asked for) shows that no read asks for zero bytes; a permutation argument over sessions |
| C59 | `cn_open` against the server of SpecServer.v, with the transport in the hands of an adversary; `client_view`, `same_hash`, `same_hmac`, `same_derived` (SpecAgree.v) | equal Finished values are unfolded to equal HMAC inputs, equal transcript hashes and equal transcripts, or an explicit coincidence of the two exchanges; the framing of handshake messages is injective, so equal transcripts are equal message by message; the keys follow because they are functions of the transcript and the secrets |
| C60 | `pv_verify_certificate`, `wv_verify_certificate`; `authority`, `end_entity`, `only_authorities` (SpecAuthority.v) | **false** of pki.rs: from the exact characterisation of `pv_verify_certificate` (C38), any accepted list can be extended by a certificate signed with its leaf's key (`C60_refuted_any_holder`), and `open` succeeds with such a list (`C60_refuted_open`); partial: it holds when only authorities sign; holds for webpki.rs |
| C61 | `run` twice; `same_shape`, `veiled`, `visible` (SpecVeil.v) | relational: the sending machine of C55 (`transmit_step`, which needs nothing of the receiving side) keeps two senders `veiled` (equal but for the contents of what is collected, of equal length); receiving calls see neither the data nor the sender |
| C62 | `write_all`, `read_exact`, `program` (Loops.v); `filled`, `passed_on`, `written`, `wanted` (SpecLoops.v) | every program is a `run` of the plain calls (`program_traces`, induction on fuel and program); no call of such a run returns without progress (C20_write, the queue of C15), so the loops end and fail only with a failure of C13/C14's calls |
| C63 | `cn_new`, `cn_open`, `cn_read`; `legal_record`, `legal_flight`, `documented_size` (SpecSizes.v) | legal sizes give `served` and `followable` (C14, C44); the receiver machine of C54 for the exact room; the ClientHello step when the record does not fit |
| C64 | `write_all`, `program` (Loops.v), `cn_write`, `cn_flush`; `joined`, `pieces`, `flushed_records` (SpecCut.v) | one `write` of `a ++ b` is a `write` of `a` that decides alone, or one of `a` followed by one of `b` (on every state); induction on the data; the records from the sending machine of C55 |
| C65 | `cn_open`, `parse_encrypted_extensions` (Handshake.v); `answers_offer`, `ee_message` (SpecOffers.v) | the server of C44_server_exists with a chosen EncryptedExtensions, sufficiency direction of C51; the form from its necessity direction |
| C66 | `cn_open`, `run`; `fragment_length`, `short_record`, `short_flight`, `brings` (SpecFragments.v) | sizes from the invariants of C19, reading from C14, the handshake from C44 and C51; induction on the records that carry the flight |
| C67 | `cn_open`; `answer_ends`, `opens_with` (SpecAnswer.v) | each step of the answer is run forward, with the step that fails computed to the byte (AnswerProofs.v) and the error of a message that does not fit (SpaceProofs.v: an encoder made of these pieces reports no other); C53_no_other closes the list |
| C68 | `run`; `key_update`, `rfc_next_secret` (SpecUpdate.v) | false of the code; the KeyUpdate is followed through the reading side for every connection, then C32 for each record; sending from C64 |
| C69 | `cn_open`, `run`; the impostor is a `server` of SpecServer.v (PropImpostor.v) | false of the code for every client without a pre-shared key: the session of C57 with a server that has no credentials; C26 for clients with a pre-shared key |
| C70 | `cn_open`, `step` on a connection after any history (SpecReopen.v, ReopenProofs.v, PropReopen.v) | invariant over all calls and outcomes: the transcript is never empty again; so the Finished that a later `open` accepts is over a longer transcript than the server's; the flag of an earlier session survives a failed `open` (refuted part); after an `open` whose message did not fit the write buffer there is a header or a position left in it, and every further `open`, by induction on their number, fails there (`crowded_hello`, `stuck_open`, PropUnopened.v) |
| C71 | `schedule`, `split` with `peer_read` and `server_wire` (PropDuplex.v) | C36 turns a schedule into histories of each half, C13/C14 say what these histories send and read; with the flag down a write changes nothing, so the writer's history is one on an open connection |
| C72 | `retry_request` (SpecRetry.v): the HelloRetryRequest of RFC 8446 section 4.1.4 | the decoder gives the items of the message or fails (ExtProofs.v); no share among them; then C53_first |
| C73 | the quoted sentences of RFC 8446 over `rfc_record`, `hollow_wire`, `odd_ccs` (PropStrict.v) | one call of the machine of C54; C18_exact, C32_forged; `whole_flight` with records put in, and C51; C65_any |
| C74 | `cut_off`, `generic_view` (PropEnd.v); calls of `run` | the machine of C54 on the server's records followed by a close_notify or a cut: an induction over the calls, and a simulation of the two streams by each other |
| C75 | `forgery` (PropRead.v), `received_in`, `served` (SpecRead.v), `understood` (SpecComplete.v) | the machine of C54 for the exact condition (C35_exactly); C35_causes_partial and the server's list of records for the converse |
| C76 | SpecCodec.v: `writes` (what an encoder leaves in an empty buffer), `reads` (what a parser does on bytes anywhere), `sayable` (values within the capacities) | the byte images of C06 and C07, the parser equations of C02; one forward lemma for the list reader; the converse from readers that are exact in both directions (`exact`, PropExact.v) |
| C77 | SpecWait.v: `later` (the same connection with more to come behind), `starved`, `all_flushed` | relational: the program run with more behind gives the same result unless it meets the end, through every function of the reader, the handshake and the calls (WaitProofs.v) |
| C78 | SpecStale.v: `seen_outside`, `with_buffers`, `read_live`, `write_live`, `same_on` | relational: two runs whose buffers agree on the live positions stay so and answer the same, through every encoder, the write buffer, the reader, decryption, the handshake and the calls (StaleProofs.v) |
| C79 | SpecDefect.v: `layout`, `bad_extension`, `bad_block`, `bad_entry`, `defect`, `first_defect`, `faulty` | each parser reads a list of fields, failing with the error of the first that is not proper (`walks`, DefectProofs.v), and every byte string is proper or has a first fault (`fields_total`) |
| C80 | SpecUnopened.v: `lacks_room`, `failed_elsewhere`, `clear_goodbye`, `empty_record` | every step of `open` that ends otherwise than well leaves the write buffer at rest, or with a header only, or with a position and no header (`clean`, `write_cases`, UnopenedProofs.v); what `close` does from each of the three (`close_unopened`, `close_stub`, `close_stuck`) |

## 3. Trusted base

* The kernel of Coq 8.16.1, including its virtual machine for `vm_compute` (used in examples and witnesses only; the
  general theorems do not compute). `coqchk` rechecks every file without it.
* Axioms: none. `Print Assumptions` answers "Closed under the global context" for every theorem listed in `MANIFEST.json` (it stands
  beside nearly all of them; the rest were asked by hand). `coqchk` also names seven constants of `Coq.ssr.ssrunder` (`Under_rel.*`): they come with
  the standard library files that are loaded and no theorem here depends on them.
* The correspondence between the Gallina model and the Rust source, by reading; every definition cites the lines.
* Premises of the theorems: `crypto_ok` (lengths; opening what was sealed gives it back; public keys and agreement),
  `pki_ok` (lengths). No theorem assumes that a cipher cannot be forged or that a hash has no collision: where the
  English claim needs it, the theorem says "or a forgery was accepted" and exhibits it.

## 4. What is modelled and what is not

| source | model | left out |
|--------|-------|----------|
| parse_buffer.rs | ParseBuffer.v | - |
| buffer.rs | Buffer.v | `usize` overflow on addition |
| content_types.rs, cipher_suites.rs, alert.rs, extensions/extension_data/* (codes) | Codes.v | - |
| extensions/** | Extensions.v; Unused.v (the HelloRetryRequest group and its key share, which nothing calls) | - |
| handshake/** | Handshake.v | `Debug`/`defmt`; `NewSessionTicket` is parsed and dropped as in the code |
| key_schedule.rs | KeySchedule.v | on an error in the middle of a derivation the old secret is kept (every caller aborts) |
| record.rs, application_data.rs, change_cipher_spec.rs | Record.v; Unused.v (`ChangeCipherSpec::encode`, `parse`, which nothing calls) | - |
| write_buffer.rs, `encrypt` of connection.rs | WriteBuffer.v | the transcript after an error (used again only by another `open` on the same object, C70) |
| record_reader.rs, read_buffer.rs, common/** | RecordReader.v, ReadBuffer.v, Api.v | - |
| connection.rs | Connection.v | the provider answers the same each time it is asked for a verifier, signer or certificate within one `open` |
| blocking.rs, asynch.rs | Api.v, Split.v | `AsRef`, trait forwarders; the two files are the same text modulo `await` (checked by a normalised diff) |
| config.rs | Config.v, Connection.v (`provider`), Providers.v (`UnsecureProvider`, `NoVerify`, `NoClock`, the default methods) | `NoSign` is never reached (the default `signer` is an error); `SystemTime` is an instance of the quantified clock; the p256 crate is a parameter |
| pki.rs, der_certificate.rs | Pki.v | the DER decoder and the signature crates are parameters |
| webpki.rs | WebPki.v | the webpki crate is a parameter |
| crypto_engine.rs | - | an empty placeholder in the code |
| lib.rs:129-138 `kind` | Lib.v | - |
| fmt.rs, lib.rs (`Display`, `TlsClock for SystemTime`) | - | logging and formatting; the clock is a parameter |

Dependencies: `heapless` by its capacities; `digest`, `hmac`, `hkdf`, `aes-gcm`, `p256`, `signature`, `der`, `webpki` as
fields of records the theorems quantify over; the transport as described in section 1. Concurrency: one `AtomicBool`
shared by the two halves, sequentially consistent; memory safety and borrowing are the compiler's business.
