# Formal model of jyao1/rust-spdm in Coq: design

## Approach
The Rust sources are modelled, function by function, as executable Gallina: bytes are `N`, slices are
`list N`, `&mut` becomes state passing (`Monad.v`: a state monad whose outcome is `Ok`, `Err status` or
`Panic`), `Option`/`Result` stay data, and panics (index out of range, `unwrap` on `None`, failed
assertions, arithmetic overflow of a debug build) are an explicit outcome. Every definition of the model
carries a comment citing the file and lines it models and says where it simplifies.

Kinds of files in `rocq/theories`:

* **model** (no proofs): `Bytes Codec Parse Status Transport Algo Msg{Conn,Auth,Session,Other} Message Opaque
  Monad Crypto KeySchedule Session Signing CertOps ChainVerify Context X509`, responder `RspBase RspConn RspSess
  RspEncap Responder`, requester `ReqBase ReqConn ReqSess ReqEncap`, both ends facing each other `Pair`, the build without
  `hashed-transcript-data` `Transcript`, TDISP `Tdisp`;
* **specifications** (`Spec*.v`): the small vocabulary of the theorem statements, written from DSP0274 /
  DSP0277 / the DER rules and not from the model's helpers;
* **proofs**: `*Proofs.v`, `Rsp*.v`, `Req*.v`, `*Twin.v`, `Kx*.v`;
* **theorems** (`Prop*.v`): one `Theorem Cnn_...` per claim, `Print Assumptions`, and an
  `Example Cnn_case` that meets the hypotheses on a concrete, non-trivial state (mostly states reached by
  running the two modelled ends against each other: `ToyCrypto.v`, `ExRun.v`, `ExPair.v`, `ExReach.v`, `ExEncap.v`).

Cryptography, randomness, certificate verification, measurement collection, device I/O, transport and the
vendor / application callbacks are *inputs*: records (`crypto`, `transport`, `env`) passed to every definition.
No axiom describes them; a theorem that needs a law of a primitive (AEAD correctness or authenticity,
Diffie-Hellman agreement, hash output sizes, "the transport carries what it is given") has the law as an explicit
premise, and the example shows an instance that satisfies it. Both transports of the repository are modelled and
proved to satisfy the transport laws.

Histories are inductive (`reached`, `served`, `came`, `gathering`, fold over frames), with no bound
on lengths; adversaries are arbitrary frames, arbitrary peers and arbitrary oracle records.

A property that a user would expect but that is **false of the code** keeps its full English statement and is
paired with a theorem named `..._refuted` that proves the negation about the model (status `partial` in the
manifest, as the property itself is not proved). They are listed under "Disagreements".

## Layers
| Layer | Code | Model file |
|---|---|---|
| integers, Reader, Writer, enum_builder | codec/src | Bytes.v, Codec.v, Parse.v |
| SpdmStatus | spdmlib/src/error.rs | Status.v |
| MCTP, PCI-DOE framing | mctp_transport, pcidoe_transport | Transport.v |
| algorithms, capabilities, versions | spdmlib/src/protocol | Algo.v |
| message payloads | spdmlib/src/message | MsgConn.v, MsgAuth.v, MsgSession.v, MsgOther.v, Message.v |
| opaque data, measurement records | spdmlib/src/common/{opaque,spdm_codec}.rs | Opaque.v, MsgAuth.v |
| sessions, secured messages, key update | spdmlib/src/common/session.rs | Session.v |
| key schedule | spdmlib/src/common/key_schedule.rs | KeySchedule.v |
| signing contexts | {requester,responder}/*.rs | Signing.v |
| context, transcripts, provisioning | spdmlib/src/common/mod.rs | Context.v |
| responder | spdmlib/src/responder | RspBase.v, RspConn.v, RspSess.v, RspEncap.v, Responder.v |
| requester | spdmlib/src/requester | ReqBase.v, ReqConn.v, ReqSess.v, ReqEncap.v |
| chain verification | requester/get_certificate_req.rs, responder/encap_get_certificate.rs | ChainVerify.v, CertOps.v |
| X.509 walking | crypto/x509v3.rs, crypto/spdm_ring/{cert_operation_impl,asym_verify_impl}.rs | X509.v |
| Default signature verification (webpki a parameter) | crypto/spdm_ring/asym_verify_impl.rs | EcdsaDer.v |
| Running digests: the handle table and the owned handles, all threads | crypto/spdm_ring/hash_impl.rs, crypto/mod.rs (hash) | HashCtx.v |
| Random bytes | crypto/spdm_ring/rand_impl.rs | GetRandom.v |
| TDISP responder and messages | tdisp/src | Tdisp.v |
| the build without hashed-transcript-data | common/mod.rs, requester, responder | Transcript.v |

## Plan per property
| Id | Property | Modelled and proved how | File |
|---|---|---|---|
| C01 | Integer codecs round-trip little-endian | the codec functions of codec.rs on byte lists; decode-after-encode equality for every value and every trailing input | PropCodec.v |
| C02 | Reader never over-reads and take is all-or-nothing | Reader as a list plus position; case analysis on lengths | PropCodec.v |
| C03 | Writer never writes out of bounds and is all-or-nothing per slice | Writer as a bounded list with all-or-nothing slices; induction on the writer program | PropCodec.v |
| C04 | Enum codecs are total and byte-preserving | the enum macro as a table; theorem generic in the table (the `Unknown(n)` collision is proved real) | PropCodec.v |
| C05 | SpdmStatus encodes to a u32 and back | bit fields of SpdmStatus; arithmetic on N | PropCodec.v |
| C06 | MCTP encapsulation round-trips | MCTP encap/decap over every payload and buffer | PropCodec.v |
| C07 | PCI-DOE encapsulation round-trips up to 4-byte padding | PCI-DOE encap/decap up to 4-byte padding; the lost app flag is exhibited | PropCodec.v |
| C08 | Connection-setup messages round-trip | encoder and decoder of each connection message; round trip with arbitrary trailing bytes, wire layout against SpecMsg.v | PropMsg.v |
| C09 | Authentication messages round-trip | same, authentication messages | PropMsg.v |
| C10 | Session messages round-trip | same, session messages | PropMsg.v |
| C100 | No answer crashes the requester | FALSE of the code (with overflow checks): requester/context.rs:108-112 computes 2 << rsp_ct_exponent_sel, and the responder chooses that byte of CAPABILITIES. PropCrash.v proves that with 64 or more every CHALLENGE that is sent panics, and runs the library against such a responder up to there. | PropCrash.v |
| C11 | Error, vendor-defined and encapsulated messages round-trip | same, error/vendor/encapsulated messages | PropMsg.v |
| C12 | Decoders only look at what they consume | locality: a decoder's result does not depend on what follows what it consumed; parser combinator induction | PropMsg.v |
| C13 | Encoders fail exactly when the buffer is too small | the writer program is run against a bounded buffer; exact capacity condition | PropMsg.v |
| C14 | Opaque data and secured-message version selection | opaque data tables and version selection; independent layout in SpecOpaque.v | PropOpaque.v |
| C15 | Transcript buffers are exact concatenations | append programs of common/mod.rs; induction over histories of appends | PropTranscript.v |
| C16 | Accepted capability flags are consistent | decision table of capability.rs against the DSP0274 rules in SpecMsg.v | PropMsg.v, PropTake.v |
| C17 | Responder negotiates the best common algorithm | negotiation loops; best common algorithm by priority list | PropAlgs.v, PropMsg.v |
| C18 | Requester takes exactly the algorithms of the ALGORITHMS answer | requester handler of ALGORITHMS; one-step theorem | PropOffer.v |
| C19 | Requester selects the highest mutually supported version | version selection loop; greatest common version | PropVersion.v |
| C20 | Connection phases advance in order | responder transition function; step theorem and induction over frame histories | PropPhase.v |
| C21 | GET_VERSION resets the responder | GET_VERSION step: the whole context is compared with a fresh one | PropReset.v |
| C22 | Session-phase dispatch | dispatch functions; a relation on the reply for every request code and session state | PropSess.v |
| C23 | A responder session becomes established only through a verified FINISH | step theorem (an established session in the new state was established or the step carried a verified FINISH/PSK_FINISH) lifted to all histories by induction | PropTable.v |
| C24 | Session table integrity | invariant `tok` over the session table for both ends, preserved by every operation | PropTable.v |
| C25 | Half session ids are fresh | half session id function: pigeonhole over the table | PropReqTable.v, PropTable.v |
| C26 | Secured messages round-trip | AEAD as a parameter with its correctness law as premise; seal/open inverse | PropSession.v |
| C27 | Replayed, reordered, dropped or cross-session secured messages are rejected | the same with the authenticity law as premise: acceptance implies the frame is the next one sealed | PropSession.v |
| C28 | AEAD nonces never repeat under one key | histories of session operations; invariant (key,nonce) pairs used so far are distinct | PropSession.v |
| C29 | Failed decodes keep state otherwise intact | frame theorem for failing decodes | PropSession.v |
| C30 | Key update keeps both ends in step | two-state relation `paired` between the ends, preserved by requests, replies and key updates; induction over repeated updates | PropStep.v |
| C31 | Key update rollback and commit | session.rs key-update functions; algebra of backup/commit/rollback | PropSession.v |
| C32 | Both ends compute the same transcripts | transcripts of both builds and both ends as functions of the exchanged messages; equalities for all histories | PropTranscript.v |
| C33 | Signatures are domain separated | injectivity of the signing contexts | PropSession.v |
| C34 | Key-schedule inputs are domain separated | injectivity of the HKDF labels | PropSession.v |
| C35 | Certificate retrieval reassembles exactly the responder's chain | loop of get_certificate_req against a slice-serving responder; then against the modelled responder | PropFetch.v, PropServe.v |
| C36 | Certificate retrieval is safe against a malicious responder | the same loop against an arbitrary answer stream; loop invariant | PropRetr.v |
| C37 | Certificate chain acceptance conditions | verify_cert_chain against the acceptance predicate of SpecRetr.v; histories | PropRetr.v |
| C38 | Measurement record verification | record parser: accepted iff a declarative list of blocks | PropMsg.v |
| C39 | ERROR responses never succeed | handle_error_response as a total function; no success result | PropReq.v |
| C40 | Challenge success implies a verified signature | reached states of the requester; the transcript is the concatenation of the exchanges (induction), success implies cr_verify on it | PropAuth.v |
| C41 | Signed measurement success implies a verified signature | same for measurements | PropAuth.v, PropTake.v |
| C42 | Requester session establishment implies peer authentication | reached states; a session usable at the requester passed signature/HMAC checks of its own exchange (invariant over histories) | PropHand.v |
| C43 | A failed FINISH frees the session's slot | FINISH failure paths | PropLeak.v |
| C44 | Ending a session erases it | END_SESSION at both ends | PropReqTable.v, PropSess.v |
| C45 | Responder answers stay within the negotiated size | send paths: every frame handed to the device fits the negotiated size or the buffer | PropSess.v |
| C46 | DER certificate walking is safe | DER walker with explicit indices; structural termination | PropCert.v |
| C47 | TDISP interface state machine | TDISP step function; induction over request histories | PropTdisp.v |
| C48 | TDISP messages round-trip | TDISP codecs | PropTdisp.v |
| C49 | Encapsulated (mutual-auth) certificate retrieval at the responder | responder rounds; gathering relation (induction over rounds) and honest requester | PropEncap.v |
| C50 | DIGESTS carries the correct digest of the provisioned slot | digests handler, one provisioned slot | PropDigest.v |
| C51 | Message decoding never panics once its algorithms are selected | decoders have an explicit panic outcome; none reachable once algorithms are selected | PropMsg.v |
| C52 | SPDM 1.1 DMTF opaque blobs are understood by the library itself | refuted: evaluation for every 1.0/1.1 connection | PropOpaque.v |
| C53 | Every negotiable AEAD carries secured messages | refuted: AES-128 sessions derive 32-byte keys | PropSession.v |
| C54 | Decoding a secured message never panics | decode_secured_message has no panic outcome | PropSession.v |
| C55 | Every rejected request gets an ERROR reply | refuted by an out-of-phase KEY_EXCHANGE | PropPhase.v |
| C56 | Application data cannot change a session's state | refuted by an application reply | PropTable.v |
| C57 | DIGESTS is correct for several provisioned slots | refuted by two slots | PropDigest.v |
| C58 | Certificate format check never panics | refuted by DER lengths | PropCert.v |
| C59 | Session keys follow the DSP0277 key schedule | the key schedule of KeySchedule.v against the equations of DSP0277 written out in SpecKeys.v | PropKeys.v |
| C60 | A failed key exchange takes no session slot | refuted at both ends | PropLeak.v |
| C61 | A handshake in the clear completes between the library's two ends | refuted by running both ends | PropLeak.v |
| C62 | FINISH establishes only a session whose key exchange was verified | refuted by a forged FINISH_RSP | PropLeak.v |
| C63 | Requester only uses algorithms it offered | refuted by an un-offered hash | PropOffer.v |
| C64 | The selected version is one the responder listed | refuted by a version list | PropVersion.v |
| C65 | Certificate retrieval ends against every responder | refuted by an endless stream of empty portions | PropStall.v |
| C66 | The TDISP start nonce protects START_INTERFACE | refuted for every lock/start history | PropTdisp.v |
| C67 | A locked or running TDI reports its interface | refuted for every request | PropTdisp.v |
| C68 | A TDISP answer reaches the peer | refuted for every request | PropTdisp.v |
| C69 | GET_DIGESTS starts a fresh challenge transcript in every build | refuted (plain-transcript build, Transcript.v) | PropTranscript.v |
| C70 | Resetting the key-exchange messages empties them | refuted (plain build) | PropTranscript.v |
| C71 | FINISH is keyed with the transcript of the session's slot in every build | refuted (plain build) | PropTranscript.v |
| C72 | An encapsulated retrieval begins afresh with DIGESTS and ends with its session | refuted by a retrieval across sessions | PropEncap2.v |
| C73 | Encapsulated responses are refused when encapsulation is not negotiated | refuted by an un-negotiated encapsulated response | PropEncap2.v |
| C74 | A PSK session opened between the library's two ends is shared by both | both ends' session programs as one blind program run on two states with equal cores (Twin.v); frames decoded at the other end by the transport and codec laws | PropShare.v |
| C75 | A connection set up between the library's two ends leaves both with the same parameters | the three connection exchanges, each wire image decoded at the other end; parameters equal afterwards | PropConn.v |
| C76 | A CHALLENGE_AUTH carries what was asked for and is signed over the whole exchange | responder handler inverted; reply against SpecReply.v; transcript invariant over requests | PropReply.v, PropReply2.v |
| C77 | MEASUREMENTS carries the blocks asked for and is signed over the measurement log | same for MEASUREMENTS | PropReply.v |
| C78 | A request answered with ERROR is not recorded in the authentication transcript | refuted by a bad GET_CERTIFICATE | PropReply2.v |
| C79 | Asked for the number of measurement blocks, the responder tells it | refuted by one block | PropReply2.v |
| C80 | A CHALLENGE draws one reply, and never an unsigned CHALLENGE_AUTH | refuted by a failing signer | PropReply2.v |
| C81 | A key-exchange session opened between the library's two ends is shared by both | as C74, with the Diffie-Hellman laws as premises | PropKx.v |
| C82 | The requester answers every encapsulated request as asked, and sends nothing else | case analysis of each embedded request against the specification relation answer_to; invariant of the loop (conversation), any fuel | PropMut.v |
| C83 | A requester built for mutual authentication can still open sessions without it | refuted by every state, and by one run of both builds | PropMut2.v |
| C84 | Mutually authenticated FINISH does not depend on how long the two chains are | refuted by one run of both ends per pair of chains | PropMut2.v |
| C85 | A CHALLENGE or GET_MEASUREMENTS the responder can answer is not refused | by following each of the two handlers forward through its checks, every one of which the hypotheses pass, then C76/C77 for the content; the request read is the request made because its length is fixed by its attributes | PropReply3.v |
| C86 | Two ends whose settings fit connect | by running both ends forward, exchange by exchange, on symbolic states (exchange_runs joins a writer of the responder and a reader of the requester); the round trips of C03 decode each message, prioritize_best gives the choices | PropConnect.v |
| C87 | The chain served is headed by the root hash of the negotiated algorithm | refuted by two connections to one responder, with SHA-512 and then SHA-384, and by the second requester's fetch | PropStale.v |
| C88 | A requester fetches a chain whatever message size it announced | refuted by one run of both ends with DataTransferSize 512 | PropStale.v |
| C89 | ECDSA signatures are verified as the numbers they carry | Model of ecc_signature_bin_to_der and asym_verify in EcdsaDer.v (webpki a parameter); specification of DER and raw signatures in SpecEcdsa.v, separate from the model; PropEcdsa.v proves the conversion (no panic, exact DER, fits the 104-byte buffer), that the DER determines the numbers, the verdict for well-formed chains, and soundness of acceptance for arbitrary bytes. | PropEcdsa.v |
| C90 | Whatever pair of algorithms the ends negotiate, signatures can be verified | False: PropEcdsa.v proves that whenever both ends offer SHA-512 and ECDSA P-384 the responder's preference selects both, and that verification of any signature of the right length then panics. | PropEcdsa.v |
| C91 | Running digests of all transcripts stay apart | Transition system of all threads in HashCtx.v (table, owned handles, allocated but not inserted boxes, removed but not finished contexts; the allocator only has to avoid memory in use; Rust's ownership gives the enabling conditions), specification of what each value stands for in SpecHashCtx.v, invariant and theorems in PropHashCtx.v. | PropHashCtx.v |
| C92 | Random buffers are filled completely | Model in GetRandom.v, induction on the blocks in PropRandom.v. | PropRandom.v |
| C93 | Requests that cannot be made are refused before anything is sent | The refusals are run in the requester model of every operation (ReqConn.v, ReqSess.v); FINISH by following its bytes through the encoder, signature and HMAC patches. PropArgs.v. | PropArgs.v |
| C94 | A vendor-defined message carries what the application gave, in both directions | Responder: write_vendor is run on the exact request bytes; plain and secured dispatch as for C85. Requester: the request bytes come from the encoder (req_enc_exact) and the response is split by the parser. PropVendor.v. | PropVendor.v |
| C95 | A vendor-defined request can be made on a negotiated connection and in a session | FALSE of the code: send_spdm_vendor_defined_request calls reset_context before it builds the request (vendor_req.rs:30), so the version byte is 0 and every session is erased. PropVendor.v proves that no such request in a session is ever sent, and runs the two library ends against each other. | PropVendor.v |
| C96 | What the responder answers to KEY_EXCHANGE, and the session it opens | The request is decoded by the proved parser (kx_request_read_all); write_key_exchange is inverted step by step (write_kx_full): random, key, summary, session opening, the three transcript appends, signature, key schedule and MAC; the emitted bytes are computed from the encoder with placeholders patched (kx_response_bytes); sending keeps the session table. C14's soundness of version selection gives the recorded version. The key schedule statements are those of C59. PropKxReply.v. | PropKxReply.v |
| C97 | What the responder answers to PSK_EXCHANGE, and the session it opens | The request is decoded by the proved parser (psk_request_read_all); write_psk_exchange is inverted step by step (psk_finishing_full, write_psk_full); the emitted bytes are computed from the encoder with the MAC patched (psk_response_bytes); psk_opened reads the session's keys off the key schedule; sending keeps the session table. | PropPskReply.v |
| C98 | A recorded PSK session cannot be replayed | FALSE of the code: psk_exchange_rsp.rs:163-184 has the condition inverted: with a PSK context negotiated the responder context is 64 zero bytes, and random bytes are drawn only when the context has size 0. PropPskFresh.v proves that with a context the answer does not depend on the source of random bytes, for every frame and state, and replays a recorded session, application data included, against a device with any other source. | PropPskFresh.v |
| C99 | No message crashes the responder | FALSE of the code: SpdmDheAlgo::get_size panics for the empty selection, and KEY_EXCHANGE is decoded whether or not a DHE group was selected. PropCrash.v proves that on any connection without a group every KEY_EXCHANGE that reaches the public key panics, and that four messages of an unauthenticated peer lead there. C51 and C54 state where decoding is safe. | PropCrash.v |

## Builds and features
Default features are modelled: `spdm-ring`, `std`, `hashed-transcript-data`. `mut-auth` (off by default in the
library, on in the repository's tests) is the flag `e_mut_auth` of the responder and the separate file
`ReqEncap.v` at the requester. The build without `hashed-transcript-data` is modelled for its transcripts only
(`Transcript.v`). Arithmetic overflow counts as a panic (debug profile). Sizes are those of
spdmlib/etc/config.json.

## Not modelled
* the AEAD, DHE, HMAC and HKDF adapters of spdmlib/src/crypto/spdm_ring beyond their interface and their length
  checks; spdmlib_crypto_mbedtls; external/ring, external/webpki;
* `time`, watchdog and heartbeat timers (callbacks without effect on the context); `sys_time`;
* the device I/O implementations, the emulators under test/, the fuzz targets;
* the TDISP requester (tdisp/src/tdisp_requester); the tdisp crate is outside the workspace and does not compile at
  this commit, so `Tdisp.v` follows its text;
* zeroisation of secrets (bytes_mut_scrubbed.rs), logging;
* an application callback is assumed not to reach into the context (it cannot in Rust: it has no reference to it).

## Trusted base
* Coq 8.16.1's kernel (with its `vm_compute` evaluation machine, used in examples and refutations).
* Axioms: `Print Assumptions` says **"Closed under the global context"** for every theorem named in
  MANIFEST.json; each `Prop*.v` prints it. No axiom is declared, none of the standard library is used.
  (Listing the whole environment names some `Coq.ssr.ssrunder` module axioms of the Coq distribution; no file here
  imports ssreflect and no theorem depends on them.)
* The translation from Rust to Gallina, by hand, with citations. It was checked by running the modelled requester
  against the modelled responder (`ExPair.v`: version to end-session), by round-trip and refinement theorems that tie
  the two ends together (C30, C32, C35, C49, C59, C74, C75, C81), and by seeding bugs into the model
  (`seeded/LOG.jsonl`) to see that the theorems notice.
* The premises on the primitives named above, where a theorem states them.

## Disagreements between the code and what a user expects
Proved as `_refuted`: C52 (own 1.1 opaque blobs not understood), C53 (AES-128-GCM sessions unusable), C55 (rejected
exchanges get no reply), C56 (application data can establish or end a session), C57 (digests of several slots), C58
(certificate format check panics), C60 (session slots leak), C61 (handshake in the clear never completes), C62
(forged FINISH_RSP accepted for a leaked slot), C63 and C64 (requester takes algorithms and a version that were not
offered), C65 (certificate retrieval that never ends), C66-C68 (TDISP nonce, report, reply), C69-C71 (plain-transcript
build), C72 and C73 (encapsulated retrieval), C78-C80 (transcript after an ERROR, block count, unsigned CHALLENGE_AUTH), C83 (no session without mutual authentication in that build), C84 (FINISH panics if the chains differ in length), C87 (chains of a second connection with another hash), C88 (certificate portions larger than announced), C90 (SHA-512 with ECDSA cannot be verified), C95 (vendor requests on a connection), C98 (replayed PSK sessions), C99 and C100 (messages that crash the receiver).

Noticed while modelling, without a theorem of their own: `SpdmConnectionAuthenticated` and `AfterCertificate` have one
value; `SPDM_STATUS_INVALID_PARAMETER` and `INVALID_STATE_LOCAL` are one status; GET_CAPABILITIES is accepted at a
version that was not offered; a responder-chosen `ct_exponent` of 64 or more panics the requester; an application reply
shorter than two bytes panics the responder; the requester's vendor request resets its context while the responder's does
not; challenge responses are not checked for slot and chain hash; a PSK session whose data keys cannot be derived stays
handshaking; `slot_id` and the handshake-transcript flag are not reset by a teardown; responder key-update failures
are ignored; the default build cannot sign or verify at SPDM 1.0/1.1; at SPDM 1.0 the ends disagree on the requester's
capabilities; `encap_context.req_slot_id` is never set.

## Seeded bugs
`seeded/LOG.jsonl` holds one line per mutation of the model: the definition, the edit, the claim it breaks, the
files and lemmas that failed, and (key `tightened`) the theorem added when nothing failed.
