{
 "C01": "the codec functions of codec.rs on byte lists; decode-after-encode equality for every value and every trailing input",
 "C02": "Reader as a list plus position; case analysis on lengths",
 "C03": "Writer as a bounded list with all-or-nothing slices; induction on the writer program",
 "C04": "the enum macro as a table; theorem generic in the table (the `Unknown(n)` collision is proved real)",
 "C05": "bit fields of SpdmStatus; arithmetic on N",
 "C06": "MCTP encap/decap over every payload and buffer",
 "C07": "PCI-DOE encap/decap up to 4-byte padding; the lost app flag is exhibited",
 "C08": "encoder and decoder of each connection message; round trip with arbitrary trailing bytes, wire layout against SpecMsg.v",
 "C09": "same, authentication messages",
 "C10": "same, session messages",
 "C11": "same, error/vendor/encapsulated messages",
 "C12": "locality: a decoder's result does not depend on what follows what it consumed; parser combinator induction",
 "C13": "the writer program is run against a bounded buffer; exact capacity condition",
 "C14": "opaque data tables and version selection; independent layout in SpecOpaque.v",
 "C15": "append programs of common/mod.rs; induction over histories of appends",
 "C16": "decision table of capability.rs against the DSP0274 rules in SpecMsg.v",
 "C17": "negotiation loops; best common algorithm by priority list",
 "C18": "requester handler of ALGORITHMS; one-step theorem",
 "C19": "version selection loop; greatest common version",
 "C20": "responder transition function; step theorem and induction over frame histories",
 "C21": "GET_VERSION step: the whole context is compared with a fresh one",
 "C22": "dispatch functions; a relation on the reply for every request code and session state",
 "C23": "step theorem (an established session in the new state was established or the step carried a verified FINISH/PSK_FINISH) lifted to all histories by induction",
 "C24": "invariant `tok` over the session table for both ends, preserved by every operation",
 "C25": "half session id function: pigeonhole over the table",
 "C26": "AEAD as a parameter with its correctness law as premise; seal/open inverse",
 "C27": "the same with the authenticity law as premise: acceptance implies the frame is the next one sealed",
 "C28": "histories of session operations; invariant (key,nonce) pairs used so far are distinct",
 "C29": "frame theorem for failing decodes",
 "C30": "two-state relation `paired` between the ends, preserved by requests, replies and key updates; induction over repeated updates",
 "C31": "session.rs key-update functions; algebra of backup/commit/rollback",
 "C32": "transcripts of both builds and both ends as functions of the exchanged messages; equalities for all histories",
 "C33": "injectivity of the signing contexts",
 "C34": "injectivity of the HKDF labels",
 "C35": "loop of get_certificate_req against a slice-serving responder; then against the modelled responder",
 "C36": "the same loop against an arbitrary answer stream; loop invariant",
 "C37": "verify_cert_chain against the acceptance predicate of SpecRetr.v; histories",
 "C38": "record parser: accepted iff a declarative list of blocks",
 "C39": "handle_error_response as a total function; no success result",
 "C40": "reached states of the requester; the transcript is the concatenation of the exchanges (induction), success implies cr_verify on it",
 "C41": "same for measurements",
 "C42": "reached states; a session usable at the requester passed signature/HMAC checks of its own exchange (invariant over histories)",
 "C43": "FINISH failure paths",
 "C44": "END_SESSION at both ends",
 "C45": "send paths: every frame handed to the device fits the negotiated size or the buffer",
 "C46": "DER walker with explicit indices; structural termination",
 "C47": "TDISP step function; induction over request histories",
 "C48": "TDISP codecs",
 "C49": "responder rounds; gathering relation (induction over rounds) and honest requester",
 "C50": "digests handler, one provisioned slot",
 "C51": "decoders have an explicit panic outcome; none reachable once algorithms are selected",
 "C52": "refuted: evaluation for every 1.0/1.1 connection",
 "C53": "refuted: AES-128 sessions derive 32-byte keys",
 "C54": "decode_secured_message has no panic outcome",
 "C55": "refuted by an out-of-phase KEY_EXCHANGE",
 "C56": "refuted by an application reply",
 "C57": "refuted by two slots",
 "C58": "refuted by DER lengths",
 "C59": "the key schedule of KeySchedule.v against the equations of DSP0277 written out in SpecKeys.v",
 "C60": "refuted at both ends",
 "C61": "refuted by running both ends",
 "C62": "refuted by a forged FINISH_RSP",
 "C63": "refuted by an un-offered hash",
 "C64": "refuted by a version list",
 "C65": "refuted by an endless stream of empty portions",
 "C66": "refuted for every lock/start history",
 "C67": "refuted for every request",
 "C68": "refuted for every request",
 "C69": "refuted (plain-transcript build, Transcript.v)",
 "C70": "refuted (plain build)",
 "C71": "refuted (plain build)",
 "C72": "refuted by a retrieval across sessions",
 "C73": "refuted by an un-negotiated encapsulated response",
 "C74": "both ends' session programs as one blind program run on two states with equal cores (Twin.v); frames decoded at the other end by the transport and codec laws",
 "C75": "the three connection exchanges, each wire image decoded at the other end; parameters equal afterwards",
 "C76": "responder handler inverted; reply against SpecReply.v; transcript invariant over requests",
 "C77": "same for MEASUREMENTS",
 "C78": "refuted by a bad GET_CERTIFICATE",
 "C79": "refuted by one block",
 "C80": "refuted by a failing signer",
 "C81": "as C74, with the Diffie-Hellman laws as premises",
 "C82": "case analysis of each embedded request against the specification relation answer_to; invariant of the loop (conversation), any fuel",
 "C83": "refuted by every state, and by one run of both builds",
 "C84": "refuted by one run of both ends per pair of chains",
 "C85": "by following each of the two handlers forward through its checks, every one of which the hypotheses pass, then C76/C77 for the content; the request read is the request made because its length is fixed by its attributes",
 "C86": "by running both ends forward, exchange by exchange, on symbolic states (exchange_runs joins a writer of the responder and a reader of the requester); the round trips of C03 decode each message, prioritize_best gives the choices",
 "C87": "refuted by two connections to one responder, with SHA-512 and then SHA-384, and by the second requester's fetch",
 "C88": "refuted by one run of both ends with DataTransferSize 512",
 "C89": "Model of ecc_signature_bin_to_der and asym_verify in EcdsaDer.v (webpki a parameter); specification of DER and raw signatures in SpecEcdsa.v, separate from the model; PropEcdsa.v proves the conversion (no panic, exact DER, fits the 104-byte buffer), that the DER determines the numbers, the verdict for well-formed chains, and soundness of acceptance for arbitrary bytes.",
 "C90": "False: PropEcdsa.v proves that whenever both ends offer SHA-512 and ECDSA P-384 the responder's preference selects both, and that verification of any signature of the right length then panics.",
 "C91": "Transition system of all threads in HashCtx.v (table, owned handles, allocated but not inserted boxes, removed but not finished contexts; the allocator only has to avoid memory in use; Rust's ownership gives the enabling conditions), specification of what each value stands for in SpecHashCtx.v, invariant and theorems in PropHashCtx.v.",
 "C92": "Model in GetRandom.v, induction on the blocks in PropRandom.v.",
 "C93": "The refusals are run in the requester model of every operation (ReqConn.v, ReqSess.v); FINISH by following its bytes through the encoder, signature and HMAC patches. PropArgs.v.",
 "C94": "Responder: write_vendor is run on the exact request bytes; plain and secured dispatch as for C85. Requester: the request bytes come from the encoder (req_enc_exact) and the response is split by the parser. PropVendor.v.",
 "C95": "FALSE of the code: send_spdm_vendor_defined_request calls reset_context before it builds the request (vendor_req.rs:30), so the version byte is 0 and every session is erased. PropVendor.v proves that no such request in a session is ever sent, and runs the two library ends against each other.",
 "C96": "The request is decoded by the proved parser (kx_request_read_all); write_key_exchange is inverted step by step (write_kx_full): random, key, summary, session opening, the three transcript appends, signature, key schedule and MAC; the emitted bytes are computed from the encoder with placeholders patched (kx_response_bytes); sending keeps the session table. C14's soundness of version selection gives the recorded version. The key schedule statements are those of C59. PropKxReply.v.",
 "C97": "The request is decoded by the proved parser (psk_request_read_all); write_psk_exchange is inverted step by step (psk_finishing_full, write_psk_full); the emitted bytes are computed from the encoder with the MAC patched (psk_response_bytes); psk_opened reads the session's keys off the key schedule; sending keeps the session table.",
 "C98": "FALSE of the code: psk_exchange_rsp.rs:163-184 has the condition inverted: with a PSK context negotiated the responder context is 64 zero bytes, and random bytes are drawn only when the context has size 0. PropPskFresh.v proves that with a context the answer does not depend on the source of random bytes, for every frame and state, and replays a recorded session, application data included, against a device with any other source.",
 "C99": "FALSE of the code: SpdmDheAlgo::get_size panics for the empty selection, and KEY_EXCHANGE is decoded whether or not a DHE group was selected. PropCrash.v proves that on any connection without a group every KEY_EXCHANGE that reaches the public key panics, and that four messages of an unauthenticated peer lead there. C51 and C54 state where decoding is safe.",
 "C100": "FALSE of the code (with overflow checks): requester/context.rs:108-112 computes 2 << rsp_ct_exponent_sel, and the responder chooses that byte of CAPABILITIES. PropCrash.v proves that with 64 or more every CHALLENGE that is sent panics, and runs the library against such a responder up to there."
}