#!/usr/bin/env python3
# Regenerates properties.jsonl from the table below.
import json
P=[]
def p(title,statement,quantifier,why,anchors):
    P.append(dict(id="C%02d"%(len(P)+1),title=title,statement=statement,quantifier=quantifier,why_tests_cant=why,anchors=anchors))

p("Integer codecs round-trip little-endian",
  "For every u8/u16/u24/u32/u64/u128 value v, `Codec::encode` into a Writer with enough room appends exactly the fixed-width little-endian bytes of v, and `Codec::read` of those bytes (followed by anything) returns v and consumes exactly that many bytes. `u24::new` panics exactly when v >= 2^24.",
  "every integer value of each width, every preceding writer content, every following input",
  "the value space is 2^8..2^128; tests sample a few literals",
  ["codec/src/codec.rs: impl Codec for u8/u16/u24/u32/u64/u128"])
p("Reader never over-reads and take is all-or-nothing",
  "A Reader over a byte slice never returns bytes outside the slice; `take(n)` returns exactly the next n bytes and advances by n, or returns None and leaves the reader unchanged when fewer than n bytes remain; `used()+left()` is always the slice length; after any sequence of operations the concatenation of returned bytes is a prefix of the slice.",
  "every byte slice and every sequence of take/rest/sub/read operations",
  "memory-safety style bound for all operation histories",
  ["codec/src/codec.rs: Reader"])
p("Writer never writes out of bounds and is all-or-nothing per slice",
  "A Writer over a buffer only changes bytes in [old used, new used), keeps earlier output intact, never lets `used` exceed the buffer length; `extend_from_slice` and `push` either append the whole argument or return None changing nothing. Multi-byte u24/u32 encodes, which push byte by byte, may leave a strict prefix of their bytes behind on failure and never anything else.",
  "every buffer, offset and sequence of writes",
  "bound must hold for all write histories and buffer sizes",
  ["codec/src/codec.rs: Writer"])
p("Enum codecs are total and byte-preserving",
  "For every enum generated by `enum_builder!` (request/response codes, versions, error codes, key-update operations, TDISP codes...), reading any byte/word succeeds and `get_u8/get_u16` of the result is the byte read; writing then reading a value yields the value unless it is an `Unknown(x)` whose x collides with a named variant.",
  "every byte (u8 enums) or 16-bit word (u16 enums)",
  "finite but per-enum exhaustive and generic in the macro table",
  ["codec/src/macros.rs: enum_builder!", "spdmlib/src/message/mod.rs: SpdmRequestResponseCode"])
p("SpdmStatus encodes to a u32 and back",
  "Every SpdmStatus with a known severity and status code encodes to a 4-byte little-endian word and reads back to itself; reading any 4 bytes either fails or gives a status; words with reserved bits 24..27 set or with a severity other than SUCCESS/ERROR are rejected. Decoding is injective except for source 0 (SUCCESS), whose low 16 bits are ignored.",
  "every 32-bit word and every status value",
  "2^32 words",
  ["spdmlib/src/error.rs: SpdmStatus, SpdmCodec/Codec impl, from_u32/get_u32"])
p("MCTP encapsulation round-trips",
  "For every SPDM payload and every output buffer of at least payload+1 bytes, MCTP `encap` then `decap` returns the same payload bytes, length and secured flag; `encap` fails iff the buffer is too small; `decap` rejects every buffer whose first byte is not the SPDM or secured-SPDM message type, and empty buffers. Same for `encap_app`/`decap_app` with the SPDM/application type byte.",
  "every payload, secured flag, app flag and buffer size",
  "all payload lengths and contents",
  ["mctp_transport/src/header.rs: MctpTransportEncap"])
p("PCI-DOE encapsulation round-trips up to 4-byte padding",
  "For every payload with padded length + 8 within the 2^20-byte limit, PCI-DOE `encap` then `decap` returns a payload whose prefix is the original and whose length is the original rounded up to a multiple of 4, with the secured flag preserved; the length field decodes to the number of dwords; `decap` rejects wrong vendor, unknown type, headers claiming fewer than 2 dwords, and headers claiming more bytes than received.",
  "every payload, secured flag, buffer and received byte string",
  "all lengths including the 0x40000-dword wraparound encoding",
  ["pcidoe_transport/src/header.rs: PciDoeMessageHeader, PciDoeTransportEncap"])
p("Connection-setup messages round-trip",
  "GET_VERSION/VERSION, GET_CAPABILITIES/CAPABILITIES and NEGOTIATE_ALGORITHMS/ALGORITHMS payloads that satisfy the documented field ranges encode to bytes that decode back to the same payload under the same negotiated version, consuming exactly the bytes written.",
  "every well-formed payload value and negotiated version 1.0/1.1/1.2, every trailing input",
  "combinatorial field space incl. variable-length algorithm structures",
  ["spdmlib/src/message/version.rs","spdmlib/src/message/capability.rs","spdmlib/src/message/algorithm.rs"])
p("Authentication messages round-trip",
  "GET_DIGESTS/DIGESTS, GET_CERTIFICATE/CERTIFICATE, CHALLENGE/CHALLENGE_AUTH and GET_MEASUREMENTS/MEASUREMENTS payloads in the field ranges decode back to themselves; the documented exceptions (MEASUREMENTS with number_of_measurement = 1, portion lengths above the 512-byte array) are stated exactly.",
  "every well-formed payload, negotiated algorithms and version",
  "hash/signature sizes and optional fields depend on negotiated state",
  ["spdmlib/src/message/digest.rs","spdmlib/src/message/certificate.rs","spdmlib/src/message/challenge.rs","spdmlib/src/message/measurement.rs"])
p("Session messages round-trip",
  "KEY_EXCHANGE(_RSP), FINISH(_RSP), PSK_EXCHANGE(_RSP), PSK_FINISH(_RSP), HEARTBEAT(_ACK), KEY_UPDATE(_ACK), END_SESSION(_ACK) payloads in the field ranges decode back to themselves under the same negotiated state, consuming exactly the bytes written.",
  "every well-formed payload and negotiated state",
  "optional fields depend on negotiated capabilities",
  ["spdmlib/src/message/key_exchange.rs","spdmlib/src/message/finish.rs","spdmlib/src/message/psk_exchange.rs","spdmlib/src/message/psk_finish.rs","spdmlib/src/message/heartbeat.rs","spdmlib/src/message/key_update.rs","spdmlib/src/message/end_session.rs"])
p("Error, vendor-defined and encapsulated messages round-trip",
  "ERROR (with NotReady / vendor extended data), VENDOR_DEFINED request/response and encapsulated-request family payloads in the field ranges decode back to themselves.",
  "every well-formed payload",
  "variable-length tails",
  ["spdmlib/src/message/error.rs","spdmlib/src/message/vendor.rs","spdmlib/src/message/encapsulated.rs"])
p("Decoders only look at what they consume",
  "Every payload decoder either fails or returns a value together with the exact suffix of the input it did not read; appending bytes to an input that decodes (for decoders without a `rest` tail) changes neither the value nor the consumed length; decoders never consume more than the input.",
  "every byte string and every appended suffix",
  "all inputs, all trailing garbage",
  ["spdmlib/src/message/*.rs: spdm_read"])
p("Encoders fail exactly when the buffer is too small",
  "Encoding a well-formed payload into a buffer with n free bytes succeeds iff n is at least the payload's size; on success the bytes written do not depend on the buffer size or previous contents, and the reported size is the number of bytes written.",
  "every payload, every buffer capacity and previous content",
  "all capacities",
  ["spdmlib/src/message/*.rs: spdm_encode"])
p("Opaque data and secured-message version selection",
  "Opaque data longer than 1024 bytes is rejected; every accepted blob round-trips; the secured-message version the responder selects from the requester's opaque list is one present in that list, the builder/parser pairs agree, and from SPDM 1.2 on the requester reads back the version the responder selected.",
  "every opaque byte string",
  "attacker-controlled blobs of any structure",
  ["spdmlib/src/common/opaque.rs"])
p("Transcript buffers are exact concatenations",
  "A managed transcript buffer always equals the concatenation of all messages successfully appended since its last reset, never exceeds its capacity, and a failed append leaves it unchanged.",
  "every sequence of appends and resets with messages of any size",
  "all histories",
  ["spdmlib/src/common/mod.rs: ManagedBufferA/B/C/M/K/F"])
p("Accepted capability flags are consistent",
  "A GET_CAPABILITIES or CAPABILITIES message is accepted only if its flags satisfy the SPDM consistency rules the code enforces (session capability implies MAC capability; no session capability implies no encrypt/heartbeat/key-update/handshake-in-the-clear; no reserved PSK encoding; cert xor public key; transfer sizes at least 42 and max message size at least the transfer size), and every consistent flag word is accepted. The requester announces its configured capabilities and records exactly the flags, CT exponent and sizes of the CAPABILITIES it accepted.",
  "all 2^32 flag words, all versions and sizes",
  "2^32 words per version",
  ["spdmlib/src/message/capability.rs: SpdmGetCapabilitiesRequestPayload::spdm_read, SpdmCapabilitiesResponsePayload::spdm_read","spdmlib/src/protocol/capability.rs"])
p("Responder negotiates the best common algorithm",
  "For each algorithm family the responder's selection is zero iff requester and responder share no algorithm, otherwise exactly one bit, in both sets, and the first in the documented priority order; the ALGORITHMS reply carries exactly these selections (from the offered structures and the responder's own configuration) and the responder records them.",
  "all pairs of algorithm sets",
  "2^32 x 2^32 pairs per family",
  ["spdmlib/src/protocol/algo.rs: prioritize","spdmlib/src/responder/algorithm_rsp.rs"])
p("Requester takes exactly the algorithms of the ALGORITHMS answer",
  "After a successful negotiate-algorithms exchange, the requester has offered exactly its configured sets, and every algorithm it will use (hash, signature, DHE, AEAD, key schedule) is the one named by the ALGORITHMS response it received (or, for a family the response does not mention, the previous value); exactly one hash and one signature algorithm known to the library, at most one of every other family, and one where the negotiated capabilities require it. (That they were offered is C63.)",
  "every ALGORITHMS response a peer may send",
  "adversarial peer; all responses",
  ["spdmlib/src/requester/negotiate_algorithms_req.rs"])
p("Requester selects the highest mutually supported version",
  "After a successful get-version exchange the selected version is one the responder listed and the requester's configuration supports, and no higher such version exists, provided the responder lists no version below 1.0 (otherwise see C64); if no common version exists the exchange fails.",
  "every VERSION response a peer may send and every configuration",
  "adversarial peer; all version lists",
  ["spdmlib/src/requester/get_version_req.rs: handle_spdm_version_response"])
p("Connection phases advance in order",
  "The responder answers GET_CAPABILITIES only right after VERSION, NEGOTIATE_ALGORITHMS only right after CAPABILITIES, and digests/certificate/challenge/measurement/key-exchange/PSK-exchange requests only after algorithm negotiation; out-of-order requests change nothing; they get an ERROR(UnexpectedRequest), except KEY_EXCHANGE and PSK_EXCHANGE, which get no answer.",
  "every sequence of request byte strings, in every state",
  "all histories",
  ["spdmlib/src/responder/context.rs","spdmlib/src/responder/capability_rsp.rs","spdmlib/src/responder/algorithm_rsp.rs","spdmlib/src/responder/digest_rsp.rs","spdmlib/src/responder/certificate_rsp.rs","spdmlib/src/responder/challenge_rsp.rs","spdmlib/src/responder/measurement_rsp.rs","spdmlib/src/responder/key_exchange_rsp.rs"])
p("GET_VERSION resets the responder",
  "A GET_VERSION request accepted by the responder discards all negotiated parameters, transcripts and every session (ids, keys, state), leaving the connection in the after-version phase with transcript A equal to that request and its response.",
  "every responder state",
  "all reachable and unreachable states",
  ["spdmlib/src/responder/version_rsp.rs","spdmlib/src/common/mod.rs: reset_context"])
p("Session-phase dispatch",
  "Inside a secured session the responder dispatches FINISH/PSK_FINISH/encapsulated requests only while handshaking and GET_DIGESTS/GET_CERTIFICATE/GET_MEASUREMENTS/HEARTBEAT/KEY_UPDATE/END_SESSION only while established; everything else gets ERROR(UnexpectedRequest/UnsupportedRequest) or no answer, with session state unchanged. Outside a session HEARTBEAT, KEY_UPDATE, END_SESSION and PSK_FINISH are never processed and FINISH only for the in-the-clear handshake.",
  "every request byte string, every session state",
  "all request codes in all states",
  ["spdmlib/src/responder/context.rs: dispatch_secured_message, dispatch_message"])
p("A responder session becomes established only through a verified FINISH",
  "On the responder a session reaches the established state only if, while it was handshaking, a FINISH or PSK_FINISH message carrying a verify_data that matches the HMAC of that session's transcript under its request finished key was received (or the session was PSK without context), provided the application's own replies do not look like FINISH_RSP or PSK_FINISH_RSP (see C56).",
  "every sequence of requests from an arbitrary peer and every crypto oracle",
  "all histories; security property",
  ["spdmlib/src/responder/finish_rsp.rs","spdmlib/src/responder/psk_finish_rsp.rs","spdmlib/src/responder/context.rs: send_message, send_secured_message"])
p("Session table integrity",
  "The responder never has two live sessions with the same id, never more than the configured number, never a live session with id 0; allocating a session picks a free slot; when none is free the request is refused, sending nothing and leaving the table unchanged; every frame leaves all sessions it does not concern unchanged.",
  "every history of key exchanges, PSK exchanges, ends and resets",
  "all histories",
  ["spdmlib/src/common/mod.rs: get_next_avaiable_session, get_session_via_id","spdmlib/src/common/session.rs: setup, teardown"])
p("Half session ids are fresh",
  "The half session id allocated by either side differs from the corresponding half of every live session's id and is nonzero; allocation fails iff all slots are used.",
  "every session table",
  "all table contents including peer-chosen halves",
  ["spdmlib/src/common/mod.rs: get_next_half_session_id"])
p("Secured messages round-trip",
  "With a correct AEAD, a message encoded by one endpoint in a session decodes at the peer to the same bytes and application flag, provided both hold the same keys and sequence number; the wire layout is session id, sequence-number bytes, length, ciphertext, tag.",
  "every message up to the buffer limit, session id, sequence number, key and transport parameters",
  "all lengths, sequence numbers, keys",
  ["spdmlib/src/common/session.rs: encode_msg, decode_msg, encode_spdm_secured_message, decode_spdm_secured_message"])
p("Replayed, reordered, dropped or cross-session secured messages are rejected",
  "A secured message is accepted only if it authenticates under the receiver's current sequence number, session id and length; with an unforgeable AEAD (decrypt succeeds only on outputs of encrypt) the sequence of plaintexts accepted in one direction between key changes is a prefix-free in-order copy of what the peer sent: the k-th decode attempt can only return the k-th message sent.",
  "every adversarial delivery schedule",
  "all schedules and forgeries",
  ["spdmlib/src/common/session.rs: decode_msg"])
p("AEAD nonces never repeat under one key",
  "Within a session, in each direction, no two encryptions use the same (key, IV) pair, for any interleaving of sends, receives, key updates and failures, up to the 2^64-1 limit where encoding refuses.",
  "every operation history",
  "2^64 steps and all interleavings",
  ["spdmlib/src/common/session.rs: encode_spdm_secured_message, create_data_secret_update, activate_data_secret_update"])
p("Failed decodes keep state otherwise intact",
  "A secured message that fails to decode returns an error and changes nothing in the session except the receive counter (which the code increments even on failure).",
  "every byte string",
  "all malformed inputs",
  ["spdmlib/src/common/session.rs: decode_spdm_secured_message"])
p("Key update keeps both ends in step",
  "Running the requester's key-update procedure against the responder's handler for UpdateSingleKey or UpdateAllKeys leaves both ends with equal request-direction and response-direction keys, and equal sequence numbers; the non-updated direction is untouched.",
  "every pair of matched session states",
  "all key values and counters, all repeated updates",
  ["spdmlib/src/requester/key_update_req.rs","spdmlib/src/responder/key_update_rsp.rs","spdmlib/src/common/session.rs: create_data_secret_update"])
p("Key update rollback and commit",
  "Creating then rolling back a key update restores the previous key, IV and sequence number of that direction exactly; committing discards the backup so that a later rollback cannot restore the old key.",
  "every session state and direction",
  "all states",
  ["spdmlib/src/common/session.rs: create_data_secret_update, activate_data_secret_update"])
p("Both ends compute the same transcripts",
  "If requester and responder recorded the same message bytes in a session that began from the same connection messages and certificate chains, their key-exchange transcripts TH (with and without mutual authentication) are equal, in the default build and in the build without hashed-transcript-data; and the two builds hash the same TH, M1/M2 and L1/L2 bytes, for every history in which connection messages precede certificate messages, those precede challenge messages, and the latter two are reset together.",
  "every message history",
  "all histories, both build features",
  ["spdmlib/src/common/mod.rs: calc_req_transcript_data, calc_rsp_transcript_data, append_message_*"])
p("Signatures are domain separated",
  "For SPDM 1.2 the byte string signed by CHALLENGE_AUTH, MEASUREMENTS, KEY_EXCHANGE_RSP and FINISH is prefix(64) || zero-padded context(36) || hash; strings for different operations differ for all hashes, and equal strings imply equal operation and equal hash.",
  "all hashes and operations",
  "all hash values",
  ["spdmlib/src/protocol/mod.rs / common: SPDM_VERSION_1_2_SIGNING_*","spdmlib/src/responder/challenge_rsp.rs","spdmlib/src/requester/challenge_req.rs"])
p("Key-schedule inputs are domain separated",
  "The HKDF info strings built for different labels, lengths, contexts or versions are different byte strings; construction fails only when label plus context do not fit.",
  "all labels used, all contexts and lengths",
  "all contexts",
  ["spdmlib/src/common/key_schedule.rs: binconcat"])
p("Certificate retrieval reassembles exactly the responder's chain",
  "Against an honest responder the requester's certificate loop terminates and reassembles the provisioned chain byte for byte, for every chain length the buffers admit.",
  "every chain length and content",
  "all lengths against the 512-byte portion arithmetic",
  ["spdmlib/src/requester/get_certificate_req.rs","spdmlib/src/responder/certificate_rsp.rs"])
p("Certificate retrieval is safe against a malicious responder",
  "For any sequence of CERTIFICATE responses the requester never writes outside its 4096-byte buffer, never accepts inconsistent lengths, changes no stored chain unless retrieval succeeds, and terminates if every portion it accepts is non-empty.",
  "every sequence of adversarial responses",
  "all adversaries",
  ["spdmlib/src/requester/get_certificate_req.rs"])
p("Certificate chain acceptance conditions",
  "A retrieved chain is accepted only if its length field equals the retrieved size, the root hash matches, the chain verifies and (when provisioned) the root equals the provisioned root certificate; the requester then stores exactly that chain for that slot.",
  "every retrieved byte string",
  "all byte strings",
  ["spdmlib/src/requester/get_certificate_req.rs: verify_spdm_certificate_chain"])
p("Measurement record verification",
  "A measurement record is accepted only if it parses into exactly the announced number of blocks, indices strictly increase, every block is DMTF-specified with consistent sizes, and no bytes are left over.",
  "every record byte string",
  "all byte strings",
  ["spdmlib/src/common/spdm_codec.rs: SpdmMeasurementRecordStructure","spdmlib/src/requester/get_measurements_req.rs"])
p("ERROR responses never succeed",
  "Handling any ERROR (or malformed) response makes every requester operation return an error; DecryptError tears the session down, ResponseNotReady/Busy map to their status codes.",
  "every response byte string",
  "all byte strings",
  ["spdmlib/src/requester/handle_error_response_req.rs"])
p("Challenge success implies a verified signature",
  "The requester's challenge succeeds only if the responder's signature verifies, under the leaf key of the stored chain, over prefix || H(A || B || C) where C is the exact CHALLENGE and CHALLENGE_AUTH bytes without the signature.",
  "every CHALLENGE_AUTH response",
  "all byte strings",
  ["spdmlib/src/requester/challenge_req.rs"])
p("Signed measurement success implies a verified signature",
  "A measurement request with signature succeeds only if the signature verifies over the L1/L2 transcript: all measurement messages exchanged on that channel (the bare connection, or the session) since its last signed measurement or other request, then this request and the response up to the signature. The number of measurements reported to the caller is the total the response states (operation 0) or the number of blocks of the returned record.",
  "every MEASUREMENTS response history",
  "all byte strings and histories",
  ["spdmlib/src/requester/get_measurements_req.rs"])
p("Requester session establishment implies peer authentication",
  "A requester session comes to be usable (handshaking or established) only through KEY_EXCHANGE whose response signature and (unless in-the-clear) HMAC verified, or PSK_EXCHANGE whose HMAC verified, and to be established only after FINISH_RSP/PSK_FINISH_RSP was accepted (or at once, if the responder has no PSK context); its keys are the scheduled ones for the verified transcript; no other operation and no failed KEY_EXCHANGE, FINISH or PSK_FINISH makes a session usable. Histories in which FINISH is only asked for ids that a key exchange returned.",
  "every response sequence",
  "all byte strings and histories",
  ["spdmlib/src/requester/key_exchange_req.rs","spdmlib/src/requester/finish_req.rs","spdmlib/src/requester/psk_exchange_req.rs"])
p("A failed FINISH frees the session's slot",
  "When FINISH or PSK_FINISH for a session fails at the requester, the session's slot is free afterwards and no other slot is taken. (For KEY_EXCHANGE see C60.)",
  "every failure point",
  "all failure points",
  ["spdmlib/src/responder/key_exchange_rsp.rs","spdmlib/src/requester/key_exchange_req.rs"])
p("Ending a session erases it",
  "After END_SESSION completes, the session's slot is free, its keys and transcripts are reset, and further messages for that session id are rejected.",
  "every session state",
  "all states",
  ["spdmlib/src/responder/end_session_rsp.rs","spdmlib/src/requester/end_session_req.rs","spdmlib/src/common/session.rs: teardown"])
p("Responder answers stay within the negotiated size",
  "The responder never sends an SPDM message longer than the requester's advertised data-transfer size; longer responses are replaced by ERROR(ResponseTooLarge). Application data is exempt.",
  "every response and negotiated size",
  "all sizes",
  ["spdmlib/src/responder/context.rs: send_message"])
p("DER certificate walking is safe",
  "`get_cert_from_cert_chain` never panics, terminates, and returns an in-bounds range holding the whole certificate asked for (the i-th, or the last for -1), for which the certificates before it tile the chain; it finds every certificate of a well-formed chain. `check_cert_chain_format` terminates, accepts and counts every chain of well-formed X.509v3 certificates whose leaf uses the negotiated algorithm, and what it accepts is a sequence of such certificates that tiles the chain exactly.",
  "every byte string and index",
  "all byte strings",
  ["spdmlib/src/crypto/spdm_ring/cert_operation_impl.rs: get_cert_from_cert_chain","spdmlib/src/crypto/x509v3.rs"])
p("TDISP interface state machine",
  "The TDISP responder moves a TDI CONFIG_UNLOCKED -> CONFIG_LOCKED only by LOCK_INTERFACE (after the device locked its configuration), CONFIG_LOCKED -> RUN only by START_INTERFACE (after the device began tracking changes), to CONFIG_UNLOCKED only by STOP_INTERFACE after the device erased confidential data and unlocked, and to ERROR only after erasing; with an agreeing device those requests succeed, queries change nothing and report the current state, and a request in the wrong state is answered with INVALID_INTERFACE_STATE and puts the interface in ERROR. At every point of every history the state is backed by the device calls made so far.",
  "every request sequence and every device callback outcome",
  "all histories",
  ["tdisp/src/tdisp_responder/*.rs","tdisp/src/state_machine.rs","tdisp/src/context.rs"])
p("TDISP messages round-trip",
  "TDISP headers and payloads in range decode back to themselves.",
  "every well-formed message",
  "field space",
  ["tdisp/src/message.rs"])
p("Encapsulated (mutual-auth) certificate retrieval at the responder",
  "The responder's encapsulated GET_DIGESTS/GET_CERTIFICATE exchange accepts only consistent portions, stays within its buffer, and ends with the requester's exact chain.",
  "every sequence of delivered encapsulated responses",
  "all adversaries",
  ["spdmlib/src/responder/encap_get_certificate.rs","spdmlib/src/responder/encap_rsp.rs"])
p("DIGESTS carries the correct digest of the provisioned slot",
  "When exactly one certificate slot is provisioned, GET_DIGESTS (in the clear or inside an established session) is answered by at most one message, which is an ERROR or the DIGESTS message whose slot mask has exactly that slot's bit set and whose single digest is the hash of that slot's certificate chain.",
  "every provisioning of the 8 slots",
  "2^8 masks x all chains",
  ["spdmlib/src/responder/digest_rsp.rs"])
p("Message decoding never panics once its algorithms are selected",
  "`SpdmMessage::read` returns a message or None, and never panics, for every input byte string, provided the hash/signature/DHE algorithm sizes the announced payload type needs have been negotiated; without them (for example a CHALLENGE_AUTH or KEY_EXCHANGE before ALGORITHMS) it panics.",
  "every byte string and every negotiated state",
  "all byte strings times all negotiation states",
  ["spdmlib/src/message/*.rs","spdmlib/src/common/spdm_codec.rs","spdmlib/src/protocol/algo.rs: get_size"])
p("SPDM 1.1 DMTF opaque blobs are understood by the library itself",
  "Before SPDM 1.2 the responder parses the requester's constant supported-version blob and the requester parses the responder's version-selection blob. (Expected by a user; false of this code, because of a typo in DMTF_SPEC_ID.)",
  "every SPDM 1.0/1.1 connection",
  "the library's own tests build the blobs with the same wrong constant",
  ["spdmlib/src/common/opaque.rs: DMTF_SPEC_ID, REQ_DMTF_OPAQUE_DATA_SUPPORT_VERSION_LIST_DSP0277, RSP_DMTF_OPAQUE_DATA_VERSION_SELECTION_DSP0277"])
p("Every negotiable AEAD carries secured messages","Once a session's data keys are derived for any AEAD the library can negotiate, application messages can be encoded in it. (Expected by a user; false of this code for AES-128-GCM: key derivation always asks for 32 bytes and the encryption wrapper insists on 16.)","all negotiable AEADs, crypto instances, transcripts, messages","interop tests use AES-256-GCM only; the statement is over all algorithms, keys and messages",["spdmlib/src/common/key_schedule.rs: derive_aead_key_iv","spdmlib/src/crypto/spdm_ring/aead_impl.rs: encrypt"])
p("Decoding a secured message never panics","For every received byte string that fits the receive buffer, decoding a secured message in a session with a negotiated AEAD returns a value or an error and never panics, as long as the receive counter has not reached its last value; at the last value (2^64-1) it panics.","all received byte strings, session states, counters below the limit","the input space is all byte strings of up to 4160 bytes and all session states",["spdmlib/src/common/session.rs: decode_spdm_secured_message, decode_msg"])
p("Every rejected request gets an ERROR reply","Whenever the responder rejects a plain request and its device works, it sends an ERROR message. (Expected by a user; false of this code: the error messages the KEY_EXCHANGE, PSK_EXCHANGE, FINISH and PSK_FINISH handlers write are dropped.)","every request byte string, every responder state","all requests and states; a peer sees only a time-out",["spdmlib/src/responder/key_exchange_rsp.rs: handle_spdm_key_exchange", "spdmlib/src/responder/context.rs: dispatch_message"])
p("Application data cannot change a session's state","A message that the responder hands to the application leaves the state of its session as it was.","every frame, session and application callback","a claim about all application replies and states",["spdmlib/src/responder/context.rs: send_secured_message", "spdmlib/src/responder/context.rs: dispatch_secured_app_message"])
p("DIGESTS is correct for several provisioned slots","The DIGESTS response contains, for each set bit of the slot mask in order, the hash of that slot's certificate chain.","every provisioning of the 8 slots","2^8 masks x all chains",["spdmlib/src/responder/digest_rsp.rs"])
p("Certificate format check never panics","`check_cert_chain_format`, which runs on the peer's certificate chain before every signature verification, returns a result for every byte string: a malformed chain is an error, not a panic.","every byte string received as a certificate chain, every negotiated algorithm","all byte strings",["spdmlib/src/crypto/x509v3.rs: check_cert_chain_format, check_length, check_signature_algorithm"])
p("Session keys follow the DSP0277 key schedule","Whenever a session's root secrets, handshake keys, application keys or updated keys are derived successfully, they are exactly the values the DSP0274/DSP0277 key schedule prescribes for the session's hash, AEAD suite, DHE secret or PSK hint and transcript hash; nothing else in the session changes (record counters included, except that a key update restarts the updated direction at 0); so two ends with the same secrets and transcript hash get the same keys.","every session, version, DHE secret, transcript hash and implementation of the HKDF and PSK callbacks","keys are opaque: a test compares two ends that share the same code, so a wrong label, length or order is invisible",["spdmlib/src/common/key_schedule.rs", "spdmlib/src/common/session.rs:set_dhe_secret, generate_handshake_secret, generate_data_secret, create_data_secret_update"])
p("A failed key exchange takes no session slot","When KEY_EXCHANGE fails, at the requester or at the responder, the number of free session slots is what it was before. (Expected by a user; false of this code.)","every failing response and every failing callback, every reachable state","needs a failure at each point after the slot was taken",["spdmlib/src/requester/key_exchange_req.rs:252-330", "spdmlib/src/responder/key_exchange_rsp.rs"])
p("A handshake in the clear completes between the library's two ends","When both ends have HANDSHAKE_IN_THE_CLEAR, KEY_EXCHANGE between the library's requester and responder succeeds. (Expected by a user; false of this code: the responder only writes the signature into the message when the handshake is not in the clear.)","every configuration and reachable state","every configuration; the library's tests never enable the capability at both ends",["spdmlib/src/responder/key_exchange_rsp.rs:374-416"])
p("FINISH establishes only a session whose key exchange was verified","FINISH for a session whose KEY_EXCHANGE did not succeed is refused by the requester. (Expected by a user; false of this code.)","every reachable state and response","needs an adversarial responder and a stale slot",["spdmlib/src/requester/finish_req.rs: send_receive_spdm_finish"])
p("Requester only uses algorithms it offered","After a successful negotiate-algorithms exchange, the base hash the requester will use is in the set it configured and offered. (Expected by a user; false of this code: the answer is never compared with the offer.)","every ALGORITHMS response a peer may send","all responses",["spdmlib/src/requester/negotiate_algorithms_req.rs"])
p("The selected version is one the responder listed","After a successful get-version exchange the selected version is one the responder listed, whatever it listed. (Expected by a user; false of this code: the unused entries of the version array default to 1.0 and are sorted with the listed ones.)","every VERSION response a peer may send","all responses",["spdmlib/src/requester/get_version_req.rs: handle_spdm_version_response", "spdmlib/src/message/version.rs"])
p("Certificate retrieval ends against every responder","Whatever CERTIFICATE responses a responder sends, the requester's certificate retrieval ends after a bounded number of exchanges.","every responder","all adversaries, unbounded runs",["spdmlib/src/requester/get_certificate_req.rs"])
p("The TDISP start nonce protects START_INTERFACE","LOCK_INTERFACE answers with a nonce that was not used before, and START_INTERFACE succeeds only when it carries that nonce.","every lock and start request","all nonces",["tdisp/src/tdisp_responder/lock_interface_request_rsp.rs", "tdisp/src/tdisp_responder/start_interface_request_rsp.rs"])
p("A locked or running TDI reports its interface","GET_DEVICE_INTERFACE_REPORT is answered with a report while the interface is CONFIG_LOCKED or RUN, and does not change the state.","every state and request","all states",["tdisp/src/tdisp_responder/device_interface_report_rsp.rs"])
p("A TDISP answer reaches the peer","The VENDOR_DEFINED_RESPONSE built from a TDISP answer carries the bytes of that answer.","every request and state","all requests",["tdisp/src/tdisp_responder/*.rs", "spdmlib/src/message/vendor.rs"])
p("GET_DIGESTS starts a fresh challenge transcript in every build","After GET_DIGESTS, M1/M2 contains the connection messages and the messages since, whatever happened to an earlier CHALLENGE, in the default build and in the build without hashed-transcript-data alike.","every message history","all histories, both build features",["spdmlib/src/common/mod.rs: reset_buffer_via_request_code, reset_message_b, append_message_c"])
p("Resetting the key-exchange messages empties them","In the build without hashed-transcript-data, reset_message_k leaves no key-exchange message recorded and keeps the finish messages.","every session state","all states",["spdmlib/src/common/mod.rs: reset_message_k"])
p("FINISH is keyed with the transcript of the session's slot in every build","In the build without hashed-transcript-data, the transcript the requester keys FINISH with contains the responder's chain of the slot named in KEY_EXCHANGE, whatever slot the requester uses for its own chain.","every pair of slots","all slots, the non-default build",["spdmlib/src/requester/finish_req.rs: encode_spdm_finish"])
p("An encapsulated retrieval begins afresh with DIGESTS and ends with its session","Delivering DIGESTS makes the responder retrieve the requester's certificate chain from offset 0, and what was gathered of a chain is gone once no session is in use. (Expected by a user; false of this code: the half-gathered chain is kept.)","every run of the responder with mutual authentication, every half-finished retrieval","needs an interrupted retrieval at an arbitrary point",["spdmlib/src/responder/encap_get_certificate.rs", "spdmlib/src/responder/encap_get_digest.rs", "spdmlib/src/common/mod.rs: peer_cert_chain_temp"])
p("Encapsulated responses are refused when encapsulation is not negotiated","When either end lacks ENCAP_CAP, a DELIVER_ENCAPSULATED_RESPONSE is answered with one ERROR message and its content is not processed. (Expected by a user; false of this code: the ERROR bytes are put in front of the normal answer and processing goes on.)","every delivered response and negotiated capability set","all capability combinations and states",["spdmlib/src/responder/encap_rsp.rs: encap_check_version_cap_state"])
p("A PSK session opened between the library's two ends is shared by both","When the library's requester runs against the library's responder over a transport that loses nothing, both hold the same negotiated parameters and negotiation messages and share the pre-shared key, and PSK_EXCHANGE (and PSK_FINISH, where the responder uses a context) succeed at the requester, then both ends hold the session as established with the same identifier, the same application keys, IVs and secrets in both directions and the same message counters. Everything said about a shared session (such as key updates in step) applies from there.","every configuration, hint, summary type, crypto back end, transport, and every history of the connection before the session is opened","a test runs one pair of ends after one history; agreement is a relation between two executions and must survive whatever the connection did before",["spdmlib/src/requester/psk_exchange_req.rs", "spdmlib/src/requester/psk_finish_req.rs", "spdmlib/src/responder/psk_exchange_rsp.rs", "spdmlib/src/responder/psk_finish_rsp.rs", "spdmlib/src/common/session.rs", "spdmlib/src/common/key_schedule.rs"])
p("A connection set up between the library's two ends leaves both with the same parameters","When the library's requester initialises a connection with the library's responder and succeeds at SPDM 1.1 or later, both ends hold the same version, the same selected algorithms (hash, signature, key agreement, AEAD, requester signature, key schedule, measurement specification and hash, opaque format), the same capabilities of the responder and of the requester, and the same record of negotiation messages, which every later signature and key is bound to. A PSK session opened right after it is shared by both.","every configuration and local state of the requester, every configuration and earlier history of the responder, every transport that carries messages unchanged and every crypto back end","agreement relates two executions over every pair of configurations and every history of the responder before the connection; a test runs one pair",["spdmlib/src/requester/get_version_req.rs", "spdmlib/src/requester/get_capabilities_req.rs", "spdmlib/src/requester/negotiate_algorithms_req.rs", "spdmlib/src/responder/version_rsp.rs", "spdmlib/src/responder/capability_rsp.rs", "spdmlib/src/responder/algorithm_rsp.rs"])
p("A CHALLENGE_AUTH carries what was asked for and is signed over the whole exchange","When SPDM 1.2 or later is negotiated and the device can hash and sign, the responder answers a CHALLENGE with at most one message: an ERROR, or a CHALLENGE_AUTH with the slot asked for, slot mask 1, the hash of that slot's certificate chain, a fresh 32-byte nonce, the measurement summary of the type asked for, no opaque data, and a signature over the negotiation messages, the recorded GET_DIGESTS/GET_CERTIFICATE exchanges, the CHALLENGE itself and the reply up to the signature. The record holds each request as read and each reply as sent, begins anew at GET_DIGESTS and after each CHALLENGE_AUTH, and no other request adds to it.","every request, responder state, slot layout, crypto back end and transport","the signed transcript depends on the whole history of requests before the CHALLENGE; a test signs one history",["spdmlib/src/responder/challenge_rsp.rs", "spdmlib/src/responder/digest_rsp.rs", "spdmlib/src/responder/certificate_rsp.rs", "spdmlib/src/common/mod.rs"])
p("MEASUREMENTS carries the blocks asked for and is signed over the measurement log","When SPDM 1.2 or later is negotiated and the device can hash and sign, the responder answers GET_MEASUREMENTS, plain or inside an established session, with at most one message: an ERROR, or MEASUREMENTS with the record the device reports for the operation asked for (the count alone, all blocks, or the block of that index, which must exist), a fresh nonce, no opaque data, and, if the request asked for it, a signature over the negotiation messages, the measurement exchanges recorded on that channel, the request and the reply up to the signature.","every request, responder state, channel, crypto back end and transport","the signed log depends on every earlier GET_MEASUREMENTS on the channel; a test signs one log",["spdmlib/src/responder/measurement_rsp.rs", "spdmlib/src/message/measurement.rs", "spdmlib/src/common/mod.rs"])
p("A request answered with ERROR is not recorded in the authentication transcript","If the responder answers a plain request with a single ERROR, the recorded M1/M2 transcript is as before, or dropped.","every request, responder state and transport","it must hold after every failing request in every state",["spdmlib/src/responder/certificate_rsp.rs", "spdmlib/src/common/mod.rs"])
p("Asked for the number of measurement blocks, the responder tells it","If GET_MEASUREMENTS with operation 0 is answered with MEASUREMENTS, its count byte is the number of blocks the device reports.","every device report, responder state and transport","it must hold for every number of blocks",["spdmlib/src/message/measurement.rs", "spdmlib/src/responder/measurement_rsp.rs"])
p("A CHALLENGE draws one reply, and never an unsigned CHALLENGE_AUTH","A CHALLENGE draws at most one reply, also when signing fails or is not available for the negotiated version, and every CHALLENGE_AUTH the responder sends ends with a signature the device made.","every request, responder state, negotiated version and crypto back end","it must hold for every way signing can fail",["spdmlib/src/responder/challenge_rsp.rs"])
p("A key-exchange session opened between the library's two ends is shared by both","When the library's requester, facing the library's responder over a faithful link after an agreed connection, has key_exchange and then finish succeed, both ends hold the session as established with the same identifier, the same negotiated version, the same application keys, IVs and secrets in both directions and the same message counters, so each can open what the other seals. (Requester's and responder's Diffie-Hellman agree on the shared secret; the certificate chain the requester holds for the slot is the one the responder holds; no mutual authentication, handshake not in the clear.)","every reachable history of both ends before the session, slot, summary type, chain, crypto back end and transport satisfying the stated laws","both ends must derive the same keys from transcripts they assemble separately; a test compares one run",["spdmlib/src/requester/key_exchange_req.rs", "spdmlib/src/requester/finish_req.rs", "spdmlib/src/responder/key_exchange_rsp.rs", "spdmlib/src/responder/finish_rsp.rs", "spdmlib/src/common/session.rs"])
p("The requester answers every encapsulated request as asked, and sends nothing else","Built for mutual authentication and provisioned with one certificate chain, the requester's mutual_authenticate sends, whatever the responder does and whatever result it returns, only: one GET_ENCAPSULATED_REQUEST (or its DIGESTS unasked, if KEY_EXCHANGE_RSP said so), then for each message of the session that carries an embedded request exactly one DELIVER_ENCAPSULATED_RESPONSE with the same request id. GET_DIGESTS is answered with the digest of its chain, GET_CERTIFICATE for slot 0 with the slice asked for (at most 512 bytes) and the number of bytes left, everything else with the ERROR its fault calls for; nothing of its state but the session's counters and the slot to use changes. It reports success only after an answer and a closing acknowledgement.","every responder, transport, device, crypto back end, state, provisioned chain and slot, and any number of rounds","the responder chooses the sequence of embedded requests and their contents",["spdmlib/src/requester/mutual_authenticate.rs", "spdmlib/src/requester/encap_req.rs", "spdmlib/src/requester/encap_digest.rs", "spdmlib/src/requester/encap_certificate.rs", "spdmlib/src/requester/encap_error.rs"])
p("A requester built for mutual authentication can still open sessions without it","When the responder does not ask for mutual authentication in KEY_EXCHANGE_RSP, start_session of the build with mutual authentication goes on to FINISH and opens the session, as the build without it does.","every requester state and every responder whose KEY_EXCHANGE_RSP carries no mutual authentication request","needs the feature at one end and not at the other; tests build both ends alike",["spdmlib/src/requester/mutual_authenticate.rs", "spdmlib/src/requester/context.rs"])
p("Mutually authenticated FINISH does not depend on how long the two chains are","If both ends' certificate chains are acceptable and the retrieval of the requester's chain succeeded, FINISH with the requester's signature goes through whatever the lengths of the two chains.","every pair of acceptable chains","tests use the same chain at both ends",["spdmlib/src/requester/finish_req.rs"])
p("A CHALLENGE or GET_MEASUREMENTS the responder can answer is not refused","On a negotiated SPDM 1.2 connection, a well-formed CHALLENGE for an existing slot, with a summary the device can compute, and a well-formed GET_MEASUREMENTS (bare or in an established session) for the count, all blocks, or the index of an existing block, the last one included, with an existing slot if a signature is asked for, are answered with the CHALLENGE_AUTH or the MEASUREMENTS that C76 and C77 describe, not with an ERROR (but the one saying that the peer cannot take so long a message). If the device and the transport binding take messages of up to 4096 bytes, an answer is sent.","every negotiated responder state, request, trailing bytes, transport, device and crypto back end whose hash, signature, measurement and random functions deliver","a responder that refuses the last block, the last slot or one attribute combination passes any test of another",["spdmlib/src/responder/challenge_rsp.rs", "spdmlib/src/responder/measurement_rsp.rs", "spdmlib/src/responder/context.rs"])
p("Two ends whose settings fit connect","At SPDM 1.1 and 1.2: if the two ends' settings are values their types allow, the version is the highest both support, each end announces capabilities the standard allows, and for whatever the two can do together they share an algorithm, then init_connection returns Ok, whatever both ends did before (earlier connections and sessions included), provided the responder's certificates are provisioned, the transport binding delivers, and the largest message the peer announced is not below the offer. Both ends then hold that version and, in each family, the most preferred algorithm both have, and the responder is in the negotiated state.","all pairs of settings that fit, all earlier histories of either end, transport bindings and crypto back ends that deliver","a test connects a few pairs of settings from a fresh start; the claim is about every pair and every earlier history",["spdmlib/src/requester/context.rs", "spdmlib/src/requester/get_version_req.rs", "spdmlib/src/requester/get_capabilities_req.rs", "spdmlib/src/requester/negotiate_algorithms_req.rs", "spdmlib/src/responder/version_rsp.rs", "spdmlib/src/responder/capability_rsp.rs", "spdmlib/src/responder/algorithm_rsp.rs"])
p("The chain served is headed by the root hash of the negotiated algorithm","Whenever a connection is negotiated, the certificate chain the responder serves from a provisioned slot is headed by the hash of its root certificate under the hash algorithm of that connection; so a requester that connects, whatever requesters connected before it, can fetch and accept it.","all frame sequences, settings and provisioned chains","tests start each connection from a fresh context",["spdmlib/src/common/mod.rs", "spdmlib/src/responder/algorithm_rsp.rs", "spdmlib/src/responder/certificate_rsp.rs"])
p("A requester fetches a chain whatever message size it announced","A requester whose announced DataTransferSize is at least the 42 bytes the standard asks for can fetch the certificate chain of a fresh responder it has connected to: it asks for portions whose answers fit what it announced.","all announced sizes, chains and settings that fit","the tests announce 4096 bytes",["spdmlib/src/requester/get_certificate_req.rs", "spdmlib/src/responder/context.rs"])
p("ECDSA signatures are verified as the numbers they carry","A raw ECDSA signature (two big-endian numbers r and s of the curve's size) is handed to the verification library as exactly the shortest DER encoding of the same r and s, within the buffer set aside and without a panic whatever the numbers are; a signature with a zero is refused. For every chain of well-formed certificates the verdict of the default signature verification is that on (r, s) with the last certificate of the chain, the data, and the curve and hash negotiated; RSA signatures are passed on unchanged; and for arbitrary chains and signatures acceptance implies all of that.","all signatures, chains, data, verification libraries and supported algorithm pairs","leading zeros and top bits of random signatures hit the interesting cases with probability 1/256 or less, and unit tests compare lengths only",["spdmlib/src/crypto/spdm_ring/asym_verify_impl.rs: asym_verify, ecc_signature_bin_to_der", "spdmlib/src/crypto/x509v3.rs: check_cert_chain_format"])
p("Whatever pair of algorithms the ends negotiate, signatures can be verified","For every hash and signature algorithm the negotiation can select, verifying a signature ends with a verdict.","all settings and negotiations","the tests negotiate SHA-384",["spdmlib/src/crypto/spdm_ring/asym_verify_impl.rs: asym_verify", "spdmlib/src/protocol/algo.rs: prioritize"])
p("Running digests of all transcripts stay apart","In the default build every transcript is a running digest behind a handle into one global table. Whatever connections, sessions and threads start, copy, extend, finish and drop digests, in whatever order their steps interleave and wherever memory is reused: starting fails for unknown algorithms only; copying (which panics on failure), appending and finishing never fail; every digest delivered is the hash of exactly the bytes appended to that value since it was started, or to the value it was copied from before that; and the table holds one entry for each value that exists and none else.","all interleavings of all threads' steps, all allocators and hash libraries","handles are addresses; a collision needs a particular interleaving and reuse of memory",["spdmlib/src/crypto/spdm_ring/hash_impl.rs: hash_ext", "spdmlib/src/crypto/mod.rs: SpdmHashCtx"])
p("Random buffers are filled completely","A request for random bytes of any length fills the whole buffer with the generator's output, each generated byte used at most once and in order, and reports its length; if the generator fails the request fails; it never panics.","all lengths and all behaviours of the generator","tests cannot tell unfilled or repeated bytes from random ones and use two lengths",["spdmlib/src/crypto/spdm_ring/rand_impl.rs: get_random"])
p("Requests that cannot be made are refused before anything is sent","A request in a session that does not exist fails without sending or receiving; GET_CERTIFICATE, CHALLENGE, GET_MEASUREMENTS, KEY_EXCHANGE, starting a session and FINISH with a certificate slot of 8 or more, FINISH with a slot the requester has no chain in, and a key update that is neither of one key nor of all fail and leave everything unchanged; and a FINISH that is sent names exactly the slot asked for (slot 0 if none), and it is the only frame sent.","all contexts, arguments, devices and outcomes","tests call the API with sensible arguments, and a failing call's side effects depend on the context",["spdmlib/src/requester/finish_req.rs: send_receive_spdm_finish", "spdmlib/src/requester/context.rs: send_secured_message", "spdmlib/src/requester/key_update_req.rs: send_receive_spdm_key_update"])
p("A vendor-defined message carries what the application gave, in both directions","A VENDOR_DEFINED request that arrives in the clear, or protected in an established session, and whose payload the registered application handler answers, is answered with one frame: a VENDOR_DEFINED response of the negotiated version with the request's standard-body field and vendor id and exactly the handler's bytes, or a RESPONSE_TOO_LARGE error where the requester's transfer size is too small; with a working device it is sent. A successful vendor-defined request of the requester put one message on the wire made of exactly the caller's standard body, vendor id and payload, and what the caller gets back is the payload field of the VENDOR_DEFINED response received to it.","all contexts, sessions, payloads, vendor ids, handlers, devices and buffer paddings","tests use an empty vendor id and one payload, and the handler is arbitrary",["spdmlib/src/responder/vendor_rsp.rs: handle_spdm_vendor_defined_request", "spdmlib/src/requester/vendor_req.rs: send_spdm_vendor_defined_request, handle_spdm_vendor_defined_respond", "spdmlib/src/message/vendor.rs: SpdmVendorDefinedRequestPayload"])
p("A vendor-defined request can be made on a negotiated connection and in a session","A requester that has negotiated a connection can make a vendor-defined request on it with the negotiated version, and in an established session protected by that session; connection and session survive it.","all requesters, sessions and arguments","the only test of the requester's call runs it on a fresh context against a matching fresh responder",["spdmlib/src/requester/vendor_req.rs: send_spdm_vendor_defined_request", "spdmlib/src/common/mod.rs: reset_context"])
p("What the responder answers to KEY_EXCHANGE, and the session it opens","A responder that reads a well-formed KEY_EXCHANGE on the connection (no handshake in the clear, no mutual authentication) sends nothing, an ERROR, or one KEY_EXCHANGE_RSP: the negotiated version, the configured heartbeat period, a half session id, fresh random bytes, the public half of a fresh DHE key, the measurement summary asked for, the selected secured-message version, a signature of the device over message A, the hash of the chain of the slot asked for, the request as read and the response up to it, and the MAC of TH1 under the responder's finished key. The slot named is provisioned. The session named by the two half ids is then in its handshake, with the negotiated hash and AEAD, root secrets from the DHE agreement with the requester's share, handshake keys from TH1; when a secured-message version is selected it is one the requester offered and the responder supports, the response names it, and the session records it.","all reachable responder states, crypto providers, requests, shares, opaque data and trailing padding","tests compare lengths and statuses of one recorded exchange",["spdmlib/src/responder/key_exchange_rsp.rs: handle_spdm_key_exchange, write_spdm_key_exchange_response", "spdmlib/src/message/key_exchange.rs: SpdmKeyExchangeResponsePayload", "spdmlib/src/common/opaque.rs: rsp_get_dmtf_supported_secure_spdm_version_list"])
p("What the responder answers to PSK_EXCHANGE, and the session it opens","A responder that reads a well-formed PSK_EXCHANGE on the connection sends nothing, an ERROR, or one PSK_EXCHANGE_RSP: the negotiated version, the configured heartbeat period, a half session id, the measurement summary asked for, the responder context (empty when it supports no context), the selected secured-message version, and the MAC under the responder's finished key of TH1 (message A, the request as read, the response up to the MAC). The session named by the two half ids is then a PSK session of the hint sent, with the negotiated hash and AEAD and handshake keys from TH1; it is in its handshake, or, without a context, already established with data keys from TH2. When a secured-message version is selected it is one the requester offered and the responder supports, and the session records it.","all reachable responder states, crypto providers, requests, hints, contexts, opaque data and trailing padding","tests compare lengths and statuses of one recorded exchange",["spdmlib/src/responder/psk_exchange_rsp.rs: handle_spdm_psk_exchange, write_spdm_psk_exchange_response", "spdmlib/src/message/psk_exchange.rs: SpdmPskExchangeResponsePayload"])
p("A recorded PSK session cannot be replayed","The responder puts fresh random bytes into every PSK session it opens with a context, so that the frames of an earlier session, sent again, do not open it a second time with the same keys and recorded application data is not accepted again.","all responder states with a PSK context negotiated, sources of random bytes and recorded frames","tests run PSK_EXCHANGE once with one source of random bytes and never look at the context",["spdmlib/src/responder/psk_exchange_rsp.rs: write_spdm_psk_exchange_response"])
p("No message crashes the responder","Whatever bytes a peer sends, in whatever order, the responder does not panic: an invalid or unsupported request is refused with an ERROR.","all reachable responder states and received messages","fuzzing samples messages; whether some sequence of messages reaches a panic is a question about all of them",["spdmlib/src/responder/key_exchange_rsp.rs: write_spdm_key_exchange_response", "spdmlib/src/common/mod.rs: get_dhe_key_size", "spdmlib/src/protocol/algo.rs: SpdmDheAlgo::get_size"])
p("No answer crashes the requester","Whatever a responder answers, the requester's operations return (with an error if need be) and do not panic.","all reachable requester states and responders","tests use responders that answer with sensible parameters",["spdmlib/src/requester/context.rs: receive_message, receive_secured_message", "spdmlib/src/requester/get_capabilities_req.rs: handle_spdm_capability_response"])

import sys,os
out=os.path.join(os.path.dirname(os.path.abspath(__file__)),"..","properties.jsonl")
with open(out,"w") as f:
    for q in P: f.write(json.dumps(q)+"\n")
print(len(P))
