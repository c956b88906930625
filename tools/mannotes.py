NOTES = {
 'C04': ('proved', 'generic in the macro table; the collision exception named in the property is proved to be real'),
 'C05': ('proved', 'injectivity holds except for source 0, exactly as the property says; the exception is witnessed'),
 'C07': ('proved', 'up-to-padding round trip as stated; C07_pcidoe_app_flag_refuted records that encap_app/decap_app of this transport lose the app flag'),
 'C51': ('proved', 'proved under the premise in the statement; C51_decoding_without_algorithms_refuted exhibits the panic outside it'),
 'C52': ('partial', 'the property is FALSE of the code: the theorem is its refutation, for every 1.0/1.1 connection'),
 'C28': ('proved', 'for histories in which derived keys are fresh and a rollback follows a successful update (the discipline of the library callers), both stated as premises; rollback after a FAILED update or two rollbacks in a row are outside the discipline'),
 'C29': ('proved', 'the counter movement on failure is part of the statement'),
 'C53': ('partial', 'the property is FALSE of the code: the theorem is its refutation for AES-128-GCM, for every crypto instance whose HKDF returns the requested length'),
 'C55': ('partial', 'the property is FALSE of the code: the theorem refutes it with an out-of-phase KEY_EXCHANGE'),
 'C23': ('proved', 'per frame and over whole histories; the premise about application replies is in the statement, and C56 shows it is needed'),
 'C56': ('partial', 'the property is FALSE of the code: an application reply whose second byte is 0x65 establishes a handshaking session'),
 'C57': ('partial', 'the property is FALSE of the code: with two provisioned slots the patch loop writes every digest over the last one'),
 'C58': ('partial', 'the property is FALSE of the code: a nine-octet DER length, or an algorithm field longer than the data, makes the walker index out of range'),
 'C42': ('proved', 'step, history and start_session forms; the premise on histories is in the statement, and C62 shows it is needed'),
 'C60': ('partial', 'the property is FALSE of the code, at both ends: the theorems are refutations'),
 'C61': ('partial', 'the property is FALSE of the code: the refutation runs the two modelled ends against each other'),
 'C62': ('partial', 'the property is FALSE of the code: a forged FINISH_RSP under the empty key is accepted for a slot leaked by a failed KEY_EXCHANGE'),
 'C63': ('partial', 'the property is FALSE of the code: a responder that names SHA-512 is followed although only SHA-384 was offered'),
 'C64': ('partial', 'the property is FALSE of the code: a responder that lists only version 0.5 is taken to speak 1.0'),
 'C65': ('partial', 'the property is FALSE of the code: a responder that answers every GET_CERTIFICATE with an empty portion keeps the loop going for ever'),
 'C47': ('proved', 'the tdisp crate is outside the workspace and does not compile at this commit; the model follows its text. A failed erase panics (unwrap) and leaves the state'),
 'C48': ('proved', 'the reserved fields are written as zero and ignored on reading; the layouts of the header, lock, capabilities and MMIO range payloads are proved separately'),
 'C66': ('partial', 'the property is FALSE of the code: the nonce in every LOCK response is zero and START is accepted with any nonce'),
 'C67': ('partial', 'the property is FALSE of the code: the test is `!= Run || != ConfigLocked`, so every request is refused and puts the interface in ERROR'),
 'C68': ('partial', 'the property is FALSE of the code: no handler sets rsp_length, so the vendor response carries no payload bytes'),
 'C69': ('partial', 'the property is FALSE of the build without hashed-transcript-data: GET_DIGESTS resets message_b only'),
 'C70': ('partial', 'the property is FALSE of the code: without hashed-transcript-data reset_message_k resets message_f (no caller in this commit)'),
 'C71': ('partial', 'the property is FALSE of the build without hashed-transcript-data: finish_req.rs passes req_slot_id where the responder slot is wanted'),
 'C72': ('partial', 'the property is FALSE of the code: nothing clears peer_cert_chain_temp but completion, a failed portion or a new connection'),
 'C73': ('partial', 'the property is FALSE of the code: encap_check_version_cap_state writes its ERROR and returns nothing, so the message is processed all the same'),
 'C78': ('partial', 'the property is FALSE of the code: GET_CERTIFICATE appends its request to B before it checks the offset (certificate_rsp.rs), so the next CHALLENGE_AUTH signs a request that was answered with ERROR'),
 'C79': ('partial', 'the property is FALSE of the code: SpdmMeasurementsResponsePayload::spdm_encode writes a count of 1 as 0 (message/measurement.rs)'),
 'C80': ('partial', 'the property is FALSE of the code: after the ERROR for a failed signature the handler returns and handle_spdm_challenge sends the buffer, whose signature is filler; at SPDM 1.0/1.1 the default build always fails to sign'),
 'C83': ('partial', 'the property is FALSE of the code: session_based_mutual_authenticate returns INVALID_MSG_FIELD for MutAuthRequested = 0 (mutual_authenticate.rs:29)'),
 'C84': ('partial', 'the property is FALSE of the code: generate_finish_req_signature cuts the local chain at the data size of the peer chain before it verifies its own signature, and unwraps the result (finish_req.rs:391-409)'),
 'C87': ('partial', 'the property is FALSE of the code: construct_my_cert_chain (common/mod.rs:242-281) builds a slot only when it is empty, and nothing ever empties it, so the chain keeps the root hash of the first connection and later requesters with another hash algorithm reject it (INVALID_CERT)'),
 'C88': ('partial', 'the property is FALSE of the code: get_certificate_req.rs asks for 512 bytes per portion whatever was announced; the responder refuses with RESPONSE_TOO_LARGE below 520'),
 'C90': ('partial', 'the property is FALSE of the code: algo.rs prefers SHA-512 and ECDSA P-384, and the match of asym_verify_impl.rs:25-71 has no case for SHA-512 with an ECDSA curve: the verifier panics'),
 'C95': ('partial', 'the property is FALSE of the code: send_spdm_vendor_defined_request calls reset_context first (vendor_req.rs:30), so the request carries version 0 and every session is erased before it is used'),
 'C98': ('partial','the property is FALSE of the code: with a PSK context negotiated the responder context is 64 zero bytes (psk_exchange_rsp.rs:163-184, condition inverted), so a recorded session replays'),
 'C99': ('partial','the property is FALSE of the code: without a negotiated DHE group a KEY_EXCHANGE panics (SpdmDheAlgo::get_size, algo.rs:363-371)'),
 'C100': ('partial','the property is FALSE of the code: a responder that announces CTExponent 64 or more panics the requester at the first CHALLENGE (requester/context.rs:108-112, overflow checks on)'),
}
