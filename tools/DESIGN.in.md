# Formal model of jyao1/rust-spdm in Coq: design

## Approach
The Rust sources are modelled, function by function, as executable Gallina: bytes are `N`, slices are
`list N`, `&mut` becomes state passing (`Monad.v`: a state monad whose outcome is `Ok`, `Err status` or
`Panic`), `Option`/`Result` stay data, and panics (index out of range, `unwrap` on `None`, failed
assertions, arithmetic overflow of a debug build) are an explicit outcome. Every definition of the model
carries a comment citing the file and lines it models and says where it simplifies.

Kinds of files in `rocq/theories`:

* **model** (no proofs): `Bytes Codec Parse Status Transport Algo Msg{Conn,Auth,Session,Other} Message Opaque
  Monad Crypto KeySchedule Session Signing CertOps ChainVerify Context X509`, responder `RspBase RspConn RspSess
  RspEncap Responder`, requester `ReqBase ReqConn ReqSess ReqEncap`, both ends facing each other `Pair`, the build without
  `hashed-transcript-data` `Transcript`, TDISP `Tdisp`;
* **specifications** (`Spec*.v`): the small vocabulary of the theorem statements, written from DSP0274 /
  DSP0277 / the DER rules and not from the model's helpers;
* **proofs**: `*Proofs.v`, `Rsp*.v`, `Req*.v`, `*Twin.v`, `Kx*.v`;
* **theorems** (`Prop*.v`): one `Theorem Cnn_...` per claim, `Print Assumptions`, and an
  `Example Cnn_case` that meets the hypotheses on a concrete, non-trivial state (mostly states reached by
  running the two modelled ends against each other: `ToyCrypto.v`, `ExRun.v`, `ExPair.v`, `ExReach.v`, `ExEncap.v`).

Cryptography, randomness, certificate verification, measurement collection, device I/O, transport and the
vendor / application callbacks are *inputs*: records (`crypto`, `transport`, `env`) passed to every definition.
No axiom describes them; a theorem that needs a law of a primitive (AEAD correctness or authenticity,
Diffie-Hellman agreement, hash output sizes, "the transport carries what it is given") has the law as an explicit
premise, and the example shows an instance that satisfies it. Both transports of the repository are modelled and
proved to satisfy the transport laws.

Histories are inductive (`reached`, `served`, `came`, `gathering`, fold over frames), with no bound
on lengths; adversaries are arbitrary frames, arbitrary peers and arbitrary oracle records.

A property that a user would expect but that is **false of the code** keeps its full English statement and is
paired with a theorem named `..._refuted` that proves the negation about the model (status `partial` in the
manifest, as the property itself is not proved). They are listed under "Disagreements".

## Layers
| Layer | Code | Model file |
|---|---|---|
| integers, Reader, Writer, enum_builder | codec/src | Bytes.v, Codec.v, Parse.v |
| SpdmStatus | spdmlib/src/error.rs | Status.v |
| MCTP, PCI-DOE framing | mctp_transport, pcidoe_transport | Transport.v |
| algorithms, capabilities, versions | spdmlib/src/protocol | Algo.v |
| message payloads | spdmlib/src/message | MsgConn.v, MsgAuth.v, MsgSession.v, MsgOther.v, Message.v |
| opaque data, measurement records | spdmlib/src/common/{opaque,spdm_codec}.rs | Opaque.v, MsgAuth.v |
| sessions, secured messages, key update | spdmlib/src/common/session.rs | Session.v |
| key schedule | spdmlib/src/common/key_schedule.rs | KeySchedule.v |
| signing contexts | {requester,responder}/*.rs | Signing.v |
| context, transcripts, provisioning | spdmlib/src/common/mod.rs | Context.v |
| responder | spdmlib/src/responder | RspBase.v, RspConn.v, RspSess.v, RspEncap.v, Responder.v |
| requester | spdmlib/src/requester | ReqBase.v, ReqConn.v, ReqSess.v, ReqEncap.v |
| chain verification | requester/get_certificate_req.rs, responder/encap_get_certificate.rs | ChainVerify.v, CertOps.v |
| X.509 walking | crypto/x509v3.rs, crypto/spdm_ring/{cert_operation_impl,asym_verify_impl}.rs | X509.v |
| Default signature verification (webpki a parameter) | crypto/spdm_ring/asym_verify_impl.rs | EcdsaDer.v |
| Running digests: the handle table and the owned handles, all threads | crypto/spdm_ring/hash_impl.rs, crypto/mod.rs (hash) | HashCtx.v |
| Random bytes | crypto/spdm_ring/rand_impl.rs | GetRandom.v |
| TDISP responder and messages | tdisp/src | Tdisp.v |
| the build without hashed-transcript-data | common/mod.rs, requester, responder | Transcript.v |

## Plan per property
@@TABLE@@

## Builds and features
Default features are modelled: `spdm-ring`, `std`, `hashed-transcript-data`. `mut-auth` (off by default in the
library, on in the repository's tests) is the flag `e_mut_auth` of the responder and the separate file
`ReqEncap.v` at the requester. The build without `hashed-transcript-data` is modelled for its transcripts only
(`Transcript.v`). Arithmetic overflow counts as a panic (debug profile). Sizes are those of
spdmlib/etc/config.json.

## Not modelled
* the AEAD, DHE, HMAC and HKDF adapters of spdmlib/src/crypto/spdm_ring beyond their interface and their length
  checks; spdmlib_crypto_mbedtls; external/ring, external/webpki;
* `time`, watchdog and heartbeat timers (callbacks without effect on the context); `sys_time`;
* the device I/O implementations, the emulators under test/, the fuzz targets;
* the TDISP requester (tdisp/src/tdisp_requester); the tdisp crate is outside the workspace and does not compile at
  this commit, so `Tdisp.v` follows its text;
* zeroisation of secrets (bytes_mut_scrubbed.rs), logging;
* an application callback is assumed not to reach into the context (it cannot in Rust: it has no reference to it).

## Trusted base
* Coq 8.16.1's kernel (with its `vm_compute` evaluation machine, used in examples and refutations).
* Axioms: `Print Assumptions` says **"Closed under the global context"** for every theorem named in
  MANIFEST.json; each `Prop*.v` prints it. No axiom is declared, none of the standard library is used.
  (Listing the whole environment names some `Coq.ssr.ssrunder` module axioms of the Coq distribution; no file here
  imports ssreflect and no theorem depends on them.)
* The translation from Rust to Gallina, by hand, with citations. It was checked by running the modelled requester
  against the modelled responder (`ExPair.v`: version to end-session), by round-trip and refinement theorems that tie
  the two ends together (C30, C32, C35, C49, C59, C74, C75, C81), and by seeding bugs into the model
  (`seeded/LOG.jsonl`) to see that the theorems notice.
* The premises on the primitives named above, where a theorem states them.

## Disagreements between the code and what a user expects
Proved as `_refuted`: C52 (own 1.1 opaque blobs not understood), C53 (AES-128-GCM sessions unusable), C55 (rejected
exchanges get no reply), C56 (application data can establish or end a session), C57 (digests of several slots), C58
(certificate format check panics), C60 (session slots leak), C61 (handshake in the clear never completes), C62
(forged FINISH_RSP accepted for a leaked slot), C63 and C64 (requester takes algorithms and a version that were not
offered), C65 (certificate retrieval that never ends), C66-C68 (TDISP nonce, report, reply), C69-C71 (plain-transcript
build), C72 and C73 (encapsulated retrieval), C78-C80 (transcript after an ERROR, block count, unsigned CHALLENGE_AUTH)@@MORE@@.

Noticed while modelling, without a theorem of their own: `SpdmConnectionAuthenticated` and `AfterCertificate` have one
value; `SPDM_STATUS_INVALID_PARAMETER` and `INVALID_STATE_LOCAL` are one status; GET_CAPABILITIES is accepted at a
version that was not offered; a responder-chosen `ct_exponent` of 64 or more panics the requester; an application reply
shorter than two bytes panics the responder; the requester's vendor request resets its context while the responder's does
not; challenge responses are not checked for slot and chain hash; a PSK session whose data keys cannot be derived stays
handshaking; `slot_id` and the handshake-transcript flag are not reset by a teardown; responder key-update failures
are ignored; the default build cannot sign or verify at SPDM 1.0/1.1; at SPDM 1.0 the ends disagree on the requester's
capabilities; `encap_context.req_slot_id` is never set.

## Seeded bugs
`seeded/LOG.jsonl` holds one line per mutation of the model: the definition, the edit, the claim it breaks, the
files and lemmas that failed, and (key `tightened`) the theorem added when nothing failed.
