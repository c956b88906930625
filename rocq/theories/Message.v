(** Model of spdmlib/src/message/mod.rs: the message header, the payload enum and
    its encode / read dispatch.  No proofs here. *)
From Verif Require Import Bytes Codec Parse Algo MsgConn MsgAuth MsgSession MsgOther.
Local Open Scope N_scope.

(** SpdmRequestResponseCode — message/mod.rs:54-100 *)
Definition RC_DIGESTS : N := 0x01.
Definition RC_CERTIFICATE : N := 0x02.
Definition RC_CHALLENGE_AUTH : N := 0x03.
Definition RC_VERSION : N := 0x04.
Definition RC_MEASUREMENTS : N := 0x60.
Definition RC_CAPABILITIES : N := 0x61.
Definition RC_ALGORITHMS : N := 0x63.
Definition RC_KEY_EXCHANGE_RSP : N := 0x64.
Definition RC_FINISH_RSP : N := 0x65.
Definition RC_PSK_EXCHANGE_RSP : N := 0x66.
Definition RC_PSK_FINISH_RSP : N := 0x67.
Definition RC_HEARTBEAT_ACK : N := 0x68.
Definition RC_KEY_UPDATE_ACK : N := 0x69.
Definition RC_ENCAP_REQUEST : N := 0x6A.
Definition RC_ENCAP_RESPONSE_ACK : N := 0x6B.
Definition RC_END_SESSION_ACK : N := 0x6C.
Definition RC_VENDOR_RSP : N := 0x7E.
Definition RC_ERROR : N := 0x7F.
Definition RC_GET_DIGESTS : N := 0x81.
Definition RC_GET_CERTIFICATE : N := 0x82.
Definition RC_CHALLENGE : N := 0x83.
Definition RC_GET_VERSION : N := 0x84.
Definition RC_GET_MEASUREMENTS : N := 0xE0.
Definition RC_GET_CAPABILITIES : N := 0xE1.
Definition RC_NEGOTIATE_ALGORITHMS : N := 0xE3.
Definition RC_KEY_EXCHANGE : N := 0xE4.
Definition RC_FINISH : N := 0xE5.
Definition RC_PSK_EXCHANGE : N := 0xE6.
Definition RC_PSK_FINISH : N := 0xE7.
Definition RC_HEARTBEAT : N := 0xE8.
Definition RC_KEY_UPDATE : N := 0xE9.
Definition RC_GET_ENCAP : N := 0xEA.
Definition RC_DELIVER_ENCAP : N := 0xEB.
Definition RC_END_SESSION : N := 0xEC.
Definition RC_VENDOR_REQ : N := 0xFE.
Definition RC_RESPOND_IF_READY : N := 0xFF.

(** SpdmMessageHeader — message/mod.rs:107-129 *)
Record header := mkHeader { h_version : N; h_code : N }.
Definition enc_header (h : header) : enc := x_u8 (h_version h) ++ x_u8 (h_code h).
Definition dec_header : dec header := (v <- d_u8 ;; c <- d_u8 ;; dret (mkHeader v c))%dec.

(** SpdmMessagePayload — message/mod.rs:184-242.  The four encapsulated-request
    variants exist only with the mut-auth feature; they are included. *)
Inductive payload :=
| PGeneral (p1 p2 : N)
| PGetVersion
| PVersion (p : version_rsp)
| PGetCapabilities (p : capabilities)
| PCapabilities (p : capabilities)
| PNegoAlgs (p : nego_algs)
| PAlgs (p : algs_rsp)
| PGetDigests
| PDigests (p : digests_rsp)
| PGetCert (p : get_cert)
| PCert (p : cert_rsp)
| PChallenge (p : challenge)
| PChallengeAuth (p : challenge_auth)
| PGetMeas (p : get_meas)
| PMeas (p : meas_rsp)
| PKeyEx (p : key_ex)
| PKeyExRsp (p : key_ex_rsp)
| PFinish (p : finish)
| PFinishRsp (v : vbuf)
| PPskEx (p : psk_ex)
| PPskExRsp (p : psk_ex_rsp)
| PPskFinish (v : vbuf)
| PPskFinishRsp
| PHeartbeat
| PHeartbeatAck
| PKeyUpdate (p : key_update)
| PKeyUpdateAck (p : key_update)
| PEndSession (a : N)
| PEndSessionAck
| PGetEncap
| PEncapReq (id : N)
| PDeliverEncap (id : N)
| PEncapAck (p : encap_ack)
| PError (p : error_rsp)
| PVendorReq (p : vendor_msg)
| PVendorRsp (p : vendor_msg).

(** spdm_encode of the payload — message/mod.rs:431-560 *)
Definition enc_payload (c : cctx) (p : payload) : enc :=
  match p with
  | PGeneral _ _ => enc_empty  (* mod.rs:152-161 writes two zeros *)
  | PGetVersion => enc_get_version
  | PVersion p => enc_version_rsp p
  | PGetCapabilities p => enc_get_capabilities c p
  | PCapabilities p => enc_capabilities c p
  | PNegoAlgs p => enc_nego_algs c p
  | PAlgs p => enc_algs_rsp c p
  | PGetDigests => enc_empty
  | PDigests p => enc_digests_rsp c p
  | PGetCert p => enc_get_cert p
  | PCert p => enc_cert_rsp p
  | PChallenge p => enc_challenge p
  | PChallengeAuth p => enc_challenge_auth c p
  | PGetMeas p => enc_get_meas c p
  | PMeas p => enc_meas_rsp c p
  | PKeyEx p => enc_key_ex c p
  | PKeyExRsp p => enc_key_ex_rsp c p
  | PFinish p => enc_finish c p
  | PFinishRsp v => enc_finish_rsp c v
  | PPskEx p => enc_psk_ex p
  | PPskExRsp p => enc_psk_ex_rsp c p
  | PPskFinish v => enc_psk_finish c v
  | PPskFinishRsp => enc_empty
  | PHeartbeat => enc_empty
  | PHeartbeatAck => enc_empty
  | PKeyUpdate p => enc_key_update p
  | PKeyUpdateAck p => enc_key_update p
  | PEndSession a => enc_end_session a
  | PEndSessionAck => enc_empty
  | PGetEncap => enc_empty
  | PEncapReq i => enc_encap_id i
  | PDeliverEncap i => enc_encap_id i
  | PEncapAck p => enc_encap_ack c p
  | PError p => enc_error p
  | PVendorReq p => enc_vendor p
  | PVendorRsp p => enc_vendor p
  end.

(** SpdmMessage — message/mod.rs:172-176; spdm_encode — 420-562 *)
Record message := mkMsg { m_header : header; m_payload : payload }.
Definition enc_message (c : cctx) (m : message) : enc :=
  enc_header (m_header m) ++ enc_payload c (m_payload m).

Definition dmap {A B} (f : A -> B) (d : dec A) : dec B := (a <- d ;; dret (f a))%dec.

(** the dispatch of read_with_detailed_error — message/mod.rs:251-414 *)
Definition dec_payload (c : cctx) (code : N) : dec payload :=
  if code =? RC_VERSION then dmap PVersion dec_version_rsp
  else if code =? RC_GET_VERSION then dmap (fun _ => PGetVersion) dec_get_version
  else if code =? RC_CAPABILITIES then dmap PCapabilities (dec_capabilities c)
  else if code =? RC_GET_CAPABILITIES then dmap PGetCapabilities (dec_get_capabilities c)
  else if code =? RC_ALGORITHMS then dmap PAlgs (dec_algs_rsp c)
  else if code =? RC_NEGOTIATE_ALGORITHMS then dmap PNegoAlgs (dec_nego_algs c)
  else if code =? RC_DIGESTS then dmap PDigests (dec_digests_rsp c)
  else if code =? RC_GET_DIGESTS then dmap (fun _ => PGetDigests) dec_empty
  else if code =? RC_CERTIFICATE then dmap PCert dec_cert_rsp
  else if code =? RC_GET_CERTIFICATE then dmap PGetCert dec_get_cert
  else if code =? RC_CHALLENGE_AUTH then dmap PChallengeAuth (dec_challenge_auth c)
  else if code =? RC_CHALLENGE then dmap PChallenge (dec_challenge c)
  else if code =? RC_MEASUREMENTS then dmap PMeas (dec_meas_rsp c)
  else if code =? RC_GET_MEASUREMENTS then dmap PGetMeas (dec_get_meas c)
  else if code =? RC_KEY_EXCHANGE_RSP then dmap PKeyExRsp (dec_key_ex_rsp c)
  else if code =? RC_KEY_EXCHANGE then dmap PKeyEx (dec_key_ex c)
  else if code =? RC_FINISH_RSP then dmap PFinishRsp (dec_finish_rsp c)
  else if code =? RC_FINISH then dmap PFinish (dec_finish c)
  else if code =? RC_PSK_EXCHANGE_RSP then dmap PPskExRsp (dec_psk_ex_rsp c)
  else if code =? RC_PSK_EXCHANGE then dmap PPskEx (dec_psk_ex c)
  else if code =? RC_PSK_FINISH_RSP then dmap (fun _ => PPskFinishRsp) dec_empty
  else if code =? RC_PSK_FINISH then dmap PPskFinish (dec_psk_finish c)
  else if code =? RC_HEARTBEAT_ACK then dmap (fun _ => PHeartbeatAck) dec_empty
  else if code =? RC_HEARTBEAT then dmap (fun _ => PHeartbeat) dec_empty
  else if code =? RC_KEY_UPDATE_ACK then dmap PKeyUpdateAck dec_key_update
  else if code =? RC_KEY_UPDATE then dmap PKeyUpdate dec_key_update
  else if code =? RC_END_SESSION_ACK then dmap (fun _ => PEndSessionAck) dec_empty
  else if code =? RC_END_SESSION then dmap PEndSession dec_end_session
  else if code =? RC_ERROR then dmap PError dec_error
  else dnone.

(** SpdmMessage::read / read_with_detailed_error — message/mod.rs:244-418, 563-... *)
Definition dec_message (c : cctx) : dec message :=
  (h <- dec_header ;; p <- dec_payload c (h_code h) ;; dret (mkMsg h p))%dec.
