-Q theories Verif
theories/Base.v
theories/Model/AuthHdr.v
theories/Model/CLib.v
theories/Model/CaCerts.v
theories/Model/Client.v
theories/Model/ClientHttp.v
theories/Model/Coap.v
theories/Model/Codec.v
theories/Model/Config.v
theories/Model/Connection.v
theories/Model/CsrAttrs.v
theories/Model/EstErr.v
theories/Model/Handover.v
theories/Model/Host.v
theories/Model/HttpServer.v
theories/Model/Inquiry.v
theories/Model/Jsmn.v
theories/Model/Multipart.v
theories/Model/Peer.v
theories/Model/Proxy.v
theories/Model/Relay.v
theories/Model/SafeC.v
theories/Model/Server.v
theories/Model/Status.v
theories/Model/TrustStore.v
theories/Model/Uri.v
theories/Model/Voucher.v
theories/Model/VoucherReq.v
theories/Model/Wipe.v
theories/Model/Wire.v
theories/Proofs/Answers.v
theories/Proofs/AuthDigest.v
theories/Proofs/AuthHdr.v
theories/Proofs/BrskiRequests.v
theories/Proofs/ClientCalls.v
theories/Proofs/ClientChallenge.v
theories/Proofs/ClientHeaders.v
theories/Proofs/ClientHistory.v
theories/Proofs/ClientHonest.v
theories/Proofs/ClientHttp.v
theories/Proofs/ClientMany.v
theories/Proofs/ClientModes.v
theories/Proofs/ClientRender.v
theories/Proofs/ClientRounds.v
theories/Proofs/ClientServer.v
theories/Proofs/ClientShelf.v
theories/Proofs/CoapBlocks.v
theories/Proofs/CoapCbor.v
theories/Proofs/CoapClaims.v
theories/Proofs/CoapDeliver.v
theories/Proofs/CoapRun.v
theories/Proofs/CoapSafe.v
theories/Proofs/CoapServe.v
theories/Proofs/CoapTable.v
theories/Proofs/Codec.v
theories/Proofs/Config.v
theories/Proofs/Connection.v
theories/Proofs/Credentials.v
theories/Proofs/CsrAttrs.v
theories/Proofs/Der.v
theories/Proofs/EstErr.v
theories/Proofs/Handover.v
theories/Proofs/Host.v
theories/Proofs/HttpConn.v
theories/Proofs/HttpParse.v
theories/Proofs/HttpRender.v
theories/Proofs/HttpUri.v
theories/Proofs/Inquiry.v
theories/Proofs/Jsmn.v
theories/Proofs/JsmnSafe.v
theories/Proofs/MultipartDelimiter.v
theories/Proofs/MultipartHeaders.v
theories/Proofs/MultipartResponse.v
theories/Proofs/MultipartRun.v
theories/Proofs/MultipartSafe.v
theories/Proofs/MultipartSound.v
theories/Proofs/Peer.v
theories/Proofs/Possession.v
theories/Proofs/Proxy.v
theories/Proofs/RelayAnswer.v
theories/Proofs/RelayClaims.v
theories/Proofs/RelayCourse.v
theories/Proofs/RelayFetch.v
theories/Proofs/RelayIssue.v
theories/Proofs/RelayOutcome.v
theories/Proofs/RelayReply.v
theories/Proofs/RelayRequest.v
theories/Proofs/RelayResult.v
theories/Proofs/Requests.v
theories/Proofs/SafeC.v
theories/Proofs/ServerAuth.v
theories/Proofs/ServerBrski.v
theories/Proofs/ServerCA.v
theories/Proofs/ServerClaims.v
theories/Proofs/ServerConn.v
theories/Proofs/ServerEnroll.v
theories/Proofs/ServerProps.v
theories/Proofs/ServerReply.v
theories/Proofs/ServerRequest.v
theories/Proofs/ServerResponse.v
theories/Proofs/ServerSafe.v
theories/Proofs/ServerTrace.v
theories/Proofs/Status.v
theories/Proofs/TrustStore.v
theories/Proofs/Uri.v
theories/Proofs/Voucher.v
theories/Proofs/VoucherReq.v
theories/Proofs/Wipe.v
theories/Proofs/Wire.v
theories/Properties/Answers.v
theories/Properties/Auth.v
theories/Properties/BrskiRequests.v
theories/Properties/CaCerts.v
theories/Properties/Client.v
theories/Properties/ClientAuth.v
theories/Properties/ClientHttp.v
theories/Properties/ClientRuns.v
theories/Properties/Coap.v
theories/Properties/CoapAuth.v
theories/Properties/Codec.v
theories/Properties/Config.v
theories/Properties/Connection.v
theories/Properties/Credentials.v
theories/Properties/CsrAttrs.v
theories/Properties/Handover.v
theories/Properties/Host.v
theories/Properties/Http.v
theories/Properties/Inquiry.v
theories/Properties/Jsmn.v
theories/Properties/Multipart.v
theories/Properties/Peer.v
theories/Properties/Possession.v
theories/Properties/Proxy.v
theories/Properties/Registrar.v
theories/Properties/Relay.v
theories/Properties/RelayRuns.v
theories/Properties/Requests.v
theories/Properties/RoundTrip.v
theories/Properties/SafeC.v
theories/Properties/Server.v
theories/Properties/Status.v
theories/Properties/TrustStore.v
theories/Properties/Uri.v
theories/Properties/Voucher.v
theories/Properties/VoucherReq.v
theories/Properties/Wipe.v
theories/Properties/Wire.v
theories/Spec/Auth.v
theories/Spec/Base64.v
theories/Spec/CaCerts.v
theories/Spec/Cbor.v
theories/Spec/Challenge.v
theories/Spec/Client.v
theories/Spec/ClientCalls.v
theories/Spec/Coap.v
theories/Spec/CoapHistory.v
theories/Spec/Config.v
theories/Spec/Connection.v
theories/Spec/Credentials.v
theories/Spec/Der.v
theories/Spec/Handover.v
theories/Spec/Host.v
theories/Spec/Http.v
theories/Spec/HttpConn.v
theories/Spec/Inquiry.v
theories/Spec/Json.v
theories/Spec/Multipart.v
theories/Spec/Peer.v
theories/Spec/Possession.v
theories/Spec/Proxy.v
theories/Spec/Registrar.v
theories/Spec/Relay.v
theories/Spec/Requests.v
theories/Spec/SafeC.v
theories/Spec/Server.v
theories/Spec/Status.v
theories/Spec/TrustStore.v
theories/Spec/Uri.v
theories/Spec/UriPath.v
theories/Spec/Voucher.v
theories/Spec/VoucherReq.v
theories/Spec/Wipe.v
theories/Spec/Wire.v
