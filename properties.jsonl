{"id": "C01", "title": "Request framing does not depend on how TLS chunks arrive", "statement": "The server decides where an HTTP request header ends by scanning the bytes received so far. Once a prefix of the stream has been accepted as a complete header (of n bytes) or rejected as malformed, receiving more bytes never changes that decision, and a complete header always ends with an empty line (LF LF or LF CR LF).", "quantifier": "every byte stream and every way of splitting it into network reads", "why_tests_cant": "The number of splits is exponential in the stream length; tests only exercise a handful of chunkings.", "anchors": ["src/est/est_server_http.c: get_request_len, read_request"]}
{"id": "C02", "title": "Request-header parsing stays inside the receive buffer", "statement": "Parsing a received header block never reads or writes outside the buffer given to it, records at most 64 headers, and every method, URI, version, header name and header value it reports is a contiguous piece of the received bytes.", "quantifier": "every NUL-terminated received buffer", "why_tests_cant": "Absence of an out-of-bounds access has to hold for all inputs, including adversarial ones that no test enumerates.", "anchors": ["src/est/est_server_http.c: parse_http_headers, parse_http_message", "src/est/est.c: skip_quoted, skip, est_strcspn, est_strspn"]}
{"id": "C03", "title": "URI normalisation removes path-traversal sequences", "statement": "After the server has normalised a request URI, the URI contains no '//' , no '/\\\\' and no dot-dot component directly after a slash, it is never longer than what was received, and normalising again changes nothing.", "quantifier": "every URI string", "why_tests_cant": "Overlapping patterns such as '/....//' give unboundedly many cases; a test suite can only sample them.", "anchors": ["src/est/est_server_http.c: remove_double_dots_and_double_slashes"]}
{"id": "C04", "title": "Percent-decoding is total, bounded and inverts percent-encoding", "statement": "Percent-decoding a URI never writes past the destination, always NUL-terminates it, never makes the text longer, and decoding the percent-encoding of any byte string gives the byte string back.", "quantifier": "every byte string and every destination size", "why_tests_cant": "The inverse law is over all strings and the bounds over all (string, size) pairs.", "anchors": ["src/est/est_server_http.c: url_decode"]}
{"id": "C05", "title": "No request body above the limit or with a bad length reaches an EST handler", "statement": "A request whose Content-Length is above 8192, negative, or missing on a POST is answered with an HTTP error and no EST operation is run for it; every request that is dispatched has a body length between 0 and 8192.", "quantifier": "every Content-Length header value (any text), every method and URI", "why_tests_cant": "The value is an arbitrary string parsed with C integer conversions; boundary and wrap-around cases are unbounded.", "anchors": ["src/est/est_server_http.c: process_new_connection, handle_request, est_mg_handler", "src/est/est_locl.h: EST_MAX_CONTENT_LEN"]}
{"id": "C06", "title": "Pipelined requests on a kept-alive connection are cut at the right byte", "statement": "When a request is complete in the buffer, exactly its header and body are consumed: what remains in the buffer for the next request is exactly the bytes that followed, in order.", "quantifier": "every request, body length and every amount of already buffered following data", "why_tests_cant": "A wrong discard by one byte only shows for particular buffer fill levels; all of them must be right.", "anchors": ["src/est/est_server_http.c: process_new_connection"]}
{"id": "C07", "title": "Connections are closed after a retry or an error response", "statement": "After answering with status 202 or any status of 400 or above, or when the client asks for it, the server does not read another request from the connection; otherwise HTTP/1.1 requests without a Connection header keep it open and HTTP/1.0 ones close it.", "quantifier": "every status code, HTTP version and Connection header value", "why_tests_cant": "The decision table is over arbitrary header strings.", "anchors": ["src/est/est_server_http.c: should_keep_alive, process_new_connection"]}
{"id": "C08", "title": "Header lookup is case-insensitive and returns the first match", "statement": "Looking a header up by name returns the value of the first header with that name, ignoring ASCII case, and nothing when no header has that name.", "quantifier": "every header list and every name", "why_tests_cant": "Must hold for all lists and names.", "anchors": ["src/est/est_server_http.c: get_header, mg_strcasecmp, mg_strncasecmp"]}
{"id": "C09", "title": "An EST operation is selected only by its own name", "statement": "A URI selects an operation only if its operation component is the name of that operation (ignoring case), and every operation name selects its operation.", "quantifier": "every operation string", "why_tests_cant": "Quantifies over all strings; the interesting ones (empty, prefixes, extensions) are easily missed.", "anchors": ["src/est/est.c: est_parse_operation, est_parse_uri, est_strcasecmp_s"]}
{"id": "C10", "title": "A CA path segment can never be confused with an operation", "statement": "A path segment accepted by the library is a single non-empty URI segment that is not the name of an EST operation, and a context stores exactly the accepted segment.", "quantifier": "every segment string", "why_tests_cant": "All strings, including percent-encodings and separators.", "anchors": ["src/est/est.c: est_parse_path_seg, est_store_path_segment", "src/est/est_client.c: est_client_set_server", "src/est/est_proxy.c: est_proxy_store_path_segment"]}
{"id": "C11", "title": "An endpoint is served only for its HTTP method", "statement": "cacerts and csrattrs are only answered for GET and the enrollment operations only for POST; with any other method the operation is not run and the client gets an error.", "quantifier": "every method string and every operation", "why_tests_cant": "Method strings are attacker-chosen and unbounded.", "anchors": ["src/est/est_server.c: est_http_request", "src/est/est_server_http.c: is_valid_http_method", "src/est/est_proxy.c: est_proxy_http_request"]}
{"id": "C12", "title": "Every failure is reported with the documented HTTP status", "statement": "Each library error produced while serving a request is sent as the documented status (202 with Retry-After for retry, 204, 400, 401, 404, 423, 500, 502, 504) and a 200 response is only produced on success; the client maps each of those statuses back to a matching library error.", "quantifier": "every error code and every response status line", "why_tests_cant": "Totality of the two tables and their agreement is over the whole code space.", "anchors": ["src/est/est_server.c: est_send_http_error", "src/est/est_client_http.c: est_io_parse_response_status_code, est_io_get_response_internal"]}
{"id": "C13", "title": "No certificate request reaches the CA without authentication", "statement": "The CA callback (enroll, re-enroll, server keygen) is only invoked for a client that was authenticated: by a verified TLS certificate, an SRP session, or HTTP credentials approved by the application's callback.", "quantifier": "every server configuration, TLS session state, HTTP authentication header and application callback behaviour", "why_tests_cant": "The configuration space (transport, certificate state, SRP, HTTP auth mode, enhanced auth, callbacks) is a product no test covers, and callbacks are arbitrary functions.", "anchors": ["src/est/est_server.c: est_enroll_auth, check_for_TLS_cert_auth, est_handle_simple_enroll, est_handle_server_keygen"]}
{"id": "C14", "title": "Required HTTP authentication cannot be skipped", "statement": "When the server requires HTTP authentication and has an authentication callback, a client whose credentials were not approved by that callback is not enrolled, whatever certificate it has.", "quantifier": "every request type and every Authorization header", "why_tests_cant": "Malformed headers are an infinite set; the property must hold for all of them.", "anchors": ["src/est/est_server.c: est_enroll_auth"]}
{"id": "C15", "title": "Proof of possession binds the CSR to the TLS session", "statement": "When proof of possession is enabled, or the CSR carries a challenge password, the CA callback is only invoked if the challenge password equals the TLS session's unique identifier, or the client is a registration authority.", "quantifier": "every CSR, session identifier and configuration", "why_tests_cant": "Quantifies over all challenge-password strings and session ids.", "anchors": ["src/est/est_server.c: est_tls_uid_auth, est_check_cmcRA, est_handle_simple_enroll, est_handle_server_keygen"]}
{"id": "C16", "title": "The CA only sees well-formed, self-signed CSRs that carry the required attributes", "statement": "The CA callback is invoked only with a CSR that parsed, whose signature verified against its own key and, when attribute enforcement is on, that contains every attribute the server advertises.", "quantifier": "every request body, attribute list and CSR", "why_tests_cant": "All bodies and attribute lists.", "anchors": ["src/est/est_server.c: est_handle_simple_enroll, est_server_parse_csr, est_server_check_csr, est_server_all_csrattrs_present"]}
{"id": "C17", "title": "A certificate that failed TLS verification never authenticates a client", "statement": "A client that presented a certificate which failed verification (other than for a missing CRL) is refused even if it also offers other credentials.", "quantifier": "every verification result and every other credential", "why_tests_cant": "All result codes and credential combinations.", "anchors": ["src/est/est_server.c: check_for_TLS_cert_auth, est_enroll_auth, est_brski_auth", "src/est/est_ossl_util.c: ossl_verify_cb"]}
{"id": "C18", "title": "Configuration limits hold after any sequence of configuration calls", "statement": "Whatever sequence of server configuration calls an application makes, with whatever arguments, the retry period stays within 60..172800 s, the BRSKI retry period within 1..70 s, the read timeout within 1..3600 s, the DTLS handshake timeout is default or 2..60, the DTLS MTU default or 256..1152, the number of DTLS sessions within 2..128, and authentication modes are valid ones.", "quantifier": "every finite sequence of configuration calls and arguments", "why_tests_cant": "An invariant over all histories.", "anchors": ["src/est/est_server.c: est_server_set_retry_period, est_server_set_auth_mode, est_server_set_read_timeout, est_server_set_brski_retry_period", "src/est/est_server_coap.c: est_server_set_dtls_handshake_timeout, est_server_set_dtls_handshake_mtu, est_server_set_dtls_session_max"]}
{"id": "C19", "title": "A rejected configuration call changes nothing", "statement": "A configuration call that returns an error leaves the observable configuration as it was.", "quantifier": "every configuration call, argument and prior configuration", "why_tests_cant": "All states and arguments.", "anchors": ["src/est/est_server.c: est_server_enable_enhanced_cert_auth, est_server_init_csrattrs and the est_server_set_* family", "src/est/est_client.c: est_client_set_server, est_client_set_auth"]}
{"id": "C20", "title": "Enhanced certificate authentication honours at most four manufacturers and only checks against them", "statement": "Manufacturers are kept in order of registration, never more than four; enhanced certificate authentication gives the application the attribute of the manufacturer whose trust anchors verified the client, or the local-PKI attribute if none did, and rejects a CSR that does not carry the client's subject field when that check is on.", "quantifier": "every sequence of registrations and every client certificate and CSR", "why_tests_cant": "Histories of registrations and all certificate contents.", "anchors": ["src/est/est_enhcd_cert_auth.c: est_enhcd_cert_get_next_mfg_info_ind, est_load_enhcd_cert_auth_manufacturer, est_enhcd_cert_auth_get_mfg, perform_enhanced_cert_auth_csr_check, build_enhanced_cert_auth_header"]}
{"id": "C21", "title": "Basic credentials survive the trip from client to server", "statement": "The user name and password a client application supplies for HTTP Basic authentication are exactly what the server application's authentication callback receives, provided the user name is not empty and contains no colon; the header the client sends is accepted as well-formed.", "quantifier": "every user name and password within the API limits", "why_tests_cant": "All strings, including empty ones and ones with special characters.", "anchors": ["src/est/est_client.c: est_client_add_auth_hdr", "src/est/est_server_http.c: mg_parse_auth_hdr_basic, mg_parse_auth_header"]}
{"id": "C22", "title": "Digest responses computed by client and server agree", "statement": "For the same user, password, realm, nonce and URI the digest value the client sends equals the one the server computes from the parsed header, for any hash function, so that valid credentials are accepted.", "quantifier": "every user, password, realm, nonces, URI and every hash function", "why_tests_cant": "All strings and hash functions.", "anchors": ["src/est/est_client.c: est_client_generate_auth_digest", "src/est/est_server.c: est_server_generate_auth_digest", "src/est/est_server_http.c: mg_parse_auth_hdr_digest"]}
{"id": "C23", "title": "Bearer tokens survive the trip from client to server", "statement": "A token supplied by the client application (within the size limit) is exactly what the server application's callback receives.", "quantifier": "every token", "why_tests_cant": "All strings up to the limit.", "anchors": ["src/est/est_client.c: est_client_add_auth_hdr", "src/est/est_server_http.c: mg_parse_auth_hdr_token"]}
{"id": "C24", "title": "Parsing an Authorization header is memory safe", "statement": "Whatever Authorization header a client sends, the server's parsing of it stays within its buffers.", "quantifier": "every header value", "why_tests_cant": "All header values of any length.", "anchors": ["src/est/est_server_http.c: mg_parse_auth_hdr_basic, mg_parse_auth_hdr_digest, mg_parse_auth_hdr_token, mg_parse_auth_header"]}
{"id": "C25", "title": "Base64 decoding inverts encoding", "statement": "Decoding what the library encoded (single-line or multi-line) returns the original bytes, and decoding never produces more bytes than the caller's buffer holds.", "quantifier": "every byte string and buffer size", "why_tests_cant": "All strings and sizes.", "anchors": ["src/est/est.c: est_base64_encode, est_base64_decode, est_base64_str_analyze"]}
{"id": "C26", "title": "Base64 encoding never writes beyond the destination", "statement": "Encoding with a destination size either fails with 0 or writes, including the terminating NUL, no more than that many bytes.", "quantifier": "every input and destination size", "why_tests_cant": "All (input length, size) pairs.", "anchors": ["src/est/est.c: est_base64_encode"]}
{"id": "C27", "title": "Hex rendering of digests is exact", "statement": "The hexadecimal rendering of n bytes is the 2n-character upper/lower-case hex string of those bytes followed by a NUL, writes exactly 2n+1 bytes, and distinct inputs of the same length give distinct strings.", "quantifier": "every byte string", "why_tests_cant": "All byte strings.", "anchors": ["src/est/est.c: est_hex_to_str"]}
{"id": "C28", "title": "Adding proof-of-possession to the CSR attributes keeps all other attributes", "statement": "When the server adds the challengePassword attribute to the configured CSR attributes, the result is a well-formed attribute list consisting of the original attributes followed by challengePassword, with a correct length header.", "quantifier": "every attribute list accepted by the library", "why_tests_cant": "All list contents and every length-encoding boundary.", "anchors": ["src/est/est.c: est_add_challengePassword, est_asn1_sanity_test, est_is_challengePassword_present, est_asn1_parse_attributes", "src/est/est_server.c: est_server_init_csrattrs, est_handle_csr_attrs"]}
{"id": "C29", "title": "Only well-formed CSR attribute lists are accepted", "statement": "The library accepts a CSR attribute list only if it is base64 of a DER sequence of the allowed shapes with consistent lengths, within the size limits, and checking never reads beyond the given data.", "quantifier": "every attribute string", "why_tests_cant": "All byte strings and nesting depths.", "anchors": ["src/est/est.c: est_asn1_sanity_test, est_asn1_parse_attributes", "src/est/est_server.c: est_server_init_csrattrs"]}
{"id": "C30", "title": "A client response body is delivered only if its length matches its header", "statement": "When a client operation reports success, the delivered body has exactly the announced Content-Length, is at most 2000000 bytes, and carried the content type of the requested operation; otherwise an error and no body are reported.", "quantifier": "every server response", "why_tests_cant": "All responses, including adversarial headers.", "anchors": ["src/est/est_client_http.c: est_io_get_response_internal, est_io_check_http_hdrs, parse_http_headers"]}
{"id": "C31", "title": "Retry-After values are sane", "statement": "After a retry response the delay reported to the application is the decimal value the server sent and fits a non-negative int; otherwise the operation reports an invalid retry value and the delay is zero. A server's configured retry period is what its client reads.", "quantifier": "every header list and every retry period", "why_tests_cant": "All header strings.", "anchors": ["src/est/est_client_http.c: est_io_parse_http_retry_after_resp", "src/est/est_client.c: est_client_copy_retry_after", "src/est/est_server.c: est_server_send_http_retry_after"]}
{"id": "C32", "title": "A client operation makes at most two attempts and never sends credentials unasked", "statement": "An enrollment call connects at most twice; credentials are put into a request only if the server has challenged this client for them (or the application opted in), a second 401 ends the attempt with an authentication failure, and the next call starts afresh.", "quantifier": "every sequence of server responses and every sequence of client calls", "why_tests_cant": "Histories of responses and calls.", "anchors": ["src/est/est_client.c: est_client_enroll_internal, est_client_reenroll, est_client_enroll_csr_internal, est_client_add_auth_hdr", "src/est/est_client_http.c: est_io_get_response_internal, est_io_parse_http_auth_request"]}
{"id": "C33", "title": "Host name verification accepts only names covered by the certificate", "statement": "A server certificate is accepted for a host only if one of its DNS names equals the host ignoring case, or is a wildcard name whose '*' stands inside the left-most label and whose remaining labels (at least two) equal the host's; IP hosts never match wildcards; the common name is consulted only if the certificate has no DNS or IP alternative name.", "quantifier": "every host name and certificate name list", "why_tests_cant": "All pairs of strings and lists.", "anchors": ["src/est/est_client.c: est_client_hostmatch, est_client_cert_hostcheck, est_client_verifyhost, est_client_Curl_raw_equal, est_client_Curl_raw_nequal"]}
{"id": "C34", "title": "Enrollment results are delivered once and in full", "statement": "The certificate (and server-generated key) obtained by a successful enrollment can be copied out exactly once, byte for byte, and belongs to the latest successful operation; a failed operation does not make a new certificate available.", "quantifier": "every sequence of client calls and server responses", "why_tests_cant": "Histories.", "anchors": ["src/est/est_client.c: est_client_enroll_req, est_client_copy_enrolled_cert, est_client_copy_server_generated_key"]}
{"id": "C35", "title": "Downloaded trust anchors are only exposed after verification", "statement": "CA certificates can be copied out only if the last download verified, and after copying them the client refuses all operations until it is re-initialised.", "quantifier": "every sequence of client calls and server responses", "why_tests_cant": "Histories.", "anchors": ["src/est/est_client.c: est_client_get_cacerts, est_client_send_cacerts_request, verify_cacert_resp, est_client_copy_cacerts, est_client_provision_cert"]}
{"id": "C36", "title": "Client parsing of a response header block is memory safe", "statement": "Parsing any response stays within the received buffer and records at most 16 headers.", "quantifier": "every response", "why_tests_cant": "All inputs.", "anchors": ["src/est/est_client_http.c: parse_http_headers, HTNextField, est_io_parse_auth_tokens"]}
{"id": "C37", "title": "Server-generated key responses are split correctly and safely", "statement": "For a multipart key-generation response the client returns exactly the key and certificate parts sent by the server, and parsing stays inside its buffers for every response and boundary string.", "quantifier": "every response body and boundary", "why_tests_cant": "All inputs, including boundary-like data inside parts.", "anchors": ["src/est/multipart_parser.c", "src/est/est_client_http.c: parse_and_split_keygen_rsp, part_data_cb, validate_boundary_string, sanitize_boundary"]}
{"id": "C38", "title": "A BRSKI voucher is honoured only if it is signed, fresh and for this device", "statement": "Voucher processing succeeds only if the voucher's signature verified, the nonce it carries (if any) is the nonce sent, and its serial number is exactly the device's.", "quantifier": "every voucher document, nonce and serial number", "why_tests_cant": "All documents.", "anchors": ["src/est/est_client.c: brski_parse_voucher, verify_voucher, retrieve_token_from_voucher"]}
{"id": "C39", "title": "JSON tokenisation is memory safe and properly nested", "statement": "Tokenising any document never writes beyond the token array or reads beyond the document; on success every token lies within the document, containers are closed, and tokens are either nested or disjoint.", "quantifier": "every document and token-array size", "why_tests_cant": "All documents.", "anchors": ["src/est/jsmn.c: jsmn_parse, jsmn_parse_string, jsmn_parse_primitive, jsmn_alloc_token"]}
{"id": "C40", "title": "CoAP server-keygen payloads are well-formed CBOR", "statement": "The payload sent for server key generation is a CBOR array of four items (content-format, key bytes, content-format, certificate bytes) that decodes to exactly the key and certificate, and its announced size is its actual size.", "quantifier": "every key and certificate", "why_tests_cant": "All lengths, including every CBOR length-encoding boundary.", "anchors": ["src/est/est_server_coap.c: makeCborBytestring, writeCborBytestring, est_coap_skg_handler"]}
{"id": "C41", "title": "Block-wise CoAP uploads are reassembled exactly", "statement": "The CSR handed to enrollment is the concatenation of the blocks the client sent in order; duplicated blocks are ignored, gaps are answered with 4.08, and the upload never exceeds the reassembly buffer.", "quantifier": "every sequence of CoAP blocks", "why_tests_cant": "Histories of block messages of any length.", "anchors": ["src/est/est_server_coap.c: est_coap_sen_handler, est_coap_skg_handler"]}
{"id": "C42", "title": "CoAP request state of different peers is kept apart", "statement": "Requests from different peers never share request state; a peer finds its own state again; the number of active states never exceeds the configured session maximum and is decremented when a session closes.", "quantifier": "every interleaving of messages, connects and closes from any number of peers", "why_tests_cant": "Histories and all address/port pairs.", "anchors": ["src/est/est_server_coap.c: get_coap_req, remove_coap_req, reinit_coap_req, coap_bsearch_compare"]}
{"id": "C43", "title": "DTLS retransmission timers back off and are capped", "statement": "The k-th DTLS retransmission timeout is the configured initial timeout doubled k times, but never more than 60 seconds.", "quantifier": "every configured timeout and any number of retransmissions", "why_tests_cant": "Unbounded iteration with integer arithmetic.", "anchors": ["src/est/est_server_coap.c: est_coap_dtls_timer_callback"]}
{"id": "C44", "title": "A CoAP request is served only with the right content formats", "statement": "An enrollment over CoAP is processed only if it has exactly one Content-Format option with the PKCS#10 media type, and if an Accept option is present it is the media type the endpoint produces; errors are reported as 4.00, 4.02 or 4.06.", "quantifier": "every option list", "why_tests_cant": "All lists of options.", "anchors": ["src/est/est_server_coap.c: est_coap_check_option"]}
{"id": "C45", "title": "Each proxy thread keeps its own upstream client", "statement": "Threads of a proxy use different upstream client contexts, a thread always gets the same one back, and growing the table loses none of them.", "quantifier": "every sequence of requests from any set of threads", "why_tests_cant": "Histories with table growth.", "anchors": ["src/est/est_proxy.c: get_client_ctx, bsearch_compare, proxy_cleanup"]}
{"id": "C46", "title": "The proxy terminates and relays upstream outcomes faithfully", "statement": "For each downstream request the proxy contacts the upstream server at most twice, relays a certificate only if the upstream delivered one, and reports each upstream failure with the documented error.", "quantifier": "every sequence of upstream outcomes", "why_tests_cant": "All outcome sequences.", "anchors": ["src/est/est_proxy.c: est_proxy_handle_simple_enroll, est_proxy_handle_server_keygen, est_proxy_handle_cacerts, est_proxy_handle_csr_attrs"]}
{"id": "C47", "title": "Start and end notifications pair up", "statement": "Every endpoint request start event delivered to the application is followed by exactly one end event for the same request.", "quantifier": "every request and outcome", "why_tests_cant": "All error paths.", "anchors": ["src/est/est_server.c: est_http_request, est_invoke_endpoint_req_event_cb", "src/est/est_proxy.c: est_proxy_http_request"]}
{"id": "C48", "title": "The identity given to the CA callback belongs to the request", "statement": "The user id handed to the application with an enrollment request is the one authenticated by that request.", "quantifier": "every sequence of requests on a connection", "why_tests_cant": "Histories of kept-alive requests.", "anchors": ["src/est/est_server_http.c: reset_per_request_attributes, mg_parse_auth_header", "src/est/est_server.c: est_handle_simple_enroll"]}
{"id": "C49", "title": "Unread request bodies are never processed", "statement": "An EST operation only ever processes body bytes that were received from the client.", "quantifier": "every timing of connection loss", "why_tests_cant": "Crash/disconnect points.", "anchors": ["src/est/est_server_http.c: est_mg_handler, mg_read"]}
{"id": "C50", "title": "Credentials are wiped before memory is released", "statement": "When a request or context is torn down, stored passwords, tokens and generated private keys have been overwritten with zeros.", "quantifier": "every credential content and every order of calls", "why_tests_cant": "All contents and teardown paths.", "anchors": ["src/est/est_server.c: est_destroy_ah, est_server_set_enhcd_cert_auth_pwd, est_handle_server_keygen", "src/est/est.c: cleanse_auth_credentials, est_destroy", "src/est/est_client.c: est_client_copy_server_generated_key"]}
{"id": "C51", "title": "Client and server derive the same proof-of-possession value from a TLS session", "statement": "The value the client library puts into a CSR and the value the server library compares it with are equal for the two ends of a TLS session (full or resumed), are the base64 text of the session's first Finished message, and differ for sessions whose first Finished messages differ.", "quantifier": "every pair of Finished messages, fresh or resumed, TLS 1.2 or 1.3", "why_tests_cant": "Finished messages are 12 to 48 arbitrary bytes; distinctness over all pairs cannot be sampled.", "anchors": ["src/est/est.c: est_get_tls_uid"]}
{"id": "C52", "title": "Every request gets exactly one complete response", "statement": "For every HTTP request other than the BRSKI ones, unless the connection fails, the server sends one response: a status line, header fields and a body delimited as the header says, with the status that belongs to the outcome.", "quantifier": "every request, method, URI, body, header, TLS session, configuration with a challenge mode, application and library behaviour", "why_tests_cant": "The response is assembled on dozens of paths chosen by callbacks, OpenSSL results and earlier failures.", "anchors": ["src/est/est_server.c: est_http_request, est_send_http_error, est_handle_simple_enroll, est_handle_server_keygen"]}
{"id": "C53", "title": "A successful enrollment response is the CA's certificate", "statement": "An enrollment is answered with status 200 if and only if the CA callback returned a certificate in that request, and then the body is exactly that certificate (with the private key as multipart for server key generation).", "quantifier": "every request, callback result and TLS session", "why_tests_cant": "Requires that no path sends 200 otherwise, over all callback results.", "anchors": ["src/est/est_server.c: est_handle_simple_enroll, est_handle_server_keygen"]}
{"id": "C54", "title": "Credentials shown to the application are the client's own", "statement": "Every set of credentials the application is asked to approve comes from the Authorization header of the request being served, or, with enhanced certificate authentication, from the client's own certificate; and none are shown for a client whose certificate failed verification.", "quantifier": "every request, TLS session, configuration and manufacturer list", "why_tests_cant": "Ranges over all certificates, manufacturer lists and header texts.", "anchors": ["src/est/est_server.c: est_enroll_auth, est_brski_auth, handle_enhanced_cert_auth"]}
{"id": "C55", "title": "A request reaches the CA at most once", "statement": "Serving one request invokes at most one CA callback, once.", "quantifier": "every request and callback behaviour", "why_tests_cant": "Must hold on all paths, including error and retry paths.", "anchors": ["src/est/est_server.c: est_http_request"]}
{"id": "C56", "title": "Serving a request is memory safe", "statement": "Whatever a client sends, handling the request does not read or write outside the objects it owns.", "quantifier": "every request, CSR, certificate and TLS session", "why_tests_cant": "An attacker chooses the input.", "anchors": ["src/est/est_server.c: est_tls_uid_auth, est_http_request, est_invoke_enroll_req_event_cb"]}
{"id": "C57", "title": "An acceptable enrollment by an accepted client is served", "statement": "If the client is authenticated as the configuration asks, the CSR passes the configured checks and the CA signs it, the enrollment request gets the certificate.", "quantifier": "every such request", "why_tests_cant": "Liveness over all acceptable inputs.", "anchors": ["src/est/est_server.c: est_http_request, est_handle_simple_enroll"]}
{"id": "C58", "title": "An accepted attribute list can be satisfied", "statement": "If the server accepted a CSR attribute list at configuration time and enforcement is on, a CSR that carries all those attributes passes the attribute check.", "quantifier": "every accepted attribute list and every CSR", "why_tests_cant": "All list lengths up to the limits and all CSRs.", "anchors": ["src/est/est_server.c: est_server_init_csrattrs, est_server_all_csrattrs_present, est_server_build_csr_oid_list", "src/est/est.c: est_add_challengePassword"]}
{"id": "C59", "title": "Server settings are those of the last accepted call", "statement": "After any sequence of configuration calls each server setting has the value given by the last accepted call that sets it, or the default if there was none.", "quantifier": "every sequence of configuration calls and arguments", "why_tests_cant": "Unbounded histories of interleaved calls.", "anchors": ["src/est/est_server.c: est_server_init, est_server_set_auth_mode, est_server_set_retry_period, est_server_enable_pop", "src/est/est_server_coap.c: est_server_set_dtls_handshake_timeout, est_server_set_dtls_handshake_mtu"]}
{"id": "C60", "title": "Requesting a voucher takes bounded effort", "statement": "One call to get a BRSKI voucher sends at most four requests and pauses at most once, for at most 60 seconds, whatever the registrar answers.", "quantifier": "every sequence of registrar answers, requested delays and connection failures", "why_tests_cant": "All answer sequences and delays.", "anchors": ["src/est/est_client.c: est_client_brski_get_voucher, est_client_brski_send_get_voucher"]}
{"id": "C61", "title": "A client reads exactly the challenge the server sent", "statement": "From a 401 response with one WWW-Authenticate header the client takes the scheme (Basic, Digest or Bearer), the realm and, for Digest, the nonce that the header states, character for character, or reports that it cannot authenticate; the challenges this library's own server sends are read back exactly.", "quantifier": "every realm, nonce and scheme a challenge can state", "why_tests_cant": "All header values, including every length up to and beyond the buffers.", "anchors": ["src/est/est_client_http.c: est_io_parse_http_auth_request, est_io_parse_auth_tokens, HTNextField", "src/est/est_server.c: est_send_http_error"]}
{"id": "C62", "title": "CoAP operations need a TLS session and a client certificate", "statement": "Over CoAP an operation is carried out only for a message on a TLS session, an enrollment only if the peer presented a certificate, and it is the operation of the resource the message was sent to; otherwise the answer is 4.01 and nothing changes.", "quantifier": "every message in every server state", "why_tests_cant": "All states and messages.", "anchors": ["src/est/est_server_coap.c: est_coap_sen_handler, est_coap_skg_handler, est_coap_crts_handler, est_coap_att_handler"]}
{"id": "C63", "title": "CoAP answers report the outcome of the operation", "statement": "A failed operation is answered with the response code documented for its error and no payload; a successful one with the DER of what the operation returned, in the media type of the resource, or 5.00 if that does not fit a response.", "quantifier": "every error code and every returned text", "why_tests_cant": "All outcomes and lengths.", "anchors": ["src/est/est_server_coap.c: est_coap_sen_handler, est_coap_skg_handler, est_coap_crts_handler, est_coap_att_handler"]}
{"id": "C64", "title": "Further response blocks do not repeat the operation", "statement": "Once an operation has been answered, requests of the same peer for further blocks of the response are served from the stored response, byte for byte, without performing the operation again.", "quantifier": "every number of follow-up requests in every interleaving with other peers", "why_tests_cant": "Unbounded histories.", "anchors": ["src/est/est_server_coap.c: est_coap_sen_handler, est_coap_skg_handler, est_coap_crts_handler, est_coap_att_handler, get_coap_req"]}
{"id": "C65", "title": "Every client connection is verified with the configured trust anchors", "statement": "Whatever calls an application makes, every TLS connection the client opens is checked against the trust anchors it was initialised with; nothing a server sends changes them, and after provisioning new CA certificates the client uses the new ones.", "quantifier": "every sequence of client calls and server responses", "why_tests_cant": "Histories.", "anchors": ["src/est/est_client.c: est_client_init, est_client_init_ssl_ctx, est_client_connect, est_client_provision_cert", "src/est/est.c: est_load_trusted_certs"]}
{"id": "C66", "title": "The client talks only to the server it was last pointed at", "statement": "Every connection goes to the name and port of the latest est_client_set_server call that gave a valid name and port (also if that call refused its path segment); no redirect and no response changes them.", "quantifier": "every sequence of client calls and server responses", "why_tests_cant": "Histories.", "anchors": ["src/est/est_client.c: est_client_set_server, est_client_connect"]}
{"id": "C67", "title": "The proxy forwards only what it would accept itself, and forwards it unchanged", "statement": "The proxy sends an enrollment, re-enrollment or key generation request upstream only if the client was authenticated, used POST with content type application/pkcs10, and sent a valid CSR (bound to its TLS session where that is required); it then posts exactly that CSR to the same operation under the same path segment.", "quantifier": "every request, TLS session, proxy state and upstream behaviour", "why_tests_cant": "All requests and all states a shared proxy context can be in.", "anchors": ["src/est/est_proxy.c: est_proxy_http_request, est_proxy_handle_simple_enroll, est_proxy_handle_server_keygen", "src/est/est_client.c: est_client_send_enroll_request_internal"]}
{"id": "C68", "title": "A peer certificate OpenSSL finds fault with is not accepted", "statement": "A TLS handshake succeeds only if every fault OpenSSL reports about the peer's chain is a missing revocation list or, on a client whose application gave est_client_init a verification function, one of the faults that function is asked about and approves; without faults it succeeds. Downloaded CA certificates are verified without any tolerance.", "quantifier": "every chain, every sequence of findings, every answer of the application; client, server and CA certificate check", "why_tests_cant": "The findings come from the peer and their combinations are unbounded.", "anchors": ["src/est/est_client.c: cert_verify_cb, est_client_cacert_verify_cb, est_client_init_ssl_ctx", "src/est/est_ossl_util.c: ossl_verify_cb", "src/est/est_server_http.c: set_ssl_option"]}
{"id": "C69", "title": "The application decides about certificates that fail verification", "statement": "When the server's certificate fails verification the function given to est_client_init is called with the error, and its answer decides.", "quantifier": "every sequence of findings and answers", "why_tests_cant": "Every OpenSSL error number counts.", "anchors": ["src/est/est_client.c: est_client_init, cert_verify_cb"]}
{"id": "C70", "title": "In BRSKI mode a pledge can reach a registrar it cannot verify yet", "statement": "After est_client_set_brski_mode the client connects to a registrar whatever faults its certificate has; the certificate is judged later, with the voucher.", "quantifier": "every certificate chain", "why_tests_cant": "The chain is the peer's.", "anchors": ["src/est/est_client.c: est_client_set_brski_mode"]}
{"id": "C71", "title": "Verifying a peer's certificate is memory safe", "statement": "Whatever certificates the peer presents, verifying them stays inside the library's buffers.", "quantifier": "every chain, every subject name", "why_tests_cant": "An unauthenticated peer chooses the names.", "anchors": ["src/est/est_ossl_util.c: ossl_verify_cb, est_get_subj_fld_from_cert"]}
{"id": "C72", "title": "Events tell who the peer is", "statement": "The endpoint and enrollment event callbacks are given the subject of the peer's certificate, its address and its port, or empty values where they are not known, and never other memory.", "quantifier": "every subject, address and request", "why_tests_cant": "Lengths of names are the peer's choice.", "anchors": ["src/est/est_server.c: est_invoke_endpoint_req_event_cb, est_invoke_enroll_req_event_cb, est_invoke_enroll_rsp_event_cb, est_invoke_enroll_get_ip_port, est_invoke_enroll_get_subjs", "src/est/est_ossl_util.c: est_get_subj_fld_from_cert"]}
{"id": "C73", "title": "A client call leaves no connection behind", "statement": "When a client operation returns, with success or any failure (resolver, socket, TLS handshake, host name check, HTTP, retry with credentials), the process has exactly the open sockets and TLS objects it had before the call; so an application can issue any number of calls without running out of descriptors.", "quantifier": "every initial set of open descriptors, every resolver answer, every point of failure of the first and the second connection, every history of calls", "why_tests_cant": "The property covers every failure point of two nested connections and every history of calls; leaks do not change a single call's result and appear only after many calls.", "anchors": ["/repo/src/est/est_client.c: est_client_connect, est_client_disconnect, est_client_enroll_internal, est_client_get_cacerts, est_client_brski_send_get_voucher", "/repo/src/est/est_client_proxy.c: tcw_connect, tcw_close", "/repo/src/est/est_proxy.c: est_proxy_send_enroll_request, est_proxy_send_keygen_request"]}
{"id": "C74", "title": "Addresses are tried in order until one answers", "statement": "A client tries the addresses its resolver returns in their order, uses the first to which a TCP connection can be made, and reports a connection error exactly when none can; no descriptor of a failed attempt stays open.", "quantifier": "every list of addresses with any mix of socket failures, connect failures and successes", "why_tests_cant": "Tests reach one or two addresses; the property is about lists of any length with any pattern of failures.", "anchors": ["/repo/src/est/est_client_proxy.c: tcw_connect", "/repo/src/est/est_client.c: est_client_connect"]}
{"id": "C75", "title": "Destroying a client context gives back the TLS sessions it cached", "statement": "Whatever calls were made with a client context, est_destroy releases every TLS session reference the context took for session resumption.", "quantifier": "every history of calls and every choice by the server to resume or not", "why_tests_cant": "A test sees one server's resumption policy; the leak depends on the history of sessions negotiated.", "anchors": ["/repo/src/est/est_client.c: est_client_connect", "/repo/src/est/est.c: est_destroy"]}
{"id": "C76", "title": "The last HTTP status is that of the last operation's answer", "statement": "est_client_get_last_http_status returns the HTTP status of the server's answer to the application's most recent operation: the status itself if the client knows it, -1 for any other answer, 0 if there was none. Asking changes nothing.", "quantifier": "every history of client calls on a fresh context, every behaviour of the servers and the network", "why_tests_cant": "A test looks after one successful exchange. What is returned after failures in between, retries and answers cut off depends on the whole history.", "anchors": ["/repo/src/est/est_client.c: est_client_get_last_http_status", "/repo/src/est/est_client_http.c: est_io_get_response_internal", "/repo/src/est/est_client_http.c: est_io_parse_response_status_code"]}
{"id": "C77", "title": "The retry delay is the server's, and is given once", "statement": "If a client call returns EST_ERR_CA_ENROLL_RETRY, the server answered its last request with a 202 asking to come back, est_client_copy_retry_after gives exactly the number of seconds of that answer, and asking again gives zero. A delay other than zero is given only if the last operation was told to come back.", "quantifier": "every client call in every state, every answer in any fragmentation, every history of calls", "why_tests_cant": "Tests use one well-formed 202. Which of all possible answers, and of all calls before, a delay comes from cannot be enumerated.", "anchors": ["/repo/src/est/est_client.c: est_client_copy_retry_after", "/repo/src/est/est_client_http.c: est_io_parse_http_retry_after_resp"]}
{"id": "C78", "title": "Registrars read the BRSKI status that was sent", "statement": "est_client_brski_send_voucher_status and est_client_brski_send_enroll_status send, to the path for that message, a JSON object that a registrar can read in only one way: version 1, the truth of the status, exactly the reason passed and, for enrollment, the key identifier passed, in base64. Nothing is cut off or added, the announced length is that of the object, arguments out of range are refused before anything is sent, and success is reported only after the server has answered 200.", "quantifier": "Every reason and key identifier, every client context, every authentication the server asks for and every answer it gives.", "why_tests_cant": "Reasons and key identifiers are arbitrary octet strings; a test sends a few of them and cannot show that no reason changes the meaning of the message.", "anchors": ["src/est/est_client.c:est_client_brski_send_voucher_status", "src/est/est_client.c:est_client_brski_send_enroll_status", "src/est/est_client.c:send_status", "src/est/est_client.c:est_client_brski_build_status_header"]}
{"id": "C79", "title": "The CA certificate of a voucher reaches the application whole, and once", "statement": "After a voucher was requested with success, copying out the CA certificate gives the certificates that voucher pins, octet for octet and nothing else, into memory of the size the request reported; after that, and before any voucher was accepted, there is nothing to copy, and a copy that is refused leaves the application's memory alone.", "quantifier": "every history of voucher requests and copies on one context, every registrar answer, every buffer", "why_tests_cant": "Histories of calls are unbounded and what is copied depends on all earlier ones.", "anchors": ["src/est/est_client.c: est_client_brski_copy_cacert, est_client_brski_get_voucher, brski_parse_voucher", "src/est/est.h: est_client_brski_get_voucher, est_client_brski_copy_cacert"]}
{"id": "C80", "title": "A voucher request names a fresh nonce and the registrar it is sent to", "statement": "Every voucher request a pledge sends is a POST to requestvoucher whose body is a JSON voucher request with the nonce made for this call, the time, the assertion proximity, and the whole certificate of the very registrar at the other end of the connection the request is sent on; when signing is asked for the request is signed.", "quantifier": "every nonce, time, registrar certificate and sequence of registrars and answers, first and second attempts", "why_tests_cant": "Certificates have any size, and what a second attempt sends depends on the first; a test sees one pair.", "anchors": ["src/est/est_client.c: est_client_brski_send_get_voucher, est_brski_get_server_cert, est_brski_build_voucher_req, est_client_brski_build_voucherreq_header, est_client_brski_send_voucher_request"]}
{"id": "C81", "title": "A reply of the server reaches the wire in order and whole, or its failure is noticed", "statement": "However a connection accepts a reply, in pieces of whatever size, what has been sent at any time is a beginning of the reply: each octet once, in order. The call returns how much was sent, returns early only after a failed write, and if no write fails and each accepts something the whole reply is sent after at most as many writes as it has octets; the server then reports success. It should report a failure for every reply it could not send whole, and should not write for ever.", "quantifier": "all replies (header and body, up to 2^31-1 octets each) and all sequences of results of the TLS write call that never accept more than they are given", "why_tests_cant": "How a TLS layer splits writes depends on the peer's window and timing; a test sees one split, usually a single write.", "anchors": ["src/est/est_server_http.c: push, mg_write, est_send_csrattr_data", "src/est/est_server.c: est_handle_cacerts, est_handle_simple_enroll"]}
{"id": "C82", "title": "A client cannot keep a server thread waiting longer than the read timeout", "statement": "With a read timeout of t seconds, a wait for data of a client ends within 4t+1 rounds of a quarter of a second: as soon as data can be read, the connection broke or the server is told to stop, and otherwise after exactly 4t+1 silent rounds, when the connection is to be closed. Never earlier for a silent client, and data arriving in time is never reported as a timeout. Reading a body of n octets ends within n such waits and yields the first n octets sent, in order. This should hold whatever signals arrive and whatever TLS records the client sends.", "quantifier": "all timeouts 1..3600, all sequences of poll results, pending counts and stop requests, all sequences of results of the TLS read call, all body lengths", "why_tests_cant": "Timeouts depend on every interleaving of signals, records and silence over unbounded time; tests try one silent client at most.", "anchors": ["src/est/est_server_http.c: wait_until_socket_is_readable, pull, mg_read", "src/est/est_server.c: est_server_set_read_timeout"]}
{"id": "C83", "title": "A registrar answers BRSKI messages with what its application decided", "statement": "For a BRSKI voucher request the application's callback is invoked at most once, only for a POST with one of the two voucher request content types, with exactly the body received and the client's certificate; the answer is the application's voucher with status 200 and content type application/voucher+cms if it returned one, status 202 with the configured BRSKI retry period if it asked for a retry, and status 400 otherwise. If the callback is not invoked the answer is 400 or 401. Status messages are handled in the same way and an accepted one is answered with a complete 200 response. A well-formed message of a client whose identity is accepted always reaches the application.", "quantifier": "all requests, TLS sessions, configurations, application behaviours and connection states", "why_tests_cant": "The outcome depends on the combination of method, content type, authentication mode, TLS identity and application result; tests with one client never see a missing end of header because the connection is closed anyway.", "anchors": ["src/est/est_server.c: est_brski_handle_voucher_req, est_brski_handle_voucher_status, est_brski_handle_enroll_status, est_brski_auth, est_http_request"]}
{"id": "C84", "title": "A client understands the answers of a server of the same library", "statement": "When a libest server answers a request and the answer reaches a libest client, the client reports what happened at the server: exactly the certificate the CA returned, exactly the CA certificates, CSR attributes, voucher or private key supplied, the challenge's scheme, realm and nonce, the configured retry delay, or the error of the status the server chose.", "quantifier": "every configuration, application, OpenSSL behaviour, request, server outcome, and every way the answer is cut into pieces on its way", "why_tests_cant": "It relates two programs over all answers one can write and all fragmentations of them; tests sample a few successful exchanges.", "anchors": ["src/est/est_server_http.c: est_http_request, est_handle_simple_enroll, est_handle_cacerts, est_handle_csr_attrs, est_send_http_error, est_brski_handle_voucher_req", "src/est/est_client_http.c: est_io_get_response, est_io_check_http_hdrs, est_io_parse_response_status_code, est_io_parse_http_retry_after_resp", "src/est/est_client.c: parse_remaining_multipart_payload"]}
{"id": "C85", "title": "The server is asked what the client asks", "statement": "Whatever request the client writes for an operation (CA certificates, CSR attributes, enrollment, re-enrollment, key generation), a server reading these octets, cut into network reads in any way, serves exactly one request: with the method and URI of that operation (and the label the client was configured with), the client's headers in their order, the certificate request as its body with its length, and an Authorization header that is present exactly if the client was asked for credentials; the server's URI parser then finds the client's operation and label, and its header parser the client's user name and password. The connection is closed afterwards.", "quantifier": "all client states with a printable server name and label, all operations, request bodies, credentials of the lengths the interface allows, all ways of cutting the octets into reads, all request handlers and server states", "why_tests_cant": "the two sides are written separately (printf on one, a hand-written parser on the other); agreement must hold for every length and content of names, bodies and credentials and for every segmentation", "anchors": ["src/est/est_client.c: est_client_build_enroll_header, est_client_build_reenroll_header, est_client_build_server_keygen_header, est_client_build_csr_header, est_client_build_cacerts_header, est_client_add_auth_hdr, est_client_send_enroll_request_internal, est_client_send_cacerts_request, est_client_send_csrattrs_request", "src/est/est_server_http.c: process_new_connection, parse_http_request, mg_get_header, mg_parse_auth_header", "src/est/est.c: est_parse_uri"]}
{"id": "C86", "title": "Certificate requests prove possession of the connection they travel on", "statement": "Whenever a client sends a certificate request that it makes itself (enrollment, re-enrollment, key generation, from a name, a certificate or a prepared request with a private key), the request carries as its challenge password the Base64 of the identifier (tls-unique: client's Finished, or the server's if the session was resumed) of the very connection it is sent over, if the attributes last obtained from the server ask for proof of possession or the application forces it, and otherwise no challenge password. This also holds for the second request sent over a new connection after an authentication challenge. A prepared request without a private key is sent as it is.", "quantifier": "all client states, connections (resumed or not, any Finished messages), certificate calls, numbers of attempts and outcomes of the signing code", "why_tests_cant": "binding must hold on every connection of every run, including the retry after a challenge on a different connection with a different identifier; a test observes particular handshakes", "anchors": ["src/est/est_client.c: est_generate_pkcs10, est_client_enroll_cn, est_client_enroll_pkcs10, est_client_enroll_csr, est_client_reenroll, est_client_server_keygen_enroll, est_client_force_pop, est_client_unforce_pop, est_client_get_csrattrs", "src/est/est.c: est_get_tls_uid"]}
{"id": "C87", "title": "A registrar is asked what the pledge asks", "statement": "Whatever voucher request (signed or not), voucher status or enrollment status a pledge writes, a registrar reading these octets, cut into network reads in any way, serves exactly one request: a POST to the resource of that operation (with the label the pledge was configured with), the pledge's headers in their order with the content type of the message, the message as its body with its length, and an Authorization header exactly if credentials were asked for; its URI parser finds the operation (and label), and the parser of a library built without BRSKI refuses it. Digest credentials name the resource they are sent to.", "quantifier": "all client states with a printable server name and label, all messages, credentials, ways of cutting the octets into reads, request handlers and server states", "why_tests_cant": "the two sides are written separately; agreement must hold for every length and content of names, messages and credentials and for every segmentation", "anchors": ["src/est/est_client.c: est_client_brski_build_voucherreq_header, est_client_brski_send_voucher_request, est_client_brski_build_status_header, send_status", "src/est/est_server_http.c: process_new_connection, parse_http_request, mg_get_header", "src/est/est.c: est_parse_uri"]}
{"id": "C88", "title": "An accepted client gets the certificate the CA issues for its request, end to end", "statement": "When a client of this library sends an enrollment, re-enrollment or key generation request to a server of this library, the server serves exactly that request, once. If the server accepts the client (for instance because the application approves the user name and password the client was configured with) and the request passes its checks, the CA is asked for a certificate for exactly the client's certificate request, and the client's call receives exactly the certificate the CA returned. Otherwise the client learns the challenge, the retry delay or the error the server means.", "quantifier": "Every client configuration with printable server name and label, every certificate request, every split of the request and of the response into network reads, every application, every server configuration that accepts the client, every state of the application.", "why_tests_cant": "An integration test runs one client, one CA and one packetisation; the claim composes the client's writer, the server's reader, the authentication decision, the CA call, the server's writer and the client's reader for all of them.", "anchors": ["src/est/est_client.c: est_client_send_enroll_request, est_client_build_enroll_header", "src/est/est_server_http.c: process_new_connection, est_mg_handler", "src/est/est_server.c: est_http_request, est_handle_simple_enroll", "src/est/est_client_http.c: est_io_get_response"]}
{"id": "C89", "title": "CA certificates, vouchers and status reports arrive as supplied, end to end", "statement": "When a client of this library asks a server of this library for the CA certificates, it gets exactly what the server's application or configuration supplies, or the error the server means. When an accepted pledge sends a voucher request or a status report, the registrar's application is called exactly once with exactly the octets the pledge sent and the pledge's certificate, and the pledge's call yields exactly the voucher the application returned, the configured delay, or an error; a status report succeeds exactly if the application accepted it.", "quantifier": "Every client configuration with printable server name and label, every request body, every split of request and response into network reads, every application and its state, every server configuration.", "why_tests_cant": "The claim composes the client's writer, the server's reader and dispatcher, the application's decision, the server's writer and the client's reader; a test fixes one body, one decision and one packetisation.", "anchors": ["src/est/est_client.c: est_client_send_cacerts_request, est_client_brski_send_voucher_request, send_status", "src/est/est_server_http.c: process_new_connection, est_mg_handler", "src/est/est_server.c: est_http_request, est_handle_cacerts, est_brski_handle_voucher_req, est_brski_handle_voucher_status, est_brski_handle_enroll_status", "src/est/est_client_http.c: est_io_get_response"]}
{"id": "C90", "title": "A client presents the credentials it was given last, and a refused call changes none", "statement": "Setting a client's user name and password is accepted exactly if both or neither are given and each has at most 255 octets (a certificate and key that do not match are reported separately). From then on, through any sequence of other calls and their outcomes, the client uses the user name, password and credentials callback of the latest call that gave them, and these are what reaches a server that asked for Basic authentication. A call that is refused changes nothing. (The last part is false: with a password of more than 255 octets the call is refused, yet the new user name is stored beside the old password.)", "quantifier": "all sequences of calls on a client context, all user names, passwords and callbacks, all behaviours of servers and network, all ways the request's octets are cut into reads", "why_tests_cant": "The credentials in use depend on the whole history of a context; tests set credentials once and look at one request", "anchors": ["src/est/est_client.c:est_client_set_auth", "src/est/est_client.c:est_client_set_uid_pw", "src/est/est_client.c:est_client_set_auth_cred_cb"]}
{"id": "C91", "title": "The bundled bounded string functions keep their bounds", "statement": "The string and memory functions bundled with the library (used unless another implementation is configured) never touch an octet of the destination behind the given bound, leave a terminated text, compare and scan no more characters than they are told to, and report what does not fit; copying, comparing, scanning and splitting otherwise give exactly the result their description promises. (True of strncpy_s, strnlen_s, strcmp_s, strcspn_s, strspn_s, strtok_s and the memory functions. False of strcpy_s, which cuts without a terminator and without an error; of strcat_s and strncat_s, which can write behind the block; of strcasecmp_s, which compares one character too many; of strisdigit_s and strstr_s, which ignore their bounds.)", "quantifier": "all texts, blocks, bounds and lengths", "why_tests_cant": "The errors are at bounds and lengths that no test of the library reaches; the claims range over all of them", "anchors": ["safe_c_stub/src/safe_str_stub.c:strncpy_s", "safe_c_stub/src/safe_str_stub.c:strcpy_s", "safe_c_stub/src/safe_str_stub.c:strcat_s", "safe_c_stub/src/safe_str_stub.c:strtok_s", "safe_c_stub/src/safe_str_stub.c:strcasecmp_s", "safe_c_stub/src/safe_str_stub.c:strstr_s", "safe_c_stub/src/safe_mem_stub.c:memcpy_s", "safe_c_stub/src/safe_mem_stub.c:memmove_s"]}
{"id": "C92", "title": "A context trusts exactly the certificates it was given", "statement": "est_client_init, est_server_init and est_proxy_init give a context exactly when the length given for the trusted CA certificates is that of the text and the text contains a certificate; the context's trust store then holds exactly the certificates and revocation lists of the text (also when est_client_provision_cert loads new ones). No text: server and proxy are refused, a client trusts nobody. (False where OpenSSL's store does not take a certificate: the context is made all the same and can trust nobody. False for a certificate whose printed subject has 255 or more characters: the log message writes behind its block.)", "quantifier": "all blocks of memory, lengths, files and results of OpenSSL", "why_tests_cant": "It ranges over all files, mixtures of certificates, lists and keys, and lengths of names; the failures need names or certificates no test file has", "anchors": ["src/est/est.c: est_load_trusted_certs", "src/est/est_ossl_util.c: ossl_init_cert_store, ossl_init_cert_store_from_raw, est_get_subj_fld_from_cert", "src/est/est_client.c: est_client_init", "src/est/est_server.c: est_server_init", "src/est/est_proxy.c: est_proxy_init"]}
{"id": "C93", "title": "A server distributes exactly the CA certificates it was given", "statement": "The answer to a request for CA certificates is made from the certificates of the text given to est_server_init or est_proxy_init, in their order, and from nothing else in it (keys, revocation lists); a text without certificates is refused. If the application has registered a function for the request (est_set_cacerts_cb), a request gets what the function gives at that moment, otherwise what was loaded; est_destroy frees what the library allocated and nothing the application owns. (False: a text without certificates is accepted. Over CoAP the function's answer replaces what was loaded: it is still sent after the function is taken away, and est_destroy frees the application's memory.)", "quantifier": "all files, all histories of requests, registrations and answers, both transports", "why_tests_cant": "The claim is about every history; the loss shows only in a later request or when the context is destroyed", "anchors": ["src/est/est.c: est_load_ca_certs, est_get_certs_pkcs7, est_add_certs_from_BIO, est_destroy", "src/est/est_server.c: est_server_handle_cacerts, est_set_cacerts_cb"]}
{"id": "C94", "title": "Over CoAP only a verified client certificate lets a client enroll or get a key", "statement": "When the server runs EST over CoAP, an enrollment, re-enrollment or key generation is authenticated exactly if the DTLS session has a client certificate that verifies (a missing CRL is tolerated) and, if enhanced certificate authentication is enabled, the request is not empty and the application's authentication callback agreed for that certificate. SRP and user names never authenticate and nothing is written to the client while authenticating. Only then is the application asked for a key or a certificate. It is given the client's own request (for key generation, that request with the new key, signed with it), that certificate and no user name, and only for a request that has a public key, whose signature verifies and, unless the client is a registration authority, whose challenge password is bound to the session if it has one or must have one. An authenticated request without these obstacles does reach the application, once, and its answer decides the result.", "quantifier": "every session, configuration, request body, Authorization header, application callbacks (including stateful ones) and OpenSSL behaviour", "why_tests_cant": "The combination of transport, certificate verification results, enhanced certificate authentication outcomes and callback answers is unbounded, and one combination without a callback ends in a call through a null pointer; tests exercise a few of them.", "anchors": ["src/est/est_server.c: est_enroll_auth, check_for_TLS_cert_auth, handle_enhanced_cert_auth, est_handle_simple_enroll, est_handle_server_keygen", "src/est/est_server_coap.c: calls of est_handle_simple_enroll and est_handle_server_keygen"]}
