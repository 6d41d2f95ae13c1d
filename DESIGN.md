# A Rocq model of cisco/libest

This directory holds a machine-checked model of the C library in `/repo/src/est`
and theorems about it.  `properties.jsonl` lists the properties in English,
`MANIFEST.json` says which theorem proves which property, `seeded/LOG.jsonl`
records the mutation experiments used to test the theorems.

## Layout (rocq/theories)

* `Base.v` - bytes, C strings, the outcome type with an explicit `UB` case, list lemmas.
* `Model/*.v` - the model: total Gallina functions, one per C function, each with a
  comment citing file and lines and naming every simplification.  No proofs.
* `Spec/*.v` - small specifications, written without using the model's helpers.
* `Proofs/*.v` - lemmas, invariants, refinements.
* `Properties/*.v` - the theorems to read.  Each is one `Theorem ... exact`, followed by
  `Print Assumptions` and by `Example`s showing that its hypotheses are met.

## Modelling conventions

* A C byte is a `Z` in 0..255 (`bytes := list Z`).  A buffer is a list whose length is
  its allocation; a C string stored in a buffer is the prefix before the first 0.
* Undefined behaviour (out-of-bounds access, NULL dereference) is a distinct outcome `UB`,
  never a default value.  Memory-safety theorems say the outcome is not `UB`.
* C integers are `Z`; wrap-around or truncation is written out where the code relies on it.
* Code outside the repository (OpenSSL, uriparser, libcoap, the application's callbacks)
  is a parameter: a function argument, a record field or an oracle, universally quantified
  in the theorems.  Where a theorem needs an external function to obey its documented
  contract, the contract is a visible hypothesis of the theorem or the external function
  is given as a definition from its standard (e.g. RFC 4648 for base64).
* A property that is false of the code is stated in full, and its negation is proved
  by exhibiting an input: theorem suffix `_refuted`.  The strongest true weakening is then
  proved next to it.  A property proved only in part has suffix `_partial`.
* Loops are structural recursions or use fuel; running out of fuel is a distinct outcome,
  excluded by theorem.


## Plan, property by property

The notes in `MANIFEST.json` say, for each property marked partial, what is missing or
which theorem refutes the full claim.

| id | model (file under Model/) | method |
|----|-------|--------|
| C01 | `get_request_len`, `read_request` over byte lists and read sizes (HttpServer) | induction on the stream; the framing decision is stable under more input, so a connection does not depend on segmentation |
| C02 | `skip_quoted`, `parse_http_message`, `parse_http_headers` over a buffer with a cursor (HttpServer) | cursor invariant (never `UB`); exact parse of every rendered request |
| C03 | `remove_double_dots_and_double_slashes` (HttpServer) | induction; relational normal form, uniqueness, idempotence |
| C04 | `url_decode` (HttpServer) | round trip with a percent-encoder; length bound |
| C05 | `process_new_connection` length logic with a `strtoll` model (HttpServer) | case analysis against a decimal-number specification |
| C06 | discard arithmetic of `process_new_connection` (HttpServer) | equation on byte lists for every EST layer and following stream |
| C07 | `should_keep_alive` (HttpServer) | equivalence with a decision table |
| C08 | `get_header`, `mg_strcasecmp` (HttpServer) | equivalence with first match up to case |
| C09 | `est_parse_operation`, `est_strcasecmp_s`, both builds (Uri) | iff for the build without uriparser; refutations for the other |
| C10 | `est_parse_path_seg`, `est_store_path_segment` (Uri) | iff, for every conforming URI parser |
| C11 | `est_http_request` dispatch (Server) | case analysis; refutation (method compared by prefix) |
| C12, C52 | `est_send_http_error`, the request handlers, the client's status map (EstErr, Server, ClientHttp) | total tables; composition of server and client |
| C13, C14, C17 | `est_enroll_auth`, `check_for_TLS_cert_auth`, the handlers (Server) | soundness of the gate for every oracle; lifted to all requests of a connection; refutation for C14 |
| C15, C16, C58 | `est_tls_uid_auth`, `est_check_cmcRA`, attribute enforcement (Server, CsrAttrs) | call-trace soundness and completeness; refutations |
| C18, C19, C59 | the setters of server, proxy and client as an operation type with a step function (Config) | invariant over operation lists; frame theorem; last-accepted-call theorem; refutations |
| C20 | manufacturer table and header building (AuthHdr, Server) | invariant over registrations; refutation (fifth entry) |
| C21-C24 | client header writer, server header parser (AuthHdr) | round trips for every conforming base64 filter and hash; safety; refutations |
| C25, C26 | `est_base64_*` with an RFC 4648 codec as contract (Codec) | round trip; exact bound; refutations |
| C27, C51 | `est_hex_to_str`, `est_get_tls_uid` (Codec) | refinement, injectivity, agreement of the two sides |
| C28, C29 | DER helpers (CsrAttrs) | refinement to a DER grammar; refutations |
| C30, C31, C36 | client response parsing (ClientHttp) | soundness and completeness of success; safety; refutations |
| C32, C34, C35, C65, C66 | client context with a server and a TLS library as oracles (Client) | invariants over histories of API calls; refutations |
| C33 | `hostmatch`, `cert_hostcheck`, `verifyhost` (Host) | soundness and completeness against a label-wise specification |
| C37 | response headers to boundary string, multipart parser state machine and its callback, `est_io_get_keygen_response` (Multipart) | round trip for every well-formed body; loop invariant for arbitrary bodies; refutations |
| C38, C39 | jsmn, voucher parser (Jsmn, Voucher) | token invariants; iff for RFC 8366 vouchers; refutations |
| C40 | CBOR writers (Coap) | decode of encode, size equality |
| C41, C42, C44, C62-C64 | CoAP handlers, block reassembly, request table, option check (Coap) | one-step case analysis; invariants over message histories, lifted by isolation of peers; refutations |
| C43 | DTLS retransmission time (Coap) | induction on the number of retransmissions |
| C45 | proxy's table of client contexts (Proxy) | invariant over schedules of threads; refutations |
| C46, C67 | `est_proxy_http_request` and its handlers, over the client model (Relay) | course-of-a-request relation, then what is asked upstream and passed back; refutations |
| C47-C49 | event trace, user id, body read (Server) | refutations and the true part |
| C50 | every function that releases a secret (Wipe) | contents of each freed block, for every secret; refutations |
| C53-C55, C57 | `est_http_request` (Server) | trace theorems for every oracle |
| C56 | `est_http_request` (Server) | never `UB` outside the listed exceptions; refutations |
| C60 | `est_client_brski_get_voucher` (Voucher) | bound on the number of requests for every sequence of answers |
| C61 | challenge parsing of the client (ClientHttp) | exact reading of rendered challenges; refutations |
| C68-C71 | the verification callbacks and SSL_CTX settings; OpenSSL's use of the callback as a loop over findings (Peer) | induction over findings, iff statements; refutations |
| C72 | `est_invoke_*_event_cb`, `est_get_subj_fld_from_cert` (Peer) | exact buffers and strings; refutations |
| C73-C75 | `tcw_connect`, `tcw_close`, `est_client_connect`, `est_client_disconnect` and the connection part of every client call, the proxy's relay and the voucher request; descriptors, TLS objects and session references as lists (Connection) | exact change of the lists for every point of failure; induction over addresses and histories; refutations |
| C76, C77 | `est_client_get_last_http_status`, `est_client_copy_retry_after` on top of the client's calls (Inquiry, Client) | status and delay as a fold over the events of any history; where the retry error can come from, through every call; refutations |
| C78 | `est_client_brski_send_voucher_status`, `est_client_brski_send_enroll_status`, `send_status`, `est_client_brski_build_status_header` on top of the client's connections (Status, Client) | the request text exactly, for every state and outcome; an unambiguous JSON grammar as specification; refutations |
| C79 | `est_client_brski_copy_cacert`, `est_client_brski_get_voucher` with its checks, on top of voucher processing (Handover, Voucher) | invariant over any history of requests and copies; refutations |
| C80 | Model/VoucherReq.v: the whole of est_client_brski_send_get_voucher up to the voucher, on the client of Model/Client.v; the PKCS #7 text of the peer certificate is a parameter whose contract (base64 in lines) is a hypothesis | run lemmas for one exchange and for both attempts; the cert buffer as zeros overwritten by the text; reading the body by an explicit JSON grammar, and a scanner that rejects raw control characters in strings for the refutation |
| C81 | Model/Wire.v: push, mg_write and the header/body sequence of the answers, with the results of SSL_write one by one | induction over the results with the invariant wire = first octets of the reply; contract of SSL_write (takes no more than given) as hypothesis `taken` |
| C82 | Model/Wire.v: wait_until_socket_is_readable, pull, mg_read with the results of poll, SSL_pending, SSL_read one by one; unsigned 32-bit time | invariant total = 250 * rounds over silent prefixes, case analysis of the first other round; induction over attempts for bodies |
| C83 | Model/Server.v (brski_voucher_req, brski_status, est_brski_auth, est_http_request) | symbolic execution of the event monad, reusing the reply lemmas of C52/C53 |
| C84 | est_http_request and its handlers (Model/Server.v) composed with est_io_get_response (Model/ClientHttp.v) and est_io_get_keygen_response (Model/Multipart.v) | the octets of every answer are determined from the handlers, then shown to be responses the client's parser takes apart again |
| C85 | Model/Client.v's request writers against Model/HttpServer.v's connection loop, Model/Uri.v and Model/AuthHdr.v | the written text is shown to be the rendering of a list of headers (Spec/Http.v); C06_cut gives the request served; percent decoding and path normalisation leave a plain URI as it is |
| C86 | Model/Client.v: the certificate calls, their retry loop and est_get_tls_uid | each attempt is shown to send at most one request, made with the password of its own connection; the loop's second attempt keeps the flags |
| C87 | Model/VoucherReq.v's and Model/Status.v's request writers against Model/HttpServer.v and Model/Uri.v | as C85: the text is the rendering of a list of headers; C06_cut gives the request served |
| C88 | Client.v, HttpServer.v, Server.v and ClientHttp.v, composed: the octets the client writes are what the server's connection loop reads, and the octets it writes are what the client reads | composition of C85 (the server reads the request the client means), C57 (it is served), C16 (the CA sees the client's request) and C84 (the client reads the answer) |
| C89 | Client.v, VoucherReq.v, Status.v, HttpServer.v, Server.v and ClientHttp.v, composed as for C88 | composition of C85 and C87 (the server reads the request the client means), C83 (the application is called) and C84 (the client reads the answer) |
| C90 | Model/Client.v (est_client_set_uid_pw, est_client_set_auth, est_client_set_auth_cred_cb, perform) and the server's reading (Model/HttpServer.v, Model/AuthHdr.v) | Invariant over histories: every other call keeps the identity; composed with C85_login |
| C91 | Model/SafeC.v: blocks with explicit undefined behaviour; the C library's functions by the C standard | Induction over the loops |
| C92 | Model/TrustStore.v: est_load_trusted_certs, ossl_init_cert_store, ossl_init_cert_store_from_raw, and the checks of the three init functions | induction over the entries of the file; the spec's `contains` speaks of the entries only |
| C93 | Model/CaCerts.v: est_add_certs_from_BIO, est_get_certs_pkcs7, est_load_ca_certs, est_server_handle_cacerts for both transports, est_destroy | induction over the file and over the history |
| C94 | Model/Server.v with the CoAP transport (est_enroll_auth, handle_eca, est_handle_simple_enroll) | Case analysis of all runs of the authentication, then of the events of the enrollment handler. |

## Trusted base

* Coq 8.16.1's kernel, run by `coqc`; `coqchk` re-checks the compiled files.
* `Print Assumptions` stands under every theorem of `Properties/`.  Every one of them
  prints "Closed under the global context": no axiom is used, neither of the standard
  library nor any other.  Only the standard library is imported.
* The transcription of the C code into the model, definition by definition, as cited in
  the comments.  No part of it is generated and none of it was run against the C code.
* The specifications in `Spec/`.

External code appears in the model only as parameters: OpenSSL (hashes, base64 filter,
X.509, TLS sessions and reads), libcoap (messages and sessions), uriparser, libcurl, the
resolver and sockets, and the application's callbacks.  Memory allocation succeeds unless a
definition's comment says otherwise.  Threads appear only in C45, as schedules of atomic
steps.  The example programs, the Java wrapper and the build system are not modelled.

### C functions named in the model

For each source file, the functions the model defines or quotes (the model file in
brackets).  A function in the list is either a Gallina function of the same name or is
cited in the comment of the definition that models it.

* `est.c`: `est_add_certs_from_BIO` (CaCerts), `est_get_certs_pkcs7` (CaCerts), `est_load_ca_certs` (CaCerts), `est_load_trusted_certs` (TrustStore), `est_destroy` (Wipe), `est_base64_str_analyze` (Codec), `est_base64_decode` (Codec), `est_base64_encode` (Codec), `est_get_tls_uid` (Codec), `est_hex_to_str` (Codec), `est_c2i_ASN1_OBJECT` (CsrAttrs), `est_asn1_sanity_test` (CsrAttrs), `est_is_challengePassword_present` (CsrAttrs), `est_asn1_parse_attributes` (CsrAttrs), `est_add_challengePassword` (CsrAttrs), `est_X509_REQ_sign` (Server), `cleanse_auth_credentials` (Wipe), `est_parse_operation` (Uri), `est_parse_uri` (Uri), `est_parse_path_seg` (Uri), `est_store_path_segment` (Uri), `est_strcasecmp_s` (Uri), `est_strcspn` (HttpServer), `est_strspn` (HttpServer), `skip_quoted` (HttpServer), `skip` (HttpServer).
* `est_server.c`: `est_send_http_error` (Server), `est_server_send_http_retry_after` (Server), `est_handle_cacerts` (Server), `est_server_handle_cacerts` (Server), `est_server_generate_auth_digest` (AuthHdr), `est_create_ah` (AuthHdr), `est_destroy_ah` (Wipe), `check_for_TLS_cert_auth` (Server), `est_enroll_auth` (Server), `est_brski_auth` (Server), `est_check_cmcRA` (Server), `est_tls_uid_auth` (Server), `est_server_check_csr` (Server), `est_server_csr_asn1_parse` (CsrAttrs), `est_server_build_csr_oid_list` (CsrAttrs), `est_server_all_csrattrs_present` (CsrAttrs), `est_handle_simple_enroll` (Server), `est_handle_server_keygen` (Server), `est_handle_csr_attrs` (Server), `est_brski_handle_voucher_req` (Wire), `est_http_request` (Server), `est_server_start` (Server), `est_server_init` (Config), `est_server_set_auth_mode` (Config), `est_server_enable_enhanced_cert_auth` (Config), `est_server_init_csrattrs` (CsrAttrs), `est_invoke_enroll_get_subjs` (Peer), `est_invoke_enroll_get_ip_port` (Peer), `est_invoke_enroll_req_event_cb` (Peer), `est_invoke_enroll_auth_result_event_cb` (Server), `est_invoke_endpoint_req_event_cb` (Peer).
* `est_server_http.c`: `pthread_self` (Proxy), `lowercase` (HttpServer), `mg_strncasecmp` (HttpServer), `mg_strcasecmp` (HttpServer), `get_header` (HttpServer), `should_keep_alive` (HttpServer), `suggest_connection_header` (Server), `mg_send_http_error` (Server), `push` (Wire), `wait_until_socket_is_readable` (Wire), `pull` (HttpServer), `mg_read` (HttpServer), `mg_write` (Wire), `mg_printf` (Server), `url_decode` (HttpServer), `get_request_len` (HttpServer), `remove_double_dots_and_double_slashes` (HttpServer), `mg_parse_auth_hdr_basic` (AuthHdr), `mg_parse_auth_hdr_digest` (AuthHdr), `mg_parse_auth_hdr_token` (AuthHdr), `mg_parse_auth_header` (AuthHdr), `mg_send_authorization_request` (Server), `parse_http_headers` (HttpServer), `is_valid_http_method` (HttpServer), `parse_http_message` (HttpServer), `parse_http_request` (HttpServer), `read_request` (HttpServer), `est_mg_handler` (HttpServer), `handle_request` (HttpServer), `set_ssl_option` (Peer), `is_valid_uri` (HttpServer), `process_new_connection` (HttpServer), `mg_start` (HttpServer), `est_send_csrattr_data` (Server).
* `est_server_coap.c`: `est_coap_check_option` (Coap), `coap_bsearch_compare` (Coap), `get_coap_req` (Coap), `remove_coap_req` (Coap), `reinit_coap_req` (Coap), `est_coap_init_req_array` (Coap), `makeCborBytestring` (Coap), `writeCborBytestring` (Coap), `est_coap_dtls_timer_callback` (Coap), `est_coap_event_handler` (Coap), `est_server_set_dtls_session_max` (Config), `est_server_coap_init_start` (Config).
* `est_client.c`: `populate_x509_request` (Client), `est_generate_pkcs10` (Client), `est_client_cacert_verify_cb` (Peer), `est_client_remove_crls` (Client), `b64_decode_cacerts` (Client), `create_PKCS7` (Voucher), `PKCS7_to_stack` (Client), `verify_cacert_resp` (Client), `cert_verify_cb` (Peer), `est_client_init_ssl_ctx` (Peer), `est_client_generate_auth_digest` (AuthHdr), `est_client_retrieve_credentials` (AuthHdr), `est_client_add_auth_hdr` (AuthHdr), `est_client_build_cacerts_header` (Client), `est_client_build_csr_header` (Client), `est_client_send_csrattrs_request` (Client), `est_client_build_enroll_header` (Client), `est_client_build_reenroll_header` (Client), `est_client_build_server_keygen_header` (Client), `est_client_send_enroll_request_internal` (Wipe), `est_client_send_enroll_request` (Client), `est_client_get_pkey_from_buf` (Wipe), `est_client_verify_key_and_cert` (Client), `est_client_enroll_req` (Client), `est_client_enroll_pkcs10` (Client), `est_client_Curl_raw_toupper` (Host), `est_client_Curl_raw_equal` (Host), `est_client_Curl_raw_nequal` (Host), `est_client_hostmatch` (Host), `est_client_cert_hostcheck` (Host), `est_client_verifyhost` (Host), `est_client_check_fqdn` (Host), `est_client_connect` (Connection), `est_client_disconnect` (Connection), `est_client_send_cacerts_request` (Client), `est_client_set_uid_pw` (Client), `est_client_enroll_internal` (Client), `est_client_server_keygen_enroll` (Client), `est_client_enroll` (Client), `est_client_provision_cert` (Client), `est_client_reenroll` (Client), `est_client_enroll_csr_internal` (Client), `est_client_enroll_csr` (Client), `est_client_server_keygen_enroll_csr` (Client), `est_client_copy_enrolled_cert` (Client), `est_client_copy_server_generated_key` (Client), `est_client_get_cacerts` (Client), `est_client_copy_cacerts` (Client), `est_client_get_csrattrs` (Client), `est_client_set_auth` (Client), `est_client_set_auth_cred_cb` (Client), `est_client_enable_basic_auth_hint` (Client), `est_client_init` (Client), `est_client_set_server` (Client), `est_client_copy_retry_after` (Inquiry), `est_client_force_pop` (Client), `est_client_unforce_pop` (Client), `est_client_set_read_timeout` (Proxy), `est_client_get_last_http_status` (Inquiry), `est_client_set_brski_mode` (Peer), `est_client_brski_build_voucherreq_header` (VoucherReq), `est_client_brski_send_voucher_request` (VoucherReq), `verify_voucher` (Voucher), `jsoneq` (Voucher), `retrieve_token_from_voucher` (Voucher), `brski_parse_voucher` (Voucher), `ossl_add_certs_from_BIO` (VoucherReq), `ossl_get_certs_pkcs7` (VoucherReq), `est_brski_get_server_cert` (VoucherReq), `est_brski_build_voucher_req` (VoucherReq), `est_client_brski_send_get_voucher` (Voucher), `est_client_brski_get_voucher` (Voucher), `est_client_brski_copy_cacert` (Handover), `est_client_brski_build_status_header` (Status), `send_status` (Status), `est_client_brski_send_voucher_status` (Status), `est_client_brski_send_enroll_status` (Status).
* `est_client_http.c`: `HTNextField` (ClientHttp), `est_strcasecmp_s` (Uri), `est_io_parse_auth_tokens` (ClientHttp), `parse_http_headers` (HttpServer), `parse_single_header` (Multipart), `read_header_name` (Multipart), `read_header_value` (Multipart), `part_data_cb` (Multipart), `parse_remaining_multipart_payload` (Multipart), `validate_boundary_string` (Multipart), `sanitize_boundary` (Multipart), `parse_and_split_keygen_rsp` (Multipart), `est_io_parse_response_status_code` (ClientHttp), `est_io_parse_http_auth_request` (ClientHttp), `est_io_parse_http_retry_after_resp` (ClientHttp), `est_io_check_http_hdrs` (ClientHttp), `est_ssl_read` (ClientHttp), `est_io_read_raw` (ClientHttp), `est_io_get_response_internal` (Wipe), `est_io_get_response` (ClientHttp).
* `est_client_proxy.c`: `fd_is_valid` (Connection), `tcw_direct_close` (Connection), `tcw_direct_connect` (Connection), `tcw_connect` (Connection), `tcw_close` (Connection).
* `est_proxy.c`: `bsearch_compare` (Proxy), `get_client_ctx` (Proxy), `proxy_cleanup` (Proxy), `est_proxy_propagate_pkcs7` (Relay), `est_proxy_propagate_keygen_rsp` (Wipe), `est_proxy_send_enroll_request` (Connection), `est_proxy_send_keygen_request` (Connection), `est_proxy_store_path_segment` (Uri), `est_proxy_set_path_segment` (Relay), `est_proxy_handle_simple_enroll` (Relay), `est_proxy_handle_server_keygen` (Wipe), `est_proxy_handle_cacerts` (Relay), `est_proxy_handle_csr_attrs` (Relay), `est_proxy_http_request` (Relay), `est_proxy_init` (Proxy), `est_proxy_set_server` (Relay).
* `est_enhcd_cert_auth.c`: `est_load_enhcd_cert_auth_manufacturer` (Config), `est_enhcd_cert_auth_get_mfg` (Server), `perform_enhanced_cert_auth_csr_check` (Server), `build_enhanced_cert_auth_header` (Server).
* `est_ossl_util.c`: `est_get_subj_fld_from_cert` (Peer), `ossl_verify_cb` (Peer), `ossl_init_cert_store_from_raw` (TrustStore), `ossl_init_cert_store` (TrustStore), `est_convert_p7b64_to_pem` (Client).
* `jsmn.c`: `jsmn_alloc_token` (Jsmn), `jsmn_fill_token` (Jsmn), `jsmn_parse_primitive` (Jsmn), `jsmn_parse_string` (Jsmn), `jsmn_parse` (Jsmn), `jsmn_init` (Jsmn).
* `multipart_parser.c`: `multipart_parser_init` (Multipart), `multipart_parser_set_hdr_name` (Multipart), `multipart_parser_set_hdr_value` (Multipart), `multipart_reset_hdrs` (Multipart), `multipart_get_data_ct` (Multipart), `multipart_get_data_cte` (Multipart), `multipart_set_key_data` (Multipart), `multipart_set_cert_data` (Multipart), `multipart_parser_both_key_and_cert_populated` (Multipart), `multipart_parser_execute` (Multipart).
* `safe_str_stub.c`: `strcmp_s` (SafeC), `strcasecmp_s` (SafeC), `strcat_s` (SafeC), `strisdigit_s` (ClientHttp), `strcspn_s` (SafeC), `strspn_s` (SafeC), `strncat_s` (SafeC), `strcpy_s` (SafeC), `strncpy_s` (SafeC), `strnlen_s` (Status), `strstr_s` (SafeC), `strtok_s` (SafeC).
* `safe_mem_stub.c`: `memzero_s` (SafeC), `memcpy_s` (SafeC), `memcmp_s` (SafeC), `memmove_s` (SafeC), `memset_s` (SafeC).

### C functions not modelled

* `est.c`: logging, backtrace and version functions, `est_read_x509_request`, `est_load_key`, `est_set_ex_data`, `est_get_ex_data`, `est_enable_crl` (thin calls of OpenSSL).
* `est_server.c`: the setters appear as operations of `Config.v` under their own constructors; `est_server_parse_csr`, `est_server_add_oid_to_list`, `est_server_free_csr_oid_list` are part of the CSR oracle; `est_brski_handle_voucher_status` and `est_brski_handle_enroll_status` are one definition, `brski_status` of `Server.v`; the `est_invoke_*` functions appear as events.
* `est_server_http.c`: printf helpers, logging, certificate loading, `free_context`, `mg_stop`, socket waiting.
* `est_server_coap.c`: resource registration, libcoap callbacks for PKI and SNI, logging, request timers.
* `est_client.c`: SRP setup and `est_client_check_x509` (an oracle of the client model).
* `est_client_http.c`: the date parser (`parsedate` and its helpers), compiled only with `RETRY_AFTER_DELAY_TIME_SUPPORT`.
* `est_client_proxy.c`: the libcurl path.
* `est_proxy.c`: start, stop and the setters (the setters are operations of `Config.v`), `est_proxy_retrieve_cacerts`.
* `est_enhcd_cert_auth.c`: list allocation; lookups in X.509 names (oracles).
* `est_ossl_util.c`: error printing.
* `multipart_parser.c`: accessors of the parser structure.
* `safe_str_stub.c`: The test for overlap in `strncpy_s`.
