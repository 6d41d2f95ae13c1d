{
 "claims": [
  {
   "property": "C01",
   "status": "proved",
   "theorems": [
    "C01_complete",
    "C01_malformed",
    "C01_stable",
    "C01_chunks"
   ],
   "note": "Framing decision characterised; stable under more input; whole connection independent of segmentation."
  },
  {
   "property": "C02",
   "status": "proved",
   "theorems": [
    "C02_safe",
    "C02_exact"
   ],
   "note": "Safety for every buffer; exact parse of every well-formed request."
  },
  {
   "property": "C03",
   "status": "proved",
   "theorems": [
    "C03_exact",
    "C03_clean",
    "C03_uri",
    "C03_uri_any"
   ],
   "note": "Normal form is characterised relationally and uniquely."
  },
  {
   "property": "C04",
   "status": "proved",
   "theorems": [
    "C04_exact",
    "C04_roundtrip",
    "C04_bounded"
   ],
   "note": ""
  },
  {
   "property": "C05",
   "status": "proved",
   "theorems": [
    "C05_limit",
    "C05_rejected"
   ],
   "note": ""
  },
  {
   "property": "C06",
   "status": "proved",
   "theorems": [
    "C06_cut"
   ],
   "note": "For every EST layer and every following byte stream."
  },
  {
   "property": "C07",
   "status": "proved",
   "theorems": [
    "C07_closed",
    "C07_table"
   ],
   "note": ""
  },
  {
   "property": "C08",
   "status": "proved",
   "theorems": [
    "C08_found",
    "C08_absent"
   ],
   "note": ""
  },
  {
   "property": "C49",
   "status": "partial",
   "theorems": [
    "C49_refuted",
    "C49_partial"
   ],
   "note": "The full claim is false of the code (result of mg_read is ignored); the true part is proved."
  },
  {
   "property": "C25",
   "status": "proved",
   "theorems": [
    "C25_roundtrip",
    "C25_rfc",
    "C25_bound",
    "C25_safe",
    "C25_blank_refuted"
   ],
   "note": "For every behaviour of OpenSSL's base64 BIO within its stated contract; an extra theorem shows blank input reads before the string."
  },
  {
   "property": "C26",
   "status": "partial",
   "theorems": [
    "C26_refuted",
    "C26_exact_partial",
    "C26_fits_partial",
    "C26_twice_partial",
    "C26_refuse_partial"
   ],
   "note": "The claim is false (the size check is too weak); the exact condition for staying in bounds is proved."
  },
  {
   "property": "C27",
   "status": "proved",
   "theorems": [
    "C27_exact",
    "C27_room",
    "C27_injective"
   ],
   "note": ""
  },
  {
   "property": "C51",
   "status": "proved",
   "theorems": [
    "C51_agree",
    "C51_value",
    "C51_distinct"
   ],
   "note": ""
  },
  {
   "property": "C09",
   "status": "partial",
   "theorems": [
    "C09_name",
    "C09_name_refuted",
    "C09_plain",
    "C09_plain_error",
    "C09_uri",
    "C09_uri_label",
    "C09_uri_bad_label",
    "C09_uri_refuted"
   ],
   "note": "Proved exactly for the build without uriparser; the uriparser build accepts other prefixes, the empty name and reads behind the URI (refuted), its behaviour on /.well-known/est/ URIs is proved."
  },
  {
   "property": "C10",
   "status": "proved",
   "theorems": [
    "C10_set",
    "C10_store",
    "C10_store_exact",
    "C10_request"
   ],
   "note": "For every conforming URI parser."
  },
  {
   "property": "C21",
   "status": "proved",
   "theorems": [
    "C21_client",
    "C21_server",
    "C21_no_user"
   ],
   "note": "For every base64 filter within its contract; a header with an empty user name is refused (statement adjusted to non-empty names)."
  },
  {
   "property": "C22",
   "status": "partial",
   "theorems": [
    "C22_client",
    "C22_server",
    "C22_agree_partial",
    "C22_long_refuted",
    "C22_quote_refuted",
    "C22_user_refuted"
   ],
   "note": "Both computations are RFC 2617's for every hash; the whole trip is proved when user, realm, nonce and URI total at most 247 characters and need no escaping, and refuted beyond (384-byte buffer; quotes not escaped)."
  },
  {
   "property": "C23",
   "status": "proved",
   "theorems": [
    "C23_client",
    "C23_server",
    "C23_none"
   ],
   "note": ""
  },
  {
   "property": "C24",
   "status": "partial",
   "theorems": [
    "C24_refuted",
    "C24_partial",
    "C24_digest_exact_partial"
   ],
   "note": "False of the code for long Digest headers; proved safe for all other headers, with the exact meaning of short Digest headers."
  },
  {
   "property": "C11",
   "status": "partial",
   "theorems": [
    "C11_partial",
    "C11_refuted"
   ],
   "note": "False of the code as stated: the method is compared by prefix (GETX, POSTX are served). Proved for every method that does not start with the right one."
  },
  {
   "property": "C12",
   "status": "proved",
   "theorems": [
    "C12_errors",
    "C52",
    "C12_client",
    "C12_client_unknown",
    "C12_end_to_end"
   ],
   "note": "C12_errors: every error to its status; C52: a failed request is answered with the status of its error, which is never 200 (BRSKI requests excepted); the client side for every status line, and both together."
  },
  {
   "property": "C13",
   "status": "proved",
   "theorems": [
    "C13",
    "C13_connection",
    "connection_requests",
    "events_truthful"
   ],
   "note": "Per request and for every request of every connection."
  },
  {
   "property": "C14",
   "status": "partial",
   "theorems": [
    "C14_partial",
    "C14_simple",
    "C14_refuted"
   ],
   "note": "False for re-enrollment and key generation with an unreadable Authorization header; exact exception proved; full claim for simple enrollment."
  },
  {
   "property": "C15",
   "status": "partial",
   "theorems": [
    "C15_partial",
    "C15_refuted"
   ],
   "note": "False: any challenge password that begins with the session's identifier is accepted; that much is proved."
  },
  {
   "property": "C17",
   "status": "proved",
   "theorems": [
    "C17"
   ],
   "note": ""
  },
  {
   "property": "C20",
   "status": "partial",
   "theorems": [
    "C20_certificate",
    "C54",
    "C20_registered",
    "C20_fifth_refuted"
   ],
   "note": "A manufacturer's certificate authenticates as the manufacturer's user; the server holds the first four registered; a fifth is accepted and forgotten (refuted)."
  },
  {
   "property": "C18",
   "status": "proved",
   "theorems": [
    "C18",
    "C18_exact",
    "C18_sessions",
    "C18_server"
   ],
   "note": "For every history of configuration calls."
  },
  {
   "property": "C19",
   "status": "partial",
   "theorems": [
    "C19_partial",
    "C19_no_context",
    "C19_csrattrs_refuted",
    "C19_mfg_refuted",
    "C19_coap_refuted"
   ],
   "note": "Proved up to four listed exceptions, three of which are shown to be real."
  },
  {
   "property": "C59",
   "status": "proved",
   "theorems": [
    "C59"
   ],
   "note": "Fourteen settings and all callbacks."
  },
  {
   "property": "C47",
   "status": "partial",
   "theorems": [
    "C47_partial",
    "C47_refuted"
   ],
   "note": "False: failed requests have no end event. Proved: exactly one end event for successful requests, none for others."
  },
  {
   "property": "C48",
   "status": "partial",
   "theorems": [
    "C48_request_partial",
    "C48_connection_partial",
    "C48_refuted"
   ],
   "note": "False: a user id approved earlier on the same connection can be reused; that this is the only source is proved."
  },
  {
   "property": "C52",
   "status": "proved",
   "theorems": [
    "C52",
    "C52_brski_refuted",
    "C52_empty_refuted"
   ],
   "note": "BRSKI responses are excluded by the statement; they are shown to be incomplete."
  },
  {
   "property": "C53",
   "status": "proved",
   "theorems": [
    "C53"
   ],
   "note": ""
  },
  {
   "property": "C54",
   "status": "proved",
   "theorems": [
    "C54"
   ],
   "note": ""
  },
  {
   "property": "C55",
   "status": "proved",
   "theorems": [
    "C55"
   ],
   "note": ""
  },
  {
   "property": "C56",
   "status": "partial",
   "theorems": [
    "C56_partial",
    "C56_refuted",
    "event_buffer_refuted"
   ],
   "note": "False for some challenge passwords and for servers with enrollment event callbacks; every other request is proved safe, given the URI and header parsers are (C24)."
  },
  {
   "property": "C57",
   "status": "proved",
   "theorems": [
    "C57"
   ],
   "note": ""
  },
  {
   "property": "C16",
   "status": "partial",
   "theorems": [
    "C16_signed",
    "C16_partial",
    "C16_check",
    "C16_exact",
    "C16_refuted",
    "C16_overread_refuted",
    "attributes_sane",
    "add_after_parse"
   ],
   "note": "Proved up to the printed form of OIDs cut at 127 characters, which lets a different long OID pass (C16_refuted); an attribute counts as present wherever its OID occurs in the CSR."
  },
  {
   "property": "C28",
   "status": "proved",
   "theorems": [
    "C28",
    "C28_accepted",
    "C28_configured",
    "C28_size_refuted"
   ],
   "note": "C28_accepted covers every accepted list; with an indefinite-length header the new list can exceed the size limit (C28_size_refuted)."
  },
  {
   "property": "C29",
   "status": "partial",
   "theorems": [
    "C29_partial",
    "C29_complete",
    "C29_limits",
    "C29_refuted"
   ],
   "note": "False as stated: enclosing lengths are not checked and the list need not be a SEQUENCE; a text of blanks is undefined behaviour. What holds of every accepted list, and that all well-formed lists are accepted, is proved."
  },
  {
   "property": "C58",
   "status": "partial",
   "theorems": [
    "C58_partial",
    "C58_refuted"
   ],
   "note": "False for lists of 1014 to 1024 octets when challengePassword is added."
  },
  {
   "property": "C38",
   "status": "partial",
   "theorems": [
    "C38_partial",
    "C38_document",
    "C38_unsigned",
    "C38_safe_partial",
    "C38_member_refuted",
    "C38_serial_refuted",
    "C38_long_refuted",
    "C38_tokens_refuted"
   ],
   "note": "Proved in full for vouchers of the form RFC 8366 gives them; for arbitrary JSON the code takes the token after the first string \"serial-number\", wherever it stands (C38_member_refuted). Three ways to undefined behaviour are exhibited; outside them processing is proved safe."
  },
  {
   "property": "C39",
   "status": "proved",
   "theorems": [
    "C39",
    "C39_exact",
    "C39_count"
   ],
   "note": ""
  },
  {
   "property": "C60",
   "status": "proved",
   "theorems": [
    "C60"
   ],
   "note": "For every sequence of answers."
  },
  {
   "property": "C30",
   "status": "partial",
   "theorems": [
    "C30_partial",
    "C30_exact",
    "C30_refuted",
    "C30_many_refuted",
    "C30_many_body_refuted",
    "C30_too_big",
    "C30_broken",
    "C30_no_answer"
   ],
   "note": "False: Content-Length is read by atoi, so 4294967298 passes for 2 (C30_refuted); and only sixteen headers are read, so longer responses are refused with a right Content-Length, and deliver header lines as body with a matching wrong one (C30_many_refuted, C30_many_body_refuted). Proved with atoi for every response, and exactly for well-formed ones."
  },
  {
   "property": "C31",
   "status": "proved",
   "theorems": [
    "C31",
    "C31_exact",
    "C31_end_to_end"
   ],
   "note": ""
  },
  {
   "property": "C36",
   "status": "partial",
   "theorems": [
    "C36_partial",
    "C36_headers",
    "C36_refuted"
   ],
   "note": "False for a response of exactly 2000000 octets, which is read past its end; proved safe up to 1999955 octets."
  },
  {
   "property": "C40",
   "status": "proved",
   "theorems": [
    "C40",
    "C40_any"
   ],
   "note": "Also C41_partial (the whole answer)."
  },
  {
   "property": "C41",
   "status": "partial",
   "theorems": [
    "C41_partial",
    "C41_safe_partial",
    "C41_overrun_refuted",
    "C41_duplicate_refuted",
    "C41_short_refuted"
   ],
   "note": "False in three ways, each exhibited: a block at offset 16384 is written behind the buffer; a repeated block 0 restarts the upload; requests of 1, 2 or 4 bytes overflow the base64 block. Proved for every other history."
  },
  {
   "property": "C42",
   "status": "partial",
   "theorems": [
    "C42_partial",
    "C42_count",
    "C42_keys",
    "C42_keys_refuted",
    "C42_stack_refuted"
   ],
   "note": "False: port and address are concatenated without separator, so two peers can have one key (C42_keys_refuted). Proved for peers with different keys; C42_keys says when. C42_stack_refuted: one byte of the stack behind the address buffer is cleared."
  },
  {
   "property": "C43",
   "status": "proved",
   "theorems": [
    "C43"
   ],
   "note": ""
  },
  {
   "property": "C44",
   "status": "partial",
   "theorems": [
    "C44_content",
    "C44_content_exact",
    "C44_accept",
    "C44_call_partial",
    "C44_wrap_refuted",
    "C44_stored_refuted"
   ],
   "note": "Proved for option values of at most four bytes; longer ones are reduced modulo 2^32 (C44_wrap_refuted). A wrong Accept is not refused once a response is stored (C44_stored_refuted)."
  },
  {
   "property": "C62",
   "status": "proved",
   "theorems": [
    "C62",
    "C62_refused"
   ],
   "note": "For option values of at most four bytes."
  },
  {
   "property": "C63",
   "status": "proved",
   "theorems": [
    "C63",
    "C41_partial"
   ],
   "note": "The enrollments' answers are the last conjunct of C41_partial."
  },
  {
   "property": "C64",
   "status": "partial",
   "theorems": [
    "C64_partial",
    "C64_stale_refuted",
    "C64_failed_refuted"
   ],
   "note": "Proved for requests without payload after /sen and /sren. Two refutations: a later /crts on the session gets the old response; a repeated last block after a refusal repeats the operation."
  },
  {
   "property": "C61",
   "status": "partial",
   "theorems": [
    "C61_partial",
    "C61_no_scheme",
    "C61_algorithm",
    "C61_no_value",
    "C61_end_to_end",
    "C61_foreign_refuted",
    "C61_empty_refuted",
    "C61_escape_refuted",
    "C61_scheme_refuted"
   ],
   "note": "Well-formed challenges with understood parameters are read exactly up to the buffer sizes, and what the library's server sends is read back exactly; values of unknown parameters read as names, escapes, and scheme prefixes are refuted."
  },
  {
   "property": "C33",
   "status": "proved",
   "theorems": [
    "C33",
    "C33_name",
    "C33_safe",
    "C33_no_cert",
    "C33_cert",
    "C33_over_read_refuted"
   ],
   "note": "C33_over_read_refuted: an IP alternative name longer than the host's own address is compared past the address; C33_safe excludes everything else."
  },
  {
   "property": "C45",
   "status": "partial",
   "theorems": [
    "C45_partial",
    "C45_cleanup",
    "C45_two_proxies_refuted",
    "C45_destroy_refuted",
    "C45_race_refuted",
    "C45_key_refuted"
   ],
   "note": "Proved for requests served one after the other by one proxy, or by several with at most 8 threads each. False otherwise: the table size is shared by all proxies of the process, and no lock is taken."
  },
  {
   "property": "C37",
   "status": "partial",
   "theorems": [
    "C37_partial",
    "C37_server_format",
    "C37_sound",
    "C37_error",
    "C37_delimiter",
    "C37_absent_boundary_refuted",
    "C37_long_boundary_refuted",
    "C37_no_multipart_refuted",
    "C37_header_leak_refuted",
    "C37_truncated_refuted",
    "C37_hyphen_refuted",
    "C37_many_headers_refuted",
    "C37_unterminated_refuted"
   ],
   "note": "Proved for every well-formed response (exact key and certificate) and, for arbitrary bodies in which the boundary occurs and that have at most fifteen colons, that the parser stays inside its buffers and returns only content of the body.  False in general: a missing boundary, a boundary of 70 characters, a seventeenth part header and a short transfer encoding lead to invalid accesses; header leak between parts, truncated bodies and a 200 without multipart are accepted."
  },
  {
   "property": "C32",
   "status": "partial",
   "theorems": [
    "C32_connections",
    "C32_course",
    "C32_challenged",
    "C32_answered",
    "C32_second_401",
    "C32_auth_fail",
    "C32_afresh_partial",
    "C32_afresh_refuted"
   ],
   "note": "All but 'the next call starts afresh' is proved for every history. Afresh is proved after est_client_enroll and est_client_server_keygen_enroll calls that ended with a response, and refuted otherwise: after a re-enrollment whose second connection fails, the next call sends the credentials unasked, also to another server."
  },
  {
   "property": "C34",
   "status": "partial",
   "theorems": [
    "C34_copied_partial",
    "C34_available",
    "C34_key_copied_partial",
    "C34_key_available",
    "C34_failed_refuted",
    "C34_unsent_refuted"
   ],
   "note": "Proved for every history, except that a key generation that reports EST_ERR_VALIDATION makes its key and certificate available too (C34_failed_refuted). C34_unsent_refuted: a re-enrollment can report success without having sent a request."
  },
  {
   "property": "C35",
   "status": "partial",
   "theorems": [
    "C35_copied_partial",
    "C35_available",
    "C35_closed_partial",
    "C35_stale_refuted"
   ],
   "note": "What is copied out is always from the latest download that verified or failed to verify; a later download that fails otherwise leaves it (C35_stale_refuted, which also shows a negative X509_verify_cert taken for success and est_client_get_csrattrs working on the closed context). Every other operation is refused."
  },
  {
   "property": "C65",
   "status": "partial",
   "theorems": [
    "C65_anchors",
    "C65_provision_refuted"
   ],
   "note": "The anchors never change; this is also why the second half is false: est_client_provision_cert loads the new CA certificates into the context, but its TLS context keeps the old ones (C65_provision_refuted)."
  },
  {
   "property": "C66",
   "status": "proved",
   "theorems": [
    "C66_server"
   ],
   "note": "A call that refuses only the path segment has stored name and port (addressed)."
  },
  {
   "property": "C46",
   "status": "proved",
   "theorems": [
    "C46_contacts",
    "C46_second",
    "C46_fuel",
    "C46_certificate",
    "C46_delivers",
    "C46_delivers_keys",
    "C46_status",
    "C46_unknown",
    "C46_retry",
    "C46_retry_value",
    "C46_retry_keys",
    "C46_unreached",
    "C46_unwritten",
    "C46_broken",
    "C46_no_answer",
    "C46_too_big",
    "C46_cacerts",
    "C46_csrattrs",
    "C46_keys_refuted",
    "C46_challenge_refuted"
   ],
   "note": "For every request and every behaviour of the upstream server that does not lead to undefined behaviour of the HTTP client (see C30, C36, C37). C46_keys_refuted: a relayed key announces too small a Content-Length. C46_challenge_refuted: after a 401 for CSR attributes the next enrollment is not tried twice."
  },
  {
   "property": "C67",
   "status": "partial",
   "theorems": [
    "C67_partial",
    "C67_no_segment",
    "C67_segment_refuted",
    "C67_long_refuted"
   ],
   "note": "Proved for requests (or proxies) with a path segment. Without one the segment of an earlier client's request is used (C67_segment_refuted), and a CSR of more than 4096 octets, which the server side accepts, is undefined behaviour (C67_long_refuted)."
  },
  {
   "property": "C50",
   "status": "partial",
   "theorems": [
    "C50_header_partial",
    "C50_eca_partial",
    "C50_application_partial",
    "C50_generated_partial",
    "C50_coap_partial",
    "C50_copied_partial",
    "C50_proxy_partial",
    "C50_client_refuted",
    "C50_context_refuted",
    "C50_long_refuted",
    "C50_coap_refuted",
    "C50_proxy_refuted"
   ],
   "note": "The claim is false as a whole. Proved: passwords and tokens of a request and of Enhanced Certificate Authentication, application credentials within the limits, the server's, the proxy's and the copied client key are zeros when freed. Refuted: the client frees every buffer a key arrived in unwiped and loses the decoded key, est_destroy leaves the passwords in the freed context and does not free a stored key, strings over the limits leave their tail, a CoAP key that fails to decode and a proxy key that cannot be written stay in memory."
  },
  {
   "property": "C68",
   "status": "proved",
   "theorems": [
    "C68_client",
    "C68_server",
    "C68_cacerts"
   ],
   "note": "For every sequence of findings and answers. The server's part is for subjects shorter than 255 characters; longer ones are C71."
  },
  {
   "property": "C69",
   "status": "partial",
   "theorems": [
    "C69_partial",
    "C69_refuted"
   ],
   "note": "False as documented: only three errors reach the application, any other fault is refused without asking. Which are asked about, in which order, is proved."
  },
  {
   "property": "C70",
   "status": "partial",
   "theorems": [
    "C70_partial",
    "C70_refuted"
   ],
   "note": "False: the flags are complemented separately and joined, which turns all of them on. What is accepted in that mode is proved."
  },
  {
   "property": "C71",
   "status": "partial",
   "theorems": [
    "C71_partial",
    "C71_refuted"
   ],
   "note": "False for subjects of 255 or more printed characters of a certificate with a finding; C71_partial is the exact condition."
  },
  {
   "property": "C72",
   "status": "partial",
   "theorems": [
    "C72_endpoint",
    "C72_enroll_refuted",
    "C72_stack_refuted"
   ],
   "note": "Proved for endpoint events; enroll events write behind an array or report an array nothing was written to."
  },
  {
   "property": "C73",
   "status": "partial",
   "theorems": [
    "C73_operation",
    "C73_fetch",
    "C73_history",
    "C73_voucher_partial",
    "C73_proxy_partial",
    "C73_proxy_refuted",
    "C73_voucher_refuted"
   ],
   "note": "Proved for the client's operations and every history of them. False for the proxy's failed handshakes (a TLS object each) and for voucher requests failing after connecting (socket and TLS object)."
  },
  {
   "property": "C74",
   "status": "proved",
   "theorems": [
    "C74_first",
    "C74_none",
    "C74_unresolved"
   ],
   "note": "For every non-empty list of addresses; getaddrinfo never returns an empty one."
  },
  {
   "property": "C75",
   "status": "partial",
   "theorems": [
    "C75_partial",
    "C75_refuted"
   ],
   "note": "False: a session that is not resumed replaces the cached one without freeing it; n+1 calls lose n references. Proved when all connections yield the same session."
  },
  {
   "property": "C76",
   "status": "partial",
   "theorems": [
    "C76_partial",
    "C76_told_once",
    "C76_refuted"
   ],
   "note": "Proved: the status is that of the answer to the last request sent. False for operations that send no request (no connection): the earlier status stays."
  },
  {
   "property": "C77",
   "status": "partial",
   "theorems": [
    "C77_partial",
    "C77_history",
    "C77_refuted"
   ],
   "note": "Proved: after EST_ERR_CA_ENROLL_RETRY the delay is that of the server's 202, once (own_errors: the functions of OpenSSL and the application that the client calls never give that error themselves); in any history a delay read is one some server asked for. False: a delay not read survives a later successful operation."
  },
  {
   "property": "C78",
   "status": "partial",
   "theorems": [
    "C78_partial",
    "C78_enroll_partial",
    "C78_one_reading",
    "C78_outcome",
    "C78_enroll_outcome",
    "C78_refuted",
    "C78_identifier_refuted",
    "C78_null_refuted",
    "C78_headless_refuted"
   ],
   "note": "Proved for reasons without characters JSON has to escape, and key identifiers without a zero octet. False otherwise: reasons are not escaped, so one can add members (a second Status); identifiers are cut at a zero octet; no reason with success is a null pointer; without random numbers the message goes out without a header."
  },
  {
   "property": "C79",
   "status": "partial",
   "theorems": [
    "C79_partial",
    "C79_available",
    "C79_refused",
    "C79_refuted",
    "C79_length_refuted"
   ],
   "note": "Proved for every history: the first copy after a successful request gives exactly the certificates pinned, refused copies change nothing. False: a second copy reports success and gives zeros (the stored certificate is cleared, not removed); the length reported with a voucher is always 0, so memory of that size is overrun."
  },
  {
   "property": "C80",
   "status": "partial",
   "theorems": [
    "C80_partial",
    "C80_refuted",
    "C80_stale_refuted",
    "C80_large_refuted",
    "C80_signed_refuted"
   ],
   "note": "Every request is a POST whose body, its line feeds taken out, is the JSON voucher request with the nonce, the time and the whole certificate of the server of its connection, for certificate texts of at most 8192 characters and a second certificate not shorter than the first. Refuted in full: the body is never JSON, since raw line feeds stand in a string (C80_refuted, for all runs); the tail of a longer first certificate follows a shorter second one; a certificate over 8192 characters is left out; a request to be signed is sent unsigned and labelled as signed."
  },
  {
   "property": "C81",
   "status": "partial",
   "theorems": [
    "C81_partial",
    "C81_whole",
    "C81_answer",
    "C81_refuted",
    "C81_closed_refuted"
   ],
   "note": "Proved for every sequence of write results: what is on the wire is always a prefix of the reply, the result is its length, early end only after a failed write, whole within len writes if each makes progress; an answer whose writes do not fail is whole and reported as success. Refuted: a body cut off after its first octets is reported as success for every header, body and cut, because only a call that sent nothing counts as failure; and results of 0 make the server write for ever."
  },
  {
   "property": "C82",
   "status": "partial",
   "theorems": [
    "C82_partial",
    "C82_body",
    "C82_signals_refuted",
    "C82_refuted"
   ],
   "note": "Proved for every timeout 1..3600 and every uninterrupted sequence of rounds: exact characterisation of when and how the wait ends; bodies: bound and contents. Refuted: interrupted polls (a signal at least every 250 ms) keep the wait going for ever, and a client sending records without application data keeps mg_read going for ever without sending anything of the request. Time inside poll and SSL_read (which may block on a blocking socket) is not modelled."
  },
  {
   "property": "C83",
   "status": "partial",
   "theorems": [
    "C83_partial",
    "C83_status_partial",
    "C83_served",
    "C83_refuted"
   ],
   "note": "Voucher requests are proved in full (C83_partial: single call, arguments, answer for every application result; C83_served: completeness for accepted clients). Status messages: calls and refusals proved, but the answer to an accepted status message is refuted to be a complete response (C83_refuted: the header is never ended). The method check is a prefix check (C11_refuted), so the theorem says the method starts with POST."
  },
  {
   "property": "C84",
   "status": "partial",
   "theorems": [
    "C84_partial",
    "C84_keygen_partial",
    "C84_long_refuted",
    "C84_cacerts",
    "C84_csrattrs",
    "C84_voucher_partial",
    "C84_status"
   ],
   "note": "Composes the server model with the client model. Partial: a delivered text must not begin with a line end, what was sent must fit the client's 2,000,000 octets, and a server-generated key or its certificate over 8192 octets never gets through (C84_long_refuted); every write is assumed to succeed (all_sent)."
  },
  {
   "property": "C85",
   "status": "proved",
   "theorems": [
    "C85_post",
    "C85_cacerts",
    "C85_csrattrs",
    "C85_operation",
    "C85_label",
    "C85_header",
    "C85_login"
   ],
   "note": "The statement quantifies over labels that can stand in a URI as they are and printable server names; user names of 255 characters with Digest are C22_user_refuted. What the server makes of a Digest or Bearer header: C22_agree_partial, C23_server."
  },
  {
   "property": "C86",
   "status": "proved",
   "theorems": [
    "C86",
    "C86_learned",
    "C86_forced"
   ],
   "note": "Making and signing PKCS#10 requests (OpenSSL) is a parameter that gets the challenge password. Connections without a Finished message are not quantified over. The server side: C15; that both sides derive the same value: C51. The attributes count that were last obtained with a body (an empty answer leaves the flag alone)."
  },
  {
   "property": "C87",
   "status": "partial",
   "theorems": [
    "C87_voucher",
    "C87_status",
    "C87_operation",
    "C87_label",
    "C87_header",
    "C87_digest_refuted"
   ],
   "note": "False part: the Digest credentials of a status message name the resource of voucher requests (C87_digest_refuted). The rest is proved, for labels that can stand in a URI as they are and printable server names."
  },
  {
   "property": "C88",
   "status": "partial",
   "theorems": [
    "C88_request",
    "C88_partial",
    "C88_login_partial",
    "C88_keygen_partial",
    "C88_exchange_partial"
   ],
   "note": "Proved for a connection with one request over HTTP. Not covered: certificates that start with a line end or exceed 1999000 octets (see C30), generated keys and certificates outside the sizes of the client's multipart parser (see C84), and TLS itself, which is assumed to carry the octets unchanged."
  },
  {
   "property": "C89",
   "status": "partial",
   "theorems": [
    "C89_cacerts_partial",
    "C89_voucher_partial",
    "C89_status"
   ],
   "note": "Proved for a connection with one request whose handling is defined (C56 says when it is) and whose answer is written and read in full. Bodies that start with a line end or exceed 1999000 octets are not covered (see C30)."
  },
  {
   "property": "C90",
   "status": "partial",
   "theorems": [
    "C90_accepted",
    "C90_held",
    "C90_presented",
    "C90_refused_refuted",
    "C90_refused_partial"
   ],
   "note": "Acceptance as an equivalence with the literal limit; what a client holds after any history, for all calls; what the server's parser reads from the request. That a refused call changes nothing is refuted; _partial gives the one exception exactly."
  },
  {
   "property": "C91",
   "status": "partial",
   "theorems": [
    "C91_strncpy",
    "C91_strcpy_partial",
    "C91_strcpy_refuted",
    "C91_strcat_partial",
    "C91_strcat_refuted",
    "C91_strncat_partial",
    "C91_strncat_refuted",
    "C91_strnlen",
    "C91_strcmp",
    "C91_memcmp",
    "C91_strcasecmp_partial",
    "C91_strcasecmp_refuted",
    "C91_strisdigit_partial",
    "C91_strisdigit_refuted",
    "C91_span",
    "C91_memcpy",
    "C91_memmove",
    "C91_memset",
    "C91_strtok",
    "C91_strtok_last",
    "C91_strstr_partial",
    "C91_strstr_refuted",
    "C91_strstr_used",
    "C91_limits",
    "C91_span_used",
    "C91_strcasecmp_used",
    "C91_strcpy_used",
    "C91_strtok_used",
    "C91_null"
   ],
   "note": "Exact results for every function. The claim is refuted for strcpy_s, strcat_s, strncat_s, strcasecmp_s, strisdigit_s and strstr_s; their _partial theorems say exactly what they do instead. Overlapping blocks are not modelled."
  },
  {
   "property": "C92",
   "status": "partial",
   "theorems": [
    "C92_partial",
    "C92_nothing",
    "C92_reload",
    "C92_refuted"
   ],
   "note": "Acceptance and contents of the store as equivalences, with the exact condition for undefined behaviour; refuted for certificates the store does not take (counted as loaded) and for long subjects. The PEM reader and the store are OpenSSL's, given as functions; allocation of the context and of the TLS context is left out."
  },
  {
   "property": "C93",
   "status": "partial",
   "theorems": [
    "C93_loaded",
    "C93_loaded_refuted",
    "C93_http",
    "C93_coap_partial",
    "C93_coap_refuted"
   ],
   "note": "Loading as an equivalence; over HTTP proved for every history, also what is freed; over CoAP proved while the function stays registered once it has answered, refuted otherwise; that a text without certificates is refused is false. The PEM reader and the PKCS#7 writer are OpenSSL's, given as functions. The proxy's answers are C46's."
  },
  {
   "property": "C94",
   "status": "proved",
   "theorems": [
    "C94_accepted",
    "C94_defined",
    "C94_enroll",
    "C94_keygen",
    "C94_keygen_ca",
    "C94_asked",
    "C94_eca_refuted"
   ],
   "note": "C94_accepted is an equivalence for every defined run; C94_defined says exactly when the run is undefined (enhanced certificate authentication accepts the peer and no authentication callback is registered). C94_eca_refuted: without that callback enhanced certificate authentication is skipped over HTTP and calls a null pointer over CoAP. C94_asked is about enrollment and re-enrollment without proof of possession and attribute enforcement."
  }
 ]
}