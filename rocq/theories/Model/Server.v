(** The EST server's request processing over HTTP/TLS and the part of it shared
    with CoAP: src/est/est_server.c:59-3081, est_enhcd_cert_auth.c:140-470,
    est_server_http.c:371-399, 1069-1112, 1211-1255, 1855-1899. *)
From Coq Require Import String ZArith List Bool.
From Verif Require Import Base Model.CLib Model.Codec Model.EstErr Model.HttpServer Model.Uri Model.AuthHdr.
Import ListNotations.
Open Scope Z_scope.

(** * Vocabulary *)

(** est.h:71-75 EST_ENROLL_REQ_TYPE *)
Inductive enroll_kind := SIMPLE_ENROLL_REQ | REENROLL_REQ | SERVERKEYGEN_REQ.
(** est.h:357-364 EST_AUTH_STATE *)
Inductive auth_state :=
  UNAUTHORIZED | CSR_PARSE_FAIL | HTTP_AUTH | HTTP_AUTH_PENDING | CERT_AUTH | SRP_AUTH.
Inductive transport := EST_HTTP | EST_COAP.

Definition auth_state_eqb (a b : auth_state) : bool :=
  match a, b with
  | UNAUTHORIZED, UNAUTHORIZED | CSR_PARSE_FAIL, CSR_PARSE_FAIL | HTTP_AUTH, HTTP_AUTH
  | HTTP_AUTH_PENDING, HTTP_AUTH_PENDING | CERT_AUTH, CERT_AUTH | SRP_AUTH, SRP_AUTH => true
  | _, _ => false
  end.
Definition err_eqb (a b : est_error) : bool := err_code a =? err_code b.

(** What X509_REQ_get_attr_by_NID / X509_ATTRIBUTE_get0_type give for the
    challengePassword attribute of a CSR (OpenSSL, external): no attribute; an
    attribute with an empty SET (get0_type returns NULL); a value that is not a
    string type (the union member asn1_string is not a string pointer); a
    string with its data. *)
Inductive challenge := NoAttr | AttrEmpty | AttrNotString | AttrStr (data : bytes).

Section Server.
(** OpenSSL objects. *)
Context {cert csr key : Type}.
(** The application's state; every callback may change it. *)
Context {E : Type}.

(** OpenSSL functions on certificates, CSRs and keys (external). *)
Record ossl := {
  o_parse_csr : bytes -> option csr;             (* base64 + d2i_X509_REQ_bio *)
  o_pubkey : csr -> bool;                        (* X509_REQ_get_pubkey != NULL *)
  o_verify : csr -> Z;                           (* X509_REQ_verify with that key *)
  o_challenge : csr -> challenge;
  o_eku : cert -> option (list bytes);           (* extended key usage OIDs *)
  o_cert_field : cert -> Z -> option bytes;      (* subject field of a NID: the data, NUL-terminated by OpenSSL *)
  o_csr_field : csr -> Z -> option bytes;
  o_key_der : key -> bytes;                      (* i2d_PrivateKey *)
  o_set_pubkey : csr -> key -> option csr;       (* X509_REQ_set_pubkey *)
  o_sign : csr -> key -> option csr;             (* est_X509_REQ_sign *)
  o_csr_body : csr -> bytes;                     (* base64 of i2d_X509_REQ *)
  o_bio : bool -> bytes -> Z -> bytes            (* base64 decoding BIO, see Model/Codec.v *)
}.
Variable O : ossl.

(** est_locl.h ENCHD_CERT_MFG_INFO: one slot of the manufacturer list.
    [m_init]: X509_STORE_CTX_init succeeds for the peer certificate;
    [m_verify]: X509_verify_cert's result. *)
Record mfg := {
  m_usable : bool;            (* truststore && store_ctx *)
  m_nid : Z;
  m_init : cert -> bool;
  m_verify : cert -> Z
}.

(** The configuration fields of struct est_ctx used while serving. *)
Record config := {
  c_transport : transport;
  c_auth_mode : auth_mode;
  c_realm : bytes;
  c_http_required : bool;      (* require_http_auth == HTTP_AUTH_REQUIRED *)
  c_eca : bool;                (* enhanced_cert_auth_enabled *)
  c_eca_csr_check : bool;
  c_mfgs : option (list mfg);  (* enchd_cert_mfgs_info_list: NULL or 4 slots *)
  c_local_nid : Z;
  c_eca_pwd : bytes;
  c_pop : bool;
  c_enforce : bool;
  c_csrattrs : option bytes;
  c_cacerts : option bytes;
  c_retry : Z;
  c_brski_retry : Z;
  c_ev_endpoint : bool; c_ev_req : bool; c_ev_rsp : bool; c_ev_auth : bool  (* event callbacks registered *)
}.
Variable C : config.

(** The TLS session (external): peer certificate, verification result, SRP
    user, peer chain available, est_get_tls_uid's result. *)
Record tls := {
  t_peer : option cert;
  t_verify : Z;
  t_srp : option bytes;
  t_chain : bool;
  t_uid : option bytes
}.

(** The application's callbacks.  [None] = not registered. *)
Record app := {
  a_http_auth : option (E -> auth_hdr -> option cert -> option bytes -> E * bool);
  a_enroll : option (E -> bytes -> option bytes -> option cert -> option bytes -> E * (Z * bytes));
  a_reenroll : option (E -> bytes -> option bytes -> option cert -> option bytes -> E * (Z * bytes));
  a_skg : option (E -> bytes -> bytes -> option bytes -> option cert -> option bytes -> E * (Z * bytes * bytes));
  a_keygen : option (E -> E * (Z * option key));
  a_cacerts : option (E -> option bytes -> E * option bytes);
  a_csrattrs : option (E -> option bytes -> option cert -> E * option bytes);
  a_voucher : option (E -> bytes -> option cert -> E * (Z * bytes));
  a_voucher_status : option (E -> bytes -> option cert -> E * Z);
  a_enroll_status : option (E -> bytes -> option cert -> E * Z);
  a_write : E -> bytes -> E * bool;      (* mg_write: true if the data was sent *)
  a_time : E -> bytes                    (* "%lu" of time(NULL) *)
}.
Variable A : app.

(** est_parse_uri: error, operation, path segment.  Both builds are instances,
    see [uri_plain] and [uri_full]. *)
Variable parse_uri : bytes -> res (est_error * option operation * option bytes).
(** CSR attribute handling (est.c:1404-1555, est_server.c:1386-1624):
    [attrs_parse] est_asn1_parse_attributes: error and challengePassword
    presence; [attrs_add_pop] est_add_challengePassword; [attrs_check None] the
    first part of est_server_all_csrattrs_present, building the list of OIDs in
    the CSR; [attrs_check (Some d)] the rest, with the attribute list [d] ([None]
    if the application did not return one).  Model/CsrAttrs.v defines them. *)
Variable attrs_parse : bytes -> res (est_error * bool).
Variable attrs_add_pop : bytes -> res (est_error * bytes).
Variable attrs_check : option (option bytes) -> bytes -> res est_error.
(** suggest_connection_header's choice for a status code (keep-alive/close). *)
Variable keep : Z -> bool.
(** Contents of the malloc'ed body buffer before mg_read. *)
Variable uninit : nat -> Z.

(** * State and effects *)

(** What is observable: application callbacks and data written to the peer. *)
Inductive event :=
| EvReqStart (uri : bytes)
| EvReqEnd (uri : bytes)
| EvEnrollReq (k : enroll_kind) (body : bytes)
| EvEnrollRsp (k : enroll_kind) (body : bytes) (rc : est_error)
| EvAuthResult (k : enroll_kind) (validated : bool) (rv : auth_state)
| EvHttpAuth (a : auth_hdr) (peer : option cert) (path : option bytes) (ok : bool)
| EvKeygen (rv : Z) (k : option key)
  (* the enrollment callbacks: arguments; returned status, certificate and, for key generation, the key text *)
| EvCA (k : enroll_kind) (body : bytes) (uid : option bytes) (peer : option cert) (path : option bytes)
       (rv : Z) (crt ktext : bytes)
| EvCacerts (path : option bytes) (answer : option bytes)
| EvCsrattrs (path : option bytes) (answer : option bytes)
| EvVoucher (o : operation) (body : bytes) (peer : option cert) (rv : Z) (voucher : bytes)
| EvWrite (data : bytes) (ok : bool).

Record st := { s_env : E; s_uid : bytes; s_code : Z }.

(** A computation: the events it causes, and its final value and state or
    undefined behaviour (in which case the events are those before it). *)
Definition M (X : Type) := st -> list event * res (X * st).
Definition ret {X} (x : X) : M X := fun s => ([], Ok (x, s)).
Definition mbind {X Y} (m : M X) (f : X -> M Y) : M Y := fun s =>
  match m s with
  | (e1, UB) => (e1, UB)
  | (e1, Ok (x, s1)) => let '(e2, r) := f x s1 in (e1 ++ e2, r)
  end.
Notation "x <~ m ;; f" := (mbind m (fun x => f)) (at level 61, m at next level, right associativity).
Notation "' p <~ m ;; f" := (mbind m (fun x => match x with p => f end))
  (at level 61, p pattern, m at next level, right associativity).
Notation "m >> f" := (mbind m (fun _ => f)) (at level 61, f at level 61, right associativity).

Definition lift {X} (r : res X) : M X := fun s => ([], x <- r ;; Ok (x, s)).
Definition emit (e : event) : M unit := fun s => ([e], Ok (tt, s)).
Definition emit_if (b : bool) (e : event) : M unit := if b then emit e else ret tt.
Definition get_uid : M bytes := fun s => ([], Ok (s_uid s, s)).
Definition set_uid (u : bytes) : M unit :=
  fun s => ([], Ok (tt, {| s_env := s_env s; s_uid := u; s_code := s_code s |})).
Definition set_code (c : Z) : M unit :=
  fun s => ([], Ok (tt, {| s_env := s_env s; s_uid := s_uid s; s_code := c |})).
(** Run an application callback. *)
Definition call {X} (f : E -> E * X) : M X :=
  fun s => let '(e, x) := f (s_env s) in
           ([], Ok (x, {| s_env := e; s_uid := s_uid s; s_code := s_code s |})).

(** mg_write / mg_printf *)
Definition mg_write (d : bytes) : M bool :=
  ok <~ call (fun e => a_write A e d) ;; emit (EvWrite d ok) >> ret ok.

(** * Responses *)
Definition EOL : bytes := [13; 10].
Definition hdr (n v : bytes) : bytes := n ++ str ": " ++ v ++ EOL.

(** est_server_http.c:371-399 mg_send_http_error, for the reason texts and
    formats used by the library (shorter than MG_BUF_LEN).  The results of
    mg_printf are ignored; mg_vprintf writes nothing for an empty text. *)
Definition mg_send_http_error (status : Z) (reason text : bytes) : M unit :=
  let buf := if (199 <? status) && negb (status =? 204) && negb (status =? 304)
             then str "Error " ++ print_int status ++ str ": " ++ reason ++ [10] ++ text else [] in
  set_code status >>
  mg_write (str "HTTP/1.1 " ++ print_int status ++ str " " ++ reason ++ EOL
            ++ hdr (str "Content-Length") (print_int (len buf))
            ++ hdr (str "Connection") (if keep status then str "keep-alive" else str "close") ++ EOL) >>
  match buf with [] => ret tt | _ => mg_write buf >> ret tt end.

(** est_server.c:160-181 est_server_send_http_retry_after *)
Definition send_http_retry_after (delay : Z) : M est_error :=
  set_code 202 >>
  ok <~ mg_write (str "HTTP/1.1 202 Accepted" ++ EOL ++ str "Status: 202 Accepted" ++ EOL
                  ++ hdr (str "Retry-After") (print_int delay) ++ EOL) ;;
  ret (if ok then EST_ERR_NONE else EST_ERR_HTTP_WRITE).

(** est_server.c:91-150, the switch without the retry case; texts from
    est_locl.h:141-149, 207-221. *)
Definition error_reply (e : est_error) : Z * bytes * bytes :=
  match e with
  | EST_ERR_HTTP_NO_CONTENT => (204, str "No Content", [])
  | EST_ERR_HTTP_BAD_REQ => (400, str "Bad Request", [])
  | EST_ERR_CSR_ATTR_MISSING => (400, str "Bad Request", str "CSR Attributes missing in request." ++ [10])
  | EST_ERR_BAD_ASN1_HEX => (400, str "Bad Request", str "Invalid or corrupted ASN1 data in request." ++ [10])
  | EST_ERR_BAD_PKCS10 => (400, str "Bad Request", str "Invalid or corrupted pkcs10 request." ++ [10])
  | EST_ERR_BAD_CONTENT_TYPE => (400, str "Bad Request", str "Invalid content type used." ++ [10])
  | EST_ERR_WRONG_METHOD => (400, str "Bad Request",
      str "Invalid HTTP method used.  Either GET or POST required depending on the request type." ++ [10])
  | EST_ERR_NO_SSL_CTX => (400, str "Bad Request", str "An unknown TLS error has occured." ++ [10])
  | EST_ERR_AUTH_FAIL => (401, str "Unauthorized", str "The server was unable to authorize the request." ++ [10])
  | EST_ERR_AUTH_FAIL_TLSUID => (401, str "Unauthorized", str "Proof of Possession Mismatch." ++ [10])
  | EST_ERR_HTTP_NOT_FOUND => (404, str "Not Found",
      str "Requested content is currently not available on the server." ++ [10])
  | EST_ERR_HTTP_INVALID_PATH_SEGMENT => (404, str "Not Found", str "The path specified is not recognized." ++ [10])
  | EST_ERR_HTTP_LOCKED => (423, str "Locked", str "The content attempted to be accessed is locked." ++ [10])
  | EST_ERR_HTTP_UNSUPPORTED => (502, str "Bad Gateway",
      str "An error occurred while communicating to the upstream server." ++ [10])
  | EST_ERR_IP_CONNECT => (504, str "Gateway Time-out",
      str "There was an issue connecting to the upstream server." ++ [10])
  | EST_ERR_CA_ENROLL_FAIL => (500, str "Internal Server Error", str "An error has occured during enrollment." ++ [10])
  | _ => (500, str "Internal Server Error", str "An unknown error has occured." ++ [10])
  end.

(** est_server.c:59-152 est_send_http_error in server mode: the retry period is
    ctx->retry_period ([delay] is a parameter because a proxy uses
    retry_after_delay). *)
Definition est_send_http_error (delay : Z) (e : est_error) : M unit :=
  let plain e := let '(st, reason, text) := error_reply e in mg_send_http_error st reason text in
  match e with
  | EST_ERR_CA_ENROLL_RETRY =>
    rv <~ send_http_retry_after delay ;;
    match rv with EST_ERR_NONE => ret tt | _ => plain EST_ERR_UNKNOWN end
  | _ => plain e
  end.

(** A 200 response head and body, written separately
    (est_server.c:200-222, 1785-1812, 2440-2465; est_server_http.c:1861-1885). *)
Definition ok_head (ctype : bytes) (enc : option bytes) (n : Z) : bytes :=
  str "HTTP/1.1 200 OK" ++ EOL ++ str "Status: 200 OK" ++ EOL
  ++ hdr (str "Content-Type") ctype
  ++ match enc with Some e => hdr (str "Content-Transfer-Encoding") e | None => [] end
  ++ hdr (str "Content-Length") (print_int n) ++ EOL.
Definition send_200 (ctype body : bytes) : M est_error :=
  ok <~ mg_write (ok_head ctype (Some (str "base64")) (len body)) ;;
  if negb ok then ret EST_ERR_HTTP_WRITE
  else ok2 <~ mg_write body ;; ret (if ok2 then EST_ERR_NONE else EST_ERR_HTTP_WRITE).

(** est_server_http.c:1069-1112 mg_send_authorization_request *)
Definition mg_send_authorization_request : M unit :=
  set_code 401 >>
  let challenge_head v := str "HTTP/1.1 401 Unauthorized" ++ EOL ++ hdr (str "Content-Length") (str "0")
                          ++ hdr (str "WWW-Authenticate") v ++ EOL in
  match c_auth_mode C with
  | AUTH_BASIC => mg_write (challenge_head (str "Basic realm=" ++ [34] ++ c_realm C ++ [34])) >> ret tt
  | AUTH_DIGEST =>
    t <~ (fun s => ([], Ok (a_time A (s_env s), s))) ;;
    mg_write (challenge_head (str "Digest qop=" ++ [34] ++ str "auth" ++ [34] ++ str ", realm=" ++ [34] ++ c_realm C
                              ++ [34] ++ str ", nonce=" ++ [34] ++ t ++ [34])) >> ret tt
  | AUTH_TOKEN => mg_write (challenge_head (str "Bearer realm=" ++ [34] ++ c_realm C ++ [34])) >> ret tt
  | AUTH_NONE | AUTH_FAIL => ret tt
  end.

(** * cacerts *)
(** est_server.c:187-224 est_handle_cacerts *)
Definition est_handle_cacerts (certs : option bytes) : M est_error :=
  match certs with
  | None => ret EST_ERR_HTTP_NOT_FOUND
  | Some b => send_200 (str "application/pkcs7-mime") b
  end.
(** est_server.c:234-314 est_server_handle_cacerts, HTTP transport *)
Definition est_server_handle_cacerts (path : option bytes) : M est_error :=
  match a_cacerts A with
  | Some f =>
    r <~ call (fun e => f e path) ;;
    emit (EvCacerts path r) >>
    match r with Some b => est_handle_cacerts (Some b) | None => ret EST_ERR_HTTP_NO_CONTENT end
  | None => match c_cacerts C with
            | Some b => est_handle_cacerts (Some b)
            | None => ret EST_ERR_HTTP_NO_CONTENT
            end
  end.

(** * Enhanced certificate authentication *)
(** est_enhcd_cert_auth.c:147-203 est_enhcd_cert_auth_get_mfg: error and
    index (-1 if none).  [rv] is the C variable (initially EST_ERR_VALIDATION;
    X509_verify_cert's 0 is EST_ERR_NONE). *)
Fixpoint get_mfg_loop (l : list mfg) (i : Z) (peer : cert) (rv : est_error) : est_error * Z :=
  match l with
  | [] => (rv, -1)
  | m :: t =>
    if m_usable m then
      if negb (m_init m peer) then (EST_ERR_MALLOC, -1)
      else if m_verify m peer =? 0 then get_mfg_loop t (i + 1) peer EST_ERR_NONE
      else (EST_ERR_NONE, i)
    else get_mfg_loop t (i + 1) peer rv
  end.
Definition est_enhcd_cert_auth_get_mfg (peer : cert) : est_error * Z :=
  match c_mfgs C with
  | None => (EST_ERR_NONE, -1)
  | Some l => get_mfg_loop l 0 peer EST_ERR_VALIDATION
  end.

(** Reading a subject field as a C string: OpenSSL NUL-terminates the data, so
    an embedded NUL truncates it (est_enhcd_cert_auth.c:209-271). *)
Definition field_str (o : option bytes) : option bytes := option_map (before_char 0) o.

(** strnlen_s(s, 256) comparison and strcmp_s (stub: strncmp over the length;
    ESZEROL for length 0): [None] = SafeC error, else whether they match. *)
Inductive field_cmp := LenDiffers | SafeCErr | Differs | Same.
Definition cmp_fields (a b : bytes) : field_cmp :=
  let la := Z.min 256 (len a) in
  let lb := Z.min 256 (len b) in
  if negb (la =? lb) then LenDiffers
  else if la =? 0 then SafeCErr
  else if strncmp_eq (Z.to_nat la) a b then Same else Differs.

(** est_enhcd_cert_auth.c:355-440, the local PKI loop; [ind] is "cmp_ind != 0". *)
Fixpoint local_loop (l : list mfg) (peer : cert) (r : csr) (ind : bool) : bool :=
  match l with
  | [] => ind
  | m :: t =>
    if m_usable m then
      match field_str (o_cert_field O peer (m_nid m)), field_str (o_csr_field O r (m_nid m)) with
      | Some a, Some b =>
        match cmp_fields a b with
        | LenDiffers => local_loop t peer r true
        | SafeCErr => if ind then local_loop t peer r ind else false
        | Differs => local_loop t peer r true
        | Same => false
        end
      | _, _ => local_loop t peer r true
      end
    else local_loop t peer r ind
  end.

(** est_enhcd_cert_auth.c:309-445 perform_enhanced_cert_auth_csr_check *)
Definition perform_csr_check (peer : cert) (r : csr) (idx : Z) : hdr_result :=
  match c_mfgs C with
  | None => ECA_CSR_CHECK_FAIL
  | Some l =>
    if 0 <=? idx then
      match nth_error l (Z.to_nat idx) with
      | None => ECA_ERR
      | Some m =>
        match field_str (o_cert_field O peer (m_nid m)), field_str (o_csr_field O r (m_nid m)) with
        | Some a, Some b =>
          match cmp_fields a b with
          | LenDiffers => ECA_CSR_CHECK_FAIL
          | SafeCErr => ECA_ERR
          | Differs => ECA_CSR_CHECK_FAIL
          | Same => HDR_GOOD
          end
        | _, _ => ECA_CSR_CHECK_FAIL
        end
      end
    else if local_loop l peer r false then ECA_CSR_CHECK_FAIL else HDR_GOOD
  end.

(** est_enhcd_cert_auth.c:447- build_enhanced_cert_auth_header *)
Definition build_eca_header (a : auth_hdr) (peer : cert) (nid : Z) : hdr_result * auth_hdr :=
  match field_str (o_cert_field O peer nid) with
  | None => (ECA_ERR, with_mode a AUTH_BASIC)
  | Some f => (HDR_GOOD, with_pwd (with_user (with_mode a AUTH_BASIC) (strndup f 256)) (strndup (c_eca_pwd C) 256))
  end.

(** est_server.c:477-536 handle_enhanced_cert_auth *)
Definition handle_eca (t : tls) (peer : cert) (body : bytes) (check : bool) (a : auth_hdr)
  : hdr_result * auth_hdr * option csr :=
  if negb (t_chain t) then (ECA_ERR, a, None)
  else
    let '(err, idx) := est_enhcd_cert_auth_get_mfg peer in
    if err_eqb err EST_ERR_NONE || err_eqb err EST_ERR_VALIDATION then
      let build (r : option csr) :=
        let nid := if 0 <=? idx
                   then match c_mfgs C with
                        | Some l => match nth_error l (Z.to_nat idx) with Some m => m_nid m | None => 0 end
                        | None => 0
                        end
                   else c_local_nid C in
        let '(h, a') := build_eca_header a peer nid in (h, a', r) in
      if check then
        match o_parse_csr O body with
        | None => (ECA_CSR_PARSE_FAIL, a, None)
        | Some r =>
          match perform_csr_check peer r idx with
          | HDR_GOOD => build (Some r)
          | h => (h, a, Some r)
          end
        end
      else build None
    else (HDR_BAD, a, None).

(** * Authentication *)
(** est_server.c:543-577 check_for_TLS_cert_auth: continue?, peer, result.
    X509_V_OK is 0 and X509_V_ERR_UNABLE_TO_GET_CRL is 3. *)
Definition check_tls (t : tls) : bool * option cert * auth_state :=
  match t_peer t with
  | Some c => if (t_verify t =? 0) || (t_verify t =? 3) then (true, Some c, CERT_AUTH)
              else (false, None, UNAUTHORIZED)
  | None => (true, None, UNAUTHORIZED)
  end.

(** Invoke est_http_auth_cb; calling through NULL is undefined. *)
Definition http_auth_cb (a : auth_hdr) (peer : option cert) (path : option bytes) : M bool :=
  match a_http_auth A with
  | None => lift UB
  | Some f => ok <~ call (fun e => f e a peer path) ;; emit (EvHttpAuth a peer path ok) >> ret ok
  end.

(** mg_parse_auth_header on the connection (updates conn->user_id). *)
Definition parse_auth (authz : option bytes) : M (hdr_result * auth_hdr) :=
  u <~ get_uid ;;
  ' (h, a, u') <~ lift (mg_parse_auth_header (o_bio O) (c_auth_mode C) authz est_create_ah u) ;;
  set_uid u' >> ret (h, a).

(** est_server.c:4978-5014 est_invoke_enroll_auth_result_event_cb *)
Definition auth_result_event (k : enroll_kind) (pr : hdr_result) (rv : auth_state) : M unit :=
  emit_if (c_ev_auth C) (EvAuthResult k (match pr with HDR_GOOD => true | _ => false end) rv).

Definition kind_nonzero (k : enroll_kind) : bool :=
  match k with SIMPLE_ENROLL_REQ => false | _ => true end.

(** est_server.c:585-758 est_enroll_auth.  [authz] is the Authorization header. *)
Definition est_enroll_auth (t : tls) (authz : option bytes) (path : option bytes) (k : enroll_kind) (body : bytes)
  : M (auth_state * option csr) :=
  let '(continue, peer, rv0) := check_tls t in
  let finish (pr : hdr_result) (rv : auth_state) (r : option csr) :=
    auth_result_event k pr rv >> ret (rv, r) in
  if negb continue then finish ECA_ERR rv0 None
  else
    let rv := if negb (auth_state_eqb rv0 CERT_AUTH) && is_some (t_srp t) then SRP_AUTH else rv0 in
    let approve (a : auth_hdr) : M auth_state :=
      ok <~ http_auth_cb a peer path ;; ret (if ok then HTTP_AUTH else UNAUTHORIZED) in
    match c_transport C with
    | EST_HTTP =>
      if is_some (a_http_auth A) && (auth_state_eqb rv UNAUTHORIZED || c_http_required C) then
        ' (pr, a, r) <~ match peer, c_eca C && auth_state_eqb rv CERT_AUTH with
                        | Some c, true => ret (handle_eca t c body (c_eca_csr_check C) est_create_ah)
                        | _, _ => ' (pr, a) <~ parse_auth authz ;; ret (pr, a, None)
                        end ;;
        rv' <~ match pr with
               | HDR_GOOD => approve a
               | HDR_MISSING => mg_send_authorization_request >> ret HTTP_AUTH_PENDING
               | ECA_CSR_CHECK_FAIL => ret UNAUTHORIZED
               | ECA_CSR_PARSE_FAIL => ret CSR_PARSE_FAIL
               | ECA_ERR => ret UNAUTHORIZED
               | HDR_BAD => ret (if kind_nonzero k && auth_state_eqb rv CERT_AUTH then rv else UNAUTHORIZED)
               end ;;
        finish pr rv' r
      else finish ECA_ERR rv None
    | EST_COAP =>
      match peer, auth_state_eqb rv CERT_AUTH with
      | Some c, true =>
        if negb (c_eca C) then finish ECA_ERR rv None
        else if len body <=? 0 then finish ECA_ERR CSR_PARSE_FAIL None
        else
          let '(pr, a, r) := handle_eca t c body (c_eca_csr_check C) est_create_ah in
          rv' <~ match pr with
                 | HDR_GOOD => approve a
                 | ECA_CSR_PARSE_FAIL => ret CSR_PARSE_FAIL
                 | _ => ret UNAUTHORIZED
                 end ;;
          finish pr rv' r
      | _, _ => finish ECA_ERR UNAUTHORIZED None
      end
    end.

(** est_server.c:767-907 est_brski_auth, HTTP transport (BRSKI requests only
    arrive over HTTP) *)
Definition est_brski_auth (t : tls) (authz : option bytes) (path : option bytes) : M auth_state :=
  let '(continue, peer, rv0) := check_tls t in
  let finish (pr : hdr_result) (rv : auth_state) :=
    auth_result_event SIMPLE_ENROLL_REQ pr rv >> ret rv in
  if negb continue then finish ECA_ERR rv0
  else
    let rv := if negb (auth_state_eqb rv0 CERT_AUTH) && is_some (t_srp t) then SRP_AUTH else rv0 in
    if is_some (a_http_auth A) && (auth_state_eqb rv UNAUTHORIZED || c_http_required C) then
      ' (pr, a) <~ match peer, c_eca C && auth_state_eqb rv CERT_AUTH with
                   | Some c, true => ret (fst (handle_eca t c [] false est_create_ah))
                   | _, _ => parse_auth authz
                   end ;;
      rv' <~ match pr with
             | HDR_GOOD => ok <~ http_auth_cb a peer path ;; ret (if ok then HTTP_AUTH else UNAUTHORIZED)
             | HDR_MISSING => mg_send_authorization_request >> ret HTTP_AUTH_PENDING
             | _ => ret UNAUTHORIZED
             end ;;
      finish pr rv'
    else finish ECA_ERR rv.

(** * Checks on the CSR *)
(** est_server.c:962-993 est_check_cmcRA; o_cmcRA is the OID
    1.3.6.1.5.5.7.3.28 (est_server_start) *)
Definition est_check_cmcRA (c : cert) : bool :=
  match o_eku O c with
  | Some l => existsb (fun o => beq o (str "1.3.6.1.5.5.7.3.28")) l
  | None => false
  end.

(** est_server.c:1063-1152 est_tls_uid_auth.  OpenSSL's string data is followed
    by a NUL byte in its allocation; memcmp_s of the stub reads uid_len bytes
    of both. *)
Definition est_tls_uid_auth (t : tls) (r : csr) : res est_error :=
  match o_challenge O r with
  | NoAttr => Ok (if c_pop C then EST_ERR_AUTH_FAIL_TLSUID else EST_ERR_NONE)
  | AttrEmpty => UB
  | AttrNotString => match t_uid t with None => Ok EST_ERR_AUTH_FAIL_TLSUID | Some _ => UB end
  | AttrStr d =>
    match t_uid t with
    | None => Ok EST_ERR_AUTH_FAIL_TLSUID
    | Some u => same <- memcmp_eq u (d ++ [0]) (len u) ;;
                Ok (if same then EST_ERR_NONE else EST_ERR_AUTH_FAIL_TLSUID)
    end
  end.

(** est_server.c:1159-1190 est_server_check_csr: true if it passes *)
Definition est_server_check_csr (r : csr) : bool := o_pubkey O r && (0 <? o_verify O r).

(** est_server.c:1386-1455: where the attribute list comes from; the callback
    is called with a NULL path segment. *)
Definition all_csrattrs_present (body : bytes) (peer : option cert) : M est_error :=
  if negb (is_some (a_csrattrs A)) && negb (is_some (c_csrattrs C)) then ret EST_ERR_NONE
  else
    e0 <~ lift (attrs_check None body) ;;
    match e0 with
    | EST_ERR_NONE =>
      match a_csrattrs A with
      | Some f => d <~ call (fun e => f e None peer) ;; emit (EvCsrattrs None d) >> lift (attrs_check (Some d) body)
      | None => lift (attrs_check (Some (c_csrattrs C)) body)
      end
    | _ => ret e0
    end.

(** user_id handed to the callbacks: conn->user_id as a C string for HTTP, NULL
    for CoAP (est_server.c:1656-1659). *)
Definition callback_uid : M (option bytes) :=
  match c_transport C with
  | EST_HTTP => u <~ get_uid ;; s <~ lift (cstr u) ;; ret (Some s)
  | EST_COAP => ret None
  end.

(** PoP and attribute checks common to enroll and server keygen
    (est_server.c:1717-1745, 2034-2062). *)
Definition csr_checks (t : tls) (r : csr) (body : bytes) : M est_error :=
  let ra := match t_peer t with Some c => est_check_cmcRA c | None => false end in
  e <~ (if ra then ret EST_ERR_NONE else lift (est_tls_uid_auth t r)) ;;
  match e with
  | EST_ERR_NONE =>
    if c_enforce C then
      e2 <~ all_csrattrs_present body (t_peer t) ;;
      ret (match e2 with EST_ERR_NONE => EST_ERR_NONE | _ => EST_ERR_CSR_ATTR_MISSING end)
    else ret EST_ERR_NONE
  | _ => ret EST_ERR_AUTH_FAIL_TLSUID
  end.

(** * Enrollment *)
Definition is_pkcs10 (ct : bytes) : bool := strncmp_eq 18 ct (str "application/pkcs10").
Definition is_http : bool := match c_transport C with EST_HTTP => true | EST_COAP => false end.

(** est_server.c:1630-1849 est_handle_simple_enroll; returned: error and the
    certificate handed back. *)
Definition est_handle_simple_enroll (t : tls) (authz : option bytes) (ct body : bytes) (path : option bytes)
  (k : enroll_kind) : M (est_error * bytes) :=
  match k with
  | SERVERKEYGEN_REQ => ret (EST_ERR_INVALID_PARAMETERS, [])
  | _ =>
    match (match k with REENROLL_REQ => a_reenroll A | _ => a_enroll A end) with
    | None => ret (EST_ERR_NULL_CALLBACK, [])
    | Some f =>
      if is_http && negb (is_pkcs10 ct) then ret (EST_ERR_BAD_CONTENT_TYPE, [])
      else
        ' (au, r0) <~ est_enroll_auth t authz path k body ;;
        match au with
        | HTTP_AUTH_PENDING => ret (EST_ERR_AUTH_PENDING, [])
        | CSR_PARSE_FAIL => ret (EST_ERR_BAD_PKCS10, [])
        | UNAUTHORIZED => ret (EST_ERR_AUTH_FAIL, [])
        | HTTP_AUTH | SRP_AUTH | CERT_AUTH =>
          match (match r0 with Some r => Some r | None => o_parse_csr O body end) with
          | None => ret (EST_ERR_BAD_PKCS10, [])
          | Some r =>
            if negb (est_server_check_csr r) then ret (EST_ERR_BAD_PKCS10, [])
            else
              e <~ csr_checks t r body ;;
              match e with
              | EST_ERR_NONE =>
                uid <~ callback_uid ;;
                ' (rv, crt) <~ call (fun e => f e body uid (t_peer t) path) ;;
                emit (EvCA k body uid (t_peer t) path rv crt []) >>
                if (rv =? err_code EST_ERR_NONE) && (0 <? len crt) then
                  if is_http then
                    w <~ send_200 (str "application/pkcs7-mime; smime-type=certs-only") crt ;; ret (w, crt)
                  else ret (EST_ERR_NONE, crt)
                else if rv =? err_code EST_ERR_CA_ENROLL_RETRY then ret (EST_ERR_CA_ENROLL_RETRY, [])
                else ret (EST_ERR_CA_ENROLL_FAIL, [])
              | _ => ret (e, [])
              end
          end
        end
    end
  end.

(** est_server.c:2084-2118: the parts of the multipart/mixed response. *)
Definition boundary : bytes := str "est-server-boundary".
Definition pvt_key_hdr : bytes :=
  str "--" ++ boundary ++ EOL ++ hdr (str "Content-Type") (str "application/pkcs8")
  ++ hdr (str "Content-Transfer-Encoding") (str "base64") ++ EOL.
Definition cert_hdr : bytes :=
  EOL ++ str "--" ++ boundary ++ EOL
  ++ hdr (str "Content-Type") (str "application/pkcs7-mime; smime-type=certs-only")
  ++ hdr (str "Content-Transfer-Encoding") (str "base64") ++ EOL.
Definition final_bndry_hdr : bytes := EOL ++ str "--" ++ boundary ++ str "--" ++ EOL ++ EOL.

(** Write a list of pieces, stopping at the first failure. *)
Fixpoint write_all (l : list bytes) : M est_error :=
  match l with
  | [] => ret EST_ERR_NONE
  | d :: t => ok <~ mg_write d ;; if ok then write_all t else ret EST_ERR_HTTP_WRITE
  end.

(** est_server.c:1855-2235 est_handle_server_keygen.  BIO and malloc failures
    are not modelled.  Result: error, certificate, key text handed back. *)
Definition est_handle_server_keygen (t : tls) (authz : option bytes) (ct body : bytes) (path : option bytes)
  : M (est_error * bytes * bytes) :=
  let fail e := ret (e, [], []) in
  match a_skg A, a_keygen A with
  | Some f, Some g =>
    if is_http && negb (is_pkcs10 ct) then fail EST_ERR_BAD_CONTENT_TYPE
    else
      ' (au, r0) <~ est_enroll_auth t authz path SERVERKEYGEN_REQ body ;;
      match au with
      | HTTP_AUTH_PENDING => fail EST_ERR_AUTH_PENDING
      | CSR_PARSE_FAIL => fail EST_ERR_BAD_PKCS10
      | UNAUTHORIZED => fail EST_ERR_AUTH_FAIL
      | HTTP_AUTH | SRP_AUTH | CERT_AUTH =>
        match (match r0 with Some r => Some r | None => o_parse_csr O body end) with
        | None => fail EST_ERR_BAD_PKCS10
        | Some r =>
          ' (krv, ko) <~ call g ;;
          emit (EvKeygen krv ko) >>
          match ko with
          | None => fail EST_ERR_NO_KEY
          | Some pk =>
            if negb (krv =? err_code EST_ERR_NONE) then fail EST_ERR_NO_KEY
            else
              let der := o_key_der O pk in
              ' (n, blk) <~ lift (est_base64_encode der (repeat 0 (Z.to_nat (len der * 2))) (len der * 2) true) ;;
              let b64der := firstn (Z.to_nat n) blk in
              match o_set_pubkey O r pk with
              | None => fail EST_ERR_BAD_PKCS10
              | Some r1 =>
                match o_sign O r1 pk with
                | None => fail EST_ERR_X509_SIGN
                | Some r2 =>
                  if negb (est_server_check_csr r2) then fail EST_ERR_BAD_PKCS10
                  else
                    let body2 := o_csr_body O r2 in
                    e <~ csr_checks t r2 body2 ;;
                    match e with
                    | EST_ERR_NONE =>
                      uid <~ callback_uid ;;
                      ' (rv, crt, ktext) <~ call (fun e => f e body2 b64der uid (t_peer t) path) ;;
                      emit (EvCA SERVERKEYGEN_REQ body2 uid (t_peer t) path rv crt ktext) >>
                      if (rv =? err_code EST_ERR_NONE) && (0 <? len crt) then
                        if is_http then
                          w <~ write_all
                                 [ok_head (str "multipart/mixed; boundary=" ++ boundary) None
                                    (len pvt_key_hdr + len ktext + len cert_hdr + len crt + len final_bndry_hdr);
                                  pvt_key_hdr; ktext; cert_hdr; crt; final_bndry_hdr] ;;
                          match w with EST_ERR_NONE => ret (w, crt, ktext) | _ => fail w end
                        else ret (EST_ERR_NONE, crt, ktext)
                      else if rv =? err_code EST_ERR_CA_ENROLL_RETRY then fail EST_ERR_CA_ENROLL_RETRY
                      else fail EST_ERR_CA_ENROLL_FAIL
                    | _ => fail e
                    end
                end
              end
          end
        end
      end
  | _, _ => fail EST_ERR_NULL_CALLBACK
  end.

(** * CSR attributes *)
(** est_server_http.c:1855-1899 est_send_csrattr_data *)
Definition est_send_csrattr_data (d : option bytes) : M est_error :=
  match d with
  | Some (x :: t) => send_200 (str "application/csrattrs") (x :: t)
  | _ => est_send_http_error (c_retry C) EST_ERR_HTTP_NO_CONTENT >> ret EST_ERR_NONE
  end.

Definition EST_CSRATTRS_POP : bytes := str "MAsGCSqGSIb3DQEJBw==".

(** est_server.c:2241-2367 est_handle_csr_attrs, HTTP transport.  The callback's
    [None] is a NULL pointer with length 0; est_asn1_parse_attributes runs on it
    but its error is ignored for length 0. *)
Definition est_handle_csr_attrs (t : tls) (path : option bytes) : M est_error :=
  match a_csrattrs A with
  | None =>
    match c_csrattrs C with
    | None => if negb (c_pop C) then ret EST_ERR_HTTP_NO_CONTENT
              else est_send_csrattr_data (Some EST_CSRATTRS_POP)
    | Some d => est_send_csrattr_data (Some d)
    end
  | Some f =>
    d <~ call (fun e => f e path (t_peer t)) ;;
    emit (EvCsrattrs path d) >>
    match d with
    | None | Some [] => est_send_csrattr_data (if c_pop C then Some EST_CSRATTRS_POP else d)
    | Some b =>
      ' (e, present) <~ lift (attrs_parse b) ;;
      match e with
      | EST_ERR_NONE =>
        if c_pop C && negb present then
          ' (e2, b2) <~ lift (attrs_add_pop b) ;;
          match e2 with EST_ERR_NONE => est_send_csrattr_data (Some b2) | _ => ret e2 end
        else est_send_csrattr_data (Some b)
      | _ => ret e
      end
    end
  end.

(** * BRSKI (built with ENABLE_BRSKI) *)
Definition ct_is (ct lit : bytes) : bool := strncmp_eq (S (length lit)) ct lit.

(** est_server.c:2374-2681 est_brski_handle_voucher_req / _voucher_status /
    _enroll_status.  EST_BRSKI_CB_SUCCESS is 1, EST_BRSKI_CB_RETRY 2. *)
Definition brski_authed (t : tls) (authz path : option bytes) (k : M est_error) : M est_error :=
  au <~ est_brski_auth t authz path ;;
  match au with
  | HTTP_AUTH | SRP_AUTH | CERT_AUTH => k
  | HTTP_AUTH_PENDING => ret EST_ERR_AUTH_PENDING
  | _ => ret EST_ERR_AUTH_FAIL
  end.
Definition brski_voucher_req (t : tls) (authz : option bytes) (ct body : bytes) (path : option bytes) : M est_error :=
  match a_voucher A with
  | None => ret EST_ERR_NULL_CALLBACK
  | Some f =>
    if negb (ct_is ct (str "application/pkcs7-mime; smime-type=voucher-request"))
       && negb (ct_is ct (str "application/json")) then ret EST_ERR_BAD_CONTENT_TYPE
    else brski_authed t authz path
      (' (rv, v) <~ call (fun e => f e body (t_peer t)) ;;
       emit (EvVoucher OP_BRSKI_REQ_VOUCHER body (t_peer t) rv v) >>
       if (rv =? 1) && (0 <? len v) then send_200 (str "application/voucher+cms") v
       else if rv =? 2 then
         e <~ send_http_retry_after (c_brski_retry C) ;;
         ret (match e with EST_ERR_NONE => EST_ERR_NONE | _ => EST_ERR_HTTP_WRITE end)
       else ret EST_ERR_CA_ENROLL_FAIL)
  end.
Definition brski_status (o : operation) (cb : option (E -> bytes -> option cert -> E * Z))
  (t : tls) (authz : option bytes) (ct body : bytes) (path : option bytes) : M est_error :=
  match cb with
  | None => ret EST_ERR_NULL_CALLBACK
  | Some f =>
    if negb (ct_is ct (str "application/json")) then ret EST_ERR_BAD_CONTENT_TYPE
    else brski_authed t authz path
      (rv <~ call (fun e => f e body (t_peer t)) ;;
       emit (EvVoucher o body (t_peer t) rv []) >>
       if rv =? 1 then
         ok <~ mg_write (str "HTTP/1.1 200 OK" ++ EOL ++ str "Status: 200 OK" ++ EOL) ;;
         ret (if ok then EST_ERR_NONE else EST_ERR_HTTP_WRITE)
       else ret EST_ERR_CA_ENROLL_FAIL)
  end.

(** * est_server.c:2700-3081 est_http_request, server mode, SSL context present.
    Result: the returned error. *)
Definition kind_of (o : operation) : enroll_kind :=
  match o with OP_SERVER_KEYGEN => SERVERKEYGEN_REQ | OP_SIMPLE_REENROLL => REENROLL_REQ | _ => SIMPLE_ENROLL_REQ end.

(** est_server.c:4818-4895, 4900-4975: the enroll request/response event
    callbacks run only if registered and the CSR parses (their address buffer
    is treated in [ip_buffer]). *)
Definition enroll_req_event (k : enroll_kind) (body : bytes) : M unit :=
  emit_if (c_ev_req C && is_some (o_parse_csr O body)) (EvEnrollReq k body).
Definition enroll_rsp_event (k : enroll_kind) (body : bytes) (rc : est_error) : M unit :=
  emit_if (c_ev_rsp C && is_some (o_parse_csr O body)) (EvEnrollRsp k body rc).

Definition est_http_request (t : tls) (method uri body : bytes) (ct authz : option bytes) : M est_error :=
  let error e := est_send_http_error (c_retry C) e in
  let refuse e := error e >> ret e in
  let finish := emit_if (c_ev_endpoint C) (EvReqEnd uri) >> ret EST_ERR_NONE in
  emit_if (c_ev_endpoint C) (EvReqStart uri) >>
  ' (pe, op, path) <~ lift (parse_uri uri) ;;
  match pe with
  | EST_ERR_NONE =>
    match op with
    | Some OP_CACERTS =>
      if negb (strncmp_eq 3 method (str "GET")) then refuse EST_ERR_WRONG_METHOD
      else rc <~ est_server_handle_cacerts path ;;
           match rc with EST_ERR_NONE => finish | _ => refuse rc end
    | Some OP_SIMPLE_ENROLL | Some OP_SIMPLE_REENROLL | Some OP_SERVER_KEYGEN =>
      let k := match op with Some o => kind_of o | None => SIMPLE_ENROLL_REQ end in
      if negb (strncmp_eq 4 method (str "POST")) then refuse EST_ERR_WRONG_METHOD
      else match ct with
      | None => refuse EST_ERR_BAD_CONTENT_TYPE
      | Some c =>
        enroll_req_event k body >>
        rc <~ match k with
              | SERVERKEYGEN_REQ => ' (rc, _, _) <~ est_handle_server_keygen t authz c body path ;; ret rc
              | _ => ' (rc, _) <~ est_handle_simple_enroll t authz c body path k ;; ret rc
              end ;;
        enroll_rsp_event k body rc >>
        match rc with
        | EST_ERR_NONE | EST_ERR_AUTH_PENDING => finish
        | _ => refuse rc
        end
      end
    | Some OP_CSRATTRS =>
      if negb (strncmp_eq 4 method (str "GET")) then refuse EST_ERR_WRONG_METHOD
      else rc <~ est_handle_csr_attrs t path ;;
           match rc with EST_ERR_NONE => finish | _ => refuse rc end
    | Some o =>
      if negb (strncmp_eq 4 method (str "POST")) then refuse EST_ERR_WRONG_METHOD
      else match ct with
      | None => refuse EST_ERR_BAD_CONTENT_TYPE
      | Some c =>
        rc <~ match o with
              | OP_BRSKI_REQ_VOUCHER => brski_voucher_req t authz c body path
              | OP_BRSKI_VOUCHER_STATUS => brski_status o (a_voucher_status A) t authz c body path
              | _ => brski_status o (a_enroll_status A) t authz c body path
              end ;;
        match rc with
        | EST_ERR_NONE | EST_ERR_AUTH_PENDING => finish
        | EST_ERR_AUTH_FAIL => error EST_ERR_AUTH_FAIL >> ret rc
        | _ => error EST_ERR_BAD_PKCS10 >> ret rc
        end
      end
    | None => error EST_ERR_UNKNOWN >> finish
    end
  | e => refuse e
  end.

(** * A connection *)
(** est_server_http.c:1211-1255 est_mg_handler: the body buffer of the announced
    length, of which [received] bytes were filled. *)
Definition body_of (b : option (Z * bytes)) : bytes :=
  match b with
  | None => []
  | Some (n, received) =>
    received ++ map uninit (seq (length received) (Z.to_nat n - length received))
  end.

(** One request served; conn->status_code is reset to -1 before
    (est_server_http.c:1495). *)
Definition serve (t : tls) (r : est_req) (s : st) : list event * res (est_error * st) :=
  est_http_request t (er_method r) (er_uri r) (body_of (er_body r))
    (get_header (er_headers r) (str "Content-Type")) (get_header (er_headers r) (str "Authorization"))
    {| s_env := s_env s; s_uid := s_uid s; s_code := -1 |}.

(** The state of a connection and, in order, its requests with the events each
    of them caused.  After undefined behaviour no further request is served. *)
Definition served : Type := res st * list (est_req * list event).
Definition handler (t : tls) (x : served) (r : est_req) : served * Z :=
  match x with
  | (UB, l) => (x, -1)
  | (Ok s, l) =>
    match serve t r s with
    | (e, UB) => ((UB, l ++ [(r, e)]), -1)
    | (e, Ok (_, s')) => ((Ok s', l ++ [(r, e)]), s_code s')
    end
  end.

(** A TLS connection delivering [w]; conn is calloc'ed, so user_id starts as
    zeroes (est_server_http.c:1721-1729). *)
Definition run_connection (t : tls) (ka : bool) (e : E) (w : net) : res (list http_event * served) :=
  process_new_connection served (handler t) ka
    (Ok {| s_env := e; s_uid := repeat 0 256; s_code := -1 |}, []) w.

End Server.

(** The two builds of est_parse_uri as parameters of the server. *)
Definition uri_plain (brski : bool) (uri : bytes) : res (est_error * option operation * option bytes) :=
  let '(e, o) := est_parse_uri_plain brski uri in Ok (e, o, None).
(** Reading an operation variable that was not set is undefined; on an error the
    operation is not read. *)
Definition uri_full (up : bytes -> option (list (Z * Z))) (brski : bool) (uri : bytes)
  : res (est_error * option operation * option bytes) :=
  ' (e, o, p) <- est_parse_uri_full up brski (uri ++ [0]) ;;
  match e, o with
  | EST_ERR_NONE, OpUnset => UB
  | _, OpUnset => Ok (e, None, p)
  | _, OpSet o => Ok (e, o, p)
  end.

(** est_server.c:4868, 4944 (and est_server_coap.c:217): the enroll event
    helpers clear INET6_ADDRSTRLEN + 1 bytes of the array
    char src_ipstr[INET6_ADDRSTRLEN]; [n] is INET6_ADDRSTRLEN. *)
Definition ip_buffer (n : Z) : res bytes :=
  let src_ipstr := repeat 0 (Z.to_nat n) in
  zero_range src_ipstr 0 (n + 1).
