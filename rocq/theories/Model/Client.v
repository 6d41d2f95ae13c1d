(** The client's state machine: connecting, building requests, retrying with
    credentials, and what the context keeps (est_client.c).

    Not modelled: malloc failure, SRP and proxy-tunnel configuration, TLS
    session reuse (ctx->sess), logging, the performance timers.  The context
    pointer is never NULL here. *)
From Coq Require Import String ZArith List Bool.
From Verif Require Import Base Spec.Http Model.CLib Model.EstErr Model.Codec Model.Uri Model.AuthHdr Model.CsrAttrs Model.ClientHttp Model.Multipart Model.Host Spec.Der.
Import ListNotations.
Open Scope Z_scope.

(** * State *)

(** The parts of EST_CTX (est_locl.h:389-578) the client's operations use.  The
    character arrays are given as C strings: they are zeroed when the context
    is made and never written at their last position. *)
Record client := {
  c_http : cctx;               (* auth_mode, realm, s_nonce, token_error, ..., last_http_status *)
  c_user : bytes;              (* userid *)
  c_pwd : bytes;               (* password *)
  c_cb : bool;                 (* auth_credentials_cb is set *)
  c_init : bool;               (* est_client_initialized *)
  c_cert : option bytes;       (* enrolled_client_cert, enrolled_client_cert_len *)
  c_key : option bytes;        (* server_gen_client_priv_key, server_gen_key_len *)
  c_cas : option bytes;        (* retrieved_ca_certs, retrieved_ca_certs_len *)
  c_attrs : option bytes;      (* retrieved_csrattrs *)
  c_pop : bool;                (* csr_pop_required *)
  c_force : bool;              (* client_force_pop *)
  c_server : bytes;            (* est_server *)
  c_port : Z;                  (* est_port_num *)
  c_path : option bytes;       (* uri_path_segment *)
  c_trust : bytes;             (* the trust anchors in ssl_ctx *)
  c_store : option bytes       (* trusted_certs_store: anchors not in ssl_ctx *)
}.
Definition put_http (v : cctx) (c : client) := {| c_http := v; c_user := c_user c; c_pwd := c_pwd c; c_cb := c_cb c; c_init := c_init c; c_cert := c_cert c; c_key := c_key c; c_cas := c_cas c; c_attrs := c_attrs c; c_pop := c_pop c; c_force := c_force c; c_server := c_server c; c_port := c_port c; c_path := c_path c; c_trust := c_trust c; c_store := c_store c |}.
Definition put_user (v : bytes) (c : client) := {| c_http := c_http c; c_user := v; c_pwd := c_pwd c; c_cb := c_cb c; c_init := c_init c; c_cert := c_cert c; c_key := c_key c; c_cas := c_cas c; c_attrs := c_attrs c; c_pop := c_pop c; c_force := c_force c; c_server := c_server c; c_port := c_port c; c_path := c_path c; c_trust := c_trust c; c_store := c_store c |}.
Definition put_pwd (v : bytes) (c : client) := {| c_http := c_http c; c_user := c_user c; c_pwd := v; c_cb := c_cb c; c_init := c_init c; c_cert := c_cert c; c_key := c_key c; c_cas := c_cas c; c_attrs := c_attrs c; c_pop := c_pop c; c_force := c_force c; c_server := c_server c; c_port := c_port c; c_path := c_path c; c_trust := c_trust c; c_store := c_store c |}.
Definition put_cb (v : bool) (c : client) := {| c_http := c_http c; c_user := c_user c; c_pwd := c_pwd c; c_cb := v; c_init := c_init c; c_cert := c_cert c; c_key := c_key c; c_cas := c_cas c; c_attrs := c_attrs c; c_pop := c_pop c; c_force := c_force c; c_server := c_server c; c_port := c_port c; c_path := c_path c; c_trust := c_trust c; c_store := c_store c |}.
Definition put_init (v : bool) (c : client) := {| c_http := c_http c; c_user := c_user c; c_pwd := c_pwd c; c_cb := c_cb c; c_init := v; c_cert := c_cert c; c_key := c_key c; c_cas := c_cas c; c_attrs := c_attrs c; c_pop := c_pop c; c_force := c_force c; c_server := c_server c; c_port := c_port c; c_path := c_path c; c_trust := c_trust c; c_store := c_store c |}.
Definition put_cert (v : option bytes) (c : client) := {| c_http := c_http c; c_user := c_user c; c_pwd := c_pwd c; c_cb := c_cb c; c_init := c_init c; c_cert := v; c_key := c_key c; c_cas := c_cas c; c_attrs := c_attrs c; c_pop := c_pop c; c_force := c_force c; c_server := c_server c; c_port := c_port c; c_path := c_path c; c_trust := c_trust c; c_store := c_store c |}.
Definition put_key (v : option bytes) (c : client) := {| c_http := c_http c; c_user := c_user c; c_pwd := c_pwd c; c_cb := c_cb c; c_init := c_init c; c_cert := c_cert c; c_key := v; c_cas := c_cas c; c_attrs := c_attrs c; c_pop := c_pop c; c_force := c_force c; c_server := c_server c; c_port := c_port c; c_path := c_path c; c_trust := c_trust c; c_store := c_store c |}.
Definition put_cas (v : option bytes) (c : client) := {| c_http := c_http c; c_user := c_user c; c_pwd := c_pwd c; c_cb := c_cb c; c_init := c_init c; c_cert := c_cert c; c_key := c_key c; c_cas := v; c_attrs := c_attrs c; c_pop := c_pop c; c_force := c_force c; c_server := c_server c; c_port := c_port c; c_path := c_path c; c_trust := c_trust c; c_store := c_store c |}.
Definition put_attrs (v : option bytes) (c : client) := {| c_http := c_http c; c_user := c_user c; c_pwd := c_pwd c; c_cb := c_cb c; c_init := c_init c; c_cert := c_cert c; c_key := c_key c; c_cas := c_cas c; c_attrs := v; c_pop := c_pop c; c_force := c_force c; c_server := c_server c; c_port := c_port c; c_path := c_path c; c_trust := c_trust c; c_store := c_store c |}.
Definition put_pop (v : bool) (c : client) := {| c_http := c_http c; c_user := c_user c; c_pwd := c_pwd c; c_cb := c_cb c; c_init := c_init c; c_cert := c_cert c; c_key := c_key c; c_cas := c_cas c; c_attrs := c_attrs c; c_pop := v; c_force := c_force c; c_server := c_server c; c_port := c_port c; c_path := c_path c; c_trust := c_trust c; c_store := c_store c |}.
Definition put_force (v : bool) (c : client) := {| c_http := c_http c; c_user := c_user c; c_pwd := c_pwd c; c_cb := c_cb c; c_init := c_init c; c_cert := c_cert c; c_key := c_key c; c_cas := c_cas c; c_attrs := c_attrs c; c_pop := c_pop c; c_force := v; c_server := c_server c; c_port := c_port c; c_path := c_path c; c_trust := c_trust c; c_store := c_store c |}.
Definition put_server (v : bytes) (p : Z) (c : client) := {| c_http := c_http c; c_user := c_user c; c_pwd := c_pwd c; c_cb := c_cb c; c_init := c_init c; c_cert := c_cert c; c_key := c_key c; c_cas := c_cas c; c_attrs := c_attrs c; c_pop := c_pop c; c_force := c_force c; c_server := v; c_port := p; c_path := c_path c; c_trust := c_trust c; c_store := c_store c |}.
Definition put_path (v : option bytes) (c : client) := {| c_http := c_http c; c_user := c_user c; c_pwd := c_pwd c; c_cb := c_cb c; c_init := c_init c; c_cert := c_cert c; c_key := c_key c; c_cas := c_cas c; c_attrs := c_attrs c; c_pop := c_pop c; c_force := c_force c; c_server := c_server c; c_port := c_port c; c_path := v; c_trust := c_trust c; c_store := c_store c |}.
Definition put_store (v : option bytes) (c : client) := {| c_http := c_http c; c_user := c_user c; c_pwd := c_pwd c; c_cb := c_cb c; c_init := c_init c; c_cert := c_cert c; c_key := c_key c; c_cas := c_cas c; c_attrs := c_attrs c; c_pop := c_pop c; c_force := c_force c; c_server := c_server c; c_port := c_port c; c_path := c_path c; c_trust := c_trust c; c_store := v |}.

(** * Environment *)

(** Why a connection cannot be made: tcw_connect, SSL_new, SSL_connect. *)
Inductive failure := NoAddress | NoConnection | NoSsl | NoTls.
(** What happens on one TLS connection. *)
Record session := {
  t_cert : option (option (list general_name) * list (option bytes));  (* the names in the peer's certificate *)
  t_srp : bool;                  (* enable_srp *)
  t_own : bytes;                 (* SSL_get_finished *)
  t_peer : bytes;                (* SSL_get_peer_finished *)
  t_reused : bool;               (* SSL_session_reused *)
  t_tls13 : bool;                (* SSL_version > TLS 1.2 *)
  t_rnd : option bytes;          (* RAND_bytes of 8 octets; None: it fails *)
  t_cred : cred;                 (* what auth_credentials_cb answers *)
  t_write : bool;                (* SSL_write succeeds *)
  t_reads : list net             (* what SSL_read gives *)
}.
Inductive attempt := Refused (f : failure) | Tls (s : session).

(** What the outside sees: a TCP/TLS connection to a server, verified with
    trust anchors; a request written to it; what the server answered. *)
Inductive event :=
| EConnect (server : bytes) (port : Z) (anchors : bytes)
| ERequest (r : bytes)
| EResponse (evs : list net).

Record st := { s_c : client; s_env : list attempt }.
Definition M (X : Type) := st -> list event * res (X * st).
Definition ret {X} (x : X) : M X := fun s => ([], Ok (x, s)).
Definition mbind {X Y} (m : M X) (f : X -> M Y) : M Y := fun s =>
  match m s with
  | (e1, UB) => (e1, UB)
  | (e1, Ok (x, s1)) => let '(e2, r) := f x s1 in (e1 ++ e2, r)
  end.
Notation "x <~ m ;; f" := (mbind m (fun x => f)) (at level 61, m at next level, right associativity).
Notation "' p <~ m ;; f" := (mbind m (fun x => match x with p => f end))
  (at level 61, p pattern, m at next level, right associativity).
Notation "m >> f" := (mbind m (fun _ => f)) (at level 61, f at level 61, right associativity).
Definition lift {X} (r : res X) : M X := fun s => ([], x <- r ;; Ok (x, s)).
Definition emit (e : event) : M unit := fun s => ([e], Ok (tt, s)).
Definition get : M client := fun s => ([], Ok (s_c s, s)).
Definition upd (f : client -> client) : M unit := fun s => ([], Ok (tt, {| s_c := f (s_c s); s_env := s_env s |})).
(** The next connection; when the environment has no more, connecting fails. *)
Definition next : M attempt := fun s =>
  match s_env s with
  | [] => ([], Ok (Refused NoConnection, s))
  | a :: r => ([], Ok (a, {| s_c := s_c s; s_env := r |}))
  end.

(** * External functions.  Keys, certificates and certificate requests are
    octet strings. *)
Record ext := {
  x_pton4 : bytes -> option bytes;      (* inet_pton, AF_INET *)
  x_pton6 : bytes -> option bytes;      (* AF_INET6 *)
  x_md5 : bytes -> bytes;
  x_bio : bool -> bytes -> Z -> bytes;  (* BIO_read through a base64 filter *)
  x_fips : bool;                        (* FIPS_mode() *)
  x_junk : bytes -> Z;                  (* uninitialised memory behind a multipart header *)
  x_uri : bytes -> option (list (Z * Z));   (* uriparser, see Model/Uri.v *)
  x_brski : bool;                       (* built with BRSKI *)
  x_G : bytes -> option header;         (* ASN1_get_object, see Model/CsrAttrs.v *)
  (* est_client.c:92-219 populate_x509_request, est_generate_pkcs10: key,
     common name and challengePassword give an error or the request in DER *)
  x_make_csr : bytes -> bytes -> option bytes -> est_error * bytes;
  (* est_client.c:1807-1833, 2178-2208: remove the challengePassword of a request,
     add the one given, sign with the key *)
  x_sign_csr : bytes -> option bytes -> bytes -> est_error * bytes;
  (* est_client.c:3512-3568: the checks of certificate and key, and the request
     made from them; None: its extensions cannot be copied *)
  x_csr_of_cert : bytes -> bytes -> est_error * option bytes;
  (* est_client.c:1891-1972 est_client_verify_key_and_cert: the key belongs to the certificate *)
  x_key_matches : bytes -> bytes -> bool;
  (* est_client.c:361-476 b64_decode_cacerts, create_PKCS7, PKCS7_to_stack: the
     certificates in a response, or the error *)
  x_p7_certs : bytes -> est_error * list bytes;
  x_self_issued : bytes -> bool;        (* X509_check_issued(c, c) == X509_V_OK *)
  x_verify : list bytes -> list bytes -> bytes -> Z;   (* X509_verify_cert with trusted and other certificates *)
  (* est_client.c:266-359 est_client_remove_crls: error, and the text it leaves *)
  x_remove_crls : bytes -> est_error * bytes;
  x_to_pem : bytes -> option bytes;     (* est_convert_p7b64_to_pem *)
  x_load_certs : bytes -> est_error     (* est.c:658-679 est_load_trusted_certs *)
}.

Section Client.
Variable X : ext.

(** * Requests *)

(** configure.ac:2, est_locl.h:62,196 *)
Definition AGENT : bytes := str "libest 3.2.0p".
(** est_locl.h:200 EST_HTTP_REQ_TOTAL_LEN, 198 EST_HTTP_REQ_DATA_MAX, 152 EST_HTTP_HDR_MAX *)
Definition REQ_TOTAL : Z := 5125.
Definition REQ_DATA_MAX : Z := 4096.
Definition HDR_MAX : Z := 1024.
(** est.h:46-47 *)
Definition EST_MAX_CLIENT_CERT_LEN : Z := 4096.
Definition EST_MAX_CLIENT_PKEY_LEN : Z := 8192.

(** The common part of est_client.c:1250-1260, 1287-1297, 1419-1431, 1460-1472,
    1501-1513: request line, User-Agent, Connection, Host, Accept. *)
Definition request_start (method name : bytes) (c : client) : bytes :=
  method ++ str " /.well-known/est" ++ match c_path c with Some p => str "/" ++ p | None => [] end
  ++ str "/" ++ name ++ str " HTTP/1.1" ++ CRLF
  ++ str "User-Agent: " ++ AGENT ++ CRLF
  ++ str "Connection: close" ++ CRLF
  ++ str "Host: " ++ c_server c ++ str ":" ++ print_int (c_port c) ++ CRLF
  ++ str "Accept: */*" ++ CRLF.
Definition post_start (name : bytes) (n : Z) (c : client) : bytes :=
  request_start (str "POST") name c
  ++ str "Content-Type: application/pkcs10" ++ CRLF
  ++ str "Content-Length: " ++ print_int n ++ CRLF.

(** est_client.c:1056-1235 est_client_add_auth_hdr with the client's state
    (Model/AuthHdr.v); when RAND_bytes fails the whole request is cleared
    (1129-1134).  Without a callback it supplies nothing. *)
Definition no_cred : cred := {| cr_user := None; cr_pwd := None; cr_token := None |}.
Definition add_auth (c : client) (t : session) (hdr uri : bytes) : res bytes :=
  let k := c_http c in
  let add rnd := est_client_add_auth_hdr (x_md5 X) (k_mode k) (c_user c) (c_pwd c) (k_realm k) (k_nonce k)
                   (if c_cb c then t_cred t else no_cred) rnd hdr uri in
  match t_rnd t with
  | Some rnd => add rnd
  | None => if mode_eqb (k_mode k) AUTH_DIGEST then Ok [] else add []
  end.

(** est_client.c:1246-1273 est_client_build_cacerts_header; [] for length 0. *)
Definition est_client_build_cacerts_header (c : client) : bytes :=
  let h := snprintf_str (request_start (str "GET") (str "cacerts") c) REQ_TOTAL in
  if HDR_MAX <? len h then [] else h.
(** est_client.c:1283-1311 est_client_build_csr_header *)
Definition est_client_build_csr_header (c : client) (t : session) : res bytes :=
  h <- add_auth c t (snprintf_str (request_start (str "GET") (str "csrattrs") c) REQ_TOTAL) (str "/.well-known/est/csrattrs") ;;
  Ok (if HDR_MAX <? len h then [] else h).
(** est_client.c:1415-1445 est_client_build_enroll_header: its limit, 5125, is
    never exceeded by a string in a 5125 byte buffer. *)
Definition est_client_build_enroll_header (c : client) (t : session) (n : Z) : res bytes :=
  h <- add_auth c t (snprintf_str (post_start (str "simpleenroll") n c) REQ_TOTAL) (str "/.well-known/est/simpleenroll") ;;
  Ok (if REQ_TOTAL <? len h then [] else h).
(** est_client.c:1456-1486 est_client_build_reenroll_header *)
Definition est_client_build_reenroll_header (c : client) (t : session) (n : Z) : res bytes :=
  h <- add_auth c t (snprintf_str (post_start (str "simplereenroll") n c) REQ_TOTAL) (str "/.well-known/est/simplereenroll") ;;
  Ok (if HDR_MAX <? len h then [] else h).
(** est_client.c:1497-1522 est_client_build_server_keygen_header *)
Definition est_client_build_server_keygen_header (c : client) (t : session) (n : Z) : res bytes :=
  add_auth c t (snprintf_str (post_start (str "serverkeygen") n c) REQ_TOTAL) (str "/.well-known/est/serverkeygen").

(** est_client.c:1605-1630: blank line, body, CR LF in the 5125 byte buffer.  A
    body over 4096 is not copied (memcpy_s) but counted, so that uninitialised
    memory, or memory outside the buffer, would be sent: [UB].  So is a write
    or read behind the buffer.  The last snprintf needs a byte for its NUL. *)
Definition complete (hdr body : bytes) : res bytes :=
  if REQ_DATA_MAX <? len body then UB
  else
    let r := hdr ++ CRLF ++ body in
    if REQ_TOTAL <? len r + 2 then UB
    else Ok (r ++ (if REQ_TOTAL - len r =? 2 then [13; 0] else CRLF)).

(** * Connecting: est_client.c:2768-2907 est_client_connect *)
Definition failure_error (f : failure) : est_error :=
  match f with
  | NoAddress => EST_ERR_IP_GETADDR
  | NoConnection => EST_ERR_IP_CONNECT
  | NoSsl => EST_ERR_SSL_NEW
  | NoTls => EST_ERR_SSL_CONNECT
  end.
Definition est_client_connect : M (est_error + session) :=
  c <~ get ;;
  emit (EConnect (c_server c) (c_port c) (c_trust c)) >>
  a <~ next ;;
  match a with
  | Refused f => ret (inl (failure_error f))
  | Tls t =>
    e <~ lift (est_client_check_fqdn (x_pton4 X) (x_pton6 X) (c_server c) (t_srp t) (t_cert t)) ;;
    if err_eqb e EST_ERR_NONE then ret (inr t) else ret (inl EST_ERR_FQDN_MISMATCH)
  end.

(** * One exchange *)

(** SSL_write of a request (last_http_status is cleared first), and the
    answer's octets if it can be written. *)
Definition exchange (r : bytes) (t : session) : M bool :=
  upd (fun c => put_http (set_status 0 (c_http c)) c) >>
  emit (ERequest r) >>
  if t_write t then emit (EResponse (t_reads t)) >> ret true else ret false.

Definition get_response (op : operation) (t : session) : M (est_error * delivery) :=
  c <~ get ;;
  ' (rv, d, k) <~ lift (est_io_get_response (t_reads t) op (c_http c)) ;;
  upd (put_http k) >> ret (rv, d).
Definition get_keygen_response (t : session) : M (est_error * option (bytes * bytes)) :=
  c <~ get ;;
  ' (rv, d, k) <~ lift (est_io_get_keygen_response (x_junk X) (t_reads t) (c_http c)) ;;
  upd (put_http k) >> ret (rv, d).
Definition delivered_bytes (d : delivery) : bytes := match d with Deliver (Some b) _ => b | _ => [] end.

(** est_client.c:1542-1702 (and 1722-1755) est_client_send_enroll_request_internal: the error,
    and on success the key (for key generation) and the certificate. *)
Definition build_header (op : operation) (c : client) (t : session) (n : Z) : res bytes :=
  match op with
  | OP_SIMPLE_ENROLL => est_client_build_enroll_header c t n
  | OP_SIMPLE_REENROLL => est_client_build_reenroll_header c t n
  | OP_SERVER_KEYGEN => est_client_build_server_keygen_header c t n
  | _ => Ok []
  end.
Definition is_keygen (op : operation) : bool := match op with OP_SERVER_KEYGEN => true | _ => false end.
Definition checked_cert (key cert : bytes) (keygen : bool) : est_error :=
  if len cert =? 0 then EST_ERR_ZERO_LENGTH_BUF
  else if EST_MAX_CLIENT_CERT_LEN <? len cert then EST_ERR_BUF_EXCEEDS_MAX_LEN
  else if keygen && (len key =? 0) then EST_ERR_ZERO_LENGTH_BUF
  else if keygen && (EST_MAX_CLIENT_PKEY_LEN <? len key) then EST_ERR_BUF_EXCEEDS_MAX_LEN
  else EST_ERR_NONE.
Definition est_client_send_enroll_request (op : operation) (body : bytes) (t : session) : M (est_error * bytes * bytes) :=
  c <~ get ;;
  h <~ lift (build_header op c t (len body)) ;;
  if len h =? 0 then ret (EST_ERR_HTTP_CANNOT_BUILD_HEADER, [], [])
  else
    r <~ lift (complete h body) ;;
    w <~ exchange r t ;;
    if negb w then ret (EST_ERR_SSL_WRITE, [], [])
    else
      ' (rv, key, cert) <~
        (if is_keygen op then ' (rv, d) <~ get_keygen_response t ;; ret (rv, match d with Some (k, _) => k | None => [] end, match d with Some (_, x) => x | None => [] end)
         else ' (rv, d) <~ get_response op t ;; ret (rv, [], delivered_bytes d)) ;;
      if negb (err_eqb rv EST_ERR_NONE) then ret (rv, [], [])
      else
        let e := checked_cert key cert (is_keygen op) in
        if err_eqb e EST_ERR_NONE then ret (EST_ERR_NONE, key, cert) else ret (e, [], []).

(** est_client.c:1983-2151 est_client_enroll_req: the request in base64, with
    line breaks; on success the certificate (and key) is kept.  A key that does
    not belong to the certificate is an error, but both stay. *)
Definition est_client_enroll_req (op : operation) (der : bytes) (t : session) : M est_error :=
  ' (rv, key, cert) <~ est_client_send_enroll_request op (bio_b64_text der true) t ;;
  if negb (err_eqb rv EST_ERR_NONE) then ret rv
  else
    upd (put_cert (Some cert)) >>
    if is_keygen op then
      upd (put_key (Some key)) >>
      if x_key_matches X key cert then ret EST_ERR_NONE else ret EST_ERR_VALIDATION
    else ret EST_ERR_NONE.

Definition tls_uid (t : session) : res (option (bytes * Z)) := est_get_tls_uid (t_own t) (t_peer t) (t_reused t) (t_tls13 t) true.
Definition wants_pop (c : client) : bool := c_pop c || c_force c.

(** est_client.c:2168-2216 est_client_enroll_pkcs10 *)
Definition est_client_enroll_pkcs10 (op : operation) (csr key : bytes) (t : session) : M est_error :=
  c <~ get ;;
  cp <~ (if wants_pop c then u <~ lift (tls_uid t) ;;
            match u with Some (blk, _) => s <~ lift (cstr blk) ;; ret (Some (Some s)) | None => ret None end
         else ret (Some None)) ;;
  match cp with
  | None => ret EST_ERR_AUTH_FAIL_TLSUID
  | Some cp =>
    let '(rv, der) := x_sign_csr X csr cp key in
    if err_eqb rv EST_ERR_NONE then est_client_enroll_req op der t else ret rv
  end.

(** est_client.c:2236-2270 est_client_enroll_cn *)
Definition est_client_enroll_cn (op : operation) (cn key : bytes) (t : session) : M est_error :=
  c <~ get ;;
  u <~ lift (tls_uid t) ;;
  match u with
  | None => ret EST_ERR_AUTH_FAIL_TLSUID
  | Some (blk, _) =>
    s <~ lift (cstr blk) ;;
    let '(rv, der) := x_make_csr X key cn (if wants_pop c then Some s else None) in
    if err_eqb rv EST_ERR_NONE then est_client_enroll_req op der t else ret rv
  end.

(** * Enrollment with a second attempt *)

(** The common part of est_client.c:3174-3222, 3583-3630, 3659-3708: connect,
    try; if the server asked for credentials the client can give, connect and
    try once more.  [tidy]: the token error is cleared when that fails (3205-
    3213, 3614-3622; not in est_client_enroll_csr_internal).  The flag says
    whether the code did not jump to the label err. *)
Definition clear_token_error (c : client) : client :=
  put_http (set_desc [] (set_err [] (c_http c))) c.
Definition twice (tidy : bool) (try : session -> M est_error) : M (est_error * bool) :=
  r <~ est_client_connect ;;
  match r with
  | inl e => ret (e, false)
  | inr t =>
    rv <~ try t ;;
    c <~ get ;;
    if err_eqb rv EST_ERR_AUTH_FAIL && match k_mode (c_http c) with AUTH_DIGEST | AUTH_BASIC | AUTH_TOKEN => true | _ => false end then
      if mode_eqb (k_mode (c_http c)) AUTH_DIGEST && x_fips X then ret (EST_ERR_BAD_MODE, false)
      else
        r2 <~ est_client_connect ;;
        match r2 with
        | inl e => ret (e, false)
        | inr t2 =>
          rv2 <~ try t2 ;;
          (if tidy && negb (err_eqb rv2 EST_ERR_NONE) then upd clear_token_error else ret tt) >>
          ret (rv2, true)
        end
    else ret (rv, true)
  end.

(** est_client.c:3152-3227 est_client_enroll_internal *)
Definition est_client_enroll_internal (op : operation) (cn : bytes) (key : option bytes) : M est_error :=
  c <~ get ;;
  if negb (c_init c) then ret EST_ERR_CLIENT_NOT_INITIALIZED
  else match key with
  | None => ret EST_ERR_NO_KEY
  | Some k =>
    ' (rv, normal) <~ twice true (est_client_enroll_cn op cn k) ;;
    (if normal then upd (fun c => put_http (set_mode AUTH_NONE (c_http c)) c) else ret tt) >>
    ret rv
  end.
(** est_client.c:3291-3294, 3260-3263 *)
Definition est_client_enroll := est_client_enroll_internal OP_SIMPLE_ENROLL.
Definition est_client_server_keygen_enroll := est_client_enroll_internal OP_SERVER_KEYGEN.

(** est_client.c:3484-3637 est_client_reenroll.  When the extensions cannot be
    copied (3561-3563), the code jumps to err with the EST_ERR_NONE of the last
    check in rv. *)
Definition est_client_reenroll (cert key : option bytes) : M est_error :=
  c <~ get ;;
  match cert, key with
  | None, _ => ret EST_ERR_NO_CERT
  | _, None => ret EST_ERR_NO_KEY
  | Some x, Some k =>
    if negb (c_init c) then ret EST_ERR_CLIENT_NOT_INITIALIZED
    else
      let '(e, csr) := x_csr_of_cert X x k in
      if negb (err_eqb e EST_ERR_NONE) then ret e
      else match csr with
           | None => ret EST_ERR_NONE
           | Some r => ' (rv, _) <~ twice true (est_client_enroll_pkcs10 OP_SIMPLE_REENROLL r k) ;; ret rv
           end
  end.

(** est_client.c:3640-3715 est_client_enroll_csr_internal; without a private
    key the request is sent as it is. *)
Definition est_client_enroll_csr_internal (op : operation) (csr key : option bytes) : M est_error :=
  c <~ get ;;
  match csr with
  | None => ret EST_ERR_NO_CSR
  | Some x =>
    if negb (c_init c) then ret EST_ERR_CLIENT_NOT_INITIALIZED
    else
      ' (rv, _) <~ twice false (match key with
                                | Some k => est_client_enroll_pkcs10 op x k
                                | None => est_client_enroll_req op x
                                end) ;;
      ret rv
  end.
(** est_client.c:3761-3764 *)
Definition est_client_enroll_csr := est_client_enroll_csr_internal OP_SIMPLE_ENROLL.
(** est_client.c:3794-3800 *)
Definition est_client_server_keygen_enroll_csr (csr key : option bytes) : M est_error :=
  match key with
  | None => ret EST_ERR_NO_KEY
  | Some _ => est_client_enroll_csr_internal OP_SERVER_KEYGEN csr key
  end.

(** * What was obtained *)

(** est_client.c:3817-3851 est_client_copy_enrolled_cert; [out]: the buffer
    argument is not NULL.  It must have room for the certificate. *)
Definition est_client_copy_enrolled_cert (out : bool) : M (est_error * option bytes) :=
  c <~ get ;;
  if negb (c_init c) then ret (EST_ERR_CLIENT_NOT_INITIALIZED, None)
  else if negb out then ret (EST_ERR_INVALID_PARAMETERS, None)
  else match c_cert c with
       | None => ret (EST_ERR_NO_CERTIFICATE, None)
       | Some x => upd (put_cert None) >> ret (EST_ERR_NONE, Some x)
       end.
(** est_client.c:3869-3906 est_client_copy_server_generated_key *)
Definition est_client_copy_server_generated_key (out : bool) : M (est_error * option bytes) :=
  c <~ get ;;
  if negb (c_init c) then ret (EST_ERR_CLIENT_NOT_INITIALIZED, None)
  else if negb out then ret (EST_ERR_INVALID_PARAMETERS, None)
  else match c_key c with
       | None => ret (EST_ERR_NO_KEY, None)
       | Some x => upd (put_key None) >> ret (EST_ERR_NONE, Some x)
       end.

(** * CA certificates *)

(** est_client.c:495-638 verify_cacert_resp: the error, and the text (from
    which CRLs were removed). *)
Definition verify_cacert_resp (text : bytes) : est_error * bytes :=
  let '(e, certs) := x_p7_certs X text in
  if negb (err_eqb e EST_ERR_NONE) then (e, text)
  else
    let trusted := filter (x_self_issued X) certs in
    let failed := existsb (fun x => x_verify X trusted certs x =? 0) certs in
    let '(e2, text2) := x_remove_crls X text in
    if failed then (EST_ERR_CACERT_VERIFICATION, text2) else (e2, text2).

(** est_client.c:2961-3104 est_client_send_cacerts_request *)
Definition est_client_send_cacerts_request (t : session) : M est_error :=
  c <~ get ;;
  let h := est_client_build_cacerts_header c in
  if len h =? 0 then ret EST_ERR_HTTP_CANNOT_BUILD_HEADER
  else
    w <~ exchange (h ++ CRLF ++ CRLF) t ;;
    if negb w then ret EST_ERR_SSL_WRITE
    else
      ' (rv, d) <~ get_response OP_CACERTS t ;;
      if negb (err_eqb rv EST_ERR_NONE) then ret rv
      else
        let b := delivered_bytes d in
        if len b =? 0 then ret EST_ERR_ZERO_LENGTH_BUF
        else if EST_CA_MAX <? len b + 1 then ret EST_ERR_BUF_EXCEEDS_MAX_LEN
        else
          let '(e, text) := verify_cacert_resp b in
          if err_eqb e EST_ERR_NONE then upd (put_cas (Some text)) >> ret EST_ERR_NONE
          else upd (put_cas None) >> ret e.

(** est_client.c:3928-3963 est_client_get_cacerts; [out]: the length argument
    is not NULL. *)
Definition est_client_get_cacerts (out : bool) : M est_error :=
  c <~ get ;;
  if negb (c_init c) then ret EST_ERR_CLIENT_NOT_INITIALIZED
  else if negb out then ret EST_ERR_INVALID_PARAMETERS
  else
    r <~ est_client_connect ;;
    match r with
    | inl e => ret e
    | inr t => est_client_send_cacerts_request t
    end.

(** est_client.c:3985-4016 est_client_copy_cacerts: they stay in the context. *)
Definition est_client_copy_cacerts (out : bool) : M (est_error * option bytes) :=
  c <~ get ;;
  if negb (c_init c) then ret (EST_ERR_CLIENT_NOT_INITIALIZED, None)
  else if negb out then ret (EST_ERR_INVALID_PARAMETERS, None)
  else match c_cas c with
       | None => ret (EST_ERR_NO_CERTIFICATE, None)
       | Some x => upd (put_init false) >> ret (EST_ERR_NONE, Some x)
       end.

(** * CSR attributes *)

(** est_client.c:1321-1404 est_client_send_csrattrs_request *)
Definition est_client_send_csrattrs_request (t : session) : M (est_error * option bytes) :=
  c <~ get ;;
  h <~ lift (est_client_build_csr_header c t) ;;
  if len h =? 0 then ret (EST_ERR_HTTP_CANNOT_BUILD_HEADER, None)
  else
    w <~ exchange (h ++ CRLF ++ CRLF) t ;;
    if negb w then ret (EST_ERR_SSL_WRITE, None)
    else
      ' (rv, d) <~ get_response OP_CSRATTRS t ;;
      if err_eqb rv EST_ERR_NONE then ret (EST_ERR_NONE, match d with Deliver b _ => b | Untouched => None end)
      else ret (rv, None).

(** est_client.c:4045-4149 est_client_get_csrattrs.  The attributes are handed
    to est_asn1_parse_attributes as a C string; its length argument counts what
    follows a NUL as well, which only enlarges a buffer there (simplified). *)
Definition est_client_get_csrattrs (out : bool) : M (est_error * option bytes) :=
  if negb out then ret (EST_ERR_INVALID_PARAMETERS, None)
  else
    r <~ est_client_connect ;;
    match r with
    | inl e => ret (e, None)
    | inr t =>
      upd (put_attrs None) >>
      ' (rv, d) <~ est_client_send_csrattrs_request t ;;
      if negb (err_eqb rv EST_ERR_NONE) then ret (rv, None)
      else match d with
      | None => ret (EST_ERR_NONE, None)
      | Some b =>
        ' (e, pop) <~ lift (est_asn1_parse_attributes (x_G X) (x_bio X) (upto_nul b)) ;;
        upd (put_pop pop) >>
        if err_eqb e EST_ERR_NONE then upd (put_attrs (Some b)) >> ret (EST_ERR_NONE, Some b)
        else ret (e, None)
      end
    end.

(** * est_client.c:3344-3444 est_client_provision_cert.  The anchors obtained
    are loaded into trusted_certs_store, which ssl_ctx does not use: that
    pointer was handed over and cleared in est_client_init_ssl_ctx (848-849). *)
Definition est_client_provision_cert (cn : bytes) (key : option bytes) : M est_error :=
  c <~ get ;;
  if negb (c_init c) then ret EST_ERR_CLIENT_NOT_INITIALIZED
  else match key with
  | None => ret EST_ERR_NO_KEY
  | Some _ =>
    rv <~ est_client_get_cacerts true ;;
    if negb (err_eqb rv EST_ERR_NONE) then ret rv
    else
      ' (rv, ta) <~ est_client_copy_cacerts true ;;
      if negb (err_eqb rv EST_ERR_NONE) then ret rv
      else match x_to_pem X match ta with Some x => x | None => [] end with
      | None => ret EST_ERR_PEM_READ
      | Some pem =>
        upd (put_store (Some pem)) >>
        if negb (err_eqb (x_load_certs X pem) EST_ERR_NONE) then ret (x_load_certs X pem)
        else
          upd (put_init true) >>
          ' (rv, _) <~ est_client_get_csrattrs true ;;
          if negb (err_eqb rv EST_ERR_NONE) && negb (err_eqb rv EST_ERR_HTTP_NO_CONTENT) then ret rv
          else est_client_enroll cn key
      end
  end.

(** * Configuration *)

(** est_client.c:3107-3146 est_client_set_uid_pw: the user id is stored before
    the password is checked. *)
Definition est_client_set_uid_pw (uid pwd : option bytes) : M est_error :=
  match uid, pwd with
  | Some _, None | None, Some _ => ret EST_ERR_INVALID_PARAMETERS
  | None, None => ret EST_ERR_NONE
  | Some u, Some p =>
    if 255 <? len u then ret EST_ERR_INVALID_PARAMETERS
    else
      upd (put_user u) >>
      if 255 <? len p then ret EST_ERR_INVALID_PARAMETERS
      else upd (put_pwd p) >> ret EST_ERR_NONE
  end.
(** est_client.c:4286-4323 est_client_set_auth; [cert]: None without
    certificate and key, else whether OpenSSL accepts them. *)
Definition est_client_set_auth (uid pwd : option bytes) (cert : option bool) : M est_error :=
  rv <~ est_client_set_uid_pw uid pwd ;;
  if negb (err_eqb rv EST_ERR_NONE) then ret rv
  else
    upd (fun c => put_http (set_mode AUTH_NONE (c_http c)) c) >>
    match cert with
    | Some false => ret EST_ERR_CLIENT_INVALID_KEY
    | _ => ret EST_ERR_NONE
    end.
(** est_client.c:4374-4384 est_client_set_auth_cred_cb *)
Definition est_client_set_auth_cred_cb (present : bool) : M est_error := upd (put_cb present) >> ret EST_ERR_NONE.
(** est_client.c:4410-4419 est_client_enable_basic_auth_hint *)
Definition est_client_enable_basic_auth_hint : M est_error :=
  upd (fun c => put_http (set_mode AUTH_BASIC (c_http c)) c) >> ret EST_ERR_NONE.
(** est_client.c:4569-4650 est_client_set_server, built with uriparser.  Name
    and port are stored before the path segment is checked.  [None] for the old
    segment: whatever is stored stays when the new one is refused or absent. *)
Definition est_client_set_server (server : option bytes) (port : Z) (seg : option bytes) : M est_error :=
  c <~ get ;;
  if negb (c_init c) then ret EST_ERR_CLIENT_NOT_INITIALIZED
  else match server with
  | None => ret EST_ERR_INVALID_SERVER_NAME
  | Some n =>
    if (port <=? 0) || (65535 <? port) then ret EST_ERR_INVALID_PORT_NUM
    else if 255 <? len n then ret EST_ERR_INVALID_SERVER_NAME
    else
      upd (put_server n port) >>
      ' (rc, b) <~ lift (set_path_segment (x_uri X) (x_brski X) None seg) ;;
      match b with
      | Some blk => s <~ lift (cstr blk) ;; upd (put_path (Some s)) >> ret rc
      | None => ret rc
      end
  end.
(** est_client.c:4913-4944 est_client_force_pop, est_client_unforce_pop *)
Definition est_client_force_pop (on : bool) : M est_error := upd (put_force on) >> ret EST_ERR_NONE.
(** est_client.c:4453-4544 est_client_init: a context zeroed but for the trust
    anchors. *)
Definition est_client_init (anchors : bytes) : client :=
  {| c_http := {| k_mode := AUTH_NONE; k_realm := []; k_nonce := []; k_err := []; k_desc := []; k_delay := 0; k_status := 0 |};
     c_user := []; c_pwd := []; c_cb := false; c_init := true; c_cert := None; c_key := None; c_cas := None; c_attrs := None;
     c_pop := false; c_force := false; c_server := []; c_port := 0; c_path := None; c_trust := anchors; c_store := None |}.

(** * Calls of the interface *)
Inductive call :=
| Enroll (cn : bytes) (key : option bytes)
| Keygen (cn : bytes) (key : option bytes)
| Reenroll (cert key : option bytes)
| EnrollCsr (csr key : option bytes)
| KeygenCsr (csr key : option bytes)
| Provision (cn : bytes) (key : option bytes)
| GetCacerts (out : bool)
| GetCsrattrs (out : bool)
| CopyCert (out : bool)
| CopyKey (out : bool)
| CopyCacerts (out : bool)
| SetAuth (uid pwd : option bytes) (cert : option bool)
| SetCallback (present : bool)
| BasicHint
| SetServer (server : option bytes) (port : Z) (seg : option bytes)
| ForcePop (on : bool).

Definition plain (m : M est_error) : M (est_error * option bytes) := e <~ m ;; ret (e, None).
(** The error code, and the octets copied to the application. *)
Definition perform (x : call) : M (est_error * option bytes) :=
  match x with
  | Enroll cn k => plain (est_client_enroll cn k)
  | Keygen cn k => plain (est_client_server_keygen_enroll cn k)
  | Reenroll x k => plain (est_client_reenroll x k)
  | EnrollCsr x k => plain (est_client_enroll_csr x k)
  | KeygenCsr x k => plain (est_client_server_keygen_enroll_csr x k)
  | Provision cn k => plain (est_client_provision_cert cn k)
  | GetCacerts out => plain (est_client_get_cacerts out)
  | GetCsrattrs out => est_client_get_csrattrs out
  | CopyCert out => est_client_copy_enrolled_cert out
  | CopyKey out => est_client_copy_server_generated_key out
  | CopyCacerts out => est_client_copy_cacerts out
  | SetAuth u p x => plain (est_client_set_auth u p x)
  | SetCallback b => plain (est_client_set_auth_cred_cb b)
  | BasicHint => plain est_client_enable_basic_auth_hint
  | SetServer n p g => plain (est_client_set_server n p g)
  | ForcePop on => plain (est_client_force_pop on)
  end.
End Client.
