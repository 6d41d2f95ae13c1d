(** The EST proxy's handling of a request: the checks it makes itself, the
    requests it sends upstream and what it passes back (est_proxy.c:249-1985).

    Requests are those of one thread, which uses one client context (C45,
    Model/Proxy.v) and TLS connections as in Model/Client.v.  Not modelled:
    malloc failure, performance timers, a connection without SSL object, the
    CoAP front end (the handlers' results for it are). *)
From Coq Require Import String ZArith List Bool.
From Verif Require Import Base Model.CLib Model.EstErr Model.Codec Model.Uri Model.AuthHdr Model.HttpServer Model.CsrAttrs Model.ClientHttp.
From Verif Require Model.Client.
From Verif Require Import Model.Server.
Import ListNotations.
Open Scope Z_scope.

Section Relay.
Context {cert csr key E : Type}.
(** The proxy as a server: see Model/Server.v. *)
Variable O : @ossl cert csr key.
Variable C : @config cert.
Variable A : @app cert key E.
Variable parse_uri : bytes -> res (est_error * option operation * option bytes).
Variable keep : Z -> bool.
(** The proxy as a client: see Model/Client.v. *)
Variable X : Client.ext.
(** ctx->uri_path_segment of the proxy's own context, set by est_proxy_set_server. *)
Variable own_path : option bytes.
(** get_client_ctx returns a context *)
Variable have_ctx : bool.
(** Bound on the passes through try_again (fuel; see [C46_fuel]) *)
Variable fuel : nat.

(** What is observable: on the side of the proxy's client and on that of the
    upstream server. *)
Inductive pevent := Dn (x : @event cert key) | Up (x : Client.event).
(** The connection to the client, the client context with the connections that
    can still be made, and ctx->retry_after_delay. *)
Record pst := { p_dn : @st E; p_up : Client.st; p_delay : Z }.
Definition P (T : Type) := pst -> list pevent * res (T * pst).
Definition pret {T} (x : T) : P T := fun s => ([], Ok (x, s)).
Definition pbind {T U} (m : P T) (f : T -> P U) : P U := fun s =>
  match m s with
  | (e1, UB) => (e1, UB)
  | (e1, Ok (x, s1)) => let '(e2, r) := f x s1 in (e1 ++ e2, r)
  end.
Notation "x <- m ;;; f" := (pbind m (fun x => f)) (at level 61, m at next level, right associativity).
Notation "' p <- m ;;; f" := (pbind m (fun x => match x with p => f end))
  (at level 61, p pattern, m at next level, right associativity).
Notation "m >>> f" := (pbind m (fun _ => f)) (at level 61, f at level 61, right associativity).
Definition dn {T} (m : @M cert key E T) : P T := fun s =>
  let '(e, r) := m (p_dn s) in
  (map Dn e, match r with
             | Ok (x, d) => Ok (x, {| p_dn := d; p_up := p_up s; p_delay := p_delay s |})
             | UB => UB
             end).
Definition up {T} (m : Client.M T) : P T := fun s =>
  let '(e, r) := m (p_up s) in
  (map Up e, match r with
             | Ok (x, u) => Ok (x, {| p_dn := p_dn s; p_up := u; p_delay := p_delay s |})
             | UB => UB
             end).
Definition plift {T} (r : res T) : P T := fun s => ([], match r with Ok x => Ok (x, s) | UB => UB end).
Definition get_delay : P Z := fun s => ([], Ok (p_delay s, s)).
Definition set_delay (d : Z) : P unit :=
  fun s => ([], Ok (tt, {| p_dn := p_dn s; p_up := p_up s; p_delay := d |})).

(** est_proxy.c:781-840, 1052-1109, 1250-1300, 1396-1440: the error reported for
    an error of the upstream request. *)
Definition upstream_error (e : est_error) : est_error :=
  match e with
  | EST_ERR_NONE => EST_ERR_NONE
  | EST_ERR_IP_GETADDR | EST_ERR_IP_CONNECT | EST_ERR_SSL_READ => EST_ERR_IP_CONNECT
  | EST_ERR_SSL_CONNECT | EST_ERR_FQDN_MISMATCH | EST_ERR_SSL_WRITE | EST_ERR_ZERO_LENGTH_BUF
  | EST_ERR_MULTIPART_PARSE | EST_ERR_UNKNOWN | EST_ERR_BUF_EXCEEDS_MAX_LEN | EST_ERR_HTTP_UNSUPPORTED =>
    EST_ERR_HTTP_UNSUPPORTED
  | EST_ERR_HTTP_BAD_REQ | EST_ERR_HTTP_NO_CONTENT | EST_ERR_HTTP_NOT_FOUND | EST_ERR_AUTH_FAIL
  | EST_ERR_HTTP_LOCKED | EST_ERR_CA_ENROLL_RETRY => e
  | _ => EST_ERR_UNKNOWN
  end.

(** est_proxy.c:452-480 est_proxy_send_enroll_request, 490-523
    est_proxy_send_keygen_request: one connection, one request.  The lengths
    stay 0 unless the request succeeds (for key generation the length of the
    certificate may be set when the key is refused, but nothing is then passed
    back). *)
Definition send_request (op : operation) (body : bytes) : Client.M (est_error * bytes * bytes) :=
  Client.mbind (Client.est_client_connect X) (fun r =>
  match r with
  | inl e => Client.ret (e, [], [])
  | inr t => Client.est_client_send_enroll_request X op body t
  end).

(** ctx->retry_after_delay = client_ctx->retry_after_delay *)
Definition take_delay : P unit := c <- up Client.get ;;; set_delay (k_delay (Client.c_http c)).

(** est_proxy.c:764-845, 1036-1111: the loop at try_again.  The proxy's own
    authentication mode is the one it asks its clients for. *)
Definition gives_credentials : bool :=
  match c_auth_mode C with AUTH_DIGEST | AUTH_BASIC | AUTH_TOKEN => true | _ => false end.
Fixpoint try_again (n : nat) (op : operation) (body : bytes) : P (est_error * bytes * bytes) :=
  match n with
  | Datatypes.O => plift UB
  | S m =>
    ' (rv, k, x) <- up (send_request op body) ;;;
    take_delay >>>
    c <- up Client.get ;;;
    if err_eqb rv EST_ERR_AUTH_FAIL && gives_credentials && negb (mode_eqb (k_mode (Client.c_http c)) AUTH_FAIL)
    then try_again m op body
    else up (Client.upd (fun c => Client.put_http (set_mode AUTH_NONE (Client.c_http c)) c)) >>>
         pret (upstream_error rv, k, x)
  end.

(** est_proxy.c:597-611 est_proxy_set_path_segment: the segment is cut at 128 *)
Definition set_path (p : bytes) : P est_error :=
  ' (rc, b) <- plift (est_store_path_segment p (Z.min (len p) 128)) ;;;
  s <- plift (cstr b) ;;;
  up (Client.upd (Client.put_path (Some s))) >>> pret rc.
(** est_proxy.c:736-757, 1009-1030, 1209-1233, 1360-1380: the request's segment,
    else the proxy's; without either the client context keeps what it has. *)
Definition choose_path (path : option bytes) : P est_error :=
  match (match path with Some p => Some p | None => own_path end) with
  | Some p => set_path p
  | None => pret EST_ERR_NONE
  end.

(** est_proxy.c:249-280 est_proxy_propagate_pkcs7 *)
Definition propagate_pkcs7 (x : bytes) : P est_error :=
  dn (send_200 A (str "application/pkcs7-mime; smime-type=certs-only") x).
(** est_proxy.c:286-367 est_proxy_propagate_keygen_rsp: the header and the first
    part's header in one piece; the length announced is that of key and
    certificate. *)
Definition keygen_pieces (k x : bytes) : list bytes :=
  [str "HTTP/1.1 200" ++ EOL ++ str "Status: 200 OK" ++ EOL
   ++ hdr (str "Content-Type") (str "multipart/mixed; boundary=" ++ boundary)
   ++ hdr (str "Content-Length") (print_int (len k + len x)) ++ EOL
   ++ [10] ++ str "--" ++ boundary ++ EOL
   ++ hdr (str "Content-Type") (str "application/pkcs8") ++ hdr (str "Content-Transfer-Encoding") (str "base64") ++ EOL;
   k;
   EOL ++ str "--" ++ boundary ++ EOL;
   hdr (str "Content-Type") (str "application/pkcs7-mime; smime-type=certs-only")
   ++ hdr (str "Content-Transfer-Encoding") (str "base64") ++ EOL;
   x;
   EOL ++ str "--" ++ boundary ++ str "--" ++ EOL ++ EOL].
Definition propagate_keygen_rsp (k x : bytes) : P est_error := dn (write_all A (keygen_pieces k x)).

(** est_proxy.c:647-699, 914-979: what is asked of the request itself.  The
    content type must be exact (memcmp over 19 octets; its reading behind a
    shorter string, inside the connection's buffer, is not modelled). *)
Definition own_checks (t : @tls cert) (authz : option bytes) (ct body : bytes) (path : option bytes) (k : enroll_kind)
  : P est_error :=
  if is_http C && negb (ct_is ct (str "application/pkcs10")) then pret EST_ERR_BAD_CONTENT_TYPE
  else
    ' (au, r0) <- dn (est_enroll_auth O C A t authz path k body) ;;;
    match au with
    | HTTP_AUTH_PENDING => pret EST_ERR_AUTH_PENDING
    | CSR_PARSE_FAIL => pret EST_ERR_BAD_PKCS10
    | UNAUTHORIZED => pret EST_ERR_AUTH_FAIL
    | HTTP_AUTH | SRP_AUTH | CERT_AUTH =>
      match (match r0 with Some r => Some r | None => o_parse_csr O body end) with
      | None => pret EST_ERR_BAD_PKCS10
      | Some r =>
        if negb (est_server_check_csr O r) then pret EST_ERR_BAD_PKCS10
        else
          e <- plift (est_tls_uid_auth O C t r) ;;;
          pret (if err_eqb e EST_ERR_NONE then EST_ERR_NONE else EST_ERR_AUTH_FAIL_TLSUID)
      end
    end.
Definition op_of (k : enroll_kind) : operation :=
  match k with
  | SIMPLE_ENROLL_REQ => OP_SIMPLE_ENROLL
  | REENROLL_REQ => OP_SIMPLE_REENROLL
  | SERVERKEYGEN_REQ => OP_SERVER_KEYGEN
  end.
Definition is_skg (k : enroll_kind) : bool := match k with SERVERKEYGEN_REQ => true | _ => false end.

(** est_proxy.c:621-880 est_proxy_handle_simple_enroll and 892-1157
    est_proxy_handle_server_keygen; the request is passed on as it came.
    Result: the error, the key and the certificate handed back. *)
Definition est_proxy_handle_enroll (t : @tls cert) (authz : option bytes) (ct body : bytes) (path : option bytes) (k : enroll_kind)
  : P (est_error * bytes * bytes) :=
  e <- own_checks t authz ct body path k ;;;
  if negb (err_eqb e EST_ERR_NONE) then pret (e, [], [])
  else if negb have_ctx then pret (EST_ERR_NO_CTX, [], [])
  else
    e2 <- choose_path path ;;;
    if negb (err_eqb e2 EST_ERR_NONE) then pret (e2, [], [])
    else
      ' (rv, pk, x) <- try_again fuel (op_of k) body ;;;
      if (0 <? len x) && (negb (is_skg k) || (0 <? len pk)) then
        rv2 <- (if is_http C then if is_skg k then propagate_keygen_rsp pk x else propagate_pkcs7 x
                else pret rv) ;;;
        pret (rv2, pk, x)
      else pret (rv, [], []).

(** est_proxy.c:1165-1328 est_proxy_handle_cacerts.  Over CoAP the certificates
    become the proxy's own; that store is not part of the state here. *)
Definition est_proxy_handle_cacerts (path : option bytes) : P est_error :=
  match c_cacerts C with
  | Some b => if is_http C then dn (est_handle_cacerts A (Some b)) else pret EST_ERR_NONE
  | None =>
    if negb have_ctx then pret EST_ERR_NO_CTX
    else
      e <- choose_path path ;;;
      if negb (err_eqb e EST_ERR_NONE) then pret e
      else
        rv <- up (Client.est_client_get_cacerts X true) ;;;
        take_delay >>>
        if negb (err_eqb rv EST_ERR_NONE) then pret (upstream_error rv)
        else
          c <- up Client.get ;;;
          if is_http C then dn (est_handle_cacerts A (Client.c_cas c)) else pret EST_ERR_NONE
  end.

(** est_proxy.c:1336-1534 est_proxy_handle_csr_attrs, HTTP transport *)
Definition none_left (b : option bytes) : bool := match b with None | Some [] => true | _ => false end.
Definition est_proxy_handle_csr_attrs (path : option bytes) : P est_error :=
  let no_content := d <- get_delay ;;; dn (est_send_http_error A keep d EST_ERR_HTTP_NO_CONTENT) >>> pret EST_ERR_NONE in
  if negb have_ctx then pret EST_ERR_NO_CTX
  else
    e <- choose_path path ;;;
    if negb (err_eqb e EST_ERR_NONE) then pret e
    else
      ' (rv, d) <- up (Client.est_client_get_csrattrs X true) ;;;
      take_delay >>>
      up (Client.upd (Client.put_attrs None)) >>>
      if negb (err_eqb rv EST_ERR_NONE) && negb (err_eqb rv EST_ERR_HTTP_NO_CONTENT && c_pop C)
      then pret (upstream_error rv)
      else if c_pop C then
        ' (pe, present) <- plift (est_is_challengePassword_present (Client.x_G X) (Client.x_bio X) d) ;;;
        if negb (err_eqb pe EST_ERR_NONE) then no_content
        else if present then dn (est_send_csrattr_data C A keep d)
        else if none_left d then dn (est_send_csrattr_data C A keep (Some EST_CSRATTRS_POP))
        else
          ' (ae, d2) <- plift (est_add_challengePassword (Client.x_G X) (Client.x_bio X)
                                 match d with Some b => b | None => [] end) ;;;
          if negb (err_eqb ae EST_ERR_NONE) then no_content else dn (est_send_csrattr_data C A keep (Some d2))
      else dn (est_send_csrattr_data C A keep d).

(** est_proxy.c:1552-1985 est_proxy_http_request.  [body] is None for a request
    without body (NULL). *)
Definition est_proxy_http_request (t : @tls cert) (method uri : bytes) (body ct authz : option bytes) : P est_error :=
  let error e := d <- get_delay ;;; dn (est_send_http_error A keep d e) in
  let refuse e := error e >>> pret e in
  let finish := dn (emit_if (c_ev_endpoint C) (EvReqEnd uri)) >>> pret EST_ERR_NONE in
  dn (emit_if (c_ev_endpoint C) (EvReqStart uri)) >>>
  ' (pe, op, path) <- plift (parse_uri uri) ;;;
  if negb (err_eqb pe EST_ERR_NONE) then refuse pe
  else
    match op with
    | Some OP_CACERTS =>
      if negb (strncmp_eq 5 method (str "GET")) then refuse EST_ERR_WRONG_METHOD
      else rc <- est_proxy_handle_cacerts path ;;;
           if negb (err_eqb rc EST_ERR_NONE) then refuse rc else finish
    | Some OP_SIMPLE_ENROLL | Some OP_SIMPLE_REENROLL | Some OP_SERVER_KEYGEN =>
      let k := match op with Some o => kind_of o | None => SIMPLE_ENROLL_REQ end in
      if negb (strncmp_eq 5 method (str "POST")) then refuse EST_ERR_WRONG_METHOD
      else match ct, body with
      | None, _ => error EST_ERR_BAD_PKCS10 >>> pret EST_ERR_BAD_CONTENT_TYPE
      | _, None => error EST_ERR_BAD_PKCS10 >>> pret EST_ERR_BAD_CONTENT_LEN
      | Some c, Some b =>
        dn (enroll_req_event O C k b) >>>
        ' (rc, _, _) <- est_proxy_handle_enroll t authz c b path k ;;;
        let failed := negb (err_eqb rc EST_ERR_NONE) && negb (err_eqb rc EST_ERR_AUTH_PENDING) in
        (if is_skg k && failed then pret tt else dn (enroll_rsp_event O C k b rc)) >>>
        if failed then refuse rc else finish
      end
    | Some OP_CSRATTRS =>
      if negb (strncmp_eq 5 method (str "GET")) then refuse EST_ERR_WRONG_METHOD
      else rc <- est_proxy_handle_csr_attrs path ;;;
           if negb (err_eqb rc EST_ERR_NONE) then refuse rc else finish
    | _ => error EST_ERR_HTTP_NOT_FOUND >>> finish
    end.

(** One request of a connection (est_server_http.c:1211-1255, 1495, see
    [serve] in Model/Server.v). *)
Variable uninit : nat -> Z.
Definition proxy_serve (t : @tls cert) (r : est_req) (s : pst) : list pevent * res (est_error * pst) :=
  est_proxy_http_request t (er_method r) (er_uri r)
    (match er_body r with Some b => Some (body_of uninit (Some b)) | None => None end)
    (get_header (er_headers r) (str "Content-Type")) (get_header (er_headers r) (str "Authorization"))
    {| p_dn := {| s_env := s_env (p_dn s); s_uid := s_uid (p_dn s); s_code := -1 |}; p_up := p_up s; p_delay := p_delay s |}.
(** Requests one after the other, each with its TLS session; none is served
    after undefined behaviour.  The events of each are listed. *)
Fixpoint proxy_serves (l : list (@tls cert * est_req)) (s : pst) : list (list pevent) * res pst :=
  match l with
  | [] => ([], Ok s)
  | (t, r) :: l' =>
    match proxy_serve t r s with
    | (e, UB) => ([e], UB)
    | (e, Ok (_, s1)) => let '(es, q) := proxy_serves l' s1 in (e :: es, q)
    end
  end.
End Relay.
