(** What the library does with the certificate of the other side: the
    verification callbacks handed to OpenSSL (est_client.c, est_ossl_util.c), the
    verification settings of the client's and the server's SSL_CTX, and what the
    event callbacks are told about the peer (est_server.c, est_ossl_util.c). *)
From Coq Require Import String ZArith List Bool.
From Verif Require Import Base Model.CLib Model.EstErr.
Import ListNotations.
Open Scope Z_scope.

(** est_locl.h:74, <netinet/in.h> *)
Definition EST_MAX_CERT_SUBJ_LEN : Z := 255.
Definition INET6_ADDRSTRLEN : Z := 46.

(** memcpy of [src] to the start of a block; safe_mem_stub.c:64-69 memcpy_s with
    a size no smaller than the source. *)
Definition copy_to (block src : bytes) : res bytes :=
  if len src <=? len block then Ok (src ++ skipn (length src) block) else UB.

(** est_ossl_util.c:100-150 est_get_subj_fld_from_cert: [block] is what name points
    to, [n] the argument len, [subj] what X509_NAME_print_ex prints.  A memory BIO
    nothing was written to has no data, which memcpy_s refuses.  BIO_new succeeds. *)
Definition est_get_subj_fld_from_cert (subj block : bytes) (n : Z) : res (est_error * bytes) :=
  match subj with
  | [] => Ok (EST_ERR_SYSCALL, block)
  | _ =>
    b <- copy_to block (firstn (Z.to_nat n) subj) ;;
    b <- wr b (if len subj <? n then len subj else n) 0 ;;
    Ok (EST_ERR_NONE, b)
  end.

(** * Verification *)

(** <openssl/x509_vfy.h> *)
Definition X509_V_OK : Z := 0.
Definition X509_V_ERR_UNABLE_TO_GET_CRL : Z := 3.
Definition X509_V_ERR_SELF_SIGNED_CERT_IN_CHAIN : Z := 19.
Definition X509_V_ERR_CERT_UNTRUSTED : Z := 27.

(** One call of the verification callback by X509_verify_cert: the error of the
    X509_STORE_CTX (the callback's ok is 1 for X509_V_OK and 0 for an error), the printed
    subject of its current certificate, if it has one, and what the application's
    function would answer, if it is asked. *)
Record check := { k_error : Z; k_subject : option bytes; k_answer : Z }.

(** est_ossl_util.c:157-222 ossl_verify_cb: the subject of a certificate that
    fails is printed into a block of 255 bytes. *)
Definition ossl_verify_cb (k : check) : res Z :=
  if k_error k =? X509_V_OK then Ok 1
  else
    _ <- match k_subject k with
         | None => Ok (EST_ERR_NONE, [])
         | Some s => est_get_subj_fld_from_cert s (repeat 0 (Z.to_nat EST_MAX_CERT_SUBJ_LEN)) EST_MAX_CERT_SUBJ_LEN
         end ;;
    Ok (if k_error k =? X509_V_ERR_UNABLE_TO_GET_CRL then 1 else 0).

(** est_client.c:657-774 cert_verify_cb: the answer, and the error the application
    was asked about.  [manual]: manual_cert_verify_cb is set.  [linked]: the EST
    context is found (686-704; est_client_connect attaches it, 2864-2868). *)
Definition cert_verify_cb (linked manual : bool) (k : check) : Z * option Z :=
  let ok := if k_error k =? X509_V_OK then 1 else 0 in
  if negb linked then (ok, None)
  else if negb (ok =? 0) then (ok, None)
  else if (k_error k =? X509_V_ERR_CERT_UNTRUSTED) || (k_error k =? X509_V_ERR_SELF_SIGNED_CERT_IN_CHAIN)
          || (k_error k =? X509_V_ERR_UNABLE_TO_GET_CRL) then
    if manual then (k_answer k, Some (k_error k))
    else if k_error k =? X509_V_ERR_UNABLE_TO_GET_CRL then (1, None)
    else (ok, None)
  else (ok, None).

(** est_client.c:231-253 est_client_cacert_verify_cb *)
Definition est_client_cacert_verify_cb (k : check) : Z := if k_error k =? X509_V_OK then 1 else 0.

(** X509_verify_cert: the chain passes if the callback returns non-zero every
    time; the first zero ends the verification.  The second component: the errors
    the application was asked about. *)
Fixpoint x509_verify (cb : check -> res (Z * option Z)) (l : list check) : res (bool * list Z) :=
  match l with
  | [] => Ok (true, [])
  | k :: r =>
    ' (v, a) <- cb k ;;
    let asked := match a with Some e => [e] | None => [] end in
    if v =? 0 then Ok (false, asked)
    else ' (b, more) <- x509_verify cb r ;; Ok (b, asked ++ more)
  end.

(** The verification settings of an SSL_CTX: mode and callback.  Without a
    callback the certificate store's is used: ossl_verify_cb (est.c:671). *)
Record verifier := { v_mode : Z; v_own : bool }.
(** <openssl/ssl.h> *)
Definition SSL_VERIFY_PEER : Z := 1.
Definition SSL_VERIFY_FAIL_IF_NO_PEER_CERT : Z := 2.

Definition callback (v : verifier) (manual : bool) (k : check) : res (Z * option Z) :=
  if v_own v then Ok (cert_verify_cb true manual k)
  else x <- ossl_verify_cb k ;; Ok (x, None).

(** est_client.c:834-838 est_client_init_ssl_ctx *)
Definition client_verifier : verifier :=
  {| v_mode := Z.lor SSL_VERIFY_PEER SSL_VERIFY_FAIL_IF_NO_PEER_CERT; v_own := true |}.
(** est_client.c:5017-5050 est_client_set_brski_mode: on an initialised context
    ([init]), if BRSKI mode is off ([on]).  Result: error, mode, settings. *)
Definition est_client_set_brski_mode (init on : bool) (v : verifier) : est_error * bool * verifier :=
  if negb init then (EST_ERR_CLIENT_NOT_INITIALIZED, on, v)
  else if on then (EST_ERR_INVALID_PARAMETERS, on, v)
  else (EST_ERR_NONE, true,
        {| v_mode := Z.lor (Z.lnot SSL_VERIFY_PEER) (Z.lnot SSL_VERIFY_FAIL_IF_NO_PEER_CERT); v_own := false |}).
(** est_server_http.c:1360 set_ssl_option *)
Definition server_verifier : verifier := {| v_mode := SSL_VERIFY_PEER; v_own := false |}.

(** OpenSSL: a client always verifies the server's chain, and lets a failure pass
    only in mode SSL_VERIFY_NONE (0). *)
Definition client_handshake (v : verifier) (manual : bool) (chain : list check) : res (bool * list Z) :=
  ' (b, a) <- x509_verify (callback v manual) chain ;; Ok (b || (v_mode v =? 0), a).
(** OpenSSL: a server asks for a certificate in mode SSL_VERIFY_PEER; a client may
    then go without one unless SSL_VERIFY_FAIL_IF_NO_PEER_CERT is set, but if it
    sends one ([Some]) its chain must pass. *)
Definition server_handshake (v : verifier) (chain : option (list check)) : res bool :=
  if negb (Z.testbit (v_mode v) 0) then Ok true
  else match chain with
       | None => Ok (negb (Z.testbit (v_mode v) 1))
       | Some l => ' (b, _) <- x509_verify (callback v false) l ;; Ok b
       end.

(** * Events *)

(** The peer of a connection, for SSL_get_fd, getpeername and inet_ntop: [None] when
    one of the first two fails; the family (4, 6 or other), the address as text,
    the port. *)
Definition peer := option (Z * option bytes * Z).

(** est_server.c:4702-4806 est_invoke_enroll_get_ip_port in HTTP mode, with a
    block and the size [n] given for it.  inet_ntop fails without an address or
    when text and NUL do not fit in [n]. *)
Definition est_invoke_enroll_get_ip_port (p : peer) (block : bytes) (n : Z) : res (est_error * bytes * Z) :=
  b <- wr block 0 0 ;;
  match p with
  | None => Ok (EST_ERR_SYSCALL, b, 0)
  | Some (family, text, port) =>
    if (family =? 4) || (family =? 6) then
      match text with
      | Some s => if len s <? n then b <- copy_to b (s ++ [0]) ;; Ok (EST_ERR_NONE, b, port)
                  else Ok (EST_ERR_SYSCALL, b, port)
      | None => Ok (EST_ERR_SYSCALL, b, port)
      end
    else Ok (EST_ERR_UNKNOWN, b, 0)
  end.

(** What an endpoint event callback is given: subject, URI, address, port. *)
Record told := { d_subject : bytes; d_uri : bytes; d_address : bytes; d_port : Z }.

(** est_server.c:5010-5055 est_invoke_endpoint_req_event_cb with a callback
    registered: subject of the peer's certificate, if it has one; [ssl]: there is a
    TLS session. *)
Definition est_invoke_endpoint_req_event_cb (subject : option bytes) (ssl : bool) (p : peer) (uri : bytes) : res told :=
  let id_cert_subj := repeat 0 (Z.to_nat (EST_MAX_CERT_SUBJ_LEN + 1)) in
  let src_ipstr := repeat 0 (Z.to_nat (INET6_ADDRSTRLEN + 1)) in
  ' (_, subj) <- match subject with
                 | Some s => est_get_subj_fld_from_cert s id_cert_subj EST_MAX_CERT_SUBJ_LEN
                 | None => Ok (EST_ERR_NONE, id_cert_subj)
                 end ;;
  ' (_, ip, port) <- (if ssl then est_invoke_enroll_get_ip_port p src_ipstr INET6_ADDRSTRLEN
                      else Ok (EST_ERR_NONE, src_ipstr, 0)) ;;
  s <- cstr subj ;;
  a <- cstr ip ;;
  Ok {| d_subject := s; d_uri := uri; d_address := a; d_port := port |}.

(** est_server.c:4660-4695 est_invoke_enroll_get_subjs *)
Definition est_invoke_enroll_get_subjs (subject : option bytes) (csr idb csrb : bytes) : res (est_error * bytes * bytes) :=
  idb <- wr idb 0 0 ;;
  csrb <- wr csrb 0 0 ;;
  ' (e, idb) <- match subject with
                | Some s => est_get_subj_fld_from_cert s idb EST_MAX_CERT_SUBJ_LEN
                | None => Ok (EST_ERR_NONE, idb)
                end ;;
  match e with
  | EST_ERR_NONE =>
    ' (e, csrb) <- est_get_subj_fld_from_cert csr csrb EST_MAX_CERT_SUBJ_LEN ;;
    match e with
    | EST_ERR_NONE =>
      a <- rd idb 0 ;; b <- rd csrb 0 ;;
      Ok (if ((match subject with Some _ => true | None => false end) && (a =? 0)) || (b =? 0) then EST_ERR_UNKNOWN else EST_ERR_NONE, idb, csrb)
    | _ => Ok (e, idb, csrb)
    end
  | _ => Ok (e, idb, csrb)
  end.

(** est_server.c:4815-4888 est_invoke_enroll_req_event_cb (and 4892-4972, the
    response event) with a callback registered and a CSR that parses: the C array for
    the address has 46 bytes and nothing in it at first ([stack]: what the stack
    holds); 47 are cleared, but only if the subjects were found. *)
Definition est_invoke_enroll_req_event_cb (subject : option bytes) (csr : bytes) (p : peer) (stack : bytes) : res (bytes * bytes * bytes * Z) :=
  let zeros := repeat 0 (Z.to_nat (EST_MAX_CERT_SUBJ_LEN + 1)) in
  ' (e, idb, csrb) <- est_invoke_enroll_get_subjs subject csr zeros zeros ;;
  ' (ip, port) <- match e with
                  | EST_ERR_NONE =>
                    ip <- copy_to stack (repeat 0 (Z.to_nat (INET6_ADDRSTRLEN + 1))) ;;
                    ' (_, ip, port) <- est_invoke_enroll_get_ip_port p ip INET6_ADDRSTRLEN ;; Ok (ip, port)
                  | _ => Ok (stack, 0)
                  end ;;
  s <- cstr idb ;; c <- cstr csrb ;; a <- cstr ip ;;
  Ok (s, c, a, port).
