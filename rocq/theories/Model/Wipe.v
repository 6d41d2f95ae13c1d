(** Model of what memory holds when it is given back: the clean-up code of the
    server (/repo/src/est/est_server.c), of the client (est_client.c), of the
    proxy (est_proxy.c) and of the context (est.c).  A heap block is the list of
    its bytes; [freed] lists the blocks handed to free(), each with its content
    at that moment and what it was used for. *)
From Coq Require Import String ZArith List Bool.
From Verif Require Import Base Model.CLib Model.EstErr Model.Codec Model.AuthHdr.
Import ListNotations.
Open Scope Z_scope.

Inductive owner :=
  | User | Password | Token | Uri | Cnonce | Qop | Nc | Nonce | Response   (* the fields of EST_HTTP_AUTH_HDR *)
  | KeyDer | KeyText                                                       (* a generated private key *)
  | Received                                                               (* a response as received *)
  | Context.                                                               (* the password inside EST_CTX *)
Definition freed := list (owner * bytes).

(** safe_mem_stub.c:48-57 memzero_s and OPENSSL_cleanse: memset of the first [n]
    bytes of a block. *)
Definition memzero (b : bytes) (n : Z) : res bytes :=
  if (0 <=? n) && (n <=? len b) then Ok (repeat 0 (Z.to_nat n) ++ skipn (Z.to_nat n) b) else UB.

(** safe_str_stub.c:423-428 strnlen_s: reads up to [n] bytes or the first NUL; reading
    beyond the block is undefined. *)
Definition strnlen (b : bytes) (n : Z) : res Z :=
  let s := take_while (fun c => negb (c =? 0)) (firstn (Z.to_nat n) b) in
  if (len s =? len b) && (len b <? n) then UB else Ok (len s).

(** if (p) { memzero_s(p, strnlen_s(p, max)); free(p); } *)
Definition wipe_string (o : owner) (max : Z) (p : option bytes) : res freed :=
  match p with
  | None => Ok []
  | Some b => n <- strnlen b max ;; b' <- memzero b n ;; Ok [(o, b')]
  end.
(** if (p) free(p); *)
Definition free_only (o : owner) (p : option bytes) : freed :=
  match p with None => [] | Some b => [(o, b)] end.

(** The blocks behind a header filled by STRNDUP (est_locl.h: strndup): each
    string and its NUL. *)
Definition terminated (p : option bytes) : option bytes := match p with None => None | Some s => Some (s ++ [0]) end.
Definition in_memory (a : auth_hdr) : auth_hdr :=
  {| ah_mode := ah_mode a; ah_user := terminated (ah_user a); ah_pwd := terminated (ah_pwd a); ah_uri := terminated (ah_uri a);
     ah_cnonce := terminated (ah_cnonce a); ah_qop := terminated (ah_qop a); ah_nc := terminated (ah_nc a); ah_nonce := terminated (ah_nonce a);
     ah_response := terminated (ah_response a); ah_token := terminated (ah_token a) |}.

(** est_server.c:438-468 est_destroy_ah; the structure itself (pointers only)
    is not listed. *)
Definition est_destroy_ah (a : auth_hdr) : res freed :=
  p <- wipe_string Password 255 (ah_pwd a) ;;
  t <- wipe_string Token 512 (ah_token a) ;;
  Ok (free_only User (ah_user a) ++ p ++ free_only Uri (ah_uri a) ++ free_only Cnonce (ah_cnonce a)
      ++ free_only Qop (ah_qop a) ++ free_only Nc (ah_nc a) ++ free_only Nonce (ah_nonce a)
      ++ free_only Response (ah_response a) ++ t).

(** est.c:1794-1859 cleanse_auth_credentials: the blocks are the application's.
    Every pointer is NULL afterwards. *)
Definition cleanse_auth_credentials (a : auth_hdr) : res freed :=
  u <- wipe_string User 255 (ah_user a) ;;
  p <- wipe_string Password 255 (ah_pwd a) ;;
  ur <- wipe_string Uri 272 (ah_uri a) ;;
  cn <- wipe_string Cnonce 64 (ah_cnonce a) ;;
  q <- wipe_string Qop 10 (ah_qop a) ;;
  nc <- wipe_string Nc 9 (ah_nc a) ;;
  n <- wipe_string Nonce 64 (ah_nonce a) ;;
  r <- wipe_string Response 64 (ah_response a) ;;
  t <- wipe_string Token 512 (ah_token a) ;;
  Ok (u ++ p ++ ur ++ cn ++ q ++ nc ++ n ++ r ++ t).

(** est_server.c:1973-1980, 2083, 2199-2200, 2225-2232 est_handle_server_keygen
    and 2878-2882 est_http_request: what becomes of the DER [der] of the
    generated key and of its base64 text, once both exist.  [fresh] is the
    malloc'd block for the text; [cb] is the block and length the CA callback
    put in its place, if it did; [rc] is what est_handle_server_keygen returns.
    With EST_ERR_NONE the text is passed back and wiped by the caller. *)
Definition keygen_memory (rc : est_error) (der fresh : bytes) (cb : option (bytes * Z)) : res freed :=
  ' (n, blk) <- est_base64_encode der fresh (len der * 2) true ;;
  let '(b, k) := match cb with None => (blk, n) | Some c => c end in
  match rc with
  | EST_ERR_NONE =>
    d <- memzero der (len der) ;; t <- memzero b k ;; Ok [(KeyDer, d); (KeyText, t)]
  | _ =>
    t <- memzero b k ;; d <- memzero der (len der) ;; Ok [(KeyText, t); (KeyDer, d)]
  end.

(** est_server_coap.c:1708-1751, 1943-1954, the key in a CoAP key generation
    response: [text] was returned by est_handle_server_keygen in a block with
    [slack] more bytes; [junk] is what malloc returned for key_der, [d] what
    BIO_read stored there and [n] what est_base64_decode returned.  COAP node
    buffers and the CBOR copy are not modelled. *)
Definition coap_keygen_memory (text slack junk d : bytes) (n : Z) : res freed :=
  let key_b64 := text ++ [0] in
  r <- memzero (text ++ slack) (len text) ;;
  k <- memzero key_b64 (len text) ;;
  e <- memzero (d ++ skipn (length d) junk) n ;;
  Ok [(KeyText, r); (KeyText, k); (KeyDer, e)].

(** est_client.c:3895-3903, the end of est_client_copy_server_generated_key:
    the context's block is the key and a NUL (2105-2113), server_gen_key_len
    the length of the key. *)
Definition copied_key_memory (key : bytes) : res freed :=
  b <- memzero (key ++ [0]) (len key) ;; Ok [(KeyText, b)].

(** The client's key generation when a key and a certificate were received
    and EST_ERR_NONE or EST_ERR_VALIDATION is returned: the blocks freed by
    est_io_get_response_internal (est_client_http.c:1816, raw_buf), by
    est_client_send_enroll_request_internal (est_client.c:1691-1693, key_buf)
    and by est_client_enroll_req (2101-2103 the key of an earlier enrollment,
    2124 or 2146-2148 new_key_buf).  [raw] is the response as received, [key]
    the part with the key, [junk] the 8192 bytes malloc gave for new_key_buf.
    Second component: blocks no longer referred to; est_client_get_pkey_from_buf
    (1864-1884) loses the decoded key [der] when it could be read, because
    d2i_PrivateKey moves the only pointer. *)
Definition client_keygen_memory (raw key junk : bytes) (old der : option bytes) : freed * list bytes :=
  ([(Received, raw); (KeyText, key ++ [0])]
   ++ free_only KeyText (terminated old)
   ++ [(KeyText, key ++ skipn (length key) junk)],
   match der with None => [] | Some d => [d] end).

(** est.c:743-836 est_destroy: the context is freed as it is, with the strings
    the application or the ECA configuration stored in it (est_locl.h: password
    and enhcd_cert_auth_pwd have MAX_UIDPWD+1 bytes); server_gen_client_priv_key
    is not freed at all.  Blocks without secrets are left out. *)
Definition est_destroy (password eca_pwd : bytes) (key : option bytes) : freed * list bytes :=
  ([(Context, strncpy_img password 256 ++ strncpy_img eca_pwd 256)],
   match key with None => [] | Some k => [k ++ [0]] end).

(** est_proxy.c:1126-1156 est_proxy_handle_server_keygen and 1899-1935: the key
    received from upstream, in a block of 8192 bytes of which [klen] hold the
    key, [clen] the length of the certificate; [http] the transport, [w] the
    result of est_proxy_propagate_keygen_rsp.  Result: blocks freed, and blocks
    no longer referred to. *)
Definition proxy_keygen_memory (http : bool) (w : est_error) (block : bytes) (klen clen : Z) : res (freed * list bytes) :=
  if (0 <? clen) && (0 <? klen) then
    match (if http then w else EST_ERR_NONE) with
    | EST_ERR_NONE => b <- memzero block klen ;; Ok ([(KeyText, b)], [])
    | _ => Ok ([], [block])
    end
  else b <- memzero block 8192 ;; Ok ([(KeyText, b)], []).
