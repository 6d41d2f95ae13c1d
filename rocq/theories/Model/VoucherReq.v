(** The voucher request of a BRSKI client: est_client.c:5063-5250, 5680-5915, on
    top of Model/Client.v.  What becomes of the voucher is in Model/Voucher.v. *)
From Coq Require Import String ZArith List Bool.
From Verif Require Import Base Spec.Http Model.CLib Model.Codec Model.EstErr Model.HttpServer Model.Uri Model.AuthHdr Model.ClientHttp Model.Client.
Import ListNotations.
Open Scope Z_scope.

(** est.h:343-346 *)
Definition EST_BRSKI_MAX_VOUCHER_REQ_LEN : Z := 16384.
Definition EST_BRSKI_MAX_CACERT_LEN : Z := 8192.
Definition EST_BRSKI_VOUCHER_REQ_NONCE_SIZE : Z := 32.

Section VoucherReq.
Variable X : ext.
(** The certificate of the server of a connection, as OpenSSL writes it:
    SSL_get_peer_certificate, PEM, PKCS #7, base64 filter (5567-5668
    ossl_add_certs_from_BIO, ossl_get_certs_pkcs7).  [None]: there is none, or
    one of these fails. *)
Variable server_p7 : session -> option bytes.

(** est_client.c:5678-5727 est_brski_get_server_cert; [block]: the memory at
    server_cert.  The result of memcpy_s (safe_mem_stub.c:64-69) is not used. *)
Definition est_brski_get_server_cert (block : bytes) (ssl : session) : res (est_error * bytes) :=
  match server_p7 ssl with
  | None | Some [] => Ok (EST_ERR_LOAD_CACERTS, block)
  | Some b =>
    if EST_BRSKI_MAX_CACERT_LEN <? len b then Ok (EST_ERR_NONE, block)
    else if len block <? len b then UB
    else Ok (EST_ERR_NONE, b ++ skipn (length b) block)
  end.

Definition QUOTE : bytes := [34].
(** est_client.c:5733-5759 est_brski_build_voucher_req; signing is not done. *)
Definition est_brski_build_voucher_req (nonce time assertion cert : bytes) : bytes :=
  snprintf_str
    (str "{" ++ CRLF ++ QUOTE ++ str "ietf-voucher-request:voucher" ++ QUOTE ++ str ": {" ++ CRLF
     ++ QUOTE ++ str "nonce" ++ QUOTE ++ str ": " ++ QUOTE ++ nonce ++ QUOTE ++ str "," ++ CRLF
     ++ QUOTE ++ str "created-on" ++ QUOTE ++ str ": " ++ QUOTE ++ time ++ QUOTE ++ str "," ++ CRLF
     ++ QUOTE ++ str "assertion" ++ QUOTE ++ str ": " ++ QUOTE ++ assertion ++ QUOTE ++ str "," ++ CRLF
     ++ QUOTE ++ str "proximity-registrar-cert" ++ QUOTE ++ str ": " ++ QUOTE ++ cert ++ QUOTE ++ CRLF
     ++ str "}}") EST_BRSKI_MAX_VOUCHER_REQ_LEN.

(** est_client.c:5063-5091 est_client_brski_build_voucherreq_header; est_locl.h:253-254 *)
Definition est_client_brski_build_voucherreq_header (c : client) (t : session) (sign : bool) (n : Z) : res bytes :=
  add_auth X c t
    (snprintf_str (request_start (str "POST") (str "requestvoucher") c
                   ++ (if sign then str "Content-Type: application/pkcs7-mime; smime-type=voucher-request" else str "Content-Type: application/json") ++ CRLF
                   ++ str "Content-Length: " ++ print_int n ++ CRLF) REQ_TOTAL)
    (str "/.well-known/est/requestvoucher").

(** est_client.c:5109-5246 est_client_brski_send_voucher_request: the error, and
    on success the voucher stored; malloc does not fail.  A request over 4096
    octets is not copied and reported. *)
Definition est_client_brski_send_voucher_request (sign : bool) (req : bytes) (t : session) : M (est_error * option bytes) :=
  c <~ get ;;
  h <~ lift (est_client_brski_build_voucherreq_header c t sign (len req)) ;;
  if REQ_DATA_MAX <? len req then ret (EST_ERR_SYSCALL, None)
  else
    r <~ lift (complete h req) ;;
    w <~ exchange r t ;;
    if negb w then ret (EST_ERR_SSL_WRITE, None)
    else
      ' (rv, d) <~ get_response OP_BRSKI_REQ_VOUCHER t ;;
      if err_eqb rv EST_ERR_NONE then
        let v := delivered_bytes d in
        if len v =? 0 then ret (EST_ERR_ZERO_LENGTH_BUF, None)
        else if EST_CA_MAX <? len v + 1 then ret (EST_ERR_BUF_EXCEEDS_MAX_LEN, None)
        else ret (EST_ERR_NONE, Some v)
      else ret (rv, None).

(** est_client.c:5781-5925 est_client_brski_send_get_voucher up to the voucher.
    [rnd]: RAND_bytes of 16 octets ([None]: it fails); [now]: what strftime writes
    ([None]: time() fails).  calloc does not fail. *)
Definition ask_for_voucher (sign : bool) (rnd now : option bytes) : M (est_error * option bytes) :=
  r <~ est_client_connect X ;;
  match r with
  | inl e => ret (e, None)
  | inr t =>
    match rnd, now with
    | Some nonce, Some time =>
      ns <~ lift (est_hex_to_str (repeat 0 (Z.to_nat (EST_BRSKI_VOUCHER_REQ_NONCE_SIZE + 1))) 0 nonce) ;;
      nonce_str <~ lift (cstr ns) ;;
      ' (e, block) <~ lift (est_brski_get_server_cert (repeat 0 (Z.to_nat (EST_BRSKI_MAX_CACERT_LEN + 1))) t) ;;
      if negb (err_eqb e EST_ERR_NONE) then ret (e, None)
      else
        cert <~ lift (cstr block) ;;
        ' (rv, v) <~ est_client_brski_send_voucher_request sign (est_brski_build_voucher_req nonce_str time (str "proximity") cert) t ;;
        c <~ get ;;
        if err_eqb rv EST_ERR_AUTH_FAIL && match k_mode (c_http c) with AUTH_DIGEST | AUTH_BASIC | AUTH_TOKEN => true | _ => false end then
          if mode_eqb (k_mode (c_http c)) AUTH_DIGEST && x_fips X then ret (EST_ERR_BAD_MODE, None)
          else
            r2 <~ est_client_connect X ;;
            match r2 with
            | inl e => ret (e, None)
            | inr t2 =>
              ' (e, block) <~ lift (est_brski_get_server_cert block t2) ;;
              if negb (err_eqb e EST_ERR_NONE) then ret (e, None)
              else
                cert <~ lift (cstr block) ;;
                ' (rv, v) <~ est_client_brski_send_voucher_request sign (est_brski_build_voucher_req nonce_str time (str "proximity") cert) t2 ;;
                upd (fun c => put_http (set_mode AUTH_NONE (c_http c)) c) >>
                ret (rv, v)
            end
        else
          upd (fun c => put_http (set_mode AUTH_NONE (c_http c)) c) >>
          ret (rv, v)
    | _, _ => ret (EST_ERR_SYSCALL, None)
    end
  end.
End VoucherReq.
