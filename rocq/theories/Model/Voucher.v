(** Model of the client's BRSKI voucher request:
    /repo/src/est/est_client.c:5258-5560 (verification and parsing of the
    voucher), 5780-5935 (one voucher request) and 5958-6057 (the API call), in
    the default build (no BASE64_ENCODE_VOUCHERS).  The texts of the requests
    are not modelled, only the nonce they carry; allocation never fails. *)
From Coq Require Import String ZArith List Bool.
From Verif Require Import Base Model.CLib Model.EstErr Model.Codec Model.AuthHdr Model.Jsmn.
Import ListNotations.
Open Scope Z_scope.

(** est.h:342-346, est_locl.h:259 *)
Definition EST_BRSKI_MAX_SER_NUM_LEN : Z := 64.
Definition EST_BRSKI_MAX_CACERT_LEN : Z := 8192.
Definition EST_BRSKI_VOUCHER_REQ_NONCE_SIZE : Z := 32.
Definition EST_BRSKI_CLIENT_RETRY_MAX : Z := 60.

(** est_client.c:5329-5335 jsoneq; [true] stands for 0.  The token is within
    the text, so strncmp compares its text with the name. *)
Definition jsoneq (json : bytes) (t : tok) (s : bytes) : bool :=
  jtype_eqb (t_type t) JSMN_STRING && (len s =? t_end t - t_start t)
  && strncmp_eq (Z.to_nat (t_end t - t_start t)) (skipn (Z.to_nat (t_start t)) json) s.

(** snprintf(buf, max, "%.*s", end - start, text + start) into a buffer holding
    [buf]: the buffer afterwards. *)
Definition print_token (buf : bytes) (max : Z) (json : bytes) (t : tok) : res bytes :=
  if (0 <=? t_start t) && (t_start t <=? t_end t) && (t_end t <=? len json) then
    let v := before_char 0 (firstn (Z.to_nat (t_end t - t_start t)) (skipn (Z.to_nat (t_start t)) json)) in
    let w := firstn (Z.to_nat (max - 1)) v in
    if len w + 1 <=? len buf then Ok (w ++ [0] ++ skipn (Z.to_nat (len w + 1)) buf) else UB
  else UB.

(** est_client.c:5337-5362 retrieve_token_from_voucher.  [toks]: the whole
    token array; [buf]: the caller's buffer as it is before.  [Some] the buffer
    when the token is found. *)
Fixpoint retrieve_loop (fuel : nat) (i : Z) (voucher buf : bytes) (max resp : Z) (toks : list tok) (token : bytes) : res (option bytes) :=
  match fuel with
  | O => Ok None
  | S fuel' =>
    if resp <=? i then Ok None
    else
      t <- tok_at toks i ;;
      if jsoneq voucher t token then
        n <- tok_at toks (i + 1) ;;
        if jtype_eqb (t_type n) JSMN_UNDEFINED then b <- wr buf 0 0 ;; Ok (Some b)
        else b <- print_token buf max voucher n ;; Ok (Some b)
      else retrieve_loop fuel' (i + 1) voucher buf max resp toks token
  end.
Definition retrieve_token_from_voucher (voucher buf : bytes) (max resp : Z) (toks : list tok) (token : bytes) : res (option bytes) :=
  retrieve_loop (Z.to_nat resp) 1 voucher buf max resp toks token.

(** strnlen_s(s, max) on a buffer. *)
Definition strnlen (b : bytes) (max : Z) : Z := len (before_char 0 (firstn (Z.to_nat max) b)).

Section Voucher.
(** External: d2i_PKCS7_bio, PKCS7_verify, the content of a
    signed structure, verify_cacert_resp (the certificates in the voucher are
    decoded, checked and stripped of CRLs: the result and the new text). *)
Variable pkcs7 : Type.
Variable d2i_PKCS7 : bytes -> option pkcs7.
Variable PKCS7_verify : pkcs7 -> Z.
Variable pkcs7_data : pkcs7 -> bytes.
Variable verify_cacert_resp : bytes -> est_error * bytes.
(** SSL_CTX_get_cert_store gives a store. *)
Variable trust_store : bool.

(** est_client.c:5257-5322 verify_voucher, with 418-447 create_PKCS7 *)
Definition verify_voucher (voucher : bytes) : est_error + bytes :=
  match d2i_PKCS7 voucher with
  | None => inl EST_ERR_LOAD_CACERTS
  | Some p =>
    if trust_store then
      if PKCS7_verify p =? 0 then inl EST_ERR_CLIENT_BRSKI_VOUCHER_VERIFY_FAILED
      else inr (pkcs7_data p)
    else inl EST_ERR_LOAD_TRUST_CERTS
  end.

(** est_client.c:5368-5560 brski_parse_voucher.  [serial]: the block
    ctx->client_cert_ser_num; [nb], [sb], [cb]: what the buffers
    returned_nonce, returned_ser_num and returned_cacert hold before;
    [cacert]: ctx->brski_retrieved_cacert.  Result: the return value, what
    *cacert_len is set to and ctx->brski_retrieved_cacert afterwards. *)
Definition tokcount : Z := 100.
Definition brski_parse_voucher (voucher serial sent_nonce nb sb cb : bytes) (cacert : option bytes) : res (est_error * Z * option bytes) :=
  match verify_voucher voucher with
  | inl e => Ok (e, 0, cacert)
  | inr doc =>
    pr <- jsmn_parse jsmn_init doc (len doc) (Some tokcount) ;;
    let '(resp, p) := pr in
    if resp <? 0 then Ok (EST_ERR_MALLOC, 0, cacert)
    else
      let toks := p_toks p ++ repeat tok0 (Z.to_nat (tokcount - len (p_toks p))) in
      nonce <- retrieve_token_from_voucher doc nb (EST_BRSKI_VOUCHER_REQ_NONCE_SIZE + 2) resp toks (str "nonce") ;;
      nc <- match nonce with
            | None => Ok None
            | Some b =>
              if EST_BRSKI_VOUCHER_REQ_NONCE_SIZE <? strnlen b (EST_BRSKI_VOUCHER_REQ_NONCE_SIZE + 1) then Ok (Some EST_ERR_CLIENT_BRSKI_NONCE_TOO_LARGE)
              else same <- memcmp_eq sent_nonce b EST_BRSKI_VOUCHER_REQ_NONCE_SIZE ;;
                   Ok (if same then None else Some EST_ERR_CLIENT_BRSKI_NONCE_MISMATCH)
            end ;;
      match nc with
      | Some e => Ok (e, 0, cacert)
      | None =>
        ser <- retrieve_token_from_voucher doc sb (EST_BRSKI_MAX_SER_NUM_LEN + 2) resp toks (str "serial-number") ;;
        match ser with
        | None => Ok (EST_ERR_CLIENT_BRSKI_SERIAL_NUM_MISSING, 0, cacert)
        | Some b =>
          let n := strnlen b (EST_BRSKI_MAX_SER_NUM_LEN + 1) in
          if EST_BRSKI_MAX_SER_NUM_LEN <? n then Ok (EST_ERR_CLIENT_BRSKI_SERIAL_NUM_TOO_LARGE, 0, cacert)
          else
            same <- memcmp_eq serial b (n + 1) ;;
            if same then
              ca <- retrieve_token_from_voucher doc cb (EST_BRSKI_MAX_CACERT_LEN + 1) resp toks (str "pinned-domain-cert") ;;
              match ca with
              | None => Ok (EST_ERR_NO_CERT, 0, cacert)
              | Some b =>
                let text := before_char 0 (firstn (Z.to_nat EST_BRSKI_MAX_CACERT_LEN) b) in
                let '(rv, text') := verify_cacert_resp text in
                if err_eqb rv EST_ERR_NONE then Ok (EST_ERR_NONE, 0, Some text') else Ok (rv, 0, None)
              end
            else Ok (EST_ERR_CLIENT_BRSKI_SERIAL_NUM_MISMATCH, 0, cacert)
        end
      end
  end.

(** One exchange with the registrar: results of est_client_connect,
    est_brski_get_server_cert and est_client_brski_send_voucher_request, which
    stores the voucher and leaves ctx->auth_mode and ctx->retry_after_delay. *)
Record exchange := { x_connect : est_error; x_cert : est_error; x_reply : est_error; x_voucher : bytes; x_mode : auth_mode; x_delay : Z }.
Inductive step := Sent (nonce : bytes) (x : exchange) | Slept (seconds : Z).

Record vctx := { v_mode : auth_mode; v_delay : Z; v_voucher : bytes; v_cacert : option bytes }.

Definition after_send (c : vctx) (x : exchange) : vctx :=
  {| v_mode := x_mode x; v_delay := x_delay x;
     v_voucher := if err_eqb (x_reply x) EST_ERR_NONE then x_voucher x else v_voucher c; v_cacert := v_cacert c |}.
Definition asks_auth (m : auth_mode) : bool := match m with AUTH_DIGEST | AUTH_BASIC | AUTH_TOKEN => true | _ => false end.

(** est_client.c:5780-5935 est_client_brski_send_get_voucher.  [nonce]: the 16
    bytes of RAND_bytes ([None]: it fails); [xs]: the exchanges to come; [len0]:
    *cacert_len before.  FIPS mode is off; time() succeeds. *)
Definition est_client_brski_send_get_voucher (serial nb sb cb : bytes) (c : vctx) (nonce : option bytes) (xs : list exchange) (len0 : Z)
    : res (est_error * Z * vctx * list exchange * list step) :=
  match xs with
  | [] => UB
  | x :: xs =>
    if negb (err_eqb (x_connect x) EST_ERR_NONE) then Ok (x_connect x, len0, c, xs, [])
    else
      match nonce with
      | None => Ok (EST_ERR_SYSCALL, len0, c, xs, [])
      | Some r =>
        nonce_str <- est_hex_to_str (repeat 0 (Z.to_nat (EST_BRSKI_VOUCHER_REQ_NONCE_SIZE + 1))) 0 r ;;
        if negb (err_eqb (x_cert x) EST_ERR_NONE) then Ok (x_cert x, len0, c, xs, [])
        else
          let c1 := after_send c x in
          '(rv, c2, xs2, tr, quit) <-
            (if err_eqb (x_reply x) EST_ERR_AUTH_FAIL && asks_auth (v_mode c1) then
               match xs with
               | [] => UB
               | y :: xs =>
                 if negb (err_eqb (x_connect y) EST_ERR_NONE) then Ok (x_connect y, c1, xs, [Sent nonce_str x], true)
                 else if negb (err_eqb (x_cert y) EST_ERR_NONE) then Ok (x_cert y, c1, xs, [Sent nonce_str x], true)
                 else Ok (x_reply y, after_send c1 y, xs, [Sent nonce_str x; Sent nonce_str y], false)
               end
             else Ok (x_reply x, c1, xs, [Sent nonce_str x], false)) ;;
          if quit then Ok (rv, len0, c2, xs2, tr)
          else if err_eqb rv EST_ERR_NONE then
            '(rv', n, ca) <- brski_parse_voucher (v_voucher c2) serial nonce_str nb sb cb (v_cacert c2) ;;
            Ok (rv', n, {| v_mode := AUTH_NONE; v_delay := v_delay c2; v_voucher := v_voucher c2; v_cacert := ca |}, xs2, tr)
          else Ok (rv, len0, {| v_mode := AUTH_NONE; v_delay := v_delay c2; v_voucher := v_voucher c2; v_cacert := v_cacert c2 |}, xs2, tr)
      end
  end.

(** est_client.c:5958-6057 est_client_brski_get_voucher, after the checks of
    the context (5965-5985).  [ser]: the serial number in the subject of the
    client's certificate ([None]: no certificate or no number, whose error
    codes are not told apart here). *)
Definition est_client_brski_get_voucher (ser : option bytes) (nb sb cb : bytes) (c : vctx) (nonce1 nonce2 : option bytes) (xs : list exchange) (len0 : Z)
    : res (est_error * Z * vctx * list step) :=
  match ser with
  | None => Ok (EST_ERR_CLIENT_BRSKI_SERIAL_NUM_MISSING, len0, c, [])
  | Some s =>
    let n := strnlen s (EST_BRSKI_MAX_SER_NUM_LEN + 1) in
    if EST_BRSKI_MAX_SER_NUM_LEN <? n then Ok (EST_ERR_CLIENT_BRSKI_SERIAL_NUM_TOO_LARGE, len0, c, [])
    else
      let serial := firstn (Z.to_nat n) s ++ [0] in
      '(rv, l1, c1, xs1, t1) <- est_client_brski_send_get_voucher serial nb sb cb c nonce1 xs len0 ;;
      if err_eqb rv EST_ERR_CA_ENROLL_RETRY then
        let d := if EST_BRSKI_CLIENT_RETRY_MAX <? v_delay c1 then EST_BRSKI_CLIENT_RETRY_MAX else v_delay c1 in
        '(rv2, l2, c2, _, t2) <- est_client_brski_send_get_voucher serial nb sb cb c1 nonce2 xs1 l1 ;;
        Ok (rv2, l2, c2, t1 ++ [Slept d] ++ t2)
      else Ok (rv, l1, c1, t1)
  end.
End Voucher.
