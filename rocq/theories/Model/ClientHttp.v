(** Model of the client's HTTP response handling,
    /repo/src/est/est_client_http.c.  Allocation does not fail; logging and the
    unused copy of the reason phrase (1212-1216) are omitted.  Characters beyond
    127 are no letters or digits (isalpha, isspace of negative char values). *)
From Coq Require Import String ZArith List Bool.
From Verif Require Import Base Model.CLib Model.EstErr Model.HttpServer Model.Uri Model.AuthHdr.
Import ListNotations.
Open Scope Z_scope.

(** est_locl.h EST_CA_MAX *)
Definition EST_CA_MAX : Z := 2000000.
(** est_client_http.c:858 *)
Definition MAX_HEADERS : nat := 16.
(** est.h:323-338 *)
Definition MAX_REALM : Z := 255.
Definition MAX_NONCE : Z := 64.
Definition MAX_TOKEN_ERROR : Z := 255.

(** The parts of the context a response can change. *)
Record cctx := {
  k_mode : auth_mode;        (* auth_mode *)
  k_realm : bytes;           (* realm *)
  k_nonce : bytes;           (* s_nonce *)
  k_err : bytes;             (* token_error *)
  k_desc : bytes;            (* token_error_desc *)
  k_delay : Z;               (* retry_after_delay *)
  k_status : Z               (* last_http_status *)
}.
Definition set_mode (m : auth_mode) (c : cctx) := {| k_mode := m; k_realm := k_realm c; k_nonce := k_nonce c; k_err := k_err c; k_desc := k_desc c; k_delay := k_delay c; k_status := k_status c |}.
Definition set_realm (v : bytes) (c : cctx) := {| k_mode := k_mode c; k_realm := v; k_nonce := k_nonce c; k_err := k_err c; k_desc := k_desc c; k_delay := k_delay c; k_status := k_status c |}.
Definition set_nonce (v : bytes) (c : cctx) := {| k_mode := k_mode c; k_realm := k_realm c; k_nonce := v; k_err := k_err c; k_desc := k_desc c; k_delay := k_delay c; k_status := k_status c |}.
Definition set_err (v : bytes) (c : cctx) := {| k_mode := k_mode c; k_realm := k_realm c; k_nonce := k_nonce c; k_err := v; k_desc := k_desc c; k_delay := k_delay c; k_status := k_status c |}.
Definition set_desc (v : bytes) (c : cctx) := {| k_mode := k_mode c; k_realm := k_realm c; k_nonce := k_nonce c; k_err := k_err c; k_desc := v; k_delay := k_delay c; k_status := k_status c |}.
Definition set_delay (d : Z) (c : cctx) := {| k_mode := k_mode c; k_realm := k_realm c; k_nonce := k_nonce c; k_err := k_err c; k_desc := k_desc c; k_delay := d; k_status := k_status c |}.
Definition set_status (z : Z) (c : cctx) := {| k_mode := k_mode c; k_realm := k_realm c; k_nonce := k_nonce c; k_err := k_err c; k_desc := k_desc c; k_delay := k_delay c; k_status := z |}.

(** * Reading *)

(** What the TLS layer gives on successive calls: data ([Data []]: the peer
    closed the connection) or a failure, including a read timeout.  The end of
    the list is a peer that stays silent. *)
Inductive net := Data (d : bytes) | Failed.

(** est_client_http.c:1468-1540 est_ssl_read, est_io_read_raw with buf_max =
    EST_CA_MAX; [acc]: what has been read (less than EST_CA_MAX).  SSL_peek on a
    silent peer does not return; it counts as a failure here. *)
Fixpoint est_io_read_raw (evs : list net) (acc : bytes) : est_error * bytes :=
  match evs with
  | [] | Failed :: _ => (EST_ERR_SSL_READ, acc)
  | Data d :: r =>
    let room := EST_CA_MAX - len acc in
    if len d =? 0 then (EST_ERR_NONE, acc)
    else if len d <? room then est_io_read_raw r (acc ++ d)
    else if len d =? room then
      match r with
      | Data [] :: _ => (EST_ERR_NONE, acc ++ d)
      | _ => (EST_ERR_READ_BUFFER_TOO_SMALL, acc ++ d)
      end
    else (EST_ERR_READ_BUFFER_TOO_SMALL, acc ++ firstn (Z.to_nat room) d)
  end.

(** * Status line and headers *)

(** est_client_http.c:1205-1250 est_io_parse_response_status_code: strncmp of
    the buffer with "HTTP/1.1 nnn", 12 characters. *)
Definition status_codes : list Z := [200; 202; 204; 400; 401; 404; 423; 500; 502; 504].
Fixpoint first_status (codes : list Z) (m : bytes) : Z :=
  match codes with
  | [] => -1
  | c :: r => if prefixb (str "HTTP/1.1 " ++ print_int c) m then c else first_status r m
  end.
Definition est_io_parse_response_status_code (m : bytes) : Z := first_status status_codes m.

(** strstr: the offset of the first occurrence. *)
Fixpoint find_sub (pat s : bytes) : option Z :=
  if prefixb pat s then Some 0
  else match s with
       | [] => None
       | _ :: t => match find_sub pat t with Some i => Some (i + 1) | None => None end
       end.

(** est_client_http.c:889-902, the loop of parse_http_headers: after each header
    it stops if the cursor is past [hdr_end] ([None]: the NULL pointer). *)
Definition past (hdr_end : option Z) (cur : Z) : bool :=
  match hdr_end with None => true | Some e => e <? cur end.
Fixpoint client_headers (n : nat) (m : bytes) (cur : Z) (hdr_end : option Z) : res (bytes * Z * list (Z * Z)) :=
  match n with
  | O => Ok (m, cur, [])
  | S n' =>
    ' (m1, name, cur1) <- skip_quoted m cur [58] [SP] 0 ;;
    ' (m2, value, cur2) <- skip m1 cur1 [CR; LF] ;;
    c <- rd m2 name ;;
    if c =? 0 then Ok (m2, cur2, [])
    else if past hdr_end cur2 then Ok (m2, cur2, [(name, value)])
    else
      ' (m3, cur3, hs) <- client_headers n' m2 cur2 hdr_end ;;
      Ok (m3, cur3, (name, value) :: hs)
  end.
(** est_client_http.c:860-905 parse_http_headers *)
Definition parse_response_headers (m : bytes) : res (bytes * Z * list (Z * Z)) :=
  w <- cstr_at m 0 ;;
  let hdr_end := find_sub [CR; LF; CR; LF] w in
  ' (m1, _, cur) <- skip m 0 [CR; LF] ;;
  client_headers MAX_HEADERS m1 cur hdr_end.

(** * Challenges *)

(** The functions below read the block from a position on: a suffix of it. *)
Definition field_sep (c : Z) : bool := isspace c || (c =? 44) || (c =? 59) || (c =? 61).

(** est_client_http.c:670-672 *)
Fixpoint ht_sep (s : bytes) : res bytes :=
  match s with
  | [] => UB
  | c :: t => if negb (c =? 0) && field_sep c then ht_sep t else Ok s
  end.
(** est_client_http.c:680-684, 688-692, 695-699: the text up to [q] or NUL, and
    the suffix there. *)
Fixpoint ht_until (q : Z) (s : bytes) : res (bytes * bytes) :=
  match s with
  | [] => UB
  | c :: t =>
    if (c =? 0) || (c =? q) then Ok ([], s)
    else if c =? 92 then
      match t with
      | [] => UB
      | d :: t' => if d =? 0 then Ok ([c], t) else ' (x, r) <- ht_until q t' ;; Ok (c :: d :: x, r)
      end
    else ' (x, r) <- ht_until q t ;; Ok (c :: x, r)
  end.
(** est_client_http.c:702-705 *)
Fixpoint ht_word (s : bytes) : res (bytes * bytes) :=
  match s with
  | [] => UB
  | c :: t => if (c =? 0) || field_sep c then Ok ([], s) else ' (x, r) <- ht_word t ;; Ok (c :: x, r)
  end.
(** est_client_http.c:709-713 *)
Definition ht_end (start : bytes) (p : bytes * bytes) : res (option (bytes * bytes) * bytes) :=
  let '(x, r) := p in
  match r with
  | [] => UB
  | c :: t => Ok (Some (x, start), if c =? 0 then r else t)
  end.
(** est_client_http.c:658-714 HTNextField: the field and the suffix it starts
    at, or NULL; and the suffix *pstr points to afterwards.  The NUL written
    behind the field is not read again by the callers. *)
Fixpoint HTNextField (fuel : nat) (s : bytes) : res (option (bytes * bytes) * bytes) :=
  match fuel with
  | O => UB
  | S f =>
    p <- ht_sep s ;;
    match p with
    | [] => UB
    | c :: t =>
      if c =? 0 then Ok (None, p)
      else if c =? 34 then r <- ht_until 34 t ;; ht_end t r
      else if c =? 60 then r <- ht_until 62 t ;; ht_end t r
      else if c =? 40 then
        ' (_, r) <- ht_until 41 p ;;
        match r with [] => UB | _ :: r' => HTNextField f r' end
      else r <- ht_word p ;; ht_end p r
    end
  end.
Definition next_field (s : bytes) := HTNextField (S (length s)) s.

(** est_client_http.c:740-824 est_io_parse_auth_tokens, the loop.  strcpy_s
    into a zeroed array of max + 1 bytes keeps max characters. *)
Definition store (max : Z) (v : bytes) : bytes := firstn (Z.to_nat max) v.
Fixpoint auth_tokens (fuel : nat) (s : bytes) (c : cctx) : res (est_error * cctx) :=
  match fuel with
  | O => UB
  | S f =>
    ' (t, s1) <- next_field s ;;
    match t with
    | None => Ok (EST_ERR_NONE, c)
    | Some (token, _) =>
      let invalid c := Ok (EST_ERR_INVALID_TOKEN, set_nonce [] c) in
      let with_value (k : bytes * bytes -> bytes -> res (est_error * cctx)) :=
        ' (v, s2) <- next_field s1 ;;
        match v with None => invalid c | Some x => k x s2 end in
      if est_strcaseeq_s token (str "realm") then
        with_value (fun v s2 => auth_tokens f s2 (set_realm (store MAX_REALM (fst v)) c))
      else if est_strcaseeq_s token (str "nonce") then
        with_value (fun v s2 => auth_tokens f s2 (set_nonce (store MAX_NONCE (fst v)) c))
      else if est_strcaseeq_s token (str "qop") then
        (* memcmp_s of five bytes, for a warning only *)
        with_value (fun v s2 => if match fst v with [] => true | _ => 5 <=? len (snd v) end then auth_tokens f s2 c else UB)
      else if est_strcaseeq_s token (str "algorithm") then
        ' (v, s2) <- next_field s1 ;;
        match v with
        | None => auth_tokens f s2 c
        | Some x => if est_strcaseeq_s (fst x) (str "md5") then auth_tokens f s2 c else invalid c
        end
      else if est_strcaseeq_s token (str "error") then
        with_value (fun v s2 => auth_tokens f s2 (set_err (store MAX_TOKEN_ERROR (fst v)) c))
      else if est_strcaseeq_s token (str "error_description") then
        with_value (fun v s2 => auth_tokens f s2 (set_desc (store MAX_TOKEN_ERROR (fst v)) c))
      else auth_tokens f s1 c
    end
  end.
Definition est_io_parse_auth_tokens (s : bytes) (c : cctx) : res (est_error * cctx) :=
  ' (_, s1) <- next_field s ;;
  auth_tokens (S (length s1)) s1 c.

(** est_client_http.c:1255-1309 est_io_parse_http_auth_request *)
Fixpoint est_io_parse_http_auth_request (m : bytes) (hs : list (Z * Z)) (c : cctx) : res cctx :=
  match hs with
  | [] => Ok (set_mode AUTH_FAIL c)
  | (n, v) :: r =>
    name <- cstr_at m n ;;
    if strncmp_eq 16 name (str "WWW-Authenticate") then
      value <- cstr_at m v ;;
      let tokens mode :=
        ' (rv, c') <- est_io_parse_auth_tokens (skipn (Z.to_nat v) m) (set_mode mode c) ;;
        Ok (if err_eqb rv EST_ERR_NONE then c' else set_mode AUTH_FAIL c') in
      if strncmp_eq 5 value (str "Basic") then tokens AUTH_BASIC
      else if strncmp_eq 6 value (str "Digest") then tokens AUTH_DIGEST
      else if strncmp_eq 6 value (str "Bearer") then tokens AUTH_TOKEN
      else Ok (set_mode AUTH_FAIL c)
    else est_io_parse_http_auth_request m r c
  end.

(** * Retry *)

(** est_client_http.c:1345-1401, the loop; strisdigit_s does not look at its
    length argument (safe_str_stub.c:120-149); RETRY_AFTER_DELAY_TIME_SUPPORT is
    not defined. *)
Definition strisdigit_s (v : bytes) : bool := match v with [] => false | _ => forallb isdigit v end.
Fixpoint retry_loop (m : bytes) (hs : list (Z * Z)) (rv : est_error) (c : cctx) : res (est_error * cctx) :=
  match hs with
  | [] => Ok (rv, c)
  | (n, v) :: r =>
    name <- cstr_at m n ;;
    if casecmp_upper name (str "Retry-After") then
      value <- cstr_at m v ;;
      if isalpha (hd 0 value) then retry_loop m r rv c
      else if strisdigit_s value then
        if strtoll value <=? INT_MAX then retry_loop m r EST_ERR_CA_ENROLL_RETRY (set_delay (strtoll value) c)
        else retry_loop m r rv c
      else retry_loop m r rv c
    else retry_loop m r rv c
  end.
(** est_client_http.c:1327-1405 est_io_parse_http_retry_after_resp *)
Definition est_io_parse_http_retry_after_resp (m : bytes) (hs : list (Z * Z)) (c : cctx) : res (est_error * cctx) :=
  retry_loop m hs EST_ERR_INVALID_RETRY_VALUE (set_delay 0 c).

(** * Content *)

(** est_client_http.c:624-638 est_op_map, content_type; [None]: not used. *)
Definition op_content_type (op : operation) : bytes :=
  match op with
  | OP_SIMPLE_ENROLL | OP_SIMPLE_REENROLL => str "application/pkcs7-mime; smime-type=certs-only"
  | OP_CACERTS => str "application/pkcs7-mime"
  | OP_CSRATTRS => str "application/csrattrs"
  | OP_SERVER_KEYGEN => str "application/pkcs8"
  | OP_BRSKI_REQ_VOUCHER => str "application/voucher+cms"
  | OP_BRSKI_VOUCHER_STATUS | OP_BRSKI_ENROLL_STATUS => str "application/json"
  end.

(** memcmp of [n] bytes of the block from [o] on with a literal. *)
Definition memcmp_at (m : bytes) (o : Z) (lit : bytes) : res bool := memcmp_eq (skipn (Z.to_nat o) m) lit (len lit).

(** est_client_http.c:1408-1455 est_io_check_http_hdrs.  Names are compared
    with their terminating NUL.  [None]: a wrong content type. *)
Fixpoint check_loop (m : bytes) (hs : list (Z * Z)) (ct : bytes) (ctp : bool) (cl : option Z) : res (option (bool * option Z)) :=
  match hs with
  | [] => Ok (Some (ctp, cl))
  | (n, v) :: r =>
    is_ct <- memcmp_at m n (str "Content-Type" ++ [0]) ;;
    if is_ct then
      good <- memcmp_at m v ct ;;
      if good then check_loop m r ct true cl else Ok None
    else
      is_cl <- memcmp_at m n (str "Content-Length" ++ [0]) ;;
      if is_cl then value <- cstr_at m v ;; check_loop m r ct ctp (Some (atoi value))
      else check_loop m r ct ctp cl
  end.
Definition est_io_check_http_hdrs (m : bytes) (hs : list (Z * Z)) (op : operation) : res (est_error * Z) :=
  r <- check_loop m hs (op_content_type op) false None ;;
  match r with
  | Some (true, Some cl) => Ok (EST_ERR_NONE, cl)
  | _ => Ok (EST_ERR_HTTP_UNSUPPORTED, 0)
  end.

(** * est_client_http.c:1547-1822 est_io_get_response_internal *)

(** 1616-1681: the switch over the status *)
Definition status_result (m : bytes) (hs : list (Z * Z)) (st : Z) (c : cctx) : res (est_error * cctx) :=
  if st =? 200 then Ok (EST_ERR_NONE, c)
  else if st =? 204 then Ok (EST_ERR_HTTP_NO_CONTENT, c)
  else if st =? 404 then Ok (EST_ERR_HTTP_NOT_FOUND, c)
  else if st =? 202 then est_io_parse_http_retry_after_resp m hs c
  else if st =? 400 then Ok (EST_ERR_HTTP_BAD_REQ, c)
  else if st =? 401 then
    match k_mode c with
    | AUTH_DIGEST | AUTH_BASIC | AUTH_TOKEN => Ok (EST_ERR_AUTH_FAIL, set_mode AUTH_FAIL c)
    | _ => c' <- est_io_parse_http_auth_request m hs c ;; Ok (EST_ERR_AUTH_FAIL, c')
    end
  else if st =? 423 then Ok (EST_ERR_HTTP_LOCKED, c)
  else if st =? 500 then Ok (EST_ERR_UNKNOWN, c)
  else if st =? 502 then Ok (EST_ERR_UNKNOWN, c)
  else if st =? 504 then Ok (EST_ERR_UNKNOWN, c)
  else if st =? -1 then Ok (EST_ERR_UNKNOWN, c)
  else Ok (EST_ERR_HTTP_UNSUPPORTED, c).

(** What a response does to *cert_buf and *cert_buf_len. *)
Inductive delivery := Untouched | Deliver (body : option bytes) (n : Z).

(** 1764-1806: the body.  [raw_len] bytes were read; [cur] is payload - raw_buf. *)
Definition response_body (m : bytes) (hs : list (Z * Z)) (raw_len cur : Z) (op : operation) : res (est_error * delivery) :=
  ' (rv, cl) <- est_io_check_http_hdrs m hs op ;;
  if err_eqb rv EST_ERR_NONE then
    if EST_CA_MAX <? cl then Ok (EST_ERR_HTTP_UNSUPPORTED, Deliver None 0)
    else if cl <? 0 then Ok (EST_ERR_HTTP_UNSUPPORTED, Deliver None 0)
    else if negb (cl =? raw_len - cur) then Ok (EST_ERR_HTTP_UNSUPPORTED, Deliver None 0)
    else if cl =? 0 then Ok (EST_ERR_NONE, Deliver None 0)
    else let d := firstn (Z.to_nat cl) (skipn (Z.to_nat cur) m) in
         if len d =? cl then Ok (EST_ERR_NONE, Deliver (Some d) cl) else UB
  else Ok (rv, Deliver None 0).

(** For all operations but key generation (Model/Multipart.v). *)
Definition status_only (op : operation) : bool :=
  match op with OP_BRSKI_VOUCHER_STATUS | OP_BRSKI_ENROLL_STATUS => true | _ => false end.
Definition est_io_get_response (evs : list net) (op : operation) (c : cctx) : res (est_error * delivery * cctx) :=
  let '(rv, raw) := est_io_read_raw evs [] in
  if negb (err_eqb rv EST_ERR_NONE) then Ok (rv, Untouched, c)
  else if len raw <=? 0 then Ok (EST_ERR_HTTP_NOT_FOUND, Untouched, c)
  else
    let m := raw ++ repeat 0 (Z.to_nat (EST_CA_MAX - len raw)) in
    let st := est_io_parse_response_status_code m in
    ' (m1, cur, hs) <- parse_response_headers m ;;
    ' (rv, c') <- status_result m1 hs st (set_status st c) ;;
    if err_eqb rv EST_ERR_NONE then
      if status_only op then Ok (EST_ERR_NONE, Untouched, c')
      else ' (rv', d) <- response_body m1 hs (len raw) cur op ;; Ok (rv', d, c')
    else Ok (rv, Untouched, c').
