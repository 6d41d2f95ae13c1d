(** EST over CoAP, est_server_coap.c (built with libcoap).
    libcoap and OpenSSL are the environment: a message is what libcoap hands to
    the registered handler (its options, its payload, the Block1 option it
    parsed), together with the results of the library calls made while it is
    served.  The EST context is present (coap_set_app_data is called before any
    handler can run, est_server_coap.c:3275-3280) and its mode is server or
    proxy (3222).  Not modelled: allocation failures, logging, the performance
    timers, and how libcoap cuts a response into blocks - the model keeps the
    whole response. *)
From Coq Require Import String ZArith List Bool.
From Verif Require Import Base Model.CLib Model.EstErr Model.Codec.
Import ListNotations.
Open Scope Z_scope.

(** est_server_coap.c:34-43; the option numbers are those of RFC 7252. *)
Definition COAP_MEDIA_TYPE_MULTI : Z := 62.
Definition COAP_MEDIA_TYPE_PKCS7_CERTS : Z := 281.
Definition COAP_MEDIA_TYPE_CSR_ATTRS : Z := 285.
Definition COAP_MEDIA_TYPE_PKCS10 : Z := 286.
Definition COAP_CONTENT_TYPE_MAX : Z := 65535.
Definition COAP_OPTION_CONTENT_TYPE : Z := 12.
Definition COAP_OPTION_ACCEPT : Z := 17.

(** est_locl.h:324 *)
Definition COAP_REQ_NODE_BUF_LEN_MAX : Z := 16384.
(** <netinet/in.h> *)
Definition INET6_ADDRSTRLEN : Z := 46.

(** ** libcoap's coap_decode_var_bytes: big-endian, in an unsigned int. *)
Definition decode_var_bytes (v : bytes) : Z :=
  fold_left (fun n b => (n * 256 + b) mod 4294967296) v 0.

(** ** est_server_coap.c:92-160 est_coap_check_option.  [opts] are the options
    of the request in order; coap_check_option gives the first of the type and
    coap_option_next the next one of the same type. *)
Definition est_coap_check_option (opts : list (Z * bytes)) (option_type media : Z) : est_error :=
  match filter (fun o => fst o =? option_type) opts with
  | [] => if option_type =? COAP_OPTION_ACCEPT then EST_ERR_NONE else EST_ERR_BAD_CONTENT_TYPE
  | o :: more =>
    let v := decode_var_bytes (snd o) in
    if negb (v =? media) then
      if COAP_CONTENT_TYPE_MAX <? v then EST_ERR_BAD_CONTENT_TYPE
      else if option_type =? COAP_OPTION_CONTENT_TYPE then EST_ERR_HTTP_BAD_REQ
      else EST_ERR_HTTP_UNSUPPORTED
    else match more with
         | [] => EST_ERR_NONE
         | _ => EST_ERR_BAD_CONTENT_TYPE
         end
  end.

(** ** est_server_coap.c:2680-2701 est_coap_dtls_timer_callback; [initial] is
    the configured number of seconds.  The result is held in an int. *)
Definition est_coap_dtls_timer_callback (initial incoming : Z) : Z :=
  let v := if incoming =? 0 then initial * 1000 * 1000 else to_int (2 * incoming) in
  (if 60000000 <? v then 60000000 else v) mod 4294967296.

(** ** CBOR *)

(** est_locl.h:374-379 *)
Record cbor_bytestring := { cb_initial : Z; cb_n : Z; cb_data : bytes; cb_len : Z }.

(** est_server_coap.c:1154-1178 *)
Definition makeCborBytestring (n : Z) (data : bytes) : cbor_bytestring :=
  if n <=? 23 then {| cb_initial := 64 + n; cb_n := 0; cb_data := data; cb_len := n |}
  else if n <=? 255 then {| cb_initial := 88; cb_n := 1; cb_data := data; cb_len := n |}
  else if n <=? 65535 then {| cb_initial := 89; cb_n := 2; cb_data := data; cb_len := n |}
  else if n <=? 4294967295 then {| cb_initial := 90; cb_n := 4; cb_data := data; cb_len := n |}
  else {| cb_initial := 91; cb_n := 8; cb_data := data; cb_len := n |}.

(** memcpy to offset [off] of a block; [UB] outside it. *)
Definition blit (buf : bytes) (off : Z) (data : bytes) : res bytes :=
  if (off <? 0) || (len buf <? off + len data) then UB
  else Ok (firstn (Z.to_nat off) buf ++ data ++ skipn (Z.to_nat (off + len data)) buf).

(** *currentPos = ...; currentPos += ... : a block and a cursor. *)
Definition put (w : bytes * Z) (data : bytes) : res (bytes * Z) :=
  b <- blit (fst w) (snd w) data ;; Ok (b, snd w + len data).

(** The bytes (len >> (8 * n)) & 0xFF for n = k-1 down to 0,
    est_server_coap.c:1193-1196. *)
Fixpoint be_bytes (k : nat) (v : Z) : bytes :=
  match k with
  | O => []
  | S k' => Z.land (Z.shiftr v (8 * Z.of_nat k')) 255 :: be_bytes k' v
  end.

(** est_server_coap.c:1183-1207; memcpy_s reads cb_len bytes of cb_data. *)
Definition writeCborBytestring (w : bytes * Z) (s : cbor_bytestring) : res (bytes * Z) :=
  w <- put w [cb_initial s] ;;
  w <- put w (be_bytes (Z.to_nat (cb_n s)) (cb_len s)) ;;
  if len (cb_data s) <? cb_len s then UB
  else put w (firstn (Z.to_nat (cb_len s)) (cb_data s)).

Section Coap.
(** BIO_read through a base64 filter (OpenSSL, external; see Model/Codec.v). *)
Variable bio : bool -> bytes -> Z -> bytes.

(** Decoding of a text the library returned: the text is copied and
    NUL-terminated, and decoded into at most [max] bytes; [None] if that gives
    no bytes (answered 5.00). *)
Definition decode_text (t : bytes) (max : Z) : res (option bytes) :=
  s <- cstr (t ++ [0]) ;;
  ' (n, d) <- est_base64_decode bio false s max ;;
  Ok (if n <=? 0 then None else Some d).

(** ** est_server_coap.c:1677-1869: the payload of a server key generation
    response, from the returned key and certificate texts.  A negative size
    passed to malloc is a failed allocation. *)
Definition skg_payload (key cert : bytes) : res (option bytes) :=
  let n0 := 1 + 1 + 2 + 1 in
  let kmax := if COAP_REQ_NODE_BUF_LEN_MAX - n0 <? len key
              then COAP_REQ_NODE_BUF_LEN_MAX - n0 else len key in
  k <- decode_text key kmax ;;
  match k with
  | None => Ok None
  | Some kd =>
    let ks := makeCborBytestring (len kd) kd in
    let n1 := n0 + cb_n ks + cb_len ks + (1 + 2 + 1) in
    let cmax := if COAP_REQ_NODE_BUF_LEN_MAX - n1 <? len cert
                then COAP_REQ_NODE_BUF_LEN_MAX - n1 else len cert in
    if cmax <? 0 then Ok None
    else
      c <- decode_text cert cmax ;;
      match c with
      | None => Ok None
      | Some cd =>
        let cs := makeCborBytestring (len cd) cd in
        let n2 := n1 + cb_n cs + cb_len cs in
        if COAP_REQ_NODE_BUF_LEN_MAX <? n2 then Ok None
        else
          w <- put (repeat 0 (Z.to_nat n2), 0) [128 + 4] ;;
          w <- put w [25] ;;
          w <- put w [Z.shiftr 284 8; Z.land 284 255] ;;
          w <- writeCborBytestring w ks ;;
          w <- put w [25] ;;
          w <- put w [Z.shiftr 281 8; Z.land 281 255] ;;
          w <- writeCborBytestring w cs ;;
          Ok (Some (firstn (Z.to_nat n2) (fst w)))
      end
  end.

(** ** Request states *)

(** est_locl.h:332-340 EST_COAP_REQ *)
Inductive coap_op := OpReset | OpCrts | OpAtt | OpSen | OpSren | OpSkg.
Definition op_eqb (a b : coap_op) : bool :=
  match a, b with
  | OpReset, OpReset | OpCrts, OpCrts | OpAtt, OpAtt
  | OpSen, OpSen | OpSren, OpSren | OpSkg, OpSkg => true
  | _, _ => false
  end.

(** est_locl.h:346-357 coap_req_node_t.  The key is the C string in the key
    field.  Not modelled: resp_blk_num, which is never read, and the timers. *)
Record node := {
  q_key : bytes;
  q_req : bytes; q_len : Z;
  q_resp : bytes; q_rlen : Z;
  q_op : coap_op
}.

Definition zero_buf : bytes := repeat 0 (Z.to_nat COAP_REQ_NODE_BUF_LEN_MAX).

(** calloc and memzero_s of a node *)
Definition zero_node : node :=
  {| q_key := []; q_req := zero_buf; q_len := 0; q_resp := zero_buf; q_rlen := 0; q_op := OpReset |}.

(** est_server_coap.c:417-463 reinit_coap_req *)
Definition reinit_coap_req (n : node) (op : coap_op) : node :=
  {| q_key := q_key n; q_req := zero_buf; q_len := 0; q_resp := zero_buf; q_rlen := 0; q_op := op |}.

Definition set_req (n : node) (buf : bytes) (l : Z) : node :=
  {| q_key := q_key n; q_req := buf; q_len := l; q_resp := q_resp n; q_rlen := q_rlen n; q_op := q_op n |}.
Definition set_resp (n : node) (buf : bytes) (l : Z) : node :=
  {| q_key := q_key n; q_req := q_req n; q_len := q_len n; q_resp := buf; q_rlen := l; q_op := q_op n |}.
Definition set_op (n : node) (k : bytes) (op : coap_op) : node :=
  {| q_key := k; q_req := q_req n; q_len := q_len n; q_resp := q_resp n; q_rlen := q_rlen n; q_op := op |}.

(** ** Messages *)

(** coap_block_t as coap_get_block fills it *)
Record block := { b_num : Z; b_more : bool; b_szx : Z }.

(** What the enrollment, CA certificate and CSR attribute functions return
    while the message is served: the return code, the text they return (None is
    a NULL pointer) and for key generation the key text. *)
Record outcome := { o_rc : est_error; o_text : option bytes; o_key : option bytes }.

Record message := {
  m_op : coap_op;                       (* the resource it was sent to *)
  m_opts : list (Z * bytes);
  m_block1 : option block;
  m_payload : bytes;                    (* [] when there is none *)
  m_ssl : bool;                         (* session->tls is set *)
  m_cert : bool;                        (* SSL_get_peer_certificate is not NULL *)
  m_env : coap_op -> bytes -> outcome;  (* given the base64 CSR; [] for GETs *)
  m_more2 : bool                        (* libcoap has further response blocks *)
}.

(** Response: the code as in COAP_RESPONSE_CODE, the payload with its media
    type, and the Block1 option added. *)
Record reply := { r_code : Z; r_body : option (Z * bytes); r_block1 : option Z }.
Definition code (c : Z) : reply := {| r_code := c; r_body := None; r_block1 := None |}.

(** What a handler does besides answering: the application's event callbacks
    and the call of the operation with the base64 text of the CSR. *)
Inductive action :=
| AStart | AEnd
| AEnrollReq (csr : bytes) | AEnrollRsp (csr : bytes) (rc : est_error)
| ACall (op : coap_op) (csr_text : bytes).

(** est_server_coap.c:720-824, 1428-1531: taking in the payload. *)
Inductive taken :=
| TFail (c : Z) (n : node)              (* goto error_exit with this code *)
| TMore (b : block) (n : node)          (* answered 2.31 and return *)
| TDone (n : node).

Definition payload (m : message) : bool := negb (len (m_payload m) =? 0).

Definition store (n : node) (off : Z) (data : bytes) : res node :=
  b <- blit (q_req n) off data ;; Ok (set_req n b (off + len data)).

Definition take_in (m : message) (n : node) : res taken :=
  match m_block1 m with
  | Some b =>
    let off := Z.shiftl (b_num b) (b_szx b + 4) in
    let respond n' := Ok (if b_more b then TMore b n' else TDone n') in
    if payload m then
      if off =? 0 then
        n' <- store (set_req n (if negb (nth 0 (q_req n) 0 =? 0) then zero_buf else q_req n) 0)
                    0 (m_payload m) ;;
        respond n'
      else if q_len n <? off then Ok (TFail 408 n)
      else if off <? q_len n then respond n
      else n' <- store n off (m_payload m) ;; respond n'
    else respond n
  | None =>
    if payload m then
      n' <- store n 0 (m_payload m) ;; Ok (TDone n')
    else if negb (q_len n =? 0) then Ok (TFail 400 n)
    else Ok (TDone (set_req n (if negb (nth 0 (q_req n) 0 =? 0) then zero_buf else q_req n) 0))
  end.

(** est_server_coap.c:940-976, 1643-1675: the answer to a failed enrollment. *)
Definition enroll_code (rc : est_error) : Z :=
  match rc with
  | EST_ERR_BAD_PKCS10 | EST_ERR_CSR_ATTR_MISSING | EST_ERR_HTTP_BAD_REQ | EST_ERR_NO_SSL_CTX => 400
  | EST_ERR_HTTP_NO_CONTENT => 204
  | EST_ERR_HTTP_NOT_FOUND => 404
  | EST_ERR_AUTH_FAIL_TLSUID | EST_ERR_AUTH_FAIL => 401
  | EST_ERR_HTTP_UNSUPPORTED => 502
  | EST_ERR_CA_ENROLL_RETRY | EST_ERR_HTTP_LOCKED => 503
  | EST_ERR_IP_CONNECT => 504
  | _ => 500
  end.

(** est_server_coap.c:2104-2131, 2400-2427: the answer to a failed GET. *)
Definition get_code (rc : est_error) : Z :=
  match rc with
  | EST_ERR_HTTP_BAD_REQ => 400
  | EST_ERR_HTTP_NO_CONTENT => 205
  | EST_ERR_HTTP_NOT_FOUND => 404
  | EST_ERR_AUTH_FAIL => 401
  | EST_ERR_HTTP_UNSUPPORTED => 502
  | EST_ERR_CA_ENROLL_RETRY | EST_ERR_HTTP_LOCKED => 503
  | EST_ERR_IP_CONNECT => 504
  | _ => 500
  end.

(** The media type each resource answers with. *)
Definition media_of (op : coap_op) : Z :=
  match op with
  | OpSkg => COAP_MEDIA_TYPE_MULTI
  | OpAtt => COAP_MEDIA_TYPE_CSR_ATTRS
  | _ => COAP_MEDIA_TYPE_PKCS7_CERTS
  end.

(** Clamp to what fits a response and decode: est_server_coap.c:1023-1056,
    2140-2165, 2440-2468. *)
Definition decode_reply (t : bytes) : res (option bytes) :=
  decode_text t (if COAP_REQ_NODE_BUF_LEN_MAX <? len t then COAP_REQ_NODE_BUF_LEN_MAX else len t).

(** est_server_coap.c:978-1080 (sen, sren), 1677-1889 (skg): the response
    payload from what the operation returned. *)
Definition enroll_payload (op : coap_op) (o : outcome) : res (option bytes) :=
  match op, o_text o, o_key o with
  | OpSkg, Some c, Some k => skg_payload k c
  | OpSkg, _, _ => Ok None
  | _, Some c, _ => decode_reply c
  | _, None, _ => Ok None
  end.

(** Storing a response payload in the node: memcpy_s with the buffer's size
    copies nothing when it does not fit. *)
Definition keep_resp (n : node) (d : bytes) : res (option node) :=
  if COAP_REQ_NODE_BUF_LEN_MAX <? len d then Ok None
  else b <- blit (q_resp n) 0 d ;; Ok (Some (set_resp n b (len d))).

(** The response taken from the node. *)
Definition stored_resp (c : Z) (m : message) (n : node) : reply :=
  {| r_code := c; r_body := Some (media_of (m_op m), firstn (Z.to_nat (q_rlen n)) (q_resp n)); r_block1 := None |}.

(** est_server_coap.c:1082-1114, 1893-1926 and the same code of the GET
    handlers: answer from the node; the end event unless there is more. *)
Definition answer (c : Z) (m : message) (n : node) (acts : list action) : res (reply * list action * node) :=
  Ok (stored_resp c m n, acts ++ (if m_more2 m then [] else [AEnd]), n).

Definition fail (c : Z) (acts : list action) (n : node) : res (reply * list action * node) :=
  Ok (code c, acts ++ [AEnd], n).

(** ** est_server_coap.c:639-1148 (est_coap_sen_handler) and 1308-1966
    (est_coap_skg_handler) once the node is found. *)
Definition serve_enroll (m : message) (n0 : node) : res (reply * list action * node) :=
  let op := m_op m in
  let restart := match m_block1 m with Some b => b_num b =? 0 | None => true end in
  let n := if negb (nth 0 (q_req n0) 0 =? 0) && payload m && restart
           then reinit_coap_req n0 op else n0 in
  if negb (nth 0 (q_resp n) 0 =? 0) then answer 204 m n []
  else
    let a0 := if nth 0 (q_req n) 0 =? 0 then [AStart] else [] in
    match est_coap_check_option (m_opts m) COAP_OPTION_ACCEPT (media_of op) with
    | EST_ERR_NONE =>
      t <- take_in m n ;;
      match t with
      | TFail c n1 => fail c a0 n1
      | TMore b n1 =>
        Ok ({| r_code := 231; r_body := None;
               r_block1 := Some (Z.lor (Z.lor (Z.shiftl (b_num b) 4) 8) (b_szx b)) |}, a0, n1)
      | TDone n1 =>
        if q_len n1 <=? 0 then fail 400 a0 n1
        else
          let csr := firstn (Z.to_nat (q_len n1)) (q_req n1) in
          ' (l, blk) <- est_base64_encode csr (repeat 0 (Z.to_nat (len csr * 2))) (len csr * 2) true ;;
          if l <=? 0 then fail 500 a0 n1
          else
            let text := firstn (Z.to_nat l) blk in
            let o := m_env m op text in
            let a1 := a0 ++ [AEnrollReq csr; ACall op text; AEnrollRsp csr (o_rc o)] in
            if negb (err_eqb (o_rc o) EST_ERR_NONE) then fail (enroll_code (o_rc o)) a1 n1
            else
              d <- enroll_payload op o ;;
              match d with
              | None => fail 500 a1 n1
              | Some d =>
                k <- keep_resp n1 d ;;
                match k with
                | None => fail 500 a1 n1
                | Some n2 => answer 204 m n2 a1
                end
              end
      end
    | EST_ERR_BAD_CONTENT_TYPE => fail 402 a0 n
    | EST_ERR_HTTP_UNSUPPORTED => fail 406 a0 n
    | _ => fail 500 a0 n
    end.

(** ** est_server_coap.c:2047-2254 (est_coap_crts_handler) and 2331-2541
    (est_coap_att_handler) once the node is found.  /crts answers 4.04 when
    there are no CA certificates, /att an empty 2.05 when there are no
    attributes. *)
Definition serve_get (m : message) (n : node) : res (reply * list action * node) :=
  let op := m_op m in
  if negb (nth 0 (q_resp n) 0 =? 0) then answer 205 m n []
  else
    let before := match op with OpAtt => [AStart] | _ => [] end in
    match est_coap_check_option (m_opts m) COAP_OPTION_ACCEPT (media_of op) with
    | EST_ERR_NONE =>
      let o := m_env m op [] in
      let a1 := [AStart; ACall op []] in
      if negb (err_eqb (o_rc o) EST_ERR_NONE) then fail (get_code (o_rc o)) a1 n
      else match o_text o with
           | None => fail (match op with OpAtt => 205 | _ => 404 end) a1 n
           | Some t =>
             d <- decode_reply t ;;
             match d with
             | None => fail 500 a1 n
             | Some d =>
               k <- keep_resp n d ;;
               match k with
               | None => fail 500 a1 n
               | Some n2 => answer 205 m n2 a1
               end
             end
           end
    | EST_ERR_BAD_CONTENT_TYPE => fail 402 before n
    | EST_ERR_HTTP_UNSUPPORTED => fail 406 before n
    | _ => fail 500 before n
    end.

Definition is_get (op : coap_op) : bool := match op with OpCrts | OpAtt => true | _ => false end.
Definition serve (m : message) (n : node) : res (reply * list action * node) :=
  if is_get (m_op m) then serve_get m n else serve_enroll m n.

(** ** The array of request states *)

(** strcmp on C strings *)
Fixpoint key_compare (a b : bytes) : comparison :=
  match a, b with
  | [], [] => Eq
  | [], _ => Lt
  | _, [] => Gt
  | x :: a', y :: b' => match Z.compare x y with Eq => key_compare a' b' | c => c end
  end.

(** The C library's bsearch and qsort (external) on the array ordered by
    coap_bsearch_compare, est_server_coap.c:167-188. *)
Variable bsearch : bytes -> list node -> option nat.
Variable qsort : list node -> list node.

(** coap_req_array and coap_req_cnt of the EST context *)
Record table := { t_nodes : list node; t_cnt : Z }.

(** est_server_coap.c:489-507 est_coap_init_req_array *)
Definition est_coap_init_req_array (entry_count : Z) : table :=
  {| t_nodes := repeat zero_node (Z.to_nat entry_count); t_cnt := 0 |}.

(** A peer: its port and the text inet_ntop gives for its address; no text if
    inet_ntop fails (est_server.c:4704-4754). *)
Definition peer := (Z * option bytes)%type.

(** The search key, est_server_coap.c:220-240 *)
Definition search_key (p : peer) : option bytes :=
  match snd p with
  | Some ip => Some (print_int (fst p) ++ ip)
  | None => None
  end.

(** est_server_coap.c:222: memzero_s(src_ipstr, INET6_ADDRSTRLEN+1) on the
    local array src_ipstr.  It writes one byte past that array; the rest of the
    model takes the array to be one byte longer. *)
Definition clear_src_ipstr (src_ipstr : bytes) : res bytes :=
  blit src_ipstr 0 (repeat 0 (Z.to_nat (INET6_ADDRSTRLEN + 1))).

(** ** est_server_coap.c:197-343 get_coap_req: the index of the node, or None
    for NULL, and the table afterwards. *)
Definition get_coap_req (t : table) (p : peer) (op : coap_op) : option nat * table :=
  match search_key p with
  | None => (None, t)
  | Some k =>
    match bsearch k (t_nodes t) with
    | None =>
      match bsearch [] (t_nodes t) with
      | None => (None, t)
      | Some e =>
        let nodes := qsort (set_nth e (t_nodes t) (set_op (nth e (t_nodes t) zero_node) k op)) in
        match bsearch k nodes with
        | None => (None, {| t_nodes := nodes; t_cnt := t_cnt t |})
        | Some i => (Some i, {| t_nodes := nodes; t_cnt := t_cnt t + 1 |})
        end
      end
    | Some i =>
      let n := nth i (t_nodes t) zero_node in
      if negb (op_eqb (q_op n) op) && negb (op_eqb op OpReset)
      then (Some i, {| t_nodes := set_nth i (t_nodes t) (reinit_coap_req n op); t_cnt := t_cnt t |})
      else (Some i, t)
    end
  end.

(** ** est_server_coap.c:349-406 remove_coap_req *)
Definition remove_coap_req (t : table) (i : option nat) : bool * table :=
  match i with
  | None => (false, t)
  | Some i =>
    if t_cnt t =? 0 then (false, t)
    else match bsearch (q_key (nth i (t_nodes t) zero_node)) (t_nodes t) with
         | None => (false, t)
         | Some j => (true, {| t_nodes := qsort (set_nth j (t_nodes t) zero_node); t_cnt := t_cnt t - 1 |})
         end
  end.

(** ** The handlers as libcoap calls them *)
Inductive event :=
| Connected (p : peer)
| Closed (p : peer)
| Message (p : peer) (m : message).

(** Observations on events, for stating properties (no code modelled). *)
Definition peer_of (e : event) : peer :=
  match e with Connected p | Closed p | Message p _ => p end.
Definition peer_eqb (p q : peer) : bool :=
  (fst p =? fst q) && match snd p, snd q with
                      | Some a, Some b => beq a b
                      | None, None => true
                      | _, _ => false
                      end.

(** The operations called, with the base64 text of the CSR. *)
Fixpoint calls (a : list action) : list (coap_op * bytes) :=
  match a with
  | [] => []
  | ACall op t :: a' => (op, t) :: calls a'
  | _ :: a' => calls a'
  end.

Definition no_reply (t : table) : res (option reply * list action * table) := Ok (None, [], t).

(** est_server_coap.c:516-638, 1215-1307, 1978-2046, 2261-2330: what comes
    before the node is found. *)
Definition serve_message (p : peer) (m : message) (t : table) : res (option reply * list action * table) :=
  let op := m_op m in
  let go :=
    match get_coap_req t p op with
    | (None, t') => Ok (Some (code 500), [AEnd], t')
    | (Some i, t') =>
      ' (r, a, n) <- serve m (nth i (t_nodes t') zero_node) ;;
      Ok (Some r, a, {| t_nodes := set_nth i (t_nodes t') n; t_cnt := t_cnt t' |})
    end in
  if is_get op then
    if negb (m_ssl m) then Ok (Some (code (match op with OpAtt => 500 | _ => 401 end)), [AEnd], t)
    else go
  else
    match est_coap_check_option (m_opts m) COAP_OPTION_CONTENT_TYPE COAP_MEDIA_TYPE_PKCS10 with
    | EST_ERR_NONE =>
      if negb (m_ssl m) then Ok (Some (code 401), [AEnd], t)
      else if negb (m_cert m) then Ok (Some (code 401), [AEnd], t)
      else go
    | EST_ERR_BAD_CONTENT_TYPE => Ok (Some (code 402), [], t)   (* est_ctx is still NULL: no event *)
    | EST_ERR_HTTP_BAD_REQ => Ok (Some (code 400), [], t)
    | _ => Ok (Some (code 500), [], t)
    end.

(** est_server_coap.c:2795-2843 est_coap_event_handler *)
Definition step (e : event) (t : table) : res (option reply * list action * table) :=
  match e with
  | Connected p => no_reply (snd (get_coap_req t p OpReset))
  | Closed p => let '(i, t') := get_coap_req t p OpReset in no_reply (snd (remove_coap_req t' i))
  | Message p m => serve_message p m t
  end.

Fixpoint run (h : list event) (t : table) : res (list (option reply * list action) * table) :=
  match h with
  | [] => Ok ([], t)
  | e :: h' =>
    ' (r, a, t1) <- step e t ;;
    ' (rs, t2) <- run h' t1 ;;
    Ok ((r, a) :: rs, t2)
  end.

End Coap.
