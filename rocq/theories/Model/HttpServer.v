(** Model of the HTTP front end of the EST server
    (/repo/src/est/est_server_http.c, plus the tokenizer in /repo/src/est/est.c). *)
From Coq Require Import String ZArith List Bool.
From Verif Require Import Base Model.CLib.
Import ListNotations.
Open Scope Z_scope.

Definition CR : Z := 13.
Definition LF : Z := 10.
Definition SP : Z := 32.

(** ** est_server_http.c:735-759 get_request_len
    [s] is the part of the buffer from the scan position to [buflen]; [off] is
    the scan position.  The loop runs while at least two bytes remain ([s < e]);
    the "\n\r\n" test additionally needs [&s[1] < e], i.e. three bytes. *)
Definition bad_req_char (c : Z) : bool :=
  negb (isprint c) && negb (c =? CR) && negb (c =? LF) && (c <? 128).

Fixpoint grl (s : bytes) (off : Z) : Z :=
  match s with
  | a :: ((b :: u) as t) =>
    if bad_req_char a then -1
    else if (a =? LF) && (b =? LF) then off + 2
    else match u with
         | c :: _ => if (a =? LF) && (b =? CR) && (c =? LF) then off + 3
                     else grl t (off + 1)
         | [] => grl t (off + 1)
         end
  | _ => 0
  end.

Definition get_request_len (buf : bytes) : Z := grl buf 0.

(** ** est.c:2213-2251 est_strcspn / est_strspn (with the Safe-C stub, whose
    RSIZE_MAX_STR is SIZE_MAX/2, so no length cap applies).  On a C string. *)
Definition est_strcspn (s delims : bytes) : Z := len (take_while (fun c => negb (memb c delims)) s).
Definition est_strspn (s set : bytes) : Z := len (take_while (fun c => memb c set) s).

(** Writing zeros to the half-open range [i, j) of a block. *)
Fixpoint zero_n (m : bytes) (i : Z) (n : nat) : res bytes :=
  match n with
  | O => Ok m
  | S n' => m' <- wr m i 0 ;; zero_n m' (i + 1) n'
  end.
Definition zero_range (m : bytes) (i j : Z) : res bytes := zero_n m i (Z.to_nat (j - i)).

(** memmove(m + dst, m + src, n) inside one block. *)
Definition move_in (m : bytes) (dst src n : Z) : res bytes :=
  if (0 <=? dst) && (dst + n <=? len m) && (0 <=? src) && (src + n <=? len m) && (0 <=? n)
  then Ok (firstn (Z.to_nat dst) m
           ++ firstn (Z.to_nat n) (skipn (Z.to_nat src) m)
           ++ skipn (Z.to_nat (dst + n)) m)
  else UB.

(** ** est.c:2258-2302 skip_quoted
    The inner loop over escaped delimiters (lines 2270-2284).  [p] is the C
    variable p, [e] is end_word.  Fuel exhaustion is reported as [UB]; theorems
    that exclude [UB] exclude it too. *)
Fixpoint quote_loop (fuel : nat) (m : bytes) (p e : Z) (delims : bytes) (q : Z)
  : res (bytes * Z * Z) :=
  match fuel with
  | O => UB
  | S fuel' =>
    c <- rd m p ;;
    if negb (c =? q) then Ok (m, p, e)
    else
      ce <- rd m e ;;
      if ce =? 0 then m' <- wr m p 0 ;; Ok (m', p, e)
      else
        w <- cstr_at m (e + 1) ;;
        let off := est_strcspn w delims in
        m' <- move_in m p e (off + 1) ;;
        quote_loop fuel' m' (p + off) (e + off + 1) delims q
  end.

(** Result: (block afterwards, start of the word, new cursor). *)
Definition skip_quoted (m : bytes) (cur : Z) (delims ws : bytes) (q : Z)
  : res (bytes * Z * Z) :=
  w <- cstr_at m cur ;;
  let e0 := cur + est_strcspn w delims in
  ' (m1, e) <- (if cur <? e0
                then ' (m', p, e) <- quote_loop (S (length m)) m (e0 - 1) e0 delims q ;;
                     m'' <- zero_range m' (p + 1) e ;;
                     Ok (m'', e)
                else Ok (m, e0)) ;;
  c <- rd m1 e ;;
  if c =? 0 then Ok (m1, cur, e)
  else
    w2 <- cstr_at m1 (e + 1) ;;
    let ew := e + 1 + est_strspn w2 ws in
    m2 <- zero_range m1 e ew ;;
    Ok (m2, cur, ew).

(** ** est.c:2306-2309 skip *)
Definition skip (m : bytes) (cur : Z) (delims : bytes) := skip_quoted m cur delims delims 0.

(** ** est_server_http.h:244-259 struct mg_request_info; strings are offsets
    into the receive buffer. *)
Record req_info := {
  ri_method : Z;
  ri_uri : Z;
  ri_version : Z;
  ri_headers : list (Z * Z)
}.

(** ARRAY_SIZE(ri->http_headers), est_server_http.h:253-256 *)
Definition MAX_REQ_HEADERS : nat := 64.

(** ** est_server_http.c:1115-1129 parse_http_headers *)
Fixpoint parse_http_headers (n : nat) (m : bytes) (cur : Z) : res (bytes * Z * list (Z * Z)) :=
  match n with
  | O => Ok (m, cur, [])
  | S n' =>
    ' (m1, name, cur1) <- skip_quoted m cur [58] [SP] 0 ;;
    ' (m2, value, cur2) <- skip m1 cur1 [CR; LF] ;;
    c <- rd m2 name ;;
    if c =? 0 then Ok (m2, cur2, [])
    else
      ' (m3, cur3, hs) <- parse_http_headers n' m2 cur2 ;;
      Ok (m3, cur3, (name, value) :: hs)
  end.

(** ** est_server_http.c:1137-1162 parse_http_message (logging omitted).
    Returns the request length and, if positive, the modified buffer and the
    request info.  [buf] is the whole receive buffer and [buflen] the scanned length. *)
Definition parse_http_message (buf : bytes) (buflen : Z) : res (Z * option (bytes * req_info)) :=
  if (0 <=? buflen) && (buflen <=? len buf) then
    let rl := get_request_len (firstn (Z.to_nat buflen) buf) in
    if 0 <? rl then
      m0 <- wr buf (rl - 1) 0 ;;
      w <- cstr_at m0 0 ;;
      let p0 := len (take_while isspace w) in
      ' (m1, method, p1) <- skip m0 p0 [SP] ;;
      ' (m2, uri, p2) <- skip m1 p1 [SP] ;;
      ' (m3, version, p3) <- skip m2 p2 [CR; LF] ;;
      ' (m4, _, hs) <- parse_http_headers MAX_REQ_HEADERS m3 p3 ;;
      Ok (rl, Some (m4, {| ri_method := method; ri_uri := uri;
                           ri_version := version; ri_headers := hs |}))
    else Ok (rl, None)
  else UB.

(** The strings a parsed request consists of. *)
Record http_req := {
  hr_method : bytes;
  hr_uri : bytes;
  hr_version : bytes;             (* after "HTTP/" has been skipped *)
  hr_headers : list (bytes * bytes)
}.

Fixpoint texts (m : bytes) (l : list (Z * Z)) : res (list (bytes * bytes)) :=
  match l with
  | [] => Ok []
  | (a, b) :: t =>
    x <- cstr_at m a ;; y <- cstr_at m b ;; r <- texts m t ;; Ok ((x, y) :: r)
  end.

(** ** est_server_http.c:1131-1135 is_valid_http_method *)
Definition is_valid_http_method (meth : bytes) : bool :=
  strncmp_eq 3 meth [71; 69; 84] || strncmp_eq 4 meth [80; 79; 83; 84].

(** ** est_server_http.c:1165-1177 parse_http_request.  [None] is the -1 result. *)
Definition parse_http_request (buf : bytes) (buflen : Z) : res (option (Z * http_req)) :=
  ' (rl, r) <- parse_http_message buf buflen ;;
  match r with
  | None => Ok None
  | Some (m, ri) =>
    meth <- cstr_at m (ri_method ri) ;;
    uri <- cstr_at m (ri_uri ri) ;;
    ver <- cstr_at m (ri_version ri) ;;
    hs <- texts m (ri_headers ri) ;;
    if is_valid_http_method meth && strncmp_eq 5 ver [72; 84; 84; 80; 47]
    then Ok (Some (rl, {| hr_method := meth; hr_uri := uri;
                          hr_version := skipn 5 ver; hr_headers := hs |}))
    else Ok None
  end.

(** ** est_server_http.c:244-272 lowercase, mg_strcasecmp (result == 0) and
    mg_strncasecmp (result == 0), on C strings. *)
Fixpoint strcaseeq (a b : bytes) : bool :=
  match a, b with
  | [], [] => true
  | x :: a', y :: b' => (tolower x =? tolower y) && strcaseeq a' b'
  | _, _ => false
  end.
Fixpoint strncaseeq (n : nat) (a b : bytes) : bool :=
  match n with
  | O => true
  | S n' =>
    match a, b with
    | [], [] => true
    | x :: a', y :: b' => (tolower x =? tolower y) && strncaseeq n' a' b'
    | _, _ => false
    end
  end.

(** ** est_server_http.c:318-332 get_header *)
Fixpoint get_header (hs : list (bytes * bytes)) (name : bytes) : option bytes :=
  match hs with
  | [] => None
  | (n, v) :: t => if strcaseeq name n then Some v else get_header t name
  end.

(** ** est_server_http.c:342-362 should_keep_alive.  [version] is what follows
    "HTTP/" ([None] for a NULL pointer). *)
Definition should_keep_alive (must_close : bool) (status : Z) (enable_keepalives : bool)
           (header version : option bytes) : bool :=
  negb (must_close
        || (status =? 202)
        || (400 <=? status)
        || negb enable_keepalives
        || match header with Some h => negb (strcaseeq h (str "keep-alive")) | None => false end
        || match header, version with
           | None, Some v => negb (strncmp_eq 3 v (str "1.1"))
           | _, _ => false
           end).

(** ** est_server_http.c:1503-1508 is_valid_uri *)
Definition is_valid_uri (u : bytes) : bool :=
  match u with
  | 47 :: _ => true
  | [42] => true
  | _ => false
  end.

(** ** est_server_http.c:703-733 url_decode
    [s] is the source C string from position i on, [sl] = src_len - i and
    [dl] = dst_len - 1 - j.  Reading past the terminating NUL is [UB].
    Result: (decoded bytes, whether i >= src_len at the end).  The NUL written
    after the decoded bytes is at index [len decoded] <= dst_len - 1.
    [is_form_url_encoded] is the last argument of the C function. *)
Definition HEXTOI (x : Z) : Z := if isdigit x then x - 48 else x - 87.

Fixpoint url_decode_loop (s : bytes) (sl dl : Z) (form : bool) : res (bytes * bool) :=
  if (sl <=? 0) || (dl <=? 0) then Ok ([], sl <=? 0)
  else
    match s with
    | [] => UB
    | c :: t =>
      let plain :=
        let d := if form && (c =? 43) then 32 else c in
        ' (r, ok) <- url_decode_loop t (sl - 1) (dl - 1) form ;; Ok (d :: r, ok) in
      match t with
      | a :: b :: u =>
        if (c =? 37) && isxdigit a && isxdigit b then
          ' (r, ok) <- url_decode_loop u (sl - 3) (dl - 1) form ;;
          Ok ((HEXTOI (tolower a) * 16 + HEXTOI (tolower b)) :: r, ok)
        else plain
      | _ => plain
      end
    end.

Definition url_decode (s : bytes) (src_len dst_len : Z) (form : bool) : res (bytes * Z) :=
  ' (r, ok) <- url_decode_loop s src_len (dst_len - 1) form ;;
  Ok (r, if (ok : bool) then len r else -1).

(** ** est_server_http.c:761-783 remove_double_dots_and_double_slashes
    [after] records that the last copied byte was a slash or backslash, i.e.
    that the inner while loop is running. *)
Definition is_slash (c : Z) : bool := (c =? 47) || (c =? 92).

Fixpoint rm_dots (after : bool) (s : bytes) : bytes :=
  match s with
  | [] => []
  | c :: t =>
    if after then
      if is_slash c then rm_dots true t
      else match t with
           | d :: u => if (c =? 46) && (d =? 46) then rm_dots true u
                       else c :: rm_dots false t
           | [] => [c]
           end
    else c :: rm_dots (is_slash c) t
  end.

Definition remove_double_dots_and_double_slashes (s : bytes) : bytes := rm_dots false s.

(** EST_URI_MAX_LEN, est_locl.h:66-69: 16 + 128 + 128 *)
Definition EST_URI_MAX_LEN : Z := 272.
(** EST_MAX_CONTENT_LEN, est_locl.h:72 *)
Definition EST_MAX_CONTENT_LEN : Z := 8192.
(** MAX_REQUEST_SIZE, est_server_http.c:100 *)
Definition MAX_REQUEST_SIZE : Z := 16384.

(** ** est_server_http.c:1263-1271, the URI treatment of handle_request: cut the
    query string, percent-decode in place, remove dot-dots.  The in-place edits
    are modelled on the extracted URI string (it occupies its own part of the
    receive buffer).  A percent-encoded NUL ends the C string. *)
Definition handle_uri (uri : bytes) : res bytes :=
  let u := before_char 63 uri in
  let n := Z.min (len u) EST_URI_MAX_LEN in
  ' (d, _) <- url_decode u n (n + 1) false ;;
  Ok (remove_double_dots_and_double_slashes (before_char 0 d)).

(** ** The network: segments still to be delivered.  pull
    (est_server_http.c:560-606) returns at most [n] bytes of the first segment;
    an empty segment is a 0 return (SSL_ERROR_WANT_READ); no more segments is
    the -1 return (error, close, timeout or stop). *)
Definition net := list bytes.
Inductive pull_result := PullErr | PullData (d : bytes).
Definition pull (w : net) (n : Z) : pull_result * net :=
  match w with
  | [] => (PullErr, [])
  | seg :: w' =>
    if len seg <=? n then (PullData seg, w')
    else (PullData (firstn (Z.to_nat n) seg), skipn (Z.to_nat n) seg :: w')
  end.

(** Overwrite the block [m] from offset [i] with [d]. *)
Definition blit (m : bytes) (i : Z) (d : bytes) : res bytes :=
  if (0 <=? i) && (i + len d <=? len m)
  then Ok (firstn (Z.to_nat i) m ++ d ++ skipn (Z.to_nat (i + len d)) m)
  else UB.

(** ** est_server_http.c:1184-1203 read_request.  The result carries the
    buffer, data_len, the request length (-1 on a network error) and the
    remaining network input. *)
Fixpoint read_loop (fuel : nat) (m : bytes) (dl : Z) (rl : Z) (w : net)
  : res (bytes * Z * Z * net) :=
  match fuel with
  | O => UB
  | S fuel' =>
    if (dl <? len m) && (rl =? 0) then
      match pull w (len m - dl) with
      | (PullErr, w') => Ok (m, dl, -1, w')
      | (PullData d, w') =>
        if 0 <? len d then
          m' <- blit m dl d ;;
          let dl' := dl + len d in
          read_loop fuel' m' dl' (get_request_len (firstn (Z.to_nat dl') m')) w'
        else read_loop fuel' m dl rl w'
      end
    else Ok (m, dl, rl, w)
  end.

Definition net_size (w : net) : nat := (length w + length (concat w))%nat.

Definition read_request (m : bytes) (dl : Z) (w : net) : res (bytes * Z * Z * net) :=
  read_loop (S (net_size w)) m dl (get_request_len (firstn (Z.to_nat dl) m)) w.

(** ** est_server_http.c:608-654 mg_read with len = content_len and
    consumed_content = 0: the body bytes obtained (fewer than [n] if the
    network failed) and the remaining network input. *)
Fixpoint mg_read_loop (fuel : nat) (n : Z) (w : net) : res (bytes * net) :=
  match fuel with
  | O => UB
  | S fuel' =>
    if 0 <? n then
      match pull w n with
      | (PullErr, w') => Ok ([], w')
      | (PullData d, w') =>
        ' (r, w'') <- mg_read_loop fuel' (n - len d) w' ;; Ok (d ++ r, w'')
      end
    else Ok ([], w)
  end.

Definition mg_read (m : bytes) (dl rl n : Z) (w : net) : res (bytes * net) :=
  let buffered := firstn (Z.to_nat n) (firstn (Z.to_nat (dl - rl)) (skipn (Z.to_nat rl) m)) in
  ' (r, w') <- mg_read_loop (S (net_size w)) (n - len buffered) w ;;
  Ok (buffered ++ r, w').

(** What the EST layer is given for one request (est_server_http.c:1211-1245).
    [er_body] is [None] without Content-Length; otherwise the announced length
    and the bytes actually received into the body buffer (the rest of the
    buffer, if any, is uninitialised memory, because the result of mg_read is
    not checked). *)
Record est_req := {
  er_method : bytes;
  er_uri : bytes;
  er_headers : list (bytes * bytes);
  er_body : option (Z * bytes)
}.

(** Observable actions on a connection: the EST layer was run for a request and
    left status code [st] (-1 if none was set), or the front end itself sent an
    error status. *)
Inductive http_event :=
| EvServed (r : est_req) (st : Z)
| EvError (st : Z).

Section Connection.
(** The EST layer: state and request to new state and conn->status_code. *)
Variable S0 : Type.
Variable handler : S0 -> est_req -> S0 * Z.

(** ** est_server_http.c:1211-1255 est_mg_handler + 1263-1285 handle_request *)
Definition handle_request (s : S0) (m : bytes) (dl rl : Z) (rq : http_req) (w : net)
  : res (S0 * Z * est_req * net) :=
  uri <- handle_uri (hr_uri rq) ;;
  ' (body, w') <- match get_header (hr_headers rq) (str "Content-Length") with
                  | Some cl =>
                    let n := atoi cl in
                    ' (b, w1) <- mg_read m dl rl n w ;; Ok (Some (n, b), w1)
                  | None => Ok (None, w)
                  end ;;
  let r := {| er_method := hr_method rq; er_uri := uri;
              er_headers := hr_headers rq; er_body := body |} in
  let '(s', st) := handler s r in
  Ok (s', st, r, w').

(** conn->content_len, est_server_http.c:1542-1549 *)
Definition request_content_len (rq : http_req) : Z :=
  match get_header (hr_headers rq) (str "Content-Length") with
  | Some cl => strtoll cl
  | None => if strcaseeq (hr_method rq) (str "POST") || strcaseeq (hr_method rq) (str "PUT")
            then -1 else 0
  end.

(** ** est_server_http.c:1510-1600 process_new_connection, the do-while loop.
    [clen] is conn->content_len, which is not reset between requests.
    The context's stop flag is not modelled (a stop shows up as a network
    error).  enable_keepalives is the mg_start setting. *)
Fixpoint conn_loop (fuel : nat) (ka : bool) (s : S0) (m : bytes) (dl clen : Z) (w : net)
  : res (list http_event * S0) :=
  match fuel with
  | O => UB
  | S fuel' =>
    ' (m, dl, rl, w) <- read_request m dl w ;;
    if (rl =? 0) && (dl =? len m) then Ok ([EvError 413], s)
    else if rl <=? 0 then Ok ([], s)
    else
      pr <- parse_http_request m (len m) ;;
      ' (ev, s, w, clen, mc, st, rqo) <-
        match pr with
        | Some (_, rq) =>
          if negb (is_valid_uri (hr_uri rq)) then Ok (EvError 400, s, w, clen, true, 400, Some rq)
          else if negb (strncmp_eq 3 (hr_version rq) (str "1.0"))
               && negb (strncmp_eq 3 (hr_version rq) (str "1.1"))
          then Ok (EvError 505, s, w, clen, false, 505, Some rq)
          else
            let clen := request_content_len rq in
            if EST_MAX_CONTENT_LEN <? clen
            then Ok (EvError 413, s, w, clen, false, 413, Some rq)
            else if clen <? 0
            then Ok (EvError 400, s, w, clen, false, 400, Some rq)
            else
              ' (s, st, r, w) <- handle_request s m dl rl rq w ;;
              Ok (EvServed r st, s, w, clen, false, st, Some rq)
        | None => Ok (EvError 400, s, w, clen, true, 400, None)
        end ;;
      let keep := should_keep_alive mc st ka
                    (match rqo with Some rq => get_header (hr_headers rq) (str "Connection")
                                  | None => None end)
                    (match rqo with Some rq => Some (hr_version rq) | None => None end) in
      let discard := if (0 <=? clen) && (rl + clen <? dl) then rl + clen else dl in
      m <- (if 0 <? dl - discard then move_in m 0 discard (dl - discard) else Ok m) ;;
      let dl := dl - discard in
      if ka && (0 <=? clen) && keep then
        ' (evs, s) <- conn_loop fuel' ka s m dl clen w ;; Ok (ev :: evs, s)
      else Ok ([ev], s)
  end.

(** A connection starts with an all-zero buffer (calloc) of MAX_REQUEST_SIZE
    bytes and content_len 0 (est_server_http.c:1721-1729). *)
Definition process_new_connection (ka : bool) (s : S0) (w : net) : res (list http_event * S0) :=
  conn_loop (S (net_size w)) ka s (repeat 0 (Z.to_nat MAX_REQUEST_SIZE)) 0 0 w.

End Connection.
