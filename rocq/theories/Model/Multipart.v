(** Model of the client's reading of a server-side key generation response:
    /repo/src/est/multipart_parser.c and the key generation branch of
    /repo/src/est/est_client_http.c.  Allocation does not fail; logging is
    omitted.  [junk v] is the byte that malloc left behind the stored header
    value [v], which read_header_value does not terminate. *)
From Coq Require Import String ZArith List Bool.
From Verif Require Import Base Model.CLib Model.EstErr Model.HttpServer Model.Uri Model.AuthHdr Model.ClientHttp.
Import ListNotations.
Open Scope Z_scope.

(** [n] bytes at offset [o] of a block. *)
Definition sub (m : bytes) (o n : Z) : res bytes :=
  if (0 <=? o) && (0 <=? n) && (o + n <=? len m) then Ok (firstn (Z.to_nat n) (skipn (Z.to_nat o) m)) else UB.

(** * The multipart parser *)

(** multipart_parser.h:34 *)
Definition MULTIPART_PARSE_DATA_MAX : Z := 8192.
(** multipart_parser.c:60 MAX_HEADERS *)
Definition MAX_PART_HEADERS : Z := 16.
(** multipart_parser.c:75-76, the arrays lookbehind and multipart_boundary *)
Definition LOOKBEHIND : Z := 70.

(** multipart_parser.c:86-104, without s_uninitialized, which is never set. *)
Inductive pstate :=
  s_start | s_start_boundary | s_header_field_start | s_header_field | s_headers_almost_done
| s_header_value_start | s_header_value | s_header_value_almost_done | s_part_data_start | s_part_data
| s_part_data_almost_boundary | s_part_data_boundary | s_part_data_almost_end | s_part_data_end
| s_part_data_final_hyphen | s_end.

(** multipart_parser.c:62-84 struct multipart_parser and the local variables of
    multipart_parser_execute.  [p_hdrs]: the first num_headers entries of hdrs;
    [p_name]: hdrs[num_headers].name, which is always the name stored last. *)
Record parser := {
  p_index : Z; p_state : pstate;
  p_hdrs : list (bytes * bytes); p_name : bytes;
  p_look : bytes; p_key : bytes; p_cert : bytes;
  p_mark : Z; p_seen_headers : bool; p_seen_delim : bool; p_payloads : Z
}.
Definition set_index (x : Z) (p : parser) := {| p_index := x; p_state := p_state p; p_hdrs := p_hdrs p; p_name := p_name p; p_look := p_look p; p_key := p_key p; p_cert := p_cert p; p_mark := p_mark p; p_seen_headers := p_seen_headers p; p_seen_delim := p_seen_delim p; p_payloads := p_payloads p |}.
Definition set_state (x : pstate) (p : parser) := {| p_index := p_index p; p_state := x; p_hdrs := p_hdrs p; p_name := p_name p; p_look := p_look p; p_key := p_key p; p_cert := p_cert p; p_mark := p_mark p; p_seen_headers := p_seen_headers p; p_seen_delim := p_seen_delim p; p_payloads := p_payloads p |}.
Definition set_hdrs (x : list (bytes * bytes)) (p : parser) := {| p_index := p_index p; p_state := p_state p; p_hdrs := x; p_name := p_name p; p_look := p_look p; p_key := p_key p; p_cert := p_cert p; p_mark := p_mark p; p_seen_headers := p_seen_headers p; p_seen_delim := p_seen_delim p; p_payloads := p_payloads p |}.
Definition set_name (x : bytes) (p : parser) := {| p_index := p_index p; p_state := p_state p; p_hdrs := p_hdrs p; p_name := x; p_look := p_look p; p_key := p_key p; p_cert := p_cert p; p_mark := p_mark p; p_seen_headers := p_seen_headers p; p_seen_delim := p_seen_delim p; p_payloads := p_payloads p |}.
Definition set_look (x : bytes) (p : parser) := {| p_index := p_index p; p_state := p_state p; p_hdrs := p_hdrs p; p_name := p_name p; p_look := x; p_key := p_key p; p_cert := p_cert p; p_mark := p_mark p; p_seen_headers := p_seen_headers p; p_seen_delim := p_seen_delim p; p_payloads := p_payloads p |}.
Definition set_key (x : bytes) (p : parser) := {| p_index := p_index p; p_state := p_state p; p_hdrs := p_hdrs p; p_name := p_name p; p_look := p_look p; p_key := x; p_cert := p_cert p; p_mark := p_mark p; p_seen_headers := p_seen_headers p; p_seen_delim := p_seen_delim p; p_payloads := p_payloads p |}.
Definition set_cert (x : bytes) (p : parser) := {| p_index := p_index p; p_state := p_state p; p_hdrs := p_hdrs p; p_name := p_name p; p_look := p_look p; p_key := p_key p; p_cert := x; p_mark := p_mark p; p_seen_headers := p_seen_headers p; p_seen_delim := p_seen_delim p; p_payloads := p_payloads p |}.
Definition set_mark (x : Z) (p : parser) := {| p_index := p_index p; p_state := p_state p; p_hdrs := p_hdrs p; p_name := p_name p; p_look := p_look p; p_key := p_key p; p_cert := p_cert p; p_mark := x; p_seen_headers := p_seen_headers p; p_seen_delim := p_seen_delim p; p_payloads := p_payloads p |}.
Definition set_seen_headers (x : bool) (p : parser) := {| p_index := p_index p; p_state := p_state p; p_hdrs := p_hdrs p; p_name := p_name p; p_look := p_look p; p_key := p_key p; p_cert := p_cert p; p_mark := p_mark p; p_seen_headers := x; p_seen_delim := p_seen_delim p; p_payloads := p_payloads p |}.
Definition set_seen_delim (x : bool) (p : parser) := {| p_index := p_index p; p_state := p_state p; p_hdrs := p_hdrs p; p_name := p_name p; p_look := p_look p; p_key := p_key p; p_cert := p_cert p; p_mark := p_mark p; p_seen_headers := p_seen_headers p; p_seen_delim := x; p_payloads := p_payloads p |}.
Definition set_payloads (x : Z) (p : parser) := {| p_index := p_index p; p_state := p_state p; p_hdrs := p_hdrs p; p_name := p_name p; p_look := p_look p; p_key := p_key p; p_cert := p_cert p; p_mark := p_mark p; p_seen_headers := p_seen_headers p; p_seen_delim := p_seen_delim p; p_payloads := x |}.

(** multipart_parser.c:106-126 multipart_parser_init (the strcpy: see
    parse_remaining_multipart_payload below); 240-244, the local variables *)
Definition multipart_parser_init : parser :=
  {| p_index := 0; p_state := s_start; p_hdrs := []; p_name := []; p_look := repeat 0 70; p_key := []; p_cert := [];
     p_mark := 0; p_seen_headers := false; p_seen_delim := false; p_payloads := 0 |}.

Section Junk.
Variable junk : bytes -> Z.

(** strncmp(value, lit, strlen(lit)) == 0 for a block that holds [v] and one
    more byte: past that byte is outside the allocation. *)
Fixpoint value_cmp (v : bytes) (g : Z) (lit : bytes) {struct lit} : res bool :=
  match lit with
  | [] => Ok true
  | c :: l =>
    match v with
    | x :: v' => if x =? c then value_cmp v' g l else Ok false
    | [] => if g =? c then match l with [] => Ok true | _ => UB end else Ok false
    end
  end.
Definition value_is (v : bytes) (lit : bytes) : res bool := value_cmp v (junk v) lit.

Definition PKCS8 : bytes := str "application/pkcs8".
Definition PKCS7_CERTS : bytes := str "application/pkcs7-mime; smime-type=certs-only".

(** est_client_http.c:919-925 read_header_name, multipart_parser.c:151-153
    multipart_parser_set_hdr_name *)
Definition read_header_name (at_ : bytes) (p : parser) : res parser :=
  if len (p_hdrs p) <? MAX_PART_HEADERS then Ok (set_name at_ p) else UB.

(** est_client_http.c:927-935 read_header_value, multipart_parser.c:155-182
    multipart_parser_set_hdr_value.  The name has only letters and hyphens, so
    the strncmp calls are prefix tests. *)
Definition read_header_value (v : bytes) (p : parser) : res parser :=
  good <- (if prefixb (str "Content-Type") (p_name p) then
             k <- value_is v PKCS8 ;; if k then Ok true else value_is v PKCS7_CERTS
           else if prefixb (str "Content-Transfer-Encoding") (p_name p) then value_is v (str "base64")
           else Ok false) ;;
  if good then
    if len (p_hdrs p) <? MAX_PART_HEADERS then Ok (set_hdrs (p_hdrs p ++ [(p_name p, v)]) p) else UB
  else Ok p.

(** multipart_parser.c:184-186 multipart_reset_hdrs; 188-210
    multipart_get_data_ct, multipart_get_data_cte: the last header whose name
    starts so. *)
Fixpoint first_named (n : bytes) (l : list (bytes * bytes)) : option bytes :=
  match l with [] => None | (k, v) :: t => if prefixb n k then Some v else first_named n t end.
Definition multipart_get_data_ct (p : parser) := first_named (str "Content-Type") (rev (p_hdrs p)).
Definition multipart_get_data_cte (p : parser) := first_named (str "Content-Transfer-Encoding") (rev (p_hdrs p)).

(** est_client_http.c:958-963 *)
Definition only_whitespace (d : bytes) : bool := forallb (fun c => memb c [SP; CR; LF]) d.

(** est_client_http.c:941-991 part_data_cb; multipart_parser.c:210-218
    multipart_set_key_data, multipart_set_cert_data; 232-237
    multipart_parser_both_key_and_cert_populated.  [true]: a value other than
    0, the parser stops. *)
Definition both_populated (p : parser) : bool := negb (len (p_cert p) =? 0) && negb (len (p_key p) =? 0).
Definition part_data_cb (d : bytes) (p : parser) : res (bool * parser) :=
  match multipart_get_data_ct p, multipart_get_data_cte p with
  | Some ct, Some cte =>
    b64 <- value_is cte (str "base64") ;;
    if negb b64 then Ok (false, p)
    else if MULTIPART_PARSE_DATA_MAX <? len d then Ok (true, p)
    else
      k <- value_is ct PKCS8 ;;
      if k then
        if only_whitespace d then Ok (true, p)
        else let q := set_key d p in
             if both_populated q then Ok (true, q) else Ok (false, set_hdrs [] q)
      else
        c <- value_is ct PKCS7_CERTS ;;
        if c then
          if only_whitespace d then Ok (true, p)
          else let q := set_cert d p in
               if both_populated q then Ok (true, q) else Ok (false, set_hdrs [] q)
        else if both_populated p then Ok (true, p) else Ok (false, set_hdrs [] p)
  | _, _ => Ok (false, p)
  end.

(** One pass of the loop of multipart_parser_execute: return a count, or go on
    at an index. *)
Inductive turn := Stop (n : Z) (p : parser) | Next (i : Z) (p : parser).

(** EMIT_DATA_CB(part_data, …): multipart_parser.c:44-51 *)
Definition emit_part (d : bytes) (i : Z) (p : parser) (go : parser -> turn) : res turn :=
  ' (stop, q) <- part_data_cb d p ;; Ok (if stop then Stop i q else go q).

(** multipart_parser.c:239-470 multipart_parser_execute, the body of the loop:
    [m] from offset [o] on is buf, [bnd] multipart_boundary, [n] len. *)
Definition is_last (n i : Z) : bool := i =? n - 1.

(** 255-287 s_start, s_start_boundary *)
Definition at_start_boundary (bnd : bytes) (i c : Z) (p : parser) : turn :=
  if p_index p =? len bnd then
    if c =? CR then Next (i + 1) (set_index (p_index p + 1) p)
    else if c =? 45 then Next (i + 1) (set_index (p_index p + 1) (set_state s_part_data_final_hyphen p))
    else Stop i p
  else if p_index p =? len bnd + 1 then
    if c =? LF then Next (i + 1) (set_seen_headers false (set_state s_header_field_start (set_index 0 p)))
    else Stop i p
  else Next (i + 1) (set_index (p_index p + 1) p).

(** 289-320 s_header_field.  tolower: [isalpha] is that or an upper-case letter. *)
Definition at_header_field (m : bytes) (o n i c : Z) (p : parser) : res turn :=
  if c =? CR then Ok (Next (i + 1) (set_state s_headers_almost_done p))
  else if c =? 58 then
    d <- sub m (o + p_mark p) (i - p_mark p) ;;
    q <- read_header_name d (set_seen_delim true (set_seen_headers true p)) ;;
    Ok (Next (i + 1) (set_state s_header_value_start q))
  else if (63 <? i - p_mark p) && negb (p_seen_delim p) then Ok (Stop 0 p)
  else if negb (c =? 45) && negb (isalpha c) then Ok (Stop i p)
  else if is_last n i then
    d <- sub m (o + p_mark p) (i - p_mark p + 1) ;;
    q <- read_header_name d p ;;
    Ok (Next (i + 1) q)
  else Ok (Next (i + 1) p).

(** 344-355 s_header_value *)
Definition at_header_value (m : bytes) (o n i c : Z) (p0 : parser) : res turn :=
  let p := set_seen_delim false p0 in
  if c =? CR then
    d <- sub m (o + p_mark p) (i - p_mark p) ;;
    q <- read_header_value d p ;;
    Ok (Next (i + 1) (set_state s_header_value_almost_done q))
  else if is_last n i then
    d <- sub m (o + p_mark p) (i - p_mark p + 1) ;;
    q <- read_header_value d p ;;
    Ok (Next (i + 1) q)
  else Ok (Next (i + 1) p).

(** 377-392 s_part_data *)
Definition at_part_data (m : bytes) (o n i c : Z) (p : parser) : res turn :=
  stop <- (if c =? CR then
             x <- rd m (o + i + 1) ;;
             if x =? 45 then Ok true else y <- rd m (o + i + 2) ;; Ok (y =? 45)
           else Ok false) ;;
  if stop then
    d <- sub m (o + p_mark p) (i - p_mark p) ;;
    emit_part d i (set_payloads (p_payloads p + 1) p) (fun q =>
      Next (i + 1) (set_look (set_nth 0 (p_look q) CR) (set_state s_part_data_almost_boundary (set_mark i q))))
  else if is_last n i then
    d <- sub m (o + p_mark p) (i - p_mark p + 1) ;;
    emit_part d i p (fun q => Next (i + 1) q)
  else Ok (Next (i + 1) p).

(** 394-410 s_part_data_almost_boundary; 123: expected_payloads *)
Definition at_almost_boundary (i c : Z) (p : parser) : res turn :=
  if c =? LF then
    Ok (Next (i + 3) (set_index 0 (set_look (set_nth 1 (p_look p) LF)
         (set_state (if p_payloads p =? 2 then s_part_data_boundary else s_start_boundary) p))))
  else
    emit_part (firstn 1 (p_look p)) i p (fun q => Next i (set_mark i (set_state s_part_data q))).

(** 412-425 s_part_data_boundary *)
Definition at_boundary (bnd : bytes) (i c : Z) (p : parser) : res turn :=
  b <- rd (bnd ++ [0]) (p_index p) ;;
  if negb (b =? c) then
    emit_part (firstn (Z.to_nat (2 + p_index p)) (p_look p)) i p (fun q => Next i (set_mark i (set_state s_header_field_start q)))
  else if LOOKBEHIND <=? 2 + p_index p then UB
  else
    let q := set_index (p_index p + 1) (set_look (set_nth (Z.to_nat (2 + p_index p)) (p_look p) c) p) in
    Ok (Next (i + 1) (if p_index q =? len bnd then set_state s_part_data_almost_end q else q)).

Definition execute_turn (m : bytes) (o : Z) (bnd : bytes) (n i : Z) (p : parser) : res turn :=
  c <- rd m (o + i) ;;
  match p_state p with
  | s_start => Ok (at_start_boundary bnd i c (set_state s_start_boundary (set_index 0 p)))
  | s_start_boundary => Ok (at_start_boundary bnd i c p)
  | s_header_field_start => at_header_field m o n i c (set_state s_header_field (set_mark i p))
  | s_header_field => at_header_field m o n i c p
  | s_headers_almost_done =>  (* 322-332 *)
    Ok (if c =? LF then Next (i + 1) (set_state (if p_seen_headers p then s_part_data_start else s_header_field_start) p) else Stop i p)
  | s_header_value_start =>  (* 334-341 *)
    if c =? SP then Ok (Next (i + 1) p) else at_header_value m o n i c (set_state s_header_value (set_mark i p))
  | s_header_value => at_header_value m o n i c p
  | s_header_value_almost_done =>  (* 357-368 *)
    if c =? LF then
      x <- rd m (o + i + 1) ;;
      Ok (if x =? 45 then Next (i + 3) (set_state s_start_boundary p) else Next (i + 1) (set_state s_header_field_start p))
    else Ok (Stop i p)
  | s_part_data_start => at_part_data m o n i c (set_state s_part_data (set_mark i p))
  | s_part_data => at_part_data m o n i c p
  | s_part_data_almost_boundary => at_almost_boundary i c p
  | s_part_data_boundary => at_boundary bnd i c p
  | s_part_data_almost_end =>  (* 427-437 *)
    Ok (if c =? 45 then Next (i + 1) (set_state s_part_data_final_hyphen p)
        else if c =? CR then Next (i + 1) (set_state s_part_data_end p) else Stop i p)
  | s_part_data_final_hyphen =>  (* 439-446 *)
    Ok (if c =? 45 then Next (i + 1) (set_state s_end p) else Stop i p)
  | s_part_data_end =>  (* 448-455 *)
    Ok (if c =? LF then Next (i + 1) (set_state s_header_field_start p) else Stop i p)
  | s_end => Ok (Next (i + 1) p)
  end.
Fixpoint execute_loop (fuel : nat) (m : bytes) (o : Z) (bnd : bytes) (n i : Z) (p : parser) : res (Z * parser) :=
  if i <? n then
    match fuel with
    | O => UB
    | S fuel' =>
      t <- execute_turn m o bnd n i p ;;
      match t with Stop k q => Ok (k, q) | Next i' q => execute_loop fuel' m o bnd n i' q end
    end
  else Ok (n, p).

(** est_client_http.c:993-1026 parse_remaining_multipart_payload: [o] is *buf.
    The strcpy into multipart_boundary (multipart_parser.c:113) and the skipping
    of hyphens (246-248), which does not change len, come first. *)
Definition parse_remaining_multipart_payload (m : bytes) (o : Z) (bnd : bytes) : res (est_error * bytes * bytes) :=
  if LOOKBEHIND <=? len bnd then UB
  else
    w <- cstr_at m o ;;
    let n := len w in
    ' (parsed, p) <- execute_loop (S (2 * Z.to_nat n)) m (o + est_strspn w [45]) bnd n 0 multipart_parser_init ;;
    let rv := if both_populated p then EST_ERR_NONE else if parsed <? n then EST_ERR_MULTIPART_PARSE else EST_ERR_ZERO_LENGTH_BUF in
    Ok (rv, p_key p, p_cert p).

(** * The headers of the response *)

(** est_client_http.c:1028-1044 validate_boundary_string *)
Definition boundary_char (c : Z) : bool :=
  ((43 <=? c) && (c <=? 58)) || ((65 <=? c) && (c <=? 90)) || ((97 <=? c) && (c <=? 122)) || ((39 <=? c) && (c <=? 41))
  || (c =? 95) || (c =? 61) || (c =? 63) || (c =? 32).

(** est_client_http.c:1046-1085 sanitize_boundary, on the buffer itself: [b] is
    *boundary, [n] *bound_len. *)
Fixpoint strip_spaces (fuel : nat) (m : bytes) (b n : Z) : res (bytes * Z) :=
  match fuel with
  | O => UB
  | S fuel' =>
    c <- rd m (b + n - 1) ;;
    if c =? SP then m' <- wr m (b + n - 1) 0 ;; strip_spaces fuel' m' b (n - 1) else Ok (m, n)
  end.
Definition sanitize_boundary (m : bytes) (b n : Z) : res (bytes * Z) :=
  t <- sub m b n ;;
  let k := est_strcspn t [59] in
  ' (m1, n1) <- (if k <? n then m' <- wr m (b + k) 0 ;; Ok (m', k) else Ok (m, n)) ;;
  if n1 <? 1 then Ok (m1, n1)
  else
    ' (m2, n2) <- strip_spaces (S (Z.to_nat n1)) m1 b n1 ;;
    if n2 <? 1 then Ok (m2, n2)
    else
      c0 <- rd m2 b ;;
      c1 <- rd m2 (b + n2 - 1) ;;
      ' (m3, n3) <- (if (c0 =? 34) && (c1 =? 34) then
                       m' <- move_in m2 b (b + 1) (n2 - 1) ;;
                       m'' <- wr m' (b + n2 - 2) 0 ;;
                       Ok (m'', n2 - 2)
                     else Ok (m2, n2)) ;;
      if n3 <? 1 then Ok (m3, n3)
      else
        c <- rd m3 (b + n3 - 1) ;;
        if c =? 59 then m' <- wr m3 (b + n3 - 1) 0 ;; Ok (m', n3 - 1) else Ok (m3, n3).

(** est_client_http.c:1093-1095 *)
Definition MAX_MULTI_BOUNDARY_LEN : Z := 70.

(** est_client_http.c:1126-1181: what one header value does to *boundary;
    [None]: the caller gets NULL for the headers. *)
Definition boundary_of (m : bytes) (value : Z) (bnd : option Z) : res (option (bytes * option Z)) :=
  v <- cstr_at m value ;;
  match find_sub (str "multipart") v with
  | None => Ok (Some (m, bnd))
  | Some _ =>
    match find_sub (str "multipart/mixed") v with
    | None => Ok None
    | Some _ =>
      match find_sub (str "boundary=") v with
      | None => Ok None
      | Some f =>
        ' (m1, b, _) <- skip m (value + f + 9) [LF] ;;
        w <- cstr_at m1 b ;;
        ' (m2, n) <- sanitize_boundary m1 b (Z.min (len w) (MAX_MULTI_BOUNDARY_LEN + 2)) ;;
        if MAX_MULTI_BOUNDARY_LEN <? n then Ok None
        else if n <=? 0 then Ok None
        else
          t <- sub m2 b n ;;
          if forallb boundary_char t then Ok (Some (m2, Some b)) else Ok None
      end
    end
  end.

(** est_client_http.c:908-917 parse_single_header and 1120-1190, the loop. *)
Fixpoint keygen_headers (k : nat) (m : bytes) (cur : Z) (hdr_end : option Z) (bnd : option Z)
  : res (option (bytes * Z * list (Z * Z) * option Z)) :=
  match k with
  | O => Ok (Some (m, cur, [], bnd))
  | S k' =>
    w <- cstr_at m cur ;;
    ' (m1, name, cur1) <- skip_quoted m (cur + est_strspn w [LF]) [58] [SP] 0 ;;
    ' (m2, value, cur2) <- skip m1 cur1 [CR; LF] ;;
    r <- boundary_of m2 value bnd ;;
    match r with
    | None => Ok None
    | Some (m3, bnd') =>
      c <- rd m3 name ;;
      if c =? 0 then Ok (Some (m3, cur2, [], bnd'))
      else if past hdr_end cur2 then Ok (Some (m3, cur2, [(name, value)], bnd'))
      else
        r' <- keygen_headers k' m3 cur2 hdr_end bnd' ;;
        match r' with
        | None => Ok None
        | Some (m4, cur4, hs, bnd4) => Ok (Some (m4, cur4, (name, value) :: hs, bnd4))
        end
    end
  end.
(** est_client_http.c:1096-1195 parse_and_split_keygen_rsp *)
Definition parse_and_split_keygen_rsp (m : bytes) : res (option (bytes * Z * list (Z * Z) * option Z)) :=
  w <- cstr_at m 0 ;;
  let hdr_end := find_sub [CR; LF; CR; LF] w in
  ' (m1, _, cur) <- skip m 0 [CR; LF] ;;
  keygen_headers MAX_HEADERS m1 cur hdr_end None.

(** est.h:44-45 *)
Definition EST_MIN_CLIENT_CERT_LEN : Z := 128.
Definition EST_MIN_CLIENT_PKEY_LEN : Z := 256.

(** est_client_http.c:1683-1747: the payload.  strstr that finds nothing gives
    NULL, and NULL - 2 is then read.  The buffers are reported only together
    with success; after an error their lengths are zero. *)
Definition keygen_payload (m : bytes) (cur : Z) (bnd : option Z) : res (est_error * option (bytes * bytes)) :=
  match bnd with
  | None => Ok (EST_ERR_NONE, None)
  | Some b =>
    boundary <- cstr_at m b ;;
    w <- cstr_at m cur ;;
    match find_sub boundary w with
    | None => UB
    | Some f =>
      ' (rv, key, cert) <- parse_remaining_multipart_payload m (cur + f - 2) boundary ;;
      if negb (err_eqb rv EST_ERR_NONE) then Ok (rv, None)
      else if (len key <? EST_MIN_CLIENT_PKEY_LEN) || (len cert <? EST_MIN_CLIENT_CERT_LEN) then Ok (EST_ERR_ZERO_LENGTH_BUF, None)
      else Ok (EST_ERR_NONE, Some (key, cert))
    end
  end.

(** est_client_http.c:1547-1822 est_io_get_response_internal with op =
    EST_OP_SERVER_KEYGEN. *)
Definition est_io_get_keygen_response (evs : list net) (c : cctx) : res (est_error * option (bytes * bytes) * cctx) :=
  let '(rv, raw) := est_io_read_raw evs [] in
  if negb (err_eqb rv EST_ERR_NONE) then Ok (rv, None, c)
  else if len raw <=? 0 then Ok (EST_ERR_HTTP_NOT_FOUND, None, c)
  else
    let m := raw ++ repeat 0 (Z.to_nat (EST_CA_MAX - len raw)) in
    let st := est_io_parse_response_status_code m in
    r <- parse_and_split_keygen_rsp m ;;
    match r with
    | None => Ok (EST_ERR_MULTIPART_PARSE, None, set_status st c)
    | Some (m1, cur, hs, bnd) =>
      ' (rv, c') <- status_result m1 hs st (set_status st c) ;;
      if err_eqb rv EST_ERR_NONE then ' (rv', d) <- keygen_payload m1 cur bnd ;; Ok (rv', d, c')
      else Ok (rv, None, c')
    end.
End Junk.
