(** Model of EST operation and path-segment selection, /repo/src/est/est.c,
    and of the API calls that store a path segment. *)
From Coq Require Import String ZArith List Bool.
From Verif Require Import Base Model.CLib Model.EstErr.
Import ListNotations.
Open Scope Z_scope.

(** est_locl.h:281-294 EST_OPERATION; EST_OP_MAX ("no operation") is [None]. *)
Inductive operation : Set :=
| OP_SIMPLE_ENROLL | OP_SIMPLE_REENROLL | OP_CACERTS | OP_CSRATTRS | OP_SERVER_KEYGEN
| OP_BRSKI_REQ_VOUCHER | OP_BRSKI_VOUCHER_STATUS | OP_BRSKI_ENROLL_STATUS.

(** est.c:2196-2211 est_strcasecmp_s(s1, s2) == 0, through strcasecmp_s
    (safe_c_stub/src/safe_str_stub.c:62-101): a zero-length s1 is an error that
    leaves the indicator 0. *)
Fixpoint casecmp_upper (a b : bytes) : bool :=
  match a, b with
  | [], [] => true
  | x :: a', y :: b' => (toupper x =? toupper y) && casecmp_upper a' b'
  | _, _ => false
  end.
Definition est_strcaseeq_s (s1 s2 : bytes) : bool :=
  match s1 with [] => true | _ => casecmp_upper s1 s2 end.

(** est.c:1865-1892 est_parse_operation.  [brski] is ENABLE_BRSKI.  The names
    are those of est_locl.h:228-232, 246-248. *)
Definition est_parse_operation (brski : bool) (op_path : bytes) : option operation :=
  if est_strcaseeq_s op_path (str "cacerts") then Some OP_CACERTS
  else if est_strcaseeq_s op_path (str "csrattrs") then Some OP_CSRATTRS
  else if est_strcaseeq_s op_path (str "simpleenroll") then Some OP_SIMPLE_ENROLL
  else if est_strcaseeq_s op_path (str "simplereenroll") then Some OP_SIMPLE_REENROLL
  else if est_strcaseeq_s op_path (str "serverkeygen") then Some OP_SERVER_KEYGEN
  else if brski then
    if est_strcaseeq_s op_path (str "requestvoucher") then Some OP_BRSKI_REQ_VOUCHER
    else if est_strcaseeq_s op_path (str "voucher_status") then Some OP_BRSKI_VOUCHER_STATUS
    else if est_strcaseeq_s op_path (str "enrollstatus") then Some OP_BRSKI_ENROLL_STATUS
    else None
  else None.

(** est.c:2065-2099 est_parse_uri, build without uriparser.  EST_URI_MAX_LEN = 272
    (est_locl.h:184-187).  Result: error and *operation; *path_seg is NULL. *)
Definition est_parse_uri_plain (brski : bool) (uri : bytes) : est_error * option operation :=
  let is lit := strncmp_eq 272 uri (str lit) in
  if is "/.well-known/est/cacerts"%string then (EST_ERR_NONE, Some OP_CACERTS)
  else if is "/.well-known/est/simpleenroll"%string then (EST_ERR_NONE, Some OP_SIMPLE_ENROLL)
  else if is "/.well-known/est/simplereenroll"%string then (EST_ERR_NONE, Some OP_SIMPLE_REENROLL)
  else if is "/.well-known/est/csrattrs"%string then (EST_ERR_NONE, Some OP_CSRATTRS)
  else if is "/.well-known/est/serverkeygen"%string then (EST_ERR_NONE, Some OP_SERVER_KEYGEN)
  else if brski && is "/.well-known/est/requestvoucher"%string then (EST_ERR_NONE, Some OP_BRSKI_REQ_VOUCHER)
  else if brski && is "/.well-known/est/voucher_status"%string then (EST_ERR_NONE, Some OP_BRSKI_VOUCHER_STATUS)
  else if brski && is "/.well-known/est/enrollstatus"%string then (EST_ERR_NONE, Some OP_BRSKI_ENROLL_STATUS)
  else (EST_ERR_HTTP_INVALID_PATH_SEGMENT, None).

Section UriParser.
(** uriParseUriA (external): [None] on a syntax error, else the list of path
    segments, each a half-open range of offsets into the text. *)
Variable uri_parser : bytes -> option (list (Z * Z)).
Variable brski : bool.

(** The memory a segment's text.first points into: the URI block, or for an
    empty segment uriparser's static placeholder "X". *)
Definition seg_mem (blk : bytes) (sg : Z * Z) : bytes :=
  let '(f, a) := sg in if f =? a then [88; 0] else skipn (Z.to_nat f) blk.
(** *(text.afterLast) *)
Definition seg_after (blk : bytes) (sg : Z * Z) : res Z :=
  let '(f, a) := sg in if f =? a then Ok 88 else rd blk a.

(** *operation after the call: not written, or written. *)
Inductive op_out := OpUnset | OpSet (o : option operation).

(** est.c:1899-2063 est_parse_uri, build with uriparser.  [blk] is the memory
    from [uri] to the end of its allocation.  Following a NULL segment pointer
    is [UB].  uriparser always sets text.afterLast, so the NULL tests on it are
    dropped; the malloc failure branch is dropped.
    Result: error, *operation, *path_seg. *)
Definition est_parse_uri_full (blk : bytes) : res (est_error * op_out * option bytes) :=
  u <- cstr blk ;;
  match uri_parser u with
  | None => Ok (EST_ERR_HTTP_INVALID_PATH_SEGMENT, OpUnset, None)
  | Some [] => Ok (EST_ERR_NONE, OpUnset, None)
  | Some (s1 :: t1) =>
    wk <- memcmp_eq (seg_mem blk s1) (str ".well-known") 11 ;;
    if negb wk then Ok (EST_ERR_HTTP_INVALID_PATH_SEGMENT, OpUnset, None)
    else
    match t1 with
    | [] => UB
    | s2 :: t2 =>
      es <- memcmp_eq (seg_mem blk s2) (str "est") 3 ;;
      if negb es then Ok (EST_ERR_HTTP_INVALID_PATH_SEGMENT, OpUnset, None)
      else
      match t2 with
      | [] => UB
      | s3 :: _ =>
        let cur := seg_mem blk s3 in
        let cur_seg_len := snd s3 - fst s3 in
        if 128 <? cur_seg_len then Ok (EST_ERR_HTTP_INVALID_PATH_SEGMENT, OpUnset, None)
        else
        after <- seg_after blk s3 ;;
        curs <- cstr cur ;;
        let segment := if negb (after =? 0) then strndup curs cur_seg_len else strndup curs 128 in
        match est_parse_operation brski segment with
        | Some o =>
          if negb (after =? 0) then Ok (EST_ERR_HTTP_INVALID_PATH_SEGMENT, OpSet None, None)
          else Ok (EST_ERR_NONE, OpSet (Some o), None)
        | None =>
          if len segment + 1 <? cur_seg_len then UB
          else
          let path_seg := firstn (Z.to_nat cur_seg_len) segment in
          rest <- cstr_at cur (cur_seg_len + 1) ;;
          match est_parse_operation brski rest with
          | None => Ok (EST_ERR_HTTP_BAD_REQ, OpSet None, None)
          | Some o => Ok (EST_ERR_NONE, OpSet (Some o), Some path_seg)
          end
        end
      end
    end
  end.

(** est.c:2103-2164 est_parse_path_seg.  canned_uri has EST_URI_MAX_LEN = 272
    bytes; the stub's strcat_s appends up to 272 characters wherever they end. *)
Definition est_parse_path_seg (path_seg : bytes) : res est_error :=
  let app := strndup path_seg 272 in
  let canned := str "/.well-known/est/" ++ app in
  if 272 <? len canned + 1 then UB
  else
  let blk := canned ++ repeat 0 (Z.to_nat (272 - len canned)) in
  match uri_parser canned with
  | None => Ok EST_ERR_HTTP_INVALID_PATH_SEGMENT
  | Some [] => Ok EST_ERR_HTTP_INVALID_PATH_SEGMENT
  | Some (_ :: _ :: s3 :: t3) =>
    cur <- cstr (seg_mem blk s3) ;;
    match est_parse_operation brski cur with
    | Some _ => Ok EST_ERR_HTTP_INVALID_PATH_SEGMENT
    | None =>
      match t3 with
      | _ :: _ => Ok EST_ERR_HTTP_INVALID_PATH_SEGMENT
      | [] =>
        after <- seg_after blk s3 ;;
        if negb (after =? 0) then Ok EST_ERR_HTTP_INVALID_PATH_SEGMENT
        else Ok EST_ERR_NONE
      end
    end
  | Some _ => UB
  end.

(** est.c:2170-2193 est_store_path_segment: the new contents of
    ctx->uri_path_segment (a block).  The stub's strcpy_s is strncpy and
    writes path_segment_len+1 bytes; malloc failure is not modelled. *)
Definition est_store_path_segment (path_segment : bytes) (path_segment_len : Z)
  : res (est_error * bytes) :=
  let alloc := Z.min (len path_segment) path_segment_len + 1 in
  if alloc <? path_segment_len + 1 then UB
  else
    b <- wr (strncpy_img path_segment (path_segment_len + 1)) path_segment_len 0 ;;
    Ok (EST_ERR_NONE, b).

(** The path-segment part of est_client.c:4599-4634 est_client_set_server and of
    est_proxy.c:530-591 est_proxy_store_path_segment (identical up to the error
    reported).  [None]: argument NULL.  [old] is the segment stored before.
    Result: error and the stored block afterwards. *)
Definition set_path_segment (old : option bytes) (path_segment : option bytes)
  : res (est_error * option bytes) :=
  match path_segment with
  | None => Ok (EST_ERR_NONE, old)
  | Some ps =>
    match ps with
    | [] => Ok (EST_ERR_HTTP_INVALID_PATH_SEGMENT, old)
    | _ =>
      let l := Z.min (len ps) 129 in
      if 128 <? l then Ok (EST_ERR_HTTP_INVALID_PATH_SEGMENT, old)
      else
        rc <- est_parse_path_seg ps ;;
        if negb (is_none rc) then Ok (rc, old)
        else
          '(rc2, b) <- est_store_path_segment ps l ;;
          Ok (rc2, Some b)
    end
  end.

End UriParser.
