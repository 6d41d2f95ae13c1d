(** Specification vocabulary for the client's view of HTTP responses.  From the
    model it uses only the interface types ([net], [operation], [est_error]). *)
From Coq Require Import String ZArith List Bool.
From Verif Require Import Base Spec.Http Model.EstErr Model.Uri Model.ClientHttp.
Import ListNotations.
Open Scope Z_scope.

(** The peer sends [d], in pieces of any size, and closes the connection. *)
Definition arrives (evs : list net) (d : bytes) : Prop :=
  exists segs rest, evs = map Data segs ++ Data [] :: rest /\ Forall (fun p => p <> []) segs /\ concat segs = d.

(** The media type RFC 7030 (and BRSKI) prescribes for the reply. *)
Definition reply_type (op : operation) : bytes :=
  match op with
  | OP_SIMPLE_ENROLL | OP_SIMPLE_REENROLL => str "application/pkcs7-mime; smime-type=certs-only"
  | OP_CACERTS => str "application/pkcs7-mime"
  | OP_CSRATTRS => str "application/csrattrs"
  | OP_SERVER_KEYGEN => str "application/pkcs8"
  | OP_BRSKI_REQ_VOUCHER => str "application/voucher+cms"
  | OP_BRSKI_VOUCHER_STATUS | OP_BRSKI_ENROLL_STATUS => str "application/json"
  end.
Definition has_body (op : operation) : Prop := op <> OP_BRSKI_VOUCHER_STATUS /\ op <> OP_BRSKI_ENROLL_STATUS.

(** The error a status means for the caller (202: see the retry theorems). *)
Definition status_error (code : Z) : est_error :=
  match code with
  | 200 => EST_ERR_NONE
  | 204 => EST_ERR_HTTP_NO_CONTENT
  | 400 => EST_ERR_HTTP_BAD_REQ
  | 401 => EST_ERR_AUTH_FAIL
  | 404 => EST_ERR_HTTP_NOT_FOUND
  | 423 => EST_ERR_HTTP_LOCKED
  | _ => EST_ERR_UNKNOWN
  end.

(** Header lines a client need not repair. *)
Definition plain_header (h : bytes * bytes) : Prop :=
  fst h <> [] /\ Forall (fun c => ~ In c [0; 10; 13; 58]) (fst h)
  /\ Forall (fun c => ~ In c [0; 10; 13]) (snd h) /\ hd 0 (snd h) <> 32.
Definition plain_headers (hs : list (bytes * bytes)) : Prop := 1 <= len hs <= 16 /\ Forall plain_header hs.

(** [name: value] is a line of [d] before [rest]: after the end of a line and
    up to the end of its own (a C string ends at a NUL, too). *)
Definition header_line (d name value rest : bytes) : Prop :=
  exists a c sp b, d = a ++ c :: name ++ 58 :: sp ++ value ++ b ++ rest
    /\ (c = 13 \/ c = 10) /\ Forall (fun x => x = 32) sp
    /\ ~ In 10 value /\ ~ In 13 value
    /\ ((b = [] /\ hd 0 rest = 0) \/ (exists t, b = 13 :: t \/ b = 10 :: t)).

(** The last header called [name] (exactly) is [v]. *)
Definition last_header (hs : list (bytes * bytes)) (name v : bytes) : Prop :=
  exists h1 h2, hs = h1 ++ (name, v) :: h2 /\ Forall (fun h => fst h <> name) h2.

(** Every Content-Type says the reply is of the type asked for, and there is one. *)
Definition typed (op : operation) (hs : list (bytes * bytes)) : Prop :=
  Forall (fun h => fst h = str "Content-Type" -> exists t, snd h = reply_type op ++ t) hs
  /\ Exists (fun h => fst h = str "Content-Type") hs.

(** A usable Retry-After header: seconds that fit a non-negative int. *)
Definition retry_header (h : bytes * bytes) (n : Z) : Prop :=
  case_eq (fst h) (str "Retry-After") /\ decimal (snd h) n /\ n <= 2147483647.

(** [d] is a response whose head (everything before the body) has no NUL, and
    whose body does not start with a line end. *)
Definition clean_head (d body : bytes) : Prop := exists head, d = head ++ body /\ ~ In 0 head.
Definition no_leading_newline (body : bytes) : Prop := hd 0 body <> 10 /\ hd 0 body <> 13.
