(** Specification vocabulary for the proxy: what an observer of both its sides
    can say about the handling of one request.  Of the model it uses the
    observable data types only. *)
From Coq Require Import String ZArith List Bool.
From Verif Require Import Base Spec.Http Model.EstErr Model.Uri Model.Server Model.Relay.
From Verif Require Import Spec.Server.
From Verif Require Model.Client.
Import ListNotations.
Open Scope Z_scope.

Section Spec.
Context {cert key : Type}.
Implicit Types (e : list (@pevent cert key)).

(** What happens on the proxy's two sides. *)
Fixpoint ups e : list Client.event := match e with [] => [] | Up x :: l => x :: ups l | Dn _ :: l => ups l end.
Fixpoint downs e : list (@event cert key) := match e with [] => [] | Dn x :: l => x :: downs l | Up _ :: l => downs l end.

(** The status the proxy's client gets for each error of the upstream request:
    what the upstream server says about the request is passed on; a server that
    cannot be reached or does not answer is a gateway timeout; a server that is
    not the right one or answers nonsense is a bad gateway; anything else is the
    proxy's own failure. *)
Definition reported (x : est_error) : Z :=
  match x with
  | EST_ERR_NONE => 200
  | EST_ERR_CA_ENROLL_RETRY => 202
  | EST_ERR_HTTP_NO_CONTENT => 204
  | EST_ERR_HTTP_BAD_REQ => 400
  | EST_ERR_AUTH_FAIL => 401
  | EST_ERR_HTTP_NOT_FOUND => 404
  | EST_ERR_HTTP_LOCKED => 423
  | EST_ERR_IP_GETADDR | EST_ERR_IP_CONNECT | EST_ERR_SSL_READ => 504
  | EST_ERR_SSL_CONNECT | EST_ERR_FQDN_MISMATCH | EST_ERR_SSL_WRITE | EST_ERR_ZERO_LENGTH_BUF
  | EST_ERR_MULTIPART_PARSE | EST_ERR_UNKNOWN | EST_ERR_BUF_EXCEEDS_MAX_LEN | EST_ERR_HTTP_UNSUPPORTED => 502
  | _ => 500
  end.
(** The status for the upstream server's own status. *)
Definition passed_on (code : Z) : Z :=
  match code with 204 => 204 | 400 => 400 | 401 => 401 | 404 => 404 | 423 => 423 | _ => 502 end.
(** The status for a failure to connect. *)
Definition unconnected (w : list Client.attempt) : Z :=
  match w with
  | [] | Client.Refused Client.NoAddress :: _ | Client.Refused Client.NoConnection :: _ => 504
  | Client.Refused Client.NoSsl :: _ => 500
  | Client.Refused Client.NoTls :: _ | Client.Tls _ :: _ => 502
  end.

(** The proxy's answer is one complete response with this status. *)
Definition answers e (code : Z) : Prop := exists hs body, response (sent (downs e)) code hs body /\ framed code hs body.
(** It gives the client this certificate. *)
Definition gives_certificate e (x : bytes) : Prop :=
  exists hs, response (sent (downs e)) 200 hs x /\ framed 200 hs x
    /\ first_header hs (str "Content-Type") (str "application/pkcs7-mime; smime-type=certs-only").
(** The response to a key generation request. *)
Definition keygen_head (n : bytes) : bytes :=
  str "HTTP/1.1 200" ++ CRLF ++ render_header (str "Status", str "200 OK")
  ++ render_header (str "Content-Type", str "multipart/mixed; boundary=est-server-boundary")
  ++ render_header (str "Content-Length", n) ++ CRLF ++ [10].
Definition gives_keys e (k x : bytes) : Prop :=
  exists n, decimal n (len k + len x) /\ sent (downs e) = keygen_head n ++ keygen_body k x.

(** ** What the proxy asks the upstream server *)
Definition uri_name (o : operation) : bytes :=
  match o with OP_SIMPLE_ENROLL => str "simpleenroll" | OP_SIMPLE_REENROLL => str "simplereenroll" | _ => str "serverkeygen" end.
(** [q] posts [b] as a certificate request to operation [o] under segment
    [seg].  The last octet may be 0 instead of LF when the request fills the
    client's buffer. *)
Definition forwards (o : operation) (seg : option bytes) (b q : bytes) : Prop :=
  exists hs auth n tail, q = str "POST /.well-known/est" ++ match seg with Some p => str "/" ++ p | None => [] end ++ str "/" ++ uri_name o ++ str " HTTP/1.1" ++ CRLF
       ++ concat (map render_header hs) ++ auth ++ CRLF ++ b ++ tail
    /\ first_header hs (str "Content-Type") (str "application/pkcs10") /\ first_header hs (str "Content-Length") n /\ decimal n (len b)
    /\ (auth = [] \/ starts_with (str "Authorization: ") auth) /\ (tail = CRLF \/ tail = [13; 0]).
(** The segment of the path upstream. *)
Definition segment (path own : option bytes) : option bytes := match path with Some p => Some p | None => own end.
End Spec.
