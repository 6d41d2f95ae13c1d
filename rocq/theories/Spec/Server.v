(** Specification vocabulary for the server: what an observer of the
    application's callbacks and of the data sent to the client can say about the
    handling of one request.  Of the model it uses the observable data types
    only (events, TLS session, configuration, OpenSSL's answers). *)
From Coq Require Import String ZArith List Bool.
From Verif Require Import Base Spec.Http Spec.Base64 Model.EstErr Model.Uri Model.AuthHdr Model.Server.
Import ListNotations.
Open Scope Z_scope.

Section Spec.
Context {cert csr key E : Type}.
Implicit Types (e : list (@event cert key)) (t : @tls cert) (C : @config cert) (O : @ossl cert csr key).

(** ** Who the client is, according to TLS *)
(** Verification results: 0 is success, 3 is "no CRL loaded". *)
Definition cert_verified t : Prop := exists c, t_peer t = Some c /\ (t_verify t = 0 \/ t_verify t = 3).
Definition cert_rejected t : Prop := exists c, t_peer t = Some c /\ t_verify t <> 0 /\ t_verify t <> 3.
Definition srp_session t : Prop := t_peer t = None /\ t_srp t <> None.

(** ** Events *)
(** The application approved HTTP credentials. *)
Definition approved e : Prop := exists a peer path, In (EvHttpAuth a peer path true) e.
(** Callbacks that act on behalf of an authenticated client. *)
Definition privileged (x : @event cert key) : Prop :=
  (exists k b u p s rv crt kt, x = EvCA k b u p s rv crt kt) \/ (exists rv k, x = EvKeygen rv k)
  \/ (exists o b p rv v, x = EvVoucher o b p rv v).
(** Any callback that serves an operation, or a write. *)
Definition is_write (x : @event cert key) : Prop := exists d ok, x = EvWrite d ok.
Definition is_ca (x : @event cert key) : Prop := exists k b u p s rv crt kt, x = EvCA k b u p s rv crt kt.

(** The data handed to the network layer, and whether all of it was accepted. *)
Fixpoint sent e : bytes :=
  match e with [] => [] | EvWrite d _ :: t => d ++ sent t | _ :: t => sent t end.
Definition all_sent e : Prop := forall d ok, In (EvWrite d ok) e -> ok = true.

(** ** HTTP responses *)
Definition one_line (v : bytes) : Prop := Forall (fun c => c <> 13 /\ c <> 10) v.
(** [d] is the response with this status code, header fields and body. *)
Definition response (d : bytes) (code : Z) (hs : list (bytes * bytes)) (body : bytes) : Prop :=
  exists num reason, decimal num code /\ len num = 3 /\ one_line reason
    /\ Forall (fun h => one_line (fst h) /\ one_line (snd h)) hs
    /\ d = str "HTTP/1.1 " ++ num ++ str " " ++ reason ++ CRLF
           ++ concat (map render_header hs) ++ CRLF ++ body.
(** How the client finds the end of the body: the only Content-Length gives its
    length; a 202 response has no body and the connection is closed after it. *)
Definition framed (code : Z) (hs : list (bytes * bytes)) (body : bytes) : Prop :=
  (exists v, first_header hs (str "Content-Length") v /\ decimal v (len body))
  \/ (code = 202 /\ body = [] /\ no_header hs (str "Content-Length")).

(** The documented status of each error (RFC 7030 section 4.2.3 and est.h). *)
Definition http_status (e : est_error) : Z :=
  match e with
  | EST_ERR_CA_ENROLL_RETRY => 202
  | EST_ERR_HTTP_NO_CONTENT => 204
  | EST_ERR_HTTP_BAD_REQ | EST_ERR_CSR_ATTR_MISSING | EST_ERR_BAD_ASN1_HEX | EST_ERR_BAD_PKCS10
  | EST_ERR_BAD_CONTENT_TYPE | EST_ERR_WRONG_METHOD | EST_ERR_NO_SSL_CTX => 400
  | EST_ERR_AUTH_FAIL | EST_ERR_AUTH_FAIL_TLSUID => 401
  | EST_ERR_HTTP_NOT_FOUND | EST_ERR_HTTP_INVALID_PATH_SEGMENT => 404
  | EST_ERR_HTTP_LOCKED => 423
  | EST_ERR_HTTP_UNSUPPORTED => 502
  | EST_ERR_IP_CONNECT => 504
  | _ => 500
  end.

(** The multipart/mixed body that carries a private key and a certificate, both
    already base64 text (RFC 7030 section 4.4.2). *)
Definition part (content_type content : bytes) : bytes :=
  str "--est-server-boundary" ++ CRLF ++ render_header (str "Content-Type", content_type)
  ++ render_header (str "Content-Transfer-Encoding", str "base64") ++ CRLF ++ content ++ CRLF.
Definition keygen_body (ktext crt : bytes) : bytes :=
  part (str "application/pkcs8") ktext
  ++ part (str "application/pkcs7-mime; smime-type=certs-only") crt
  ++ str "--est-server-boundary--" ++ CRLF ++ CRLF.

(** ** Certificate requests *)
(** The certificate marks its owner as a registration authority (id-kp-cmcRA). *)
Definition registration_authority O t : Prop :=
  exists c l, t_peer t = Some c /\ o_eku O c = Some l /\ In (str "1.3.6.1.5.5.7.3.28") l.
(** [r] parses, contains a key and is signed with it. *)
Definition good_csr O (r : csr) : Prop := o_pubkey O r = true /\ 0 < o_verify O r.
(** [r] with its attributes is what the request was about: the CSR in the
    request, or for key generation that CSR with the application's new key,
    signed anew; [e] are the events before. *)
Definition csr_of_request O e (k : enroll_kind) (request_body ca_body : bytes) (r : csr) : Prop :=
  match k with
  | SERVERKEYGEN_REQ =>
    exists r0 r1 pk, o_parse_csr O request_body = Some r0 /\ In (EvKeygen 0 (Some pk)) e
                     /\ o_set_pubkey O r0 pk = Some r1
                     /\ o_sign O r1 pk = Some r /\ ca_body = o_csr_body O r
  | _ => o_parse_csr O request_body = Some r /\ ca_body = request_body
  end.
(** The challenge password starts with the session's identifier. *)
Definition bound_to_session O t (r : csr) : Prop :=
  exists u d rest, t_uid t = Some u /\ o_challenge O r = AttrStr d /\ d ++ [0] = u ++ rest.

(** ** Enhanced certificate authentication *)
(** The first manufacturer whose trust anchors verify the certificate. *)
Definition manufacturer_of (l : list (@mfg cert)) (c : cert) (m : @mfg cert) : Prop :=
  exists l1 l2, l = l1 ++ m :: l2 /\ m_usable m = true /\ m_verify m c <> 0
    /\ forall x, In x l1 -> m_usable x = true -> m_verify x c = 0.
Definition no_manufacturer (l : list (@mfg cert)) (c : cert) : Prop :=
  forall x, In x l -> m_usable x = true -> m_verify x c = 0.
(** The subject attribute that identifies the client. *)
Definition identifying_nid C (c : cert) (nid : Z) : Prop :=
  (exists l m, c_mfgs C = Some l /\ manufacturer_of l c m /\ nid = m_nid m)
  \/ ((c_mfgs C = None \/ exists l, c_mfgs C = Some l /\ no_manufacturer l c) /\ nid = c_local_nid C).
(** A subject field as text: up to a NUL, at most 256 characters. *)
Definition field_text (f v : bytes) : Prop :=
  exists w, cut_at 0 f w /\ v = firstn 256 w.

(** Certificate and CSR have the same text in subject field [nid]. *)
Definition same_field O (c : cert) (r : csr) (nid : Z) : Prop :=
  exists f g v, o_cert_field O c nid = Some f /\ o_csr_field O r nid = Some g /\ field_text f v /\ field_text g v.

(** ** Operations *)
Definition posts (o : operation) : bool := match o with OP_CACERTS | OP_CSRATTRS => false | _ => true end.
Definition enrolls (o : operation) : bool :=
  match o with OP_SIMPLE_ENROLL | OP_SIMPLE_REENROLL | OP_SERVER_KEYGEN => true | _ => false end.
Definition required_method (o : operation) : bytes :=
  match o with OP_CACERTS | OP_CSRATTRS => str "GET" | _ => str "POST" end.
Definition starts_with (p s : bytes) : Prop := exists rest, s = p ++ rest.

(** ** Notifications of the start and the end of a request *)
Definition is_start (x : @event cert key) : Prop := exists u, x = EvReqStart u.
Definition is_end (x : @event cert key) : Prop := exists u, x = EvReqEnd u.

(** ** Events are what happened *)
(** [x] is a call to the registered callback in application state [e0] with the
    arguments it shows, which returned the values it shows and state [e1];
    [before] are the earlier events of the request.  Notifications leave the
    state alone. *)
Definition happened O (A : @app cert key E) t (before : list (@event cert key)) (x : @event cert key) (e0 e1 : E) : Prop :=
  match x with
  | EvHttpAuth a peer path ok => exists f, a_http_auth A = Some f /\ f e0 a peer path = (e1, ok)
  | EvKeygen rv k => exists f, a_keygen A = Some f /\ f e0 = (e1, (rv, k))
  | EvCA SIMPLE_ENROLL_REQ b uid peer path rv crt _ =>
    exists f, a_enroll A = Some f /\ f e0 b uid peer path = (e1, (rv, crt))
  | EvCA REENROLL_REQ b uid peer path rv crt _ =>
    exists f, a_reenroll A = Some f /\ f e0 b uid peer path = (e1, (rv, crt))
  | EvCA SERVERKEYGEN_REQ b uid peer path rv crt kt =>
    exists f pk text, a_skg A = Some f /\ In (EvKeygen 0 (Some pk)) before
      /\ (5 <= len (o_key_der O pk) -> text = b64_wrap (b64_encode (o_key_der O pk)))
      /\ f e0 b text uid peer path = (e1, (rv, crt, kt))
  | EvCacerts path d => exists f, a_cacerts A = Some f /\ f e0 path = (e1, d)
  | EvCsrattrs path d => exists f, a_csrattrs A = Some f /\ f e0 path (t_peer t) = (e1, d)
  | EvVoucher OP_BRSKI_REQ_VOUCHER b peer rv v => exists f, a_voucher A = Some f /\ f e0 b peer = (e1, (rv, v))
  | EvVoucher OP_BRSKI_VOUCHER_STATUS b peer rv _ => exists f, a_voucher_status A = Some f /\ f e0 b peer = (e1, rv)
  | EvVoucher OP_BRSKI_ENROLL_STATUS b peer rv _ => exists f, a_enroll_status A = Some f /\ f e0 b peer = (e1, rv)
  | EvVoucher _ _ _ _ _ => False
  | EvWrite d ok => a_write A e0 d = (e1, ok)
  | EvReqStart _ | EvReqEnd _ | EvEnrollReq _ _ | EvEnrollRsp _ _ _ | EvAuthResult _ _ _ => e1 = e0
  end.
Inductive history O (A : @app cert key E) t : list (@event cert key) -> list (@event cert key) -> E -> E -> Prop :=
| h_nil : forall before (e0 : E), history O A t before [] e0 e0
| h_cons : forall before x l (e0 e1 e2 : E), happened O A t before x e0 e1 -> history O A t (before ++ [x]) l e1 e2 ->
    history O A t before (x :: l) e0 e2.

(** ** The server's answers *)
(** The CA answered with a certificate (and, for key generation, the text [kt]
    carrying the private key). *)
Definition issued e (k : enroll_kind) (crt kt : bytes) : Prop :=
  crt <> [] /\ exists b uid peer path, In (EvCA k b uid peer path 0 crt kt) e.
(** What was sent is one complete response with this status and body. *)
Definition reply e (code : Z) (body : bytes) : Prop :=
  exists hs, response (sent e) code hs body /\ framed code hs body.
Definition cert_body (k : enroll_kind) (crt kt : bytes) : bytes :=
  match k with SERVERKEYGEN_REQ => keygen_body kt crt | _ => crt end.
Definition cert_type (k : enroll_kind) : bytes :=
  match k with SERVERKEYGEN_REQ => str "multipart/mixed; boundary=est-server-boundary"
             | _ => str "application/pkcs7-mime; smime-type=certs-only" end.
Definition cert_reply e k crt kt : Prop :=
  exists hs, response (sent e) 200 hs (cert_body k crt kt) /\ framed 200 hs (cert_body k crt kt)
    /\ first_header hs (str "Content-Type") (cert_type k).
(** The server can challenge clients for credentials. *)
Definition challenges C : Prop := match c_auth_mode C with AUTH_BASIC | AUTH_DIGEST | AUTH_TOKEN => True | _ => False end.
Definition sane C (A : @app cert key E) : Prop := challenges C /\ one_line (c_realm C) /\ forall v, one_line (a_time A v).
(** The CSR attribute helpers yield an error or a text. *)
Definition attrs_sane (attrs_parse : bytes -> res (est_error * bool)) (attrs_add_pop : bytes -> res (est_error * bytes)) : Prop :=
  (forall b er b2, attrs_add_pop b = Ok (er, b2) -> er = EST_ERR_NONE -> b2 <> [])
  /\ (forall b er p, attrs_parse b = Ok (er, p) -> er <> EST_ERR_AUTH_PENDING)
  /\ (forall b er b2, attrs_add_pop b = Ok (er, b2) -> er <> EST_ERR_AUTH_PENDING).

(** ** Where credentials come from *)
(** The CSR carries the subject field of the client's certificate: that of its
    manufacturer, or, for a client of no manufacturer, that of some
    manufacturer. *)
Definition csr_matches O C (c : cert) (r : csr) : Prop :=
  exists l, c_mfgs C = Some l /\
   ((exists m, manufacturer_of l c m /\ same_field O c r (m_nid m))
    \/ (no_manufacturer l c
        /\ ((exists m, In m l /\ m_usable m = true /\ same_field O c r (m_nid m)) \/ forall m, In m l -> m_usable m = false))).
(** From the request's Authorization header. *)
Definition from_header O C t (authz : option bytes) (s : @st E) (a : auth_hdr) : Prop :=
  c_transport C = EST_HTTP /\ (c_eca C = true -> t_peer t = None)
  /\ exists u, mg_parse_auth_header (o_bio O) (c_auth_mode C) authz est_create_ah (s_uid s) = Ok (HDR_GOOD, a, u).
(** From the client's certificate: the identifying subject field with the
    configured password; if the CSR is checked, it agrees with the certificate. *)
Definition from_cert O C t (body : option bytes) (a : auth_hdr) : Prop :=
  exists c, t_peer t = Some c /\ c_eca C = true
  /\ (exists nid f v pw, identifying_nid C c nid /\ o_cert_field O c nid = Some f /\ field_text f v
      /\ ah_mode a = AUTH_BASIC /\ ah_user a = Some v /\ ah_pwd a = Some pw /\ pw = firstn 256 (c_eca_pwd C))
  /\ forall b, body = Some b -> c_eca_csr_check C = true -> exists r, o_parse_csr O b = Some r /\ csr_matches O C c r.

(** ** Undefined behaviour *)
(** The user id buffer holds a C string. *)
Definition uid_ok (u : bytes) : Prop := exists v, cstr u = Ok v.
(** Challenge passwords on which the server misbehaves: an empty value set, a
    value that is no string, a string shorter than the session's identifier. *)
Definition bad_challenge O t (r : csr) : Prop :=
  o_challenge O r = AttrEmpty \/ (o_challenge O r = AttrNotString /\ t_uid t <> None)
  \/ exists d u, o_challenge O r = AttrStr d /\ t_uid t = Some u /\ len d + 1 < len u.
(** Everything that can make the handling of a request undefined. *)
Inductive hazard O C (A : @app cert key E) (parse_uri : bytes -> res (est_error * option operation * option bytes))
  (attrs_parse : bytes -> res (est_error * bool)) (attrs_add_pop : bytes -> res (est_error * bytes))
  (attrs_check : option (option bytes) -> bytes -> res est_error)
  t (uri body : bytes) (authz : option bytes) (s : @st E) e : Prop :=
| hz_uri : parse_uri uri = UB -> hazard O C A parse_uri attrs_parse attrs_add_pop attrs_check t uri body authz s e
| hz_header : c_transport C = EST_HTTP -> a_http_auth A <> None ->
    mg_parse_auth_header (o_bio O) (c_auth_mode C) authz est_create_ah (s_uid s) = UB ->
    hazard O C A parse_uri attrs_parse attrs_add_pop attrs_check t uri body authz s e
| hz_challenge : forall k b r, csr_of_request O e k body b r -> good_csr O r -> ~ registration_authority O t ->
    bad_challenge O t r -> hazard O C A parse_uri attrs_parse attrs_add_pop attrs_check t uri body authz s e
| hz_attrs : forall p b, In (EvCsrattrs p (Some b)) e -> attrs_parse b = UB \/ (attrs_parse b = Ok (EST_ERR_NONE, false) /\ attrs_add_pop b = UB) ->
    hazard O C A parse_uri attrs_parse attrs_add_pop attrs_check t uri body authz s e
| hz_attrs_csr : forall d k b r, csr_of_request O e k body b r -> good_csr O r -> c_enforce C = true -> attrs_check d b = UB ->
    hazard O C A parse_uri attrs_parse attrs_add_pop attrs_check t uri body authz s e
| hz_key : forall pk, In (EvKeygen 0 (Some pk)) e -> len (o_key_der O pk) < 5 -> hazard O C A parse_uri attrs_parse attrs_add_pop attrs_check t uri body authz s e
| hz_coap : c_transport C = EST_COAP -> c_eca C = true -> a_http_auth A = None ->
    hazard O C A parse_uri attrs_parse attrs_add_pop attrs_check t uri body authz s e.

(** ** Requests that deserve to be served *)
(** The client's identity is accepted: TLS identity where that suffices, or
    credentials in the Authorization header which the application approves. *)
Definition accepted O C (A : @app cert key E) t (authz : option bytes) (s : @st E) (path : option bytes) : Prop :=
  ~ cert_rejected t /\
  (((cert_verified t \/ srp_session t) /\ (c_http_required C = false \/ a_http_auth A = None))
   \/ (exists f a u, a_http_auth A = Some f /\ (forall w, snd (f w a (t_peer t) path) = true)
        /\ (c_http_required C = true \/ (t_peer t = None /\ t_srp t = None)) /\ (c_eca C = true -> t_peer t = None)
        /\ mg_parse_auth_header (o_bio O) (c_auth_mode C) authz est_create_ah (s_uid s) = Ok (HDR_GOOD, a, u))).
(** The CSR [r] with text [b] passes the server's checks. *)
Definition acceptable O C (A : @app cert key E) (attrs_check : option (option bytes) -> bytes -> res est_error) t (b : bytes) (r : csr) : Prop :=
  good_csr O r
  /\ (registration_authority O t \/ (o_challenge O r = NoAttr /\ c_pop C = false)
      \/ exists u, o_challenge O r = AttrStr u /\ t_uid t = Some u)
  /\ (c_enforce C = false \/ (a_csrattrs A = None /\ forall d, c_csrattrs C = Some d ->
        attrs_check None b = Ok EST_ERR_NONE /\ attrs_check (Some (Some d)) b = Ok EST_ERR_NONE)).
(** The application's CA signs every request. *)
Definition signing (A : @app cert key E) (k : enroll_kind) : Prop :=
  match k with
  | SIMPLE_ENROLL_REQ => exists f, a_enroll A = Some f /\ forall w b u p q, exists w' crt, f w b u p q = (w', (0, crt)) /\ crt <> []
  | REENROLL_REQ => exists f, a_reenroll A = Some f /\ forall w b u p q, exists w' crt, f w b u p q = (w', (0, crt)) /\ crt <> []
  | SERVERKEYGEN_REQ => exists f, a_skg A = Some f /\ forall w b d u p q, exists w' crt kt, f w b d u p q = (w', (0, crt, kt)) /\ crt <> []
  end.
(** The CSR the CA gets to see is acceptable; for key generation, with every
    key the application's generator returns. *)
Definition good_enrollment O C (A : @app cert key E) attrs_check t (k : enroll_kind) (body : bytes) : Prop :=
  match k with
  | SERVERKEYGEN_REQ => exists r g, o_parse_csr O body = Some r /\ a_keygen A = Some g
      /\ forall w, exists w' pk r1 r2, g w = (w', (0, Some pk)) /\ 5 <= len (o_key_der O pk) /\ o_set_pubkey O r pk = Some r1
         /\ o_sign O r1 pk = Some r2 /\ acceptable O C A attrs_check t (o_csr_body O r2) r2
  | _ => exists r, o_parse_csr O body = Some r /\ acceptable O C A attrs_check t body r
  end.

End Spec.
