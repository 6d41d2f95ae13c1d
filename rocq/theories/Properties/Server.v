(** C11-C17, C20, C47, C48 and C52-C57: what the server does with a request.
    Read with Spec/Server.v.
    [request t method uri body ct authz s] handles one request in the TLS
    session [t]; it yields the events it causes (application callbacks and
    writes to the client) and its result with the new state of the connection.
    OpenSSL, the application's callbacks, the configuration, the URI parser and
    the CSR attribute functions are arbitrary. *)
From Coq Require Import String ZArith List Bool Lia ZifyBool ZifyNat.
From Verif Require Import Base Spec.Http Spec.Base64 Spec.Server Model.EstErr Model.HttpServer Model.Uri Model.AuthHdr Model.Server
  Proofs.Codec Proofs.HttpConn Proofs.ServerAuth Proofs.ServerProps Proofs.ServerCA Proofs.ServerTrace Proofs.ServerReply
  Proofs.ServerResponse Proofs.ServerClaims Proofs.ServerSafe Proofs.ServerConn.
Import ListNotations.
Open Scope Z_scope.

(** * A small server for examples *)
Section Toy.
Definition toy_ossl (ch : challenge) : @ossl unit unit unit :=
  {| o_parse_csr := fun b => if beq b (str "CSR") then Some tt else None;
     o_pubkey := fun _ => true; o_verify := fun _ => 1; o_challenge := fun _ => ch; o_eku := fun _ => None;
     o_cert_field := fun _ _ => Some (str "SN1"); o_csr_field := fun _ _ => Some (str "SN1");
     o_key_der := fun _ => [1; 2; 3; 4; 5; 6]; o_set_pubkey := fun r _ => Some r; o_sign := fun r _ => Some r;
     o_csr_body := fun _ => str "CSR2"; o_bio := rfc_bio |}.
Definition toy_config (mode : auth_mode) (required eca pop : bool) (cacerts : bytes) : @config unit :=
  {| c_transport := EST_HTTP; c_auth_mode := mode; c_realm := str "est"; c_http_required := required;
     c_eca := eca; c_eca_csr_check := true;
     c_mfgs := Some [{| m_usable := true; m_nid := 105; m_init := fun _ => true; m_verify := fun _ => 1 |}];
     c_local_nid := 13; c_eca_pwd := str "ECA"; c_pop := pop; c_enforce := false; c_csrattrs := None;
     c_cacerts := Some cacerts; c_retry := 3600; c_brski_retry := 30;
     c_ev_endpoint := true; c_ev_req := true; c_ev_rsp := true; c_ev_auth := true |}.
(** The application knows one user, "alice"; writes of a text [bad] fail. *)
Definition toy_app (bad : bytes -> bool) : @app unit unit unit :=
  {| a_http_auth := Some (fun e a _ _ => (e, match ah_user a with Some u => beq u (str "alice") || beq u (str "SN1") | None => false end));
     a_enroll := Some (fun e _ _ _ _ => (e, (0, str "CERT"))); a_reenroll := Some (fun e _ _ _ _ => (e, (0, str "CERT")));
     a_skg := Some (fun e _ _ _ _ _ => (e, (0, str "CERT", str "KEY"))); a_keygen := Some (fun e => (e, (0, Some tt)));
     a_cacerts := None; a_csrattrs := None; a_voucher := Some (fun e _ _ => (e, (1, str "V")));
     a_voucher_status := Some (fun e _ _ => (e, 1)); a_enroll_status := Some (fun e _ _ => (e, 1));
     a_write := fun e d => (e, negb (bad d)); a_time := fun _ => str "1700000000" |}.
Definition toy_tls (peer : bool) (verify : Z) : @tls unit :=
  {| t_peer := if peer then Some tt else None; t_verify := verify; t_srp := None; t_chain := true; t_uid := Some (str "UID1") |}.
Definition toy_st : @st unit := {| s_env := tt; s_uid := repeat 0 256; s_code := -1 |}.
Definition toy_request ch C bad t meth uri body ct authz :=
  est_http_request (toy_ossl ch) C (toy_app bad) (uri_plain true) (fun _ => Ok (EST_ERR_NONE, false)) (fun b => Ok (EST_ERR_NONE, b))
    (fun _ _ => Ok EST_ERR_NONE) (fun _ => true) t meth uri body ct authz toy_st.
Definition never (d : bytes) : bool := false.
Definition pkcs10 := Some (str "application/pkcs10").
Definition alice := Some (str "Basic YWxpY2U6cHc=").
Definition simpleenroll := str "/.well-known/est/simpleenroll".
Definition simplereenroll := str "/.well-known/est/simplereenroll".
Definition ca_called (e : list (@event unit unit)) : bool := existsb (fun x => match x with EvCA _ _ _ _ _ _ _ _ => true | _ => false end) e.
Definition auth_called (e : list (@event unit unit)) : bool := existsb (fun x => match x with EvHttpAuth _ _ _ _ => true | _ => false end) e.
End Toy.

Section S.
Context {cert csr key E : Type}.
Variable O : @ossl cert csr key.
Variable C : @config cert.
Variable A : @app cert key E.
Variable parse_uri : bytes -> res (est_error * option operation * option bytes).
Variable attrs_parse : bytes -> res (est_error * bool).
Variable attrs_add_pop : bytes -> res (est_error * bytes).
Variable attrs_check : option (option bytes) -> bytes -> res est_error.
Variable keep : Z -> bool.
Variable uninit : nat -> Z.
Local Notation request := (est_http_request O C A parse_uri attrs_parse attrs_add_pop attrs_check keep).
Local Notation serve := (Model.Server.serve O C A parse_uri attrs_parse attrs_add_pop attrs_check keep uninit).
Local Notation run := (run_connection O C A parse_uri attrs_parse attrs_add_pop attrs_check keep uninit).
Implicit Types (t : @tls cert) (e : list (@event cert key)) (s : @st E).

(** ** From requests to connections *)
(** Whatever arrives on a connection: it is processed without undefined
    behaviour of the HTTP layer, and every request it serves is handled by
    [request] in some state whose user id is a C string. *)
Theorem connection_requests : forall t ka (e0 : E) (net : net), exists evs l r, run t ka e0 net = Ok (evs, (r, l))
  /\ forall rq e, In (rq, e) l -> exists s1 r1, serve t rq s1 = (e, r1) /\ uid_ok (s_uid s1).
Proof.
  intros t ka e0 net. destruct (connection_conversation O C A parse_uri attrs_parse attrs_add_pop attrs_check keep uninit t ka e0 net)
    as (evs & l & r & R & Cv).
  exists evs, l, r. split; [exact R|]. intros rq e I. destruct (conversation_in _ _ _ _ _ _ _ _ _ _ _ _ _ _ _ Cv I) as (s1 & r1 & _ & Sv & U).
  exists s1, r1. split; [exact Sv|]. apply U. exists []. reflexivity.
Qed.

(** ** C11 *)
(** With a method that does not start with the operation's method, the
    operation is not run: besides the start notification the server only writes
    a 400 response. *)
Theorem C11_partial : forall t method uri body ct authz s e r o p,
  parse_uri uri = Ok (EST_ERR_NONE, Some o, p) -> ~ starts_with (required_method o) method ->
  request t method uri body ct authz s = (e, r) ->
  Forall (fun x => x = EvReqStart uri \/ is_write x) e /\ (exists s', r = Ok (EST_ERR_WRONG_METHOD, s'))
  /\ (0 <= c_retry C -> all_sent e -> exists hs d, response (sent e) 400 hs d /\ framed 400 hs d).
Proof. apply wrong_method. Qed.

(** ** C12 *)
(** Whatever error [er]: est_send_http_error sends the documented status, and
    for a retry the configured delay. *)
Theorem C12_errors : forall delay er s w r, 0 <= delay -> est_send_http_error A keep delay er s = (w, r) -> all_sent w ->
  exists s' hs body, r = Ok (tt, s') /\ response (sent w) (http_status er) hs body /\ framed (http_status er) hs body
    /\ s_code s' = http_status er /\ (http_status er = 204 -> body = [])
    /\ (er = EST_ERR_CA_ENROLL_RETRY -> exists v, first_header hs (str "Retry-After") v /\ decimal v delay).
Proof. apply error_replies. Qed.

(** ** C13 *)
(** No callback that acts for an authenticated client (CA, key generation,
    vouchers) is made unless TLS verified the client's certificate, the client
    logged in by SRP, or the application approved credentials before, for the
    same client; never for a client whose certificate was rejected. *)
Theorem C13 : forall t method uri body ct authz s e r pre x post,
  request t method uri body ct authz s = (e, r) -> e = pre ++ x :: post -> privileged x ->
  ~ cert_rejected t
  /\ (cert_verified t \/ srp_session t \/ exists a path, In (EvHttpAuth a (t_peer t) path true) pre).
Proof.
  intros * H Eq P. destruct (request_guarded O C A parse_uri attrs_parse attrs_add_pop attrs_check keep _ _ _ _ _ _ _ _ _ H _ _ _ Eq P)
    as (path & [?|[?|(a & ?)]] & N); eauto 10.
Qed.
(** On a whole connection. *)
Theorem C13_connection : forall t ka (e0 : E) (net : net) evs r l rq e pre x post, run t ka e0 net = Ok (evs, (r, l)) ->
  In (rq, e) l -> e = pre ++ x :: post -> privileged x ->
  ~ cert_rejected t
  /\ (cert_verified t \/ srp_session t \/ exists a path, In (EvHttpAuth a (t_peer t) path true) pre).
Proof.
  intros * R I Eq P. destruct (connection_requests t ka e0 net) as (evs1 & l1 & r1 & R1 & Q). rewrite R in R1. injection R1 as <- <- <-.
  destruct (Q _ _ I) as (s1 & r2 & Sv & _). exact (C13 _ _ _ _ _ _ _ _ _ _ _ _ Sv Eq P).
Qed.

(** ** C14 *)
(** What remains true when HTTP authentication is required: the application
    approved credentials for this client before the CA is asked, except for a
    re-enrollment or key generation by a client with a verified certificate and
    an unreadable Authorization header (or, with enhanced certificate
    authentication, an OpenSSL failure). *)
Theorem C14_partial : forall t method uri body ct authz s e r pre k b uid peer path rv crt kt post,
  c_transport C = EST_HTTP -> c_http_required C = true -> a_http_auth A <> None ->
  request t method uri body ct authz s = (e, r) -> e = pre ++ EvCA k b uid peer path rv crt kt :: post ->
  (exists a, In (EvHttpAuth a peer path true) pre)
  \/ (k <> SIMPLE_ENROLL_REQ /\ cert_verified t
      /\ ((c_eca C = false /\ exists a u, mg_parse_auth_header (o_bio O) (c_auth_mode C) authz est_create_ah (s_uid s) = Ok (HDR_BAD, a, u))
          \/ (c_eca C = true /\ exists l m c, c_mfgs C = Some l /\ In m l /\ m_usable m = true /\ t_peer t = Some c /\ m_init m c = false))).
Proof. apply http_auth_required. Qed.
(** For simple enrollment the full claim. *)
Theorem C14_simple : forall t method uri body ct authz s e r pre b uid peer path rv crt kt post,
  c_transport C = EST_HTTP -> c_http_required C = true -> a_http_auth A <> None ->
  request t method uri body ct authz s = (e, r) -> e = pre ++ EvCA SIMPLE_ENROLL_REQ b uid peer path rv crt kt :: post ->
  exists a, In (EvHttpAuth a peer path true) pre.
Proof. intros * HT HR HA H Eq. destruct (C14_partial _ _ _ _ _ _ _ _ _ _ _ _ _ _ _ _ _ _ _ HT HR HA H Eq) as [?|(N & _)]; congruence || auto. Qed.

(** ** C15, C16 *)
(** The CA only gets a CSR that belongs to the request, parsed, has a key and
    is signed with it. *)
Theorem C16_signed : forall t method uri body ct authz s e r pre k b uid peer path rv crt kt post,
  request t method uri body ct authz s = (e, r) -> e = pre ++ EvCA k b uid peer path rv crt kt :: post ->
  exists rq, csr_of_request O pre k body b rq /\ good_csr O rq
    /\ (c_enforce C = true -> (a_csrattrs A = None /\ c_csrattrs C = None)
        \/ (exists d, a_csrattrs A = None /\ c_csrattrs C = Some d /\ attrs_check (Some (Some d)) b = Ok EST_ERR_NONE)
        \/ (exists d, In (EvCsrattrs None d) pre /\ attrs_check (Some d) b = Ok EST_ERR_NONE)).
Proof.
  intros * H Eq. destruct (ca_csr O C A parse_uri attrs_parse attrs_add_pop attrs_check keep _ _ _ _ _ _ _ _ _ _ _ _ _ _ _ _ _ _ _ H Eq)
    as (rq & Q1 & Q2 & _ & Q3). eauto.
Qed.
(** Proof of possession, as far as it goes: the challenge password begins with
    the session's identifier. *)
Theorem C15_partial : forall t method uri body ct authz s e r pre k b uid peer path rv crt kt post,
  request t method uri body ct authz s = (e, r) -> e = pre ++ EvCA k b uid peer path rv crt kt :: post ->
  exists rq, csr_of_request O pre k body b rq
    /\ (registration_authority O t \/ (c_pop C = true \/ o_challenge O rq <> NoAttr -> bound_to_session O t rq)).
Proof.
  intros * H Eq. destruct (ca_csr O C A parse_uri attrs_parse attrs_add_pop attrs_check keep _ _ _ _ _ _ _ _ _ _ _ _ _ _ _ _ _ _ _ H Eq)
    as (rq & Q1 & _ & Q2 & _). eauto.
Qed.

(** ** C17 *)
(** A client with a rejected certificate gets nothing done in its name, its
    other credentials are not even looked at, and no operation other than the
    two public ones succeeds. *)
Theorem C17 : forall t method uri body ct authz s e r, cert_rejected t ->
  request t method uri body ct authz s = (e, r) ->
  (forall x, In x e -> ~ privileged x /\ forall a p q ok, x <> EvHttpAuth a p q ok)
  /\ (forall o p, parse_uri uri = Ok (EST_ERR_NONE, Some o, p) -> posts o = true -> forall s', r <> Ok (EST_ERR_NONE, s')).
Proof. apply rejected_cert. Qed.

(** ** C20, C54 *)
(** Every set of credentials the application is asked about comes from this
    request's Authorization header, or, with enhanced certificate
    authentication, from the client's certificate: the subject field of the
    first manufacturer whose trust anchors verify it, or of the local PKI.  If
    the CSR check is on, the CSR of an enrollment agrees with the
    certificate. *)
Theorem C54 : forall t method uri body ct authz s e r a peer q ok,
  c_transport C = EST_HTTP ->
  request t method uri body ct authz s = (e, r) -> In (EvHttpAuth a peer q ok) e ->
  exists o, parse_uri uri = Ok (EST_ERR_NONE, Some o, q) /\ posts o = true
    /\ peer = t_peer t /\ ~ cert_rejected t
    /\ (from_header O C t authz s a \/ from_cert O C t (if enrolls o then Some body else None) a).
Proof. apply credentials. Qed.
(** The part of it about certificates. *)
Theorem C20_certificate : forall t method uri body ct authz s e r a c q ok,
  c_transport C = EST_HTTP -> c_eca C = true -> t_peer t = Some c ->
  request t method uri body ct authz s = (e, r) -> In (EvHttpAuth a (Some c) q ok) e ->
  exists nid f v, identifying_nid C c nid /\ o_cert_field O c nid = Some f /\ field_text f v
    /\ ah_user a = Some v /\ ah_pwd a = Some (firstn 256 (c_eca_pwd C))
    /\ forall o p, parse_uri uri = Ok (EST_ERR_NONE, Some o, p) -> enrolls o = true -> c_eca_csr_check C = true ->
       exists r, o_parse_csr O body = Some r /\ csr_matches O C c r.
Proof.
  intros * HT HE HP H I. destruct (C54 _ _ _ _ _ _ _ _ _ _ _ _ _ HT H I) as (o & Pu & Po & _ & _ & [(_ & Q & _)|(c0 & Ec & _ & (nid & f & v & pw & N & F & V & _ & U & P & ->) & K)]).
  - specialize (Q HE). congruence.
  - assert (c0 = c) by congruence. subst c0. exists nid, f, v. repeat (split; [assumption|]).
    intros o1 p1 Pu1 En Ck. rewrite Pu in Pu1. injection Pu1 as <- <-. apply K; [now rewrite En|exact Ck].
Qed.

(** ** C47 *)
(** The start notification comes first; the end notification, for the same
    request, comes last and exactly once if the request succeeded, and not at
    all otherwise. *)
Theorem C47_partial : forall t method uri body ct authz s e r, c_ev_endpoint C = true ->
  request t method uri body ct authz s = (e, r) ->
  exists mid tail, e = EvReqStart uri :: mid ++ tail /\ Forall (fun x => ~ is_start x /\ ~ is_end x) mid
    /\ ((tail = [EvReqEnd uri] /\ exists s', r = Ok (EST_ERR_NONE, s'))
        \/ (tail = [] /\ forall s', r <> Ok (EST_ERR_NONE, s'))).
Proof. apply notifications. Qed.

(** ** C48 *)
(** The user id the CA callback gets is the name in the credentials the
    application approved in this request; or, if it approved no user name in
    this request, what an earlier request left. *)
Theorem C48_request_partial : forall t method uri body ct authz s e r pre k b uid peer path rv crt kt post,
  c_transport C = EST_HTTP ->
  request t method uri body ct authz s = (e, r) -> e = pre ++ EvCA k b uid peer path rv crt kt :: post ->
  (exists a, In (EvHttpAuth a peer path true) pre /\ from_header O C t authz s a /\ ah_mode a <> AUTH_TOKEN /\ uid = ah_user a /\ uid <> None)
  \/ ((forall a p q, In (EvHttpAuth a p q true) pre -> from_header O C t authz s a -> ah_mode a = AUTH_TOKEN)
      /\ exists u, cstr (s_uid s) = Ok u /\ uid = Some u).
Proof. apply ca_identity. Qed.
(** On a whole connection: the user id is empty, or a name the application
    approved before, in this request or an earlier one of the connection. *)
Theorem C48_connection_partial : forall t ka (e0 : E) (net : net) evs r l1 rq e l2 pre k b uid peer path rv crt kt post,
  c_transport C = EST_HTTP -> run t ka e0 net = Ok (evs, (r, l1 ++ (rq, e) :: l2)) ->
  e = pre ++ EvCA k b uid peer path rv crt kt :: post ->
  uid = Some [] \/ exists a p q x, In (EvHttpAuth a p q true) x /\ (x = pre \/ In x (map snd l1)) /\ ah_user a = uid /\ uid <> None.
Proof.
  intros * HT R Ee. destruct (connection_conversation O C A parse_uri attrs_parse attrs_add_pop attrs_check keep uninit t ka e0 net)
    as (evs1 & l & r1 & R1 & Cv). rewrite R in R1. injection R1 as <- <- <-.
  destruct (conversation_identity _ _ _ _ _ _ _ _ _ _ _ _ _ HT Cv _ _ _ _ _ _ _ _ _ _ _ _ _ _ eq_refl Ee) as [(u & Cu & ->)|Q]; [left|right; exact Q].
  vm_compute in Cu. now injection Cu as <-.
Qed.

(** ** C52 *)
(** Unless it has undefined behaviour, a request that is not a BRSKI one gets
    exactly one complete response, and its status is that of the result. *)
Theorem C52 : forall t method uri body ct authz s e rc s', 0 <= c_retry C -> c_transport C = EST_HTTP -> sane C A ->
  attrs_sane attrs_parse attrs_add_pop ->
  (forall o p, parse_uri uri = Ok (EST_ERR_NONE, Some o, p) -> posts o && negb (enrolls o) = false) ->
  all_sent e -> request t method uri body ct authz s = (e, Ok (rc, s')) ->
  exists code d, reply e code d
    /\ (rc <> EST_ERR_NONE -> code = http_status rc)
    /\ (rc = EST_ERR_NONE -> In code [200; 204; 401] \/ (code = 500 /\ exists p, parse_uri uri = Ok (EST_ERR_NONE, None, p))).
Proof. intros * Hr HT. apply one_response; auto. unfold is_http. now rewrite HT. Qed.

(** ** C53 *)
(** An enrollment is answered with status 200 exactly if the CA returned a
    certificate, and then with that certificate. *)
Theorem C53 : forall t method uri body ct authz s e rc s' o p, 0 <= c_retry C -> c_transport C = EST_HTTP -> sane C A ->
  parse_uri uri = Ok (EST_ERR_NONE, Some o, p) -> enrolls o = true ->
  all_sent e -> request t method uri body ct authz s = (e, Ok (rc, s')) ->
  (exists crt kt, issued e (kind_of o) crt kt /\ cert_reply e (kind_of o) crt kt /\ rc = EST_ERR_NONE
     /\ forall k1 crt1 kt1, issued e k1 crt1 kt1 -> k1 = kind_of o /\ crt1 = crt /\ kt1 = kt)
  \/ ((forall k1 crt1 kt1, ~ issued e k1 crt1 kt1) /\ exists code d, code <> 200 /\ reply e code d).
Proof. intros * Hr HT. eapply (enrollment_response O C A parse_uri attrs_parse attrs_add_pop attrs_check keep); auto. unfold is_http. now rewrite HT. Qed.

(** ** C55 *)
(** The CA is asked at most once per request. *)
Theorem C55 : forall t method uri body ct authz s e r pre x post,
  request t method uri body ct authz s = (e, r) -> e = pre ++ x :: post -> is_ca x ->
  Forall (fun y => ~ is_ca y) pre /\ Forall (fun y => ~ is_ca y) post.
Proof. apply one_ca_call. Qed.

(** ** C56 *)
(** Undefined behaviour has one of the listed causes. *)
Theorem C56_partial : forall t method uri body ct authz s e, uid_ok (s_uid s) -> c_transport C = EST_HTTP ->
  request t method uri body ct authz s = (e, UB) -> hazard O C A parse_uri attrs_parse attrs_add_pop attrs_check t uri body authz s e.
Proof. intros * U HT. apply request_hazard; auto. unfold is_http. now rewrite HT. Qed.

(** ** C57 *)
(** The events are true: each is a call of a registered callback with these
    arguments and this result, each in the application state the one before
    left. *)
Theorem events_truthful : forall t method uri body ct authz s e r,
  request t method uri body ct authz s = (e, r) ->
  exists w1, history O A t [] e (s_env s) w1 /\ forall x s', r = Ok (x, s') -> s_env s' = w1.
Proof. intros * H. exact (request_truthful O C A t keep attrs_parse attrs_add_pop attrs_check parse_uri _ _ _ _ _ _ _ _ H). Qed.
(** An acceptable enrollment of an accepted client is served. *)
Theorem C57 : forall t method uri body c authz s o path,
  c_transport C = EST_HTTP -> uid_ok (s_uid s) ->
  parse_uri uri = Ok (EST_ERR_NONE, Some o, path) -> enrolls o = true -> method = str "POST" ->
  starts_with (str "application/pkcs10") c ->
  accepted O C A t authz s path -> good_enrollment O C A attrs_check t (kind_of o) body -> signing A (kind_of o) ->
  (forall w d, snd (a_write A w d) = true) ->
  exists e s' crt kt, request t method uri body (Some c) authz s = (e, Ok (EST_ERR_NONE, s')) /\ issued e (kind_of o) crt kt /\ all_sent e.
Proof. apply enrollment_served. Qed.
End S.
Print Assumptions connection_requests.
Print Assumptions C11_partial.
Print Assumptions C12_errors.
Print Assumptions C13.
Print Assumptions C13_connection.
Print Assumptions C14_partial.
Print Assumptions C14_simple.
Print Assumptions C15_partial.
Print Assumptions C16_signed.
Print Assumptions C17.
Print Assumptions C54.
Print Assumptions C20_certificate.
Print Assumptions C47_partial.
Print Assumptions C48_request_partial.
Print Assumptions C48_connection_partial.
Print Assumptions C52.
Print Assumptions C53.
Print Assumptions C55.
Print Assumptions C56_partial.
Print Assumptions events_truthful.
Print Assumptions C57.

(** * The claims at work, and where they fail *)
Definition basic := toy_config AUTH_BASIC true false false (str "CAS").
Definition no_cert := toy_tls false 0.
Definition good_cert := toy_tls true 0.
Definition bad_cert := toy_tls true 10.
Definition enroll_alice := toy_request NoAttr basic never no_cert (str "POST") simpleenroll (str "CSR") pkcs10 alice.

(** An enrollment with good credentials: approved, passed to the CA under the
    name "alice", answered with the certificate. *)
Example enroll_works : exists pre x post s', enroll_alice = (pre ++ x :: post, Ok (EST_ERR_NONE, s'))
  /\ x = EvCA SIMPLE_ENROLL_REQ (str "CSR") (Some (str "alice")) None None 0 (str "CERT") [] /\ privileged x /\ is_ca x
  /\ (exists a, In (EvHttpAuth a None None true) pre) /\ all_sent (pre ++ x :: post).
Proof.
  set (r := enroll_alice). vm_compute in r. subst r.
  do 4 eexists. split; [|split; [reflexivity|split; [|split; [|split]]]].
  - match goal with |- (?l, _) = _ => match l with context [EvCA ?a ?b ?c ?d ?f ?g ?h ?i :: ?t] =>
      let rec pre_of l := match l with EvCA _ _ _ _ _ _ _ _ :: _ => constr:(@nil (@event unit unit)) | ?x :: ?t => let u := pre_of t in constr:(x :: u) end in
      let u := pre_of l in change l with (u ++ EvCA a b c d f g h i :: t) end end; reflexivity.
  - left. repeat eexists.
  - repeat eexists.
  - eexists. cbn. repeat first [left; reflexivity|right].
  - intros d ok I. cbn in I. repeat (destruct I as [I|I]; [congruence|]). destruct I.
Qed.

(** C11: the method check is a prefix check.  "GETX" gets the CA certificates
    and "POSTX" enrolls, in requests that the HTTP layer does let through. *)
Theorem C11_refuted : is_valid_http_method (str "GETX") = true /\ is_valid_http_method (str "POSTX") = true
  /\ (exists e s', toy_request NoAttr basic never no_cert (str "GETX") (str "/.well-known/est/cacerts") [] None None = (e, Ok (EST_ERR_NONE, s')))
  /\ (exists e s', toy_request NoAttr basic never no_cert (str "POSTX") simpleenroll (str "CSR") pkcs10 alice = (e, Ok (EST_ERR_NONE, s'))
        /\ ca_called e = true).
Proof.
  split; [reflexivity|]. split; [reflexivity|]. split.
  - eexists _, _. vm_compute. reflexivity.
  - eexists _, _. split; [vm_compute; reflexivity|vm_compute; reflexivity].
Qed.
Example C11_case : exists e, toy_request NoAttr basic never good_cert (str "GET") simpleenroll (str "CSR") pkcs10 alice = (e, Ok (EST_ERR_WRONG_METHOD, {| s_env := tt; s_uid := repeat 0 256; s_code := 400 |}))
  /\ ca_called e = false.
Proof. eexists. split; vm_compute; reflexivity. Qed.

(** C12: e.g. a retry. *)
Example C12_case : exists w s', est_send_http_error (toy_app never) (fun _ => true) 3600 EST_ERR_CA_ENROLL_RETRY toy_st = (w, Ok (tt, s'))
  /\ all_sent w /\ exists rest, sent w = str "HTTP/1.1 202 Accepted" ++ CRLF ++ rest.
Proof.
  eexists _, _. split; [vm_compute; reflexivity|]. split.
  - intros d ok I. cbn in I. repeat (destruct I as [I|I]; [congruence|]). destruct I.
  - eexists. vm_compute. reflexivity.
Qed.

(** C14 fails: HTTP authentication is required and the application would have
    to approve, but a re-enrollment with a verified certificate and an
    Authorization header that cannot be read reaches the CA without it being
    asked. *)
Theorem C14_refuted : exists e s', c_http_required basic = true /\ a_http_auth (toy_app never) <> None
  /\ toy_request NoAttr basic never good_cert (str "POST") simplereenroll (str "CSR") pkcs10 (Some (str "Basic !!")) = (e, Ok (EST_ERR_NONE, s'))
  /\ ca_called e = true /\ auth_called e = false.
Proof. eexists _, _. split; [reflexivity|]. split; [discriminate|]. split; [vm_compute; reflexivity|]. split; vm_compute; reflexivity. Qed.

(** C15 fails: with proof of possession required, a challenge password that
    only begins with the session's identifier is accepted. *)
Definition pop := toy_config AUTH_BASIC false false true (str "CAS").
Theorem C15_refuted : exists e s',
  toy_request (AttrStr (str "UID1-and-more")) pop never good_cert (str "POST") simpleenroll (str "CSR") pkcs10 None = (e, Ok (EST_ERR_NONE, s'))
  /\ t_uid good_cert = Some (str "UID1") /\ ca_called e = true.
Proof. eexists _, _. split; [vm_compute; reflexivity|]. split; vm_compute; reflexivity. Qed.
(** Another one, or none, is not. *)
Example C15_case : forall ch, In ch [AttrStr (str "UID2"); NoAttr] -> exists e s',
  toy_request ch pop never good_cert (str "POST") simpleenroll (str "CSR") pkcs10 None = (e, Ok (EST_ERR_AUTH_FAIL_TLSUID, s')) /\ ca_called e = false.
Proof. intros ch [<-|[<-|[]]]; eexists _, _; (split; [vm_compute; reflexivity|vm_compute; reflexivity]). Qed.

(** C17: the client of [enroll_works] with a certificate that does not verify. *)
Example C17_case : cert_rejected bad_cert /\ exists e s',
  toy_request NoAttr basic never bad_cert (str "POST") simpleenroll (str "CSR") pkcs10 alice = (e, Ok (EST_ERR_AUTH_FAIL, s'))
  /\ ca_called e = false /\ auth_called e = false.
Proof.
  split; [exists tt; cbn; intuition congruence|]. eexists _, _. split; [vm_compute; reflexivity|]. split; vm_compute; reflexivity.
Qed.

(** C20: with enhanced certificate authentication the user is the
    manufacturer's subject field, the password the configured one; the header is
    not used. *)
Definition eca := toy_config AUTH_BASIC true true false (str "CAS").
Example C20_case : exists e s' a,
  toy_request NoAttr eca never good_cert (str "POST") simpleenroll (str "CSR") pkcs10 (Some (str "Basic Ym9iOnB3")) = (e, Ok (EST_ERR_NONE, s'))
  /\ In (EvHttpAuth a (Some tt) None true) e /\ ah_user a = Some (str "SN1") /\ ah_pwd a = Some (str "ECA").
Proof.
  eexists _, _, _. split; [vm_compute; reflexivity|]. split; [cbn; repeat first [left; reflexivity|right]|]. split; reflexivity.
Qed.

(** C47 fails: a request that is refused is announced and never concluded. *)
Theorem C47_refuted : exists e s',
  toy_request NoAttr basic never no_cert (str "GET") simpleenroll (str "CSR") pkcs10 alice = (e, Ok (EST_ERR_WRONG_METHOD, s'))
  /\ In (EvReqStart simpleenroll) e /\ forall u, ~ In (EvReqEnd u) e.
Proof.
  eexists _, _. split; [vm_compute; reflexivity|]. split; [cbn; repeat first [left; reflexivity|right]|].
  intros u I. cbn in I. repeat (destruct I as [I|I]; [discriminate|]). destruct I.
Qed.

(** C48 fails: alice's name is given to the CA with the next request of the same
    connection, which carries no credentials of theirs (and which was not
    approved by the application at all). *)
Definition lines (l : list string) : bytes := concat (map (fun x => str x ++ CRLF) l).
Definition two_requests : bytes :=
  lines ["POST /.well-known/est/simpleenroll HTTP/1.1"%string; "Content-Type: application/pkcs10"%string;
         "Authorization: Basic YWxpY2U6cHc="%string; "Content-Length: 3"%string; ""%string] ++ str "CSR"
  ++ lines ["POST /.well-known/est/simplereenroll HTTP/1.1"%string; "Content-Type: application/pkcs10"%string;
         "Authorization: Basic !!"%string; "Content-Length: 3"%string; ""%string] ++ str "CSR".
Theorem C48_refuted : exists evs s1 rq1 e1 rq2 e2,
  run_connection (toy_ossl NoAttr) basic (toy_app never) (uri_plain true) (fun _ => Ok (EST_ERR_NONE, false)) (fun b => Ok (EST_ERR_NONE, b))
    (fun _ _ => Ok EST_ERR_NONE) (fun _ => true) (fun _ => 0) good_cert true tt [two_requests] = Ok (evs, (Ok s1, [(rq1, e1); (rq2, e2)]))
  /\ In (EvCA REENROLL_REQ (str "CSR") (Some (str "alice")) (Some tt) None 0 (str "CERT") []) e2
  /\ auth_called e2 = false.
Proof.
  unfold run_connection. rewrite process_new_connection_spec.
  eexists _, _, _, _, _, _. split; [|split].
  - apply f_equal. vm_compute. reflexivity.
  - cbn. repeat first [left; reflexivity|right].
  - reflexivity.
Qed.
(** The same connection meets the hypotheses of the connection claims: both its
    requests make privileged callbacks. *)

(** C52 does not extend to the BRSKI status operations: on success the server
    sends a status line and one header field and never ends the header. *)
Theorem C52_brski_refuted : exists e s',
  toy_request NoAttr basic never good_cert (str "POST") (str "/.well-known/est/voucher_status") (str "{}") (Some (str "application/json")) alice = (e, Ok (EST_ERR_NONE, s'))
  /\ all_sent e /\ sent e = str "HTTP/1.1 200 OK" ++ CRLF ++ str "Status: 200 OK" ++ CRLF.
Proof.
  eexists _, _. split; [vm_compute; reflexivity|]. split; [|vm_compute; reflexivity].
  intros d ok I. cbn in I. repeat (destruct I as [I|I]; [congruence|]). destruct I.
Qed.
(** Nor to a network layer that fails to write zero bytes (as SSL_write does):
    without CA certificates the header of a 200 response is followed by a 500
    response. *)
Theorem C52_empty_refuted : exists e s' rest,
  toy_request NoAttr (toy_config AUTH_BASIC true false false []) (fun d => len d =? 0) good_cert (str "GET") (str "/.well-known/est/cacerts") [] None None
    = (e, Ok (EST_ERR_HTTP_WRITE, s'))
  /\ sent e = str "HTTP/1.1 200 OK" ++ CRLF ++ str "Status: 200 OK" ++ CRLF ++ str "Content-Type: application/pkcs7-mime" ++ CRLF
       ++ str "Content-Transfer-Encoding: base64" ++ CRLF ++ str "Content-Length: 0" ++ CRLF ++ CRLF ++ str "HTTP/1.1 500 " ++ rest.
Proof. eexists _, _, _. split; vm_compute; reflexivity. Qed.
(** C52, C53: the response to the enrollment of [enroll_works]; the hypotheses
    hold. *)
Example C53_case : exists e s', enroll_alice = (e, Ok (EST_ERR_NONE, s')) /\ sane basic (toy_app never)
  /\ attrs_sane (fun _ => Ok (EST_ERR_NONE, false)) (fun b => Ok (EST_ERR_NONE, str "x"))
  /\ sent e = str "HTTP/1.1 200 OK" ++ CRLF ++ str "Status: 200 OK" ++ CRLF
       ++ str "Content-Type: application/pkcs7-mime; smime-type=certs-only" ++ CRLF
       ++ str "Content-Transfer-Encoding: base64" ++ CRLF ++ str "Content-Length: 4" ++ CRLF ++ CRLF ++ str "CERT".
Proof.
  eexists _, _. split; [vm_compute; reflexivity|]. split; [|split; [|vm_compute; reflexivity]].
  - split; [exact I|]. split; [|intros v]; cbn; unfold one_line; repeat constructor; discriminate.
  - repeat split; intros; congruence || (injection H as <- <-; discriminate).
Qed.

(** C56: the hazards about challenge passwords are real; the CSR is the only
    thing that differs from an acceptable request. *)
Theorem C56_refuted : forall ch, In ch [AttrEmpty; AttrNotString; AttrStr (str "U")] ->
  exists e, toy_request ch pop never good_cert (str "POST") simpleenroll (str "CSR") pkcs10 None = (e, UB).
Proof. intros ch [<-|[<-|[<-|[]]]]; eexists; vm_compute; reflexivity. Qed.
(** A server with an enrollment event callback overruns its address buffer on
    every enrollment. *)
Theorem event_buffer_refuted : forall n, 0 <= n -> ip_buffer n = UB.
Proof.
  assert (G : forall k m i, 0 <= i -> len m < i + Z.of_nat k -> i <= len m -> zero_n m i k = UB).
  { induction k as [|k IH]; intros m i H0 H1 H2; [lia|]. cbn [zero_n]. destruct (Z.ltb_spec i (len m)) as [Hl|Hl].
    - rewrite wr_ok by lia. cbn [bind]. apply IH; rewrite ?len_set_nth; lia.
    - rewrite wr_len. replace (_ && _) with false by lia. reflexivity. }
  intros n Hn. unfold ip_buffer, zero_range. apply G; rewrite ?len_repeat; lia.
Qed.

(** C57: the request of [enroll_works] is one that deserves to be served. *)
Example C57_case : accepted (toy_ossl NoAttr) basic (toy_app never) no_cert alice toy_st None
  /\ good_enrollment (toy_ossl NoAttr) basic (toy_app never) (fun _ _ => Ok EST_ERR_NONE) no_cert SIMPLE_ENROLL_REQ (str "CSR")
  /\ signing (toy_app never) SIMPLE_ENROLL_REQ.
Proof.
  split; [|split].
  - split; [intros (c & Q & _); discriminate|]. right. do 3 eexists. split; [reflexivity|].
    split; [|split; [left; reflexivity|split; [discriminate|vm_compute; reflexivity]]]. intros []. vm_compute. reflexivity.
  - exists tt. split; [reflexivity|]. split; [split; reflexivity|]. split; [right; left; split; reflexivity|left; reflexivity].
  - eexists. split; [reflexivity|]. intros. exists w, (str "CERT"). split; [reflexivity|discriminate].
Qed.
