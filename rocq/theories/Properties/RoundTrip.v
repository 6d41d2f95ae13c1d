(** C88: enrollment over a connection between a client and a server of this
    library.  Read with Spec/Requests.v, Spec/Server.v ([accepted],
    [good_enrollment], [signing], [sent]) and Spec/Client.v ([arrives]).

    The client writes [q] ([est_client_send_enroll_request]); it reaches the
    server in reads [w] of any size; [run] is the server's handling of the whole
    connection, with the requests it served and the events of each (calls of the
    application, octets written); what it wrote reaches the client in pieces of
    any size, and [est_io_get_response] is what the client makes of it. *)
From Coq Require Import String ZArith List Bool Lia.
From Verif Require Import Base Spec.Http Spec.Uri Spec.UriPath Spec.Base64 Spec.Auth Spec.Server Spec.Client Spec.Multipart Spec.Challenge Spec.Requests Model.CLib Model.Codec Model.EstErr Model.HttpServer Model.Uri
  Model.AuthHdr Model.Server Model.ClientHttp Model.Multipart Model.Client Model.Status Model.VoucherReq Spec.Registrar Proofs.Codec Proofs.AuthHdr Proofs.ServerProps Proofs.Answers Properties.Server Properties.Answers Properties.Requests Properties.BrskiRequests Properties.Registrar.
Import ListNotations.
Open Scope Z_scope.

Section S.
Context {cert csr key E : Type}.
Variable O : @ossl cert csr key.
Variable C : @Model.Server.config cert.
Variable A : @app cert key E.
Variable parse_uri : bytes -> res (est_error * option operation * option bytes).
Variable attrs_parse : bytes -> res (est_error * bool).
Variable attrs_add_pop : bytes -> res (est_error * bytes).
Variable attrs_check : option (option bytes) -> bytes -> res est_error.
Variable keep : Z -> bool.
Variable uninit : nat -> Z.
Notation request := (est_http_request O C A parse_uri attrs_parse attrs_add_pop attrs_check keep).
Notation run := (run_connection O C A parse_uri attrs_parse attrs_add_pop attrs_check keep uninit).
Notation new_connection e0 := (@Model.Server.Build_st E e0 (repeat 0 256) (-1)).

(** The client's octets for an operation, with the Authorization value [v]. *)
Definition posts (X : ext) (op : operation) (body : bytes) (c : client) (v : option bytes) (q : bytes) : Prop :=
  exists t s evs r, s_c s = c /\ addresses c /\ presents X c t (op_name op) v
    /\ est_client_send_enroll_request X op body t s = (evs, r) /\ In (ERequest q) evs.

(** The server serves one request, and it is the one the client means. *)
Lemma asks_run : forall meth uri hs body q tl ka e0 w, asks meth uri hs body q -> concat w = q ->
  let x := request tl meth uri body (get_header hs (str "Content-Type")) (get_header hs (str "Authorization")) (new_connection e0) in
  exists rq code, run tl ka e0 w = Ok ([EvServed rq code], (match snd x with Ok (_, s') => Ok s' | UB => UB end, [(rq, fst x)])).
Proof.
  intros meth uri hs body q tl ka e0 w As W x.
  destruct (As (@served cert key E) (Model.Server.handler O C A parse_uri attrs_parse attrs_add_pop attrs_check keep uninit tl) ka (Ok (new_connection e0), []) w W)
    as (rq & M & U & H & B & R).
  exists rq. unfold run_connection. rewrite R. eexists. f_equal. f_equal.
  unfold Model.Server.handler at 1. unfold serve. rewrite M, U, H.
  replace (body_of uninit (er_body rq)) with body.
  2: { destruct B as [-> | [-> ->]]; [|reflexivity]. unfold body_of. replace (Z.to_nat (len body) - length body)%nat with 0%nat by (unfold len; lia). cbn. now rewrite app_nil_r. }
  cbn [Model.Server.s_env Model.Server.s_uid]. fold x. destruct x as [e [[rc s']|]]; reflexivity.
Qed.
Theorem C88_request : forall X op body c v q tl ka e0 w, In op [OP_SIMPLE_ENROLL; OP_SIMPLE_REENROLL; OP_SERVER_KEYGEN] ->
  posts X op body c v q -> concat w = q ->
  let x := request tl (str "POST") (request_uri (c_path c) (op_name op)) body (Some (str "application/pkcs10")) v (new_connection e0) in
  exists rq code, run tl ka e0 w = Ok ([EvServed rq code], (match snd x with Ok (_, s') => Ok s' | UB => UB end, [(rq, fst x)])).
Proof.
  intros X op body c v q tl ka e0 w P (t & s & evs & r & <- & Ad & Pr & E0 & I) W x.
  pose proof (asks_run _ _ _ _ _ tl ka e0 w (C85_post X op body t s evs r q v P Ad Pr E0 I) W) as R. cbn zeta in R.
  destruct (C85_header (s_c s) body v) as (H1 & _ & H3). rewrite H1, H3 in R. exact R.
Qed.

(** The CA was asked for a certificate for the client's request, and gave [crt]. *)
Definition certified (e : list (@Model.Server.event cert key)) (op : operation) (body crt : bytes) : Prop :=
  crt <> [] /\ exists uid peer path kt, In (EvCA (kind_of op) body uid peer path 0 crt kt) e.

Lemma issued_certified : forall tl method uri body ct v s e r k crt kt op, request tl method uri body ct v s = (e, r) ->
  k = kind_of op -> op = OP_SIMPLE_ENROLL \/ op = OP_SIMPLE_REENROLL -> issued e k crt kt -> certified e op body crt.
Proof.
  intros tl method uri body ct v s e r k crt kt op H -> Ho (Nc & b & uid & peer & path & I). split; [exact Nc|].
  apply in_split in I as (pre & post & Ee). destruct (C16_signed O C A parse_uri attrs_parse attrs_add_pop attrs_check keep _ _ _ _ _ _ _ _ _ _ _ _ _ _ _ _ _ _ _ H Ee) as (rq & Q & _).
  assert (b = body) by (destruct Ho as [-> | ->]; cbn in Q; tauto). subst b. exists uid, peer, path, kt. rewrite Ee. apply in_or_app. right. now left.
Qed.

(** An acceptable request of a client the server accepts: the CA is asked for a
    certificate for exactly the client's CSR, and the client gets exactly the
    certificate the CA gave.  Partial: certificates that start with a line end
    or have more than 1999000 octets are not covered (see C30). *)
Theorem C88_partial : forall X op body c v q tl ka e0 w path,
  op = OP_SIMPLE_ENROLL \/ op = OP_SIMPLE_REENROLL -> posts X op body c v q -> concat w = q ->
  c_transport C = EST_HTTP ->
  parse_uri (request_uri (c_path c) (op_name op)) = Ok (EST_ERR_NONE, Some op, path) ->
  accepted O C A tl v (new_connection e0) path -> good_enrollment O C A attrs_check tl (kind_of op) body -> signing A (kind_of op) ->
  (forall x d, snd (a_write A x d) = true) ->
  exists rq code s' e crt, run tl ka e0 w = Ok ([EvServed rq code], (Ok s', [(rq, e)])) /\ certified e op body crt
  /\ (no_leading_newline crt -> len crt <= 1999000 -> forall evs k, arrives evs (sent e) ->
        est_io_get_response evs op k = Ok (EST_ERR_NONE, Deliver (Some crt) (len crt), set_status 200 k)).
Proof.
  intros X op body c v q tl ka e0 w path Ho P W HT Pu Ac Ge Sg Wr.
  assert (I3 : In op [OP_SIMPLE_ENROLL; OP_SIMPLE_REENROLL; OP_SERVER_KEYGEN]) by (cbn; intuition).
  destruct (C88_request X op body c v q tl ka e0 w I3 P W) as (rq & code & R).
  destruct (C57 O C A parse_uri attrs_parse attrs_add_pop attrs_check keep tl (str "POST") (request_uri (c_path c) (op_name op)) body (str "application/pkcs10") v (new_connection e0) op path)
    as (e & s' & crt & kt & H & Is & AS); auto.
  - exists []. reflexivity.
  - destruct Ho as [-> | ->]; reflexivity.
  - exists []. now rewrite app_nil_r.
  - rewrite H in R. cbn [fst snd] in R. exists rq, code, s', e, crt. split; [exact R|]. split; [eapply issued_certified; eauto|].
    intros Nl Lc evs k Ar.
    pose proof (enrollment_sent O C A parse_uri attrs_parse attrs_add_pop attrs_check keep _ _ _ _ _ _ _ _ _ _ _ _ _ _ _
      ltac:(unfold is_http; now rewrite HT) Pu ltac:(destruct Ho as [-> | ->]; reflexivity) H AS Is) as Sx. rewrite Sx in Ar.
    destruct Is as (Nc & _). replace (Some crt) with (match crt with [] => None | _ => Some crt end) by (destruct crt; [contradiction|reflexivity]).
    apply ok_read; [destruct Ho as [-> | ->]; cbn; auto| |exact Nl|exact Lc]. destruct Ho as [-> | ->]; exact Ar.
Qed.

(** In particular a client whose user name and password the application
    approves, at a server that asks for them. *)
Theorem C88_login_partial : forall X op body c user pwd f q tl ka e0 w path,
  op = OP_SIMPLE_ENROLL \/ op = OP_SIMPLE_REENROLL -> posts X op body c (Some (basic_value user pwd)) q -> concat w = q ->
  c_transport C = EST_HTTP -> parse_uri (request_uri (c_path c) (op_name op)) = Ok (EST_ERR_NONE, Some op, path) ->
  b64_bio (o_bio O) -> c_str_max 255 user -> c_str_max 255 pwd -> user <> [] -> ~ In 58 user ->
  c_auth_mode C = AUTH_BASIC -> c_http_required C = true -> c_eca C = false -> ~ cert_rejected tl ->
  a_http_auth A = Some f -> (forall x a, ah_user a = Some user -> ah_pwd a = Some pwd -> snd (f x a (Model.Server.t_peer tl) path) = true) ->
  good_enrollment O C A attrs_check tl (kind_of op) body -> signing A (kind_of op) -> (forall x d, snd (a_write A x d) = true) ->
  exists rq code s' e crt, run tl ka e0 w = Ok ([EvServed rq code], (Ok s', [(rq, e)])) /\ certified e op body crt
  /\ (no_leading_newline crt -> len crt <= 1999000 -> forall evs k, arrives evs (sent e) ->
        est_io_get_response evs op k = Ok (EST_ERR_NONE, Deliver (Some crt) (len crt), set_status 200 k)).
Proof.
  intros X op body c user pwd f q tl ka e0 w path Ho P W HT Pu Hb Lu Lp Nu N58 M Rq Ec Nr Fa Ap Ge Sg Wr.
  refine (C88_partial X op body c _ q tl ka e0 w path Ho P W HT Pu _ Ge Sg Wr). split; [exact Nr|]. right.
  rewrite M. eexists f, _, _. split; [exact Fa|]. split; [|split; [now left|split; [intro Q; congruence|apply basic_header; assumption]]].
  intro x. apply Ap; reflexivity.
Qed.

(** With server-generated keys the client gets the certificate and the private
    key; sizes as in C84. *)
Theorem C88_keygen_partial : forall X junk body c v q tl ka e0 w path,
  posts X OP_SERVER_KEYGEN body c v q -> concat w = q -> c_transport C = EST_HTTP ->
  parse_uri (request_uri (c_path c) (str "serverkeygen")) = Ok (EST_ERR_NONE, Some OP_SERVER_KEYGEN, path) ->
  accepted O C A tl v (new_connection e0) path -> good_enrollment O C A attrs_check tl SERVERKEYGEN_REQ body -> signing A SERVERKEYGEN_REQ ->
  (forall x d, snd (a_write A x d) = true) ->
  exists rq code s' e crt kt, run tl ka e0 w = Ok ([EvServed rq code], (Ok s', [(rq, e)])) /\ issued e SERVERKEYGEN_REQ crt kt
  /\ (part_text kt -> 256 <= len kt <= 8192 -> part_text crt -> 128 <= len crt <= 8192 -> forall evs k, arrives evs (sent e) ->
        est_io_get_keygen_response junk evs k = Ok (EST_ERR_NONE, Some (kt, crt), set_status 200 k)).
Proof.
  intros X junk body c v q tl ka e0 w path P W HT Pu Ac Ge Sg Wr.
  destruct (C88_request X OP_SERVER_KEYGEN body c v q tl ka e0 w ltac:(cbn; auto) P W) as (rq & code & R).
  destruct (C57 O C A parse_uri attrs_parse attrs_add_pop attrs_check keep tl (str "POST") (request_uri (c_path c) (op_name OP_SERVER_KEYGEN)) body (str "application/pkcs10") v (new_connection e0) OP_SERVER_KEYGEN path)
    as (e & s' & crt & kt & H & Is & AS); auto.
  - exists []. reflexivity.
  - exists []. now rewrite app_nil_r.
  - rewrite H in R. cbn [fst snd] in R. exists rq, code, s', e, crt, kt. split; [exact R|]. split; [exact Is|].
    intros Tk Lk Tc Lc evs k Ar.
    exact (C84_keygen_partial O C A parse_uri attrs_parse attrs_add_pop attrs_check keep junk _ _ _ _ _ _ _ _ _ _ _ _ _ _ _ _ HT Pu H AS Is Ar Tk Lk Tc Lc).
Qed.

(** Whatever the server and its application decide: the client gets the
    certificate the CA gave for its CSR, or learns the challenge, or the
    configured delay, or the error the server means. *)
Theorem C88_exchange_partial : forall X op body c v q tl ka e0 w path evs k hev s' l,
  op = OP_SIMPLE_ENROLL \/ op = OP_SIMPLE_REENROLL -> posts X op body c v q -> concat w = q ->
  0 <= c_retry C <= 2147483647 -> c_transport C = EST_HTTP -> challenges C ->
  parse_uri (request_uri (c_path c) (op_name op)) = Ok (EST_ERR_NONE, Some op, path) ->
  run tl ka e0 w = Ok (hev, (Ok s', l)) ->
  exists rq e rc, l = [(rq, e)] /\ (all_sent e -> arrives evs (sent e) -> len (sent e) <= 1999955 ->
  (exists crt, certified e op body crt
     /\ (no_leading_newline crt -> len crt <= 1999000 ->
         est_io_get_response evs op k = Ok (EST_ERR_NONE, Deliver (Some crt) (len crt), set_status 200 k)))
  \/ ((forall crt, ~ certified e op body crt) /\ exists x,
      (quotable (c_realm C) -> len (c_realm C) <= 255 -> quotable (a_time A x) -> len (a_time A x) <= 64 -> k_mode k = AUTH_NONE \/ k_mode k = AUTH_FAIL ->
       exists k', est_io_get_response evs op k = Ok (EST_ERR_AUTH_FAIL, Untouched, k') /\ k_mode k' = c_auth_mode C /\ k_realm k' = c_realm C
         /\ k_nonce k' = match c_auth_mode C with AUTH_DIGEST => a_time A x | _ => k_nonce k end))
  \/ ((forall crt, ~ certified e op body crt)
      /\ est_io_get_response evs op k = Ok (EST_ERR_CA_ENROLL_RETRY, Untouched, set_delay (c_retry C) (set_status 202 k)))
  \/ ((forall crt, ~ certified e op body crt) /\ rc <> EST_ERR_NONE
      /\ exists k', est_io_get_response evs op k = Ok (status_error (http_status rc), Untouched, k') /\ k_status k' = http_status rc)).
Proof.
  intros X op body c v q tl ka e0 w path evs k hev s' l Ho P W Hr HT Ch Pu R0.
  destruct (C88_request X op body c v q tl ka e0 w ltac:(cbn; intuition) P W) as (rq & code & R). rewrite R in R0.
  destruct (request tl (str "POST") (request_uri (c_path c) (op_name op)) body (Some (str "application/pkcs10")) v (new_connection e0)) as [e [[rc s1]|]] eqn:H;
    cbn [fst snd] in R0; [|discriminate].
  assert (El : [(rq, e)] = l) by congruence. subst l. exists rq, e, rc. split; [reflexivity|]. intros AS Ar L.
  assert (NI : (forall k0 crt kt, ~ issued e k0 crt kt) -> forall crt, ~ certified e op body crt).
  { intros N crt (Nc & uid & peer & p & kt & I). apply (N (kind_of op) crt kt). split; [exact Nc|]. exists body, uid, peer, p. exact I. }
  destruct (C84_partial O C A parse_uri attrs_parse attrs_add_pop attrs_check keep _ _ _ _ _ _ _ _ _ _ _ _ evs k Hr HT Ch Pu Ho H AS Ar L)
    as [(_ & crt & kt & Is & Q)|[(_ & N & Q)|[(_ & N & Q)|(Ne & _ & N & Q)]]].
  - left. exists crt. split; [eapply issued_certified; eauto|exact Q].
  - right. left. split; [exact (NI N)|exact Q].
  - right. right. left. split; [exact (NI N)|exact Q].
  - right. right. right. split; [exact (NI N)|]. split; [exact Ne|exact Q].
Qed.
(** ** C89 *)
(** The CA certificates: the client gets exactly what the server supplies, or
    the error the server means. *)
Theorem C89_cacerts_partial : forall X t s evs0 r0 q tl ka e0 w path evs k hev s' l,
  addresses (s_c s) -> est_client_send_cacerts_request X t s = (evs0, r0) -> In (ERequest q) evs0 -> concat w = q ->
  0 <= c_retry C <= 2147483647 -> parse_uri (request_uri (c_path (s_c s)) (str "cacerts")) = Ok (EST_ERR_NONE, Some OP_CACERTS, path) ->
  run tl ka e0 w = Ok (hev, (Ok s', l)) ->
  exists rq e, l = [(rq, e)] /\ (all_sent e -> arrives evs (sent e) -> len (sent e) <= 1999955 ->
  (exists d, ((a_cacerts A = None /\ c_cacerts C = Some d) \/ In (EvCacerts path (Some d)) e)
     /\ (no_leading_newline d -> len d <= 1999000 ->
         est_io_get_response evs OP_CACERTS k = Ok (EST_ERR_NONE, Deliver (match d with [] => None | _ => Some d end) (len d), set_status 200 k)))
  \/ (exists rc k', rc <> EST_ERR_NONE /\ est_io_get_response evs OP_CACERTS k = Ok (status_error (http_status rc), Untouched, k') /\ k_status k' = http_status rc)).
Proof.
  intros X t s evs0 r0 q tl ka e0 w path evs k hev s' l Ad S0 I W Hr Pu R0.
  destruct (asks_run _ _ _ _ _ tl ka e0 w (C85_cacerts X t s evs0 r0 q Ad S0 I) W) as (rq & code & R). rewrite R in R0.
  match type of R0 with context [request ?a ?b ?c ?d ?e ?f ?g] => destruct (request a b c d e f g) as [e1 [[rc s1]|]] eqn:H end; cbn [fst snd] in R0; [|discriminate].
  assert (El : [(rq, e1)] = l) by congruence. subst l. exists rq, e1. split; [reflexivity|]. intros AS Ar L.
  destruct (C84_cacerts O C A parse_uri attrs_parse attrs_add_pop attrs_check keep _ _ _ _ _ _ _ _ _ _ _ evs k Hr Pu H AS Ar) as [(_ & Q)|(Ne & Q)]; [now left|right].
  destruct (Q L) as (k' & G). exists rc, k'. tauto.
Qed.

(** A voucher request of a pledge the registrar accepts: the application is
    called, once, with exactly the request of the pledge and its certificate;
    and the pledge gets exactly the voucher the application returned, or the
    configured delay, or an error. *)
Theorem C89_voucher_partial : forall X sign req t s evs0 r0 q v tl ka e0 w path evs k hev s' l,
  addresses (s_c s) -> presents X (s_c s) t (str "requestvoucher") v ->
  est_client_brski_send_voucher_request X sign req t s = (evs0, r0) -> In (ERequest q) evs0 -> concat w = q ->
  sane C A -> 0 <= c_retry C -> 0 <= c_brski_retry C <= 2147483647 -> a_voucher A <> None ->
  parse_uri (request_uri (c_path (s_c s)) (str "requestvoucher")) = Ok (EST_ERR_NONE, Some OP_BRSKI_REQ_VOUCHER, path) ->
  accepted O C A tl v (new_connection e0) path -> run tl ka e0 w = Ok (hev, (Ok s', l)) ->
  exists rq e, l = [(rq, e)] /\ (all_sent e -> arrives evs (sent e) -> len (sent e) <= 1999955 ->
   exists rv vch, called_once e OP_BRSKI_REQ_VOUCHER req (Model.Server.t_peer tl) rv vch
     /\ ((rv = 1 /\ vch <> [] /\ (no_leading_newline vch -> len vch <= 1999000 ->
            est_io_get_response evs OP_BRSKI_REQ_VOUCHER k = Ok (EST_ERR_NONE, Deliver (Some vch) (len vch), set_status 200 k)))
         \/ (rv = 2 /\ est_io_get_response evs OP_BRSKI_REQ_VOUCHER k = Ok (EST_ERR_CA_ENROLL_RETRY, Untouched, set_delay (c_brski_retry C) (set_status 202 k)))
         \/ (rv <> 2 /\ (rv <> 1 \/ vch = []) /\ exists k', est_io_get_response evs OP_BRSKI_REQ_VOUCHER k = Ok (EST_ERR_HTTP_BAD_REQ, Untouched, k') /\ k_status k' = 400))).
Proof.
  intros X sign req t s evs0 r0 q v tl ka e0 w path evs k hev s' l Ad Pr S0 I W Sn Hr Hb Cb Pu Ac R0.
  destruct (asks_run _ _ _ _ _ tl ka e0 w (C87_voucher X sign req t s evs0 r0 q v Ad Pr S0 I) W) as (rq & code & R). rewrite R in R0.
  set (ct := if sign then str "application/pkcs7-mime; smime-type=voucher-request" else str "application/json") in *.
  destruct (C87_header (s_c s) ct req v) as (H1 & H2). rewrite H1, H2 in R0.
  destruct (C83_served O C A parse_uri attrs_parse attrs_add_pop attrs_check keep tl (request_uri (c_path (s_c s)) (str "requestvoucher")) req ct v (new_connection e0) OP_BRSKI_REQ_VOUCHER path Pu)
    as (e & rc & s1 & rv0 & v0 & H & Iv); [left; split; [reflexivity|split; [exact Cb|unfold voucher_type, ct; destruct sign; auto]]|exact Ac|].
  rewrite H in R0. cbn [fst snd] in R0. assert (El : [(rq, e)] = l) by congruence. subst l. exists rq, e. split; [reflexivity|]. intros AS Ar L.
  destruct (C84_voucher_partial O C A parse_uri attrs_parse attrs_add_pop attrs_check keep _ _ _ _ _ _ _ _ _ _ _ evs k Sn Hr Hb Pu H AS Ar L) as [Q|(N & _)]; [exact Q|].
  unfold not_called in N. rewrite Forall_forall in N. destruct (N _ Iv). unfold brski_call. eauto 10.
Qed.

(** A status message: success exactly when the application accepted it. *)
Theorem C89_status : forall X op status t s evs0 r0 q v tl ka e0 w path evs k hev s' l,
  (op = OP_BRSKI_VOUCHER_STATUS /\ a_voucher_status A <> None) \/ (op = OP_BRSKI_ENROLL_STATUS /\ a_enroll_status A <> None) ->
  addresses (s_c s) -> presents X (s_c s) t (str "requestvoucher") v ->
  send_status X op status t s = (evs0, r0) -> In (ERequest q) evs0 -> concat w = q -> sane C A -> 0 <= c_retry C ->
  parse_uri (request_uri (c_path (s_c s)) (op_name op)) = Ok (EST_ERR_NONE, Some op, path) ->
  accepted O C A tl v (new_connection e0) path -> run tl ka e0 w = Ok (hev, (Ok s', l)) ->
  exists rq e, l = [(rq, e)] /\ (all_sent e -> arrives evs (sent e) -> len (sent e) <= 1999955 ->
   exists rv, called_once e op status (Model.Server.t_peer tl) rv []
     /\ ((rv = 1 /\ est_io_get_response evs op k = Ok (EST_ERR_NONE, Untouched, set_status 200 k))
         \/ (rv <> 1 /\ exists k', est_io_get_response evs op k = Ok (EST_ERR_HTTP_BAD_REQ, Untouched, k') /\ k_status k' = 400))).
Proof.
  intros X op status t s evs0 r0 q v tl ka e0 w path evs k hev s' l Ho Ad Pr S0 I W Sn Hr Pu Ac R0.
  assert (Ho' : op = OP_BRSKI_VOUCHER_STATUS \/ op = OP_BRSKI_ENROLL_STATUS) by tauto.
  destruct (asks_run _ _ _ _ _ tl ka e0 w (C87_status X op status t s evs0 r0 q v Ho' Ad Pr S0 I) W) as (rq & code & R). rewrite R in R0.
  destruct (C87_header (s_c s) (str "application/json") status v) as (H1 & H2). rewrite H1, H2 in R0.
  destruct (C83_served O C A parse_uri attrs_parse attrs_add_pop attrs_check keep tl (request_uri (c_path (s_c s)) (op_name op)) status (str "application/json") v (new_connection e0) op path Pu)
    as (e & rc & s1 & rv0 & v0 & H & Iv); [right; tauto|exact Ac|].
  rewrite H in R0. cbn [fst snd] in R0. assert (El : [(rq, e)] = l) by congruence. subst l. exists rq, e. split; [reflexivity|]. intros AS Ar L.
  destruct (C84_status O C A parse_uri attrs_parse attrs_add_pop attrs_check keep _ _ _ _ _ _ _ _ _ _ _ op evs k Sn Hr Ho' Pu H AS Ar L) as [Q|(N & _)]; [exact Q|].
  unfold not_called in N. rewrite Forall_forall in N. destruct (N _ Iv). unfold brski_call. eauto 10.
Qed.
End S.
Print Assumptions C88_request.
Print Assumptions C88_partial.
Print Assumptions C88_login_partial.
Print Assumptions C88_keygen_partial.
Print Assumptions C88_exchange_partial.
Print Assumptions C89_cacerts_partial.
Print Assumptions C89_voucher_partial.
Print Assumptions C89_status.

(** Alice, with her password, enrolls at the server of [enroll_works]. *)
Definition alice_client : client :=
  put_server (str "a.example") 443 (put_user (str "alice") (put_pwd (str "pw") (let c := est_client_init [] in put_http (set_mode AUTH_BASIC (c_http c)) c))).
Example C88_case : exists q, posts X1 OP_SIMPLE_ENROLL (str "CSR") alice_client alice q
  /\ forall ka w, concat w = q -> exists rq code s' e crt,
     run_connection (toy_ossl NoAttr) basic (toy_app never) (uri_plain true) (fun _ => Ok (EST_ERR_NONE, false)) (fun b => Ok (EST_ERR_NONE, b))
       (fun _ _ => Ok EST_ERR_NONE) (fun _ => true) (fun _ => 0) no_cert ka tt w = Ok ([EvServed rq code], (Ok s', [(rq, e)]))
     /\ certified e OP_SIMPLE_ENROLL (str "CSR") crt
     /\ (no_leading_newline crt -> len crt <= 1999000 -> forall evs k, arrives evs (sent e) ->
          est_io_get_response evs OP_SIMPLE_ENROLL k = Ok (EST_ERR_NONE, Deliver (Some crt) (len crt), set_status 200 k)).
Proof.
  assert (U : uses (str "alice") (str "pw") no_cred (str "alice") (str "pw")) by (left; repeat split; intros [E _]; discriminate E).
  assert (K : c_str_max 255 (str "alice") /\ c_str_max 255 (str "pw")).
  { split; (split; [split; [repeat constructor; unfold is_byte; cbn; lia|intro H; cbn in H; intuition discriminate]|vm_compute; discriminate]). }
  assert (P : exists q, posts X1 OP_SIMPLE_ENROLL (str "CSR") alice_client alice q).
  { eexists. exists line, {| s_c := alice_client; s_env := [] |}. eexists _, _. split; [reflexivity|]. split; [|split; [|split; [vm_compute; reflexivity|left; reflexivity]]].
    - split; [split; [cbn; repeat (constructor; [lia|]); constructor|split; [vm_compute; discriminate|cbn; lia]]|exact I].
    - replace alice with (Some (basic_value (str "alice") (str "pw"))) by (vm_compute; reflexivity). exact (auth_basic _ _ _ _ _ _ _ _ _ _ U (proj1 K) (proj2 K)). }
  destruct P as (q & P). exists q. split; [exact P|]. intros ka w W. destruct C57_case as (Ac & Ge & Sg).
  refine (C88_partial (toy_ossl NoAttr) basic (toy_app never) (uri_plain true) _ _ _ _ _ X1 OP_SIMPLE_ENROLL (str "CSR") alice_client alice q no_cert ka tt w None
    (or_introl eq_refl) P W eq_refl eq_refl Ac Ge Sg _). intros x d. reflexivity.
Qed.

(** Her device asks for a voucher, reports on it, and asks for the CA certificates. *)
Notation toy_run ka w := (run_connection (toy_ossl NoAttr) basic (toy_app never) (uri_plain true) (fun _ => Ok (EST_ERR_NONE, false)) (fun b => Ok (EST_ERR_NONE, b))
  (fun _ _ => Ok EST_ERR_NONE) (fun _ => true) (fun _ => 0) no_cert ka tt w).
Definition alice_device : st := {| s_c := alice_client; s_env := [] |}.
Lemma alice_ready : addresses alice_client /\ forall name, presents X1 alice_client line name alice.
Proof.
  split; [split; [split; [cbn; repeat (constructor; [lia|]); constructor|split; [vm_compute; discriminate|cbn; lia]]|exact I]|].
  intro name. replace alice with (Some (basic_value (str "alice") (str "pw"))) by (vm_compute; reflexivity).
  refine (auth_basic _ _ _ _ _ _ _ _ _ _ _ _ _); [left; repeat split; intros [E _]; discriminate E| |];
    (split; [split; [repeat constructor; unfold is_byte; cbn; lia|intro H; cbn in H; intuition discriminate]|vm_compute; discriminate]).
Qed.
Example C89_case :
  (exists evs r q, est_client_brski_send_voucher_request X1 false (str "{}") line alice_device = (evs, r) /\ In (ERequest q) evs
     /\ forall ka w, concat w = q -> exists hev s' l, toy_run ka w = Ok (hev, (Ok s', l)))
  /\ (exists evs r q, send_status X1 OP_BRSKI_VOUCHER_STATUS (str "{}") line alice_device = (evs, r) /\ In (ERequest q) evs
     /\ forall ka w, concat w = q -> exists hev s' l, toy_run ka w = Ok (hev, (Ok s', l)))
  /\ (exists evs r q, est_client_send_cacerts_request X1 line alice_device = (evs, r) /\ In (ERequest q) evs
     /\ forall ka w, concat w = q -> exists hev s' l, toy_run ka w = Ok (hev, (Ok s', l)))
  /\ sane basic (toy_app never) /\ accepted (toy_ossl NoAttr) basic (toy_app never) no_cert alice toy_st None.
Proof.
  destruct alice_ready as (Ad & Pr). split; [|split; [|split; [|split]]].
  - eexists _, _, _. split; [vm_compute; reflexivity|]. split; [left; reflexivity|]. intros ka w W.
    destruct (asks_run (toy_ossl NoAttr) basic (toy_app never) (uri_plain true) (fun _ => Ok (EST_ERR_NONE, false)) (fun b => Ok (EST_ERR_NONE, b)) (fun _ _ => Ok EST_ERR_NONE) (fun _ => true) (fun _ => 0)
      _ _ _ _ _ no_cert ka tt w (C87_voucher X1 false (str "{}") line alice_device _ _ _ alice Ad (Pr _) eq_refl (or_introl eq_refl)) W) as (rq & code & R).
    rewrite R. vm_compute. eauto.
  - eexists _, _, _. split; [vm_compute; reflexivity|]. split; [left; reflexivity|]. intros ka w W.
    destruct (asks_run (toy_ossl NoAttr) basic (toy_app never) (uri_plain true) (fun _ => Ok (EST_ERR_NONE, false)) (fun b => Ok (EST_ERR_NONE, b)) (fun _ _ => Ok EST_ERR_NONE) (fun _ => true) (fun _ => 0)
      _ _ _ _ _ no_cert ka tt w (C87_status X1 OP_BRSKI_VOUCHER_STATUS (str "{}") line alice_device _ _ _ alice (or_introl eq_refl) Ad (Pr _) eq_refl (or_introl eq_refl)) W) as (rq & code & R).
    rewrite R. vm_compute. eauto.
  - eexists _, _, _. split; [vm_compute; reflexivity|]. split; [left; reflexivity|]. intros ka w W.
    destruct (asks_run (toy_ossl NoAttr) basic (toy_app never) (uri_plain true) (fun _ => Ok (EST_ERR_NONE, false)) (fun b => Ok (EST_ERR_NONE, b)) (fun _ _ => Ok EST_ERR_NONE) (fun _ => true) (fun _ => 0)
      _ _ _ _ _ no_cert ka tt w (C85_cacerts X1 line alice_device _ _ _ Ad eq_refl (or_introl eq_refl)) W) as (rq & code & R).
    rewrite R. vm_compute. eauto.
  - destruct C83_case as (? & ? & _ & Sn & _). exact Sn.
  - apply C57_case.
Qed.
