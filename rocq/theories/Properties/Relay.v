(** C46 and C67: what the proxy asks the upstream server and what it passes
    back.  Read with Spec/Relay.v, Spec/Server.v, Spec/Client.v and
    Spec/ClientCalls.v.

    [request t method uri body ct authz s] handles one request of the proxy's
    client; [s] contains the proxy's client context and what will happen on each
    connection it makes ([Client.s_env (p_up s)]).  It yields the events on both
    sides ([downs e]: callbacks and writes to the client, [ups e]: connections,
    requests and responses upstream) and its result with the new state.
    [Ok]: no undefined behaviour. *)
From Coq Require Import String ZArith List Bool Lia ZifyBool ZifyNat.
From Verif Require Import Base Spec.Http Spec.Multipart Spec.Server Spec.Relay Model.CLib Model.EstErr Model.Codec Model.Uri Model.AuthHdr Model.HttpServer Model.CsrAttrs Model.ClientHttp Model.Server Model.Relay
  Proofs.EstErr Proofs.ServerReply Proofs.RelayRequest Proofs.RelayReply Proofs.RelayFetch Proofs.RelayOutcome Proofs.RelayResult.
From Verif Require Spec.Client Spec.ClientCalls Model.Client Model.Multipart Proofs.ClientHttp Proofs.ClientRender Proofs.ClientModes Proofs.ClientServer Proofs.MultipartResponse Proofs.RelayCourse Proofs.RelayAnswer Proofs.RelayClaims
  Properties.ClientHttp Properties.Multipart.
Import ListNotations.
Open Scope Z_scope.

Lemma answered_as : forall (rv : est_error) code, reported rv = code -> forall (cert key : Type) (e : list (@pevent cert key)) d, reports e rv d -> answers e code.
Proof. intros rv code <- cert key e d (hs & b & R & F & _). exists hs, b. auto. Qed.
Ltac ans K := refine (answered_as _ _ _ _ _ _ _ K); reflexivity.
Lemma pbind_cong : forall (cert key E T U : Type) (m m' : @P cert key E T) (f f' : T -> @P cert key E U) s, (forall s, m s = m' s) -> (forall x s, f x s = f' x s) -> pbind m f s = pbind m' f' s.
Proof. intros * Hm Hf. unfold pbind. rewrite Hm. destruct (m' s) as [e1 [[x s1]|]]; [|reflexivity]. now rewrite Hf. Qed.

Section S.
Context {cert csr key E : Type}.
Variable O : @ossl cert csr key.
Variable C : @config cert.
Variable A : @app cert key E.
Variable parse_uri : bytes -> res (est_error * option operation * option bytes).
Variable keep : Z -> bool.
Variable X : Client.ext.
Variable own_path : option bytes.
Variable have_ctx : bool.
Variable n : nat.
Local Notation request := (est_proxy_http_request O C A parse_uri keep X own_path have_ctx (S (S n))).
Local Notation connects := ClientCalls.connects.
Implicit Types (s : @pst E) (e : list (@pevent cert key)).

(** ** C46: contacts *)
(** At most two connections; one for the operations that fetch, and one if the
    proxy is not set up for one of the schemes it can ask for. *)
Theorem C46_contacts : forall t method uri body ct authz s e r, request t method uri body ct authz s = (e, r) ->
  (connects (ups e) <= 2)%nat
  /\ (~ challenges C -> (connects (ups e) <= 1)%nat)
  /\ ((forall o path, parse_uri uri = Ok (EST_ERR_NONE, Some o, path) -> enrolls o = false) -> (connects (ups e) <= 1)%nat).
Proof.
  intros t method uri body ct authz s e r H.
  assert (D : (exists o path, parse_uri uri = Ok (EST_ERR_NONE, Some o, path)) \/ forall o path, parse_uri uri <> Ok (EST_ERR_NONE, Some o, path)).
  { destruct (parse_uri uri) as [[[pe [o|]] path]|]; try (right; intros; discriminate). destruct (ServerEnroll.err_none_dec pe) as [->|[N _]]; [left; eauto|right; intros ? ? Q; injection Q; auto]. }
  destruct D as [(o & path & Hu)|N]; [|rewrite (no_operation O C A parse_uri keep X own_path have_ctx n _ _ _ _ _ _ _ _ _ H N); cbn; lia].
  destruct (enrolls o) eqn:Eo.
  - destruct (enroll_shape O C A parse_uri keep X own_path have_ctx n _ _ _ _ _ _ _ _ _ _ _ H Hu Eo) as [K|(K & Ch & _)]; [lia|]. split; [lia|]. split; [contradiction|]. intro F. rewrite (F _ _ Hu) in Eo. discriminate.
  - destruct (fetch_shape O C A parse_uri keep X own_path have_ctx n _ _ _ _ _ _ _ _ _ _ _ H Hu Eo) as [->|(sv & p & a & [->|[(q & ->)|(q & x & ->)]])]; cbn; lia.
Qed.
(** The second connection is made only after a 401 response that asks for a
    scheme. *)
Theorem C46_second : forall t method uri body ct authz s e r, request t method uri body ct authz s = (e, r) -> connects (ups e) = 2%nat ->
  challenges C /\ exists sv p a sc q reads last, ups e = Client.EConnect sv p a :: Client.ERequest q :: Client.EResponse reads :: last
    /\ connects last = 1%nat /\ ClientCalls.asks sc reads /\ In sc [str "Basic"; str "Digest"; str "Bearer"].
Proof.
  intros t method uri body ct authz s e r H N. pose proof (C46_contacts _ _ _ _ _ _ _ _ _ H) as (_ & _ & K).
  destruct (other_request O C A parse_uri keep X own_path have_ctx n _ _ _ _ _ _ _ _ _ H) as (o & path & Hu & [F|Eo]); [intro Z; rewrite Z in N; discriminate| |].
  - exfalso. assert (connects (ups e) <= 1)%nat; [|lia]. apply K. intros o' p' Hu'. rewrite Hu in Hu'. injection Hu' as <- <-. destruct o; discriminate || reflexivity.
  - destruct (enroll_shape O C A parse_uri keep X own_path have_ctx n _ _ _ _ _ _ _ _ _ _ _ H Hu Eo) as [Q|(_ & Ch & Q)]; [lia|]. exact (conj Ch Q).
Qed.
(** Two passes are enough: the bound of the model is never reached. *)
Theorem C46_fuel : forall t method uri body ct authz s, request t method uri body ct authz s = est_proxy_http_request O C A parse_uri keep X own_path have_ctx 2 t method uri body ct authz s.
Proof.
  intros.
  assert (G : forall t authz c b path k s, est_proxy_handle_enroll O C A X own_path have_ctx (S (S n)) t authz c b path k s = est_proxy_handle_enroll O C A X own_path have_ctx 2 t authz c b path k s).
  { clear. intros. unfold est_proxy_handle_enroll. apply pbind_cong; [reflexivity|]. intros x s1. destruct (negb _); [reflexivity|]. destruct (negb have_ctx); [reflexivity|]. apply pbind_cong; [reflexivity|]. intros y s2. destruct (negb _); [reflexivity|].
    apply pbind_cong; [|reflexivity]. intro s3. apply RelayCourse.try_fuel. }
  unfold est_proxy_http_request. apply pbind_cong; [reflexivity|]. intros _ s1. apply pbind_cong; [reflexivity|]. intros [[pe op] path] s2. destruct (negb _); [reflexivity|].
  destruct op as [[]|]; try reflexivity; (destruct (negb _); [reflexivity|]; destruct ct; [|reflexivity]; destruct body; [|reflexivity]; apply pbind_cong; [reflexivity|]; intros _ s3; apply pbind_cong; [apply G|reflexivity]).
Qed.

(** ** C46: certificates *)
(** A certificate is given to the client only if the last response of the
    upstream server delivered it, and then the call succeeds. *)
Theorem C46_certificate : forall t method uri body ct authz s e r o path, request t method uri body ct authz s = (e, r) ->
  parse_uri uri = Ok (EST_ERR_NONE, Some o, path) -> enrolls o = true -> is_http C = true -> all_sent (downs e) -> starts (str "HTTP/1.1 200") (sent (downs e)) ->
  exists reads x, ClientCalls.last_response (ups e) reads /\ 0 < len x <= 4096
    /\ (o <> OP_SERVER_KEYGEN -> ClientCalls.reply_body o reads x /\ gives_certificate e x)
    /\ (o = OP_SERVER_KEYGEN -> exists k, ClientCalls.keys_delivered X reads k x /\ 0 < len k <= 8192 /\ gives_keys e k x)
    /\ exists s', r = Ok (EST_ERR_NONE, s').
Proof.
  intros t method uri body ct authz s e r o path H Hu Eo Hh AS St.
  destruct (issued_upstream O C A parse_uri keep X own_path have_ctx n _ _ _ _ _ _ _ _ _ _ _ H Hu Eo Hh AS St) as (s' & reads & pk & x & Er & L & (Lx & Y) & G).
  exists reads, x. split; [exact L|]. split; [exact Lx|]. split; [|split; [|eauto]].
  - intro N. replace (Client.is_keygen o) with false in * by (destruct o; congruence || reflexivity). split; [apply Y|exact G].
  - intros ->. cbn [Client.is_keygen] in *. exists pk. split; [apply Y|]. split; [apply Y|]. exists (print_int (len pk + len x)). split; [apply print_int_decimal; pose proof (len_nonneg _ pk); lia|]. rewrite G. apply keygen_text.
Qed.
(** A well-formed response with a certificate of a sensible length is passed
    on; one without, or with one that is too long, is a bad gateway. *)
Theorem C46_delivers : forall t method uri body ct authz s e r o path reads d hs x v, request t method uri body ct authz s = (e, r) ->
  parse_uri uri = Ok (EST_ERR_NONE, Some o, path) -> o = OP_SIMPLE_ENROLL \/ o = OP_SIMPLE_REENROLL -> is_http C = true -> all_sent (downs e) ->
  ClientCalls.last_response (ups e) reads -> Spec.Client.arrives reads d -> response d 200 hs x -> Spec.Client.clean_head d x -> Spec.Client.plain_headers hs ->
  Spec.Client.no_leading_newline x -> len d <= 1999955 -> Spec.Client.typed o hs -> Spec.Client.last_header hs (str "Content-Length") v -> decimal v (len x) ->
  (0 < len x <= 4096 -> gives_certificate e x /\ exists s', r = Ok (EST_ERR_NONE, s'))
  /\ (len x = 0 \/ 4096 < len x -> answers e 502).
Proof.
  intros t method uri body ct authz s e r o path reads d hs x v H Hu Eo Hh AS L Ar R Cl P N Ld T Lh D.
  assert (Eo' : enrolls o = true) by (destruct Eo as [->| ->]; reflexivity). assert (Ek : Client.is_keygen o = false) by (destruct Eo as [->| ->]; reflexivity).
  destruct (enrolled O C A parse_uri keep X own_path have_ctx n _ _ _ _ _ _ _ _ _ _ _ _ H Hu Eo' Hh AS L) as (k & K).
  destruct (Properties.ClientHttp.C30_exact reads d hs x o k Ar R Cl P N Ld) as [G _]; [destruct Eo as [->| ->]; split; discriminate|]. specialize (G v T Lh D).
  unfold RelayCourse.answer in K. rewrite Ek, G in K. cbn [bind] in K.
  assert (Db : Client.delivered_bytes (ClientHttp.Deliver (match x with [] => None | _ => Some x end) (len x)) = x) by (destruct x; reflexivity). rewrite Db in K. unfold RelayCourse.judged in K.
  change (EstErr.err_eqb EST_ERR_NONE EST_ERR_NONE) with true in K. cbv iota in K. unfold Client.checked_cert, Client.EST_MAX_CLIENT_CERT_LEN in K.
  destruct (len x =? 0) eqn:L0; [|destruct (4096 <? len x) eqn:L1].
  - split; [lia|]. intros _. cbn in K. destruct K as [[K _]|(_ & _ & K)]; [discriminate|]. ans K.
  - split; [lia|]. intros _. cbn in K. destruct K as [[K _]|(_ & _ & K)]; [discriminate|]. ans K.
  - split; [|lia]. intros _. cbn [andb] in K. change (EstErr.err_eqb EST_ERR_NONE EST_ERR_NONE) with true in K. cbv iota in K. destruct K as [(_ & Q & K)|(K & _)]; [auto|contradiction].
Qed.
(** Key generation, in the format libest's server sends. *)
Theorem C46_delivers_keys : forall t method uri body ct authz s e r path reads d hs k x, request t method uri body ct authz s = (e, r) ->
  parse_uri uri = Ok (EST_ERR_NONE, Some OP_SERVER_KEYGEN, path) -> is_http C = true -> all_sent (downs e) -> ClientCalls.last_response (ups e) reads ->
  Spec.Client.arrives reads d -> response d 200 hs (keygen_body k x) -> Spec.Client.clean_head d (keygen_body k x) -> Spec.Client.plain_headers hs -> len d + 45 <= 2000000 ->
  In (str "Content-Type", str "multipart/mixed; boundary=est-server-boundary") hs ->
  Forall (fun h => occurs (str "multipart") (snd h) -> h = (str "Content-Type", str "multipart/mixed; boundary=est-server-boundary")) hs ->
  part_text k -> 256 <= len k <= 8192 -> part_text x -> 128 <= len x <= 4096 ->
  gives_keys e k x /\ exists s', r = Ok (EST_ERR_NONE, s').
Proof.
  intros t method uri body ct authz s e r path reads d hs k x H Hu Hh AS L Ar R Cl P Ld I F Tk Lk Tx Lx.
  destruct (enrolled O C A parse_uri keep X own_path have_ctx n _ _ _ _ _ _ _ _ _ _ _ _ H Hu eq_refl Hh AS L) as (k0 & K).
  pose proof (Properties.Multipart.C37_server_format (Client.x_junk X) reads d k0 hs k x Ar R Cl P Ld I F Tk Lk Tx ltac:(lia)) as G.
  unfold RelayCourse.answer in K. cbn [Client.is_keygen] in K. rewrite G in K. cbn [bind] in K. unfold RelayCourse.judged in K.
  change (EstErr.err_eqb EST_ERR_NONE EST_ERR_NONE) with true in K. cbv iota in K. unfold Client.checked_cert, Client.EST_MAX_CLIENT_CERT_LEN, Client.EST_MAX_CLIENT_PKEY_LEN in K.
  replace (len x =? 0) with false in K by lia. replace (4096 <? len x) with false in K by lia. replace (len k =? 0) with false in K by lia. replace (8192 <? len k) with false in K by lia. cbn [andb] in K.
  change (EstErr.err_eqb EST_ERR_NONE EST_ERR_NONE) with true in K. cbv iota in K. destruct K as [(_ & Q & K)|(K & _)]; [|contradiction]. split; [|exact Q].
  exists (print_int (len k + len x)). split; [apply print_int_decimal; lia|]. rewrite K. apply keygen_text.
Qed.

(** ** C46: failures *)
Section Failures.
Variables (t : @tls cert) (method uri : bytes) (body ct authz : option bytes) (s : @pst E) (e : list (@pevent cert key)) (rc : est_error) (s' : @pst E) (o : operation) (path : option bytes).
Hypothesis H : request t method uri body ct authz s = (e, Ok (rc, s')).
Hypothesis Hu : parse_uri uri = Ok (EST_ERR_NONE, Some o, path).
Hypothesis Hh : is_http C = true.
Hypothesis AS : all_sent (downs e).

(** The upstream server's status is passed on: 204, 400, 401, 404 and 423 as
    they are, 500, 502 and 504 as 502.  (A 204 for the CSR attributes is an
    answer if proof of possession is configured: see [C46_csrattrs].  For key
    generation 502 if the header of the response cannot be parsed.) *)
Theorem C46_status : forall reads raw code text, ClientCalls.last_response (ups e) reads -> Spec.Client.arrives reads raw ->
  In code [204; 400; 401; 404; 423; 500; 502; 504] -> raw = str "HTTP/1.1 " ++ print_int code ++ text -> len raw <= 1999955 ->
  ~ (o = OP_CSRATTRS /\ code = 204 /\ c_pop C = true) -> answers e (passed_on code) \/ (o = OP_SERVER_KEYGEN /\ answers e 502).
Proof.
  intros reads raw code text L Ar I Er Lr Nx.
  destruct (responded O C A parse_uri keep X own_path have_ctx n _ _ _ _ _ _ _ _ _ _ _ _ _ H Hu Hh AS L) as (k0 & rv & k & T & K).
  assert (Se : reported (Spec.Client.status_error code) = passed_on code /\ Spec.Client.status_error code <> EST_ERR_NONE /\ (Spec.Client.status_error code = EST_ERR_HTTP_NO_CONTENT -> code = 204)).
  { clear - I. cbn in I. intuition (subst; try reflexivity; try discriminate). }
  destruct Se as (S1 & S2 & S3).
  destruct (RelayClaims.told_status _ _ _ _ _ _ _ _ _ T Ar I Er Lr) as [->|[-> ->]].
  - left. destruct K as [K|[(Ko & K & Kp)|(_ & K)]]; [contradiction|exfalso; apply Nx; auto|]. exact (answered_as _ _ S1 _ _ _ _ K).
  - right. split; [reflexivity|]. destruct K as [K|[(Ko & _)|(_ & K)]]; [discriminate|discriminate|]. ans K.
Qed.
(** Another status, or no HTTP: a bad gateway. *)
Theorem C46_unknown : forall reads raw, ClientCalls.last_response (ups e) reads -> Spec.Client.arrives reads raw -> 0 < len raw <= 1999955 ->
  (forall code text, In code [200; 202; 204; 400; 401; 404; 423; 500; 502; 504] -> raw <> str "HTTP/1.1 " ++ print_int code ++ text) -> answers e 502.
Proof.
  intros reads raw L Ar Lr N. destruct (responded O C A parse_uri keep X own_path have_ctx n _ _ _ _ _ _ _ _ _ _ _ _ _ H Hu Hh AS L) as (k0 & rv & k & T & K).
  destruct (RelayClaims.told_unknown _ _ _ _ _ _ _ T Ar Lr N) as [->| ->]; (destruct K as [K|[(_ & K & _)|(_ & K)]]; [discriminate|discriminate|ans K]).
Qed.
(** A 202 with a valid Retry-After header is passed on with the same delay; the
    last valid one counts.  Without one it is an error of the proxy. *)
Theorem C46_retry : forall reads d hs b, o <> OP_SERVER_KEYGEN -> ClientCalls.last_response (ups e) reads -> Spec.Client.arrives reads d -> response d 202 hs b ->
  Spec.Client.clean_head d b -> Spec.Client.plain_headers hs -> Spec.Client.no_leading_newline b -> len d <= 1999955 ->
  (forall h1 h h2 z, hs = h1 ++ h :: h2 -> Spec.Client.retry_header h z -> Forall (fun h => forall z, ~ Spec.Client.retry_header h z) h2 ->
     exists hs' b' v, response (sent (downs e)) 202 hs' b' /\ first_header hs' (str "Retry-After") v /\ decimal v z)
  /\ (Forall (fun h => forall z, ~ Spec.Client.retry_header h z) hs -> answers e 500).
Proof.
  intros reads d hs b No L Ar R Cl P N Ld. destruct (responded O C A parse_uri keep X own_path have_ctx n _ _ _ _ _ _ _ _ _ _ _ _ _ H Hu Hh AS L) as (k0 & rv & k & T & K).
  assert (Ek : Client.is_keygen o = false) by (destruct o; congruence || reflexivity). split.
  - intros h1 h h2 z E1 Rh F. destruct (RelayClaims.told_retry_exact _ _ _ _ _ _ _ _ _ T Ek Ar R Cl P N Ld _ _ _ _ E1 Rh F) as [-> Dl].
    destruct K as [K|[(_ & K & _)|(_ & (hs' & b' & R' & _ & K))]]; [discriminate|discriminate|]. destruct (K eq_refl) as (v & V1 & V2). rewrite Dl in V2. exists hs', b', v. auto.
  - intro F. destruct (Properties.ClientHttp.C31_exact reads d hs b o k0 Ar R Cl P N Ld) as [_ Q]. destruct (RelayClaims.told_get _ _ _ _ _ _ _ _ _ Ek T (Q F)) as [-> _].
    destruct K as [K|[(_ & K & _)|(_ & K)]]; [discriminate|discriminate|ans K].
Qed.
(** Any 202: the delay passed on is the value of some Retry-After header of the
    response. *)
Theorem C46_retry_value : forall reads raw text, o <> OP_SERVER_KEYGEN -> ClientCalls.last_response (ups e) reads -> Spec.Client.arrives reads raw -> raw = str "HTTP/1.1 202" ++ text -> len raw <= 1999955 ->
  answers e 500 \/ exists hs' b' z v, response (sent (downs e)) 202 hs' b' /\ first_header hs' (str "Retry-After") v /\ decimal v z
     /\ exists name w rest, case_eq name (str "Retry-After") /\ decimal w z /\ Spec.Client.header_line raw name w rest.
Proof.
  intros reads raw text No L Ar Er Lr. destruct (responded O C A parse_uri keep X own_path have_ctx n _ _ _ _ _ _ _ _ _ _ _ _ _ H Hu Hh AS L) as (k0 & rv & k & T & K).
  assert (Ek : Client.is_keygen o = false) by (destruct o; congruence || reflexivity).
  destruct (RelayClaims.told_retry _ _ _ _ _ _ _ _ T Ek Ar Er Lr) as [(-> & _ & name & w & rest & N1 & N2 & N3)| ->].
  - right. destruct K as [K|[(_ & K & _)|(_ & (hs' & b' & R' & _ & K))]]; [discriminate|discriminate|]. destruct (K eq_refl) as (v & V1 & V2). exists hs', b', (k_delay k), v. split; [exact R'|]. split; [exact V1|]. split; [exact V2|]. exists name, w, rest. auto.
  - left. destruct K as [K|[(_ & K & _)|(_ & K)]]; [discriminate|discriminate|ans K].
Qed.
(** Key generation: also 502 if the header of the response cannot be parsed. *)
Theorem C46_retry_keys : forall reads raw text, o = OP_SERVER_KEYGEN -> ClientCalls.last_response (ups e) reads -> Spec.Client.arrives reads raw -> raw = str "HTTP/1.1 202" ++ text -> len raw <= 1999955 ->
  answers e 500 \/ answers e 502 \/ exists hs' b' z v, response (sent (downs e)) 202 hs' b' /\ first_header hs' (str "Retry-After") v /\ decimal v z.
Proof.
  intros reads raw text Eo L Ar Er Lr. destruct (responded O C A parse_uri keep X own_path have_ctx n _ _ _ _ _ _ _ _ _ _ _ _ _ H Hu Hh AS L) as (k0 & rv & k & T & K).
  destruct (RelayClaims.told_retry_keys _ _ _ _ _ _ _ _ T ltac:(rewrite Eo; reflexivity) Ar Er Lr) as [->|[->| ->]].
  - right. right. destruct K as [K|[(_ & K & _)|(_ & (hs' & b' & R' & _ & K))]]; [discriminate|discriminate|]. destruct (K eq_refl) as (v & V1 & V2). exists hs', b', (k_delay k), v. auto.
  - left. destruct K as [K|[(_ & K & _)|(_ & K)]]; [discriminate|discriminate|ans K].
  - right. left. destruct K as [K|[(_ & K & _)|(_ & K)]]; [discriminate|discriminate|ans K].
Qed.
(** The connection cannot be made: 504 without an address or connection, 502
    if TLS fails or the server is the wrong one.  (500 if no request can be
    made for a server that was reached.) *)
Theorem C46_unreached : forall before sv p a, ups e = before ++ [Client.EConnect sv p a] ->
  answers e (unconnected (skipn (connects before) (Client.s_env (p_up s)))) \/ ((exists u w, skipn (connects before) (Client.s_env (p_up s)) = Client.Tls u :: w) /\ answers e 500).
Proof. intros before sv p a L. exact (unreached O C A parse_uri keep X own_path have_ctx n _ _ _ _ _ _ _ _ _ _ _ _ _ _ _ _ H Hu Hh AS L). Qed.
(** The request cannot be sent: 502. *)
Theorem C46_unwritten : forall before q, ups e = before ++ [Client.ERequest q] -> answers e 502.
Proof. intros before q L. exact (unwritten O C A parse_uri keep X own_path have_ctx n _ _ _ _ _ _ _ _ _ _ _ _ _ _ H Hu Hh AS L). Qed.
(** The response breaks off: 504.  Nothing at all arrives: 404.  More than
    2000000 octets: 500. *)
Theorem C46_broken : forall segs rest, ClientCalls.last_response (ups e) (map Data segs ++ Failed :: rest) -> Forall (fun d => d <> []) segs -> len (concat segs) < 2000000 -> answers e 504.
Proof.
  intros segs rest L F Ls. destruct (responded O C A parse_uri keep X own_path have_ctx n _ _ _ _ _ _ _ _ _ _ _ _ _ H Hu Hh AS L) as (k0 & rv & k & T & K).
  destruct (RelayClaims.read_broken segs rest [] F) as (x & Q); [change (len (@nil Z)) with 0; unfold EST_CA_MAX; lia|].
  apply (RelayClaims.told_read_error _ _ _ _ _ _ _ _ T) in Q; [|discriminate]. subst rv. destruct K as [K|[(_ & K & _)|(_ & K)]]; [discriminate|discriminate|ans K].
Qed.
Theorem C46_no_answer : forall rest, ClientCalls.last_response (ups e) (Data [] :: rest) -> answers e 404.
Proof.
  intros rest L. destruct (responded O C A parse_uri keep X own_path have_ctx n _ _ _ _ _ _ _ _ _ _ _ _ _ H Hu Hh AS L) as (k0 & rv & k & T & K).
  apply RelayClaims.told_empty in T. subst rv. destruct K as [K|[(_ & K & _)|(_ & K)]]; [discriminate|discriminate|ans K].
Qed.
Theorem C46_too_big : forall segs rest, ClientCalls.last_response (ups e) (map Data segs ++ rest) -> Forall (fun d => d <> []) segs -> 2000000 < len (concat segs) -> answers e 500.
Proof.
  intros segs rest L F Ls. destruct (responded O C A parse_uri keep X own_path have_ctx n _ _ _ _ _ _ _ _ _ _ _ _ _ H Hu Hh AS L) as (k0 & rv & k & T & K).
  destruct (ClientServer.read_raw_big segs [] rest F) as (x & Q); [reflexivity|unfold EST_CA_MAX; change (len (@nil Z)) with 0; lia|].
  apply (RelayClaims.told_read_error _ _ _ _ _ _ _ _ T) in Q; [|discriminate]. subst rv. destruct K as [K|[(_ & K & _)|(_ & K)]]; [discriminate|discriminate|ans K].
Qed.
End Failures.

(** ** C46: fetches *)
(** CA certificates from upstream are passed on only if they verify, without
    revocation lists; certificates the proxy was given are sent without asking
    anyone. *)
Theorem C46_cacerts : forall t method uri body ct authz s e s' path, request t method uri body ct authz s = (e, Ok (EST_ERR_NONE, s')) ->
  parse_uri uri = Ok (EST_ERR_NONE, Some OP_CACERTS, path) -> is_http C = true -> all_sent (downs e) -> ups e <> [] ->
  c_cacerts C = None /\ exists sv p a q x b text, ups e = [Client.EConnect sv p a; Client.ERequest q; Client.EResponse x]
    /\ ClientCalls.reply_body OP_CACERTS x b /\ ClientCalls.verified X b text /\ reply (downs e) 200 text.
Proof. exact (cacerts_given O C A parse_uri keep X own_path have_ctx n). Qed.
(** CSR attributes: those of the upstream server or none; if proof of possession
    is configured, also with challengePassword added (see C28), or
    challengePassword alone. *)
Theorem C46_csrattrs : forall t method uri body ct authz s e s' path, request t method uri body ct authz s = (e, Ok (EST_ERR_NONE, s')) ->
  parse_uri uri = Ok (EST_ERR_NONE, Some OP_CSRATTRS, path) -> 0 <= c_retry C -> all_sent (downs e) -> ups e <> [] ->
  (exists x, reply (downs e) 200 x /\ ((c_pop C = true /\ x = str "MAsGCSqGSIb3DQEJBw==")
      \/ exists sv p a q y b, ups e = [Client.EConnect sv p a; Client.ERequest q; Client.EResponse y] /\ ClientCalls.reply_body OP_CSRATTRS y b
           /\ (x = b \/ (c_pop C = true /\ est_add_challengePassword (Client.x_G X) (Client.x_bio X) b = Ok (EST_ERR_NONE, x)))))
  \/ reply (downs e) 204 [].
Proof.
  intros t method uri body ct authz s e s' path H Hu Hr AS Nu. destruct (csrattrs_given O C A parse_uri keep X own_path have_ctx n _ _ _ _ _ _ _ _ _ _ H Hu Hr AS Nu) as (d & o & Fd & Of & [(x & -> & Nx & R)|[_ R]]); [left|now right].
  exists x. split; [exact R|]. inversion Of as [P|P|P Nl|b d2 P Ed Ea|P].
  - right. destruct Fd as [Z|(sv & p & a & q & y & b & Eu & Z & _ & Rb)]; [congruence|]. exists sv, p, a, q, y, b. split; [exact Eu|]. split; [exact Rb|]. left. congruence.
  - right. destruct Fd as [Z|(sv & p & a & q & y & b & Eu & Z & _ & Rb)]; [congruence|]. exists sv, p, a, q, y, b. split; [exact Eu|]. split; [exact Rb|]. left. congruence.
  - left. auto.
  - right. destruct Fd as [Z|(sv & p & a & q & y & b' & Eu & Z & _ & Rb)]; [congruence|]. exists sv, p, a, q, y, b'. split; [exact Eu|]. split; [exact Rb|]. right. split; [exact P|]. congruence.
Qed.

(** ** C67 *)
(** A request is sent upstream for an enrollment only if the client was
    authenticated, the method and the content type are the right ones, and the
    body is a valid CSR, bound to the client's TLS session if that is required
    or if the CSR has a challenge password.  Then that body, unchanged, is
    posted to the same operation of the configured server, under the path
    segment of the request or else of the proxy. *)
Theorem C67_partial : forall t method uri body ct authz s e r o path q, request t method uri body ct authz s = (e, r) ->
  parse_uri uri = Ok (EST_ERR_NONE, Some o, path) -> enrolls o = true -> is_http C = true -> In (Client.ERequest q) (ups e) ->
  method = str "POST" /\ ct = Some (str "application/pkcs10") /\ ~ cert_rejected t
  /\ (cert_verified t \/ srp_session t \/ exists a, In (EvHttpAuth a (t_peer t) path true) (downs e))
  /\ exists b, body = Some b
    /\ (exists rq, o_parse_csr O b = Some rq /\ good_csr O rq /\ (c_pop C = true \/ o_challenge O rq <> NoAttr -> bound_to_session O t rq))
    /\ forall p, segment path own_path = Some p -> len p <= 128 -> no_nul p -> ~ In 10 p ->
       len (Client.c_server (Client.s_c (p_up s))) <= 255 -> ~ In 10 (Client.c_server (Client.s_c (p_up s))) -> 0 <= Client.c_port (Client.s_c (p_up s)) <= 65535 ->
       forwards o (Some p) b q /\ len b <= 4096.
Proof.
  intros t method uri body ct authz s e r o path q H Hu Eo Hh I.
  destruct (forwarded O C A parse_uri keep X own_path have_ctx n _ _ _ _ _ _ _ _ _ _ _ _ H Hu Eo I Hh) as (b & c0 & Em & Ec & Eb & Au & Nr & Cs & Ch & F).
  split; [exact Em|]. split; [exact Ec|]. split; [exact Nr|]. split; [exact Au|]. exists b. split; [exact Eb|]. split; [exact Cs|].
  intros p Sg Lp Np Nl Ls Ns Pp. unfold chosen in Ch. rewrite Sg in Ch. destruct Ch as (p' & -> & Q). rewrite (Q Np) in F. rewrite firstn_all2 in F by (unfold len in Lp; lia). apply F.
  repeat split; auto; apply Pp.
Qed.
(** Without a segment in the request or the proxy, the one of the client
    context is used, which may be that of an earlier request: see
    [C67_segment_refuted]. *)
Theorem C67_no_segment : forall t method uri body ct authz s e r o path q, request t method uri body ct authz s = (e, r) ->
  parse_uri uri = Ok (EST_ERR_NONE, Some o, path) -> enrolls o = true -> is_http C = true -> In (Client.ERequest q) (ups e) ->
  segment path own_path = None -> ClientModes.fit (Client.s_c (p_up s)) -> exists b, body = Some b /\ forwards o (Client.c_path (Client.s_c (p_up s))) b q /\ len b <= 4096.
Proof.
  intros t method uri body ct authz s e r o path q H Hu Eo Hh I Sg Ft.
  destruct (forwarded O C A parse_uri keep X own_path have_ctx n _ _ _ _ _ _ _ _ _ _ _ _ H Hu Eo I Hh) as (b & c0 & _ & _ & Eb & _ & _ & _ & Ch & F).
  unfold chosen in Ch. rewrite Sg in Ch. subst c0. exists b. split; [exact Eb|]. now apply F.
Qed.
End S.

Print Assumptions C46_contacts.
Print Assumptions C46_second.
Print Assumptions C46_fuel.
Print Assumptions C46_certificate.
Print Assumptions C46_delivers.
Print Assumptions C46_delivers_keys.
Print Assumptions C46_status.
Print Assumptions C46_unknown.
Print Assumptions C46_retry.
Print Assumptions C46_retry_value.
Print Assumptions C46_retry_keys.
Print Assumptions C46_unreached.
Print Assumptions C46_unwritten.
Print Assumptions C46_broken.
Print Assumptions C46_no_answer.
Print Assumptions C46_too_big.
Print Assumptions C46_cacerts.
Print Assumptions C46_csrattrs.
Print Assumptions C67_partial.
Print Assumptions C67_no_segment.
