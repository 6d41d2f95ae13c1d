(** C83: BRSKI requests to a registrar.  Read with Spec/Server.v ([response],
    [framed], [reply], [accepted], [all_sent]) and Spec/Registrar.v
    ([called_once], [voucher_answer]).  [request] is as in Properties/Server.v:
    OpenSSL, the application and the configuration are arbitrary. *)
From Coq Require Import String ZArith List Bool Lia ZifyBool ZifyNat.
From Verif Require Import Base Spec.Http Spec.Base64 Spec.Server Spec.Registrar Model.EstErr Model.HttpServer Model.Uri Model.AuthHdr Model.Server
  Proofs.Codec Proofs.ServerBrski Properties.Server.
Import ListNotations.
Open Scope Z_scope.

Section S.
Context {cert csr key E : Type}.
Variable O : @ossl cert csr key.
Variable C : @config cert.
Variable A : @app cert key E.
Variable parse_uri : bytes -> res (est_error * option operation * option bytes).
Variable attrs_parse : bytes -> res (est_error * bool).
Variable attrs_add_pop : bytes -> res (est_error * bytes).
Variable attrs_check : option (option bytes) -> bytes -> res est_error.
Variable keep : Z -> bool.
Notation request := (est_http_request O C A parse_uri attrs_parse attrs_add_pop attrs_check keep).

(** A voucher request: either the application is called, once, with the body of
    the request and the client's certificate, and the answer is what it said;
    or it is not called, and the answer is 400 or 401. *)
Theorem C83_partial : forall t method uri body ct authz s e rc s' path, 0 <= c_retry C -> 0 <= c_brski_retry C -> sane C A ->
  parse_uri uri = Ok (EST_ERR_NONE, Some OP_BRSKI_REQ_VOUCHER, path) -> request t method uri body ct authz s = (e, Ok (rc, s')) -> all_sent e ->
  (exists rv v, called_once e OP_BRSKI_REQ_VOUCHER body (t_peer t) rv v /\ prefixb (str "POST") method = true /\ voucher_type ct /\ voucher_answer C e rv v)
  \/ (not_called e /\ exists code d, In code [400; 401] /\ reply e code d).
Proof. apply voucher_request. Qed.

(** A status message: likewise, but the answer to one the application accepts
    is not a complete response: the header is never ended. *)
Theorem C83_status_partial : forall t method uri body ct authz s e rc s' path o, 0 <= c_retry C -> sane C A ->
  o = OP_BRSKI_VOUCHER_STATUS \/ o = OP_BRSKI_ENROLL_STATUS ->
  parse_uri uri = Ok (EST_ERR_NONE, Some o, path) -> request t method uri body ct authz s = (e, Ok (rc, s')) -> all_sent e ->
  (exists rv, called_once e o body (t_peer t) rv [] /\ prefixb (str "POST") method = true /\ ct = Some (str "application/json")
     /\ ((rv = 1 /\ sent e = str "HTTP/1.1 200 OK" ++ CRLF ++ str "Status: 200 OK" ++ CRLF) \/ (rv <> 1 /\ exists d, reply e 400 d)))
  \/ (not_called e /\ exists code d, In code [400; 401] /\ reply e code d).
Proof. apply status_request. Qed.

(** The application is called for every well-formed message of a client whose
    identity is accepted. *)
Theorem C83_served : forall t uri body c authz s o path, parse_uri uri = Ok (EST_ERR_NONE, Some o, path) ->
  (o = OP_BRSKI_REQ_VOUCHER /\ a_voucher A <> None /\ voucher_type (Some c)) \/ (o = OP_BRSKI_VOUCHER_STATUS /\ a_voucher_status A <> None /\ c = str "application/json")
    \/ (o = OP_BRSKI_ENROLL_STATUS /\ a_enroll_status A <> None /\ c = str "application/json") ->
  accepted O C A t authz s path ->
  exists e rc s' rv v, request t (str "POST") uri body (Some c) authz s = (e, Ok (rc, s')) /\ In (EvVoucher o body (t_peer t) rv v) e.
Proof. apply brski_served. Qed.
End S.
Print Assumptions C83_partial.
Print Assumptions C83_status_partial.
Print Assumptions C83_served.

Definition requestvoucher := str "/.well-known/est/requestvoucher".
Definition json := Some (str "application/json").
(** A pledge asks and gets the voucher "V". *)
Example C83_case : exists e s', uri_plain true requestvoucher = Ok (EST_ERR_NONE, Some OP_BRSKI_REQ_VOUCHER, None) /\ sane basic (toy_app never)
  /\ accepted (toy_ossl NoAttr) basic (toy_app never) no_cert alice toy_st None
  /\ toy_request NoAttr basic never no_cert (str "POST") requestvoucher (str "{}") json alice = (e, Ok (EST_ERR_NONE, s')) /\ all_sent e
  /\ In (EvVoucher OP_BRSKI_REQ_VOUCHER (str "{}") None 1 (str "V")) e
  /\ sent e = str "HTTP/1.1 200 OK" ++ CRLF ++ str "Status: 200 OK" ++ CRLF ++ str "Content-Type: application/voucher+cms" ++ CRLF
       ++ str "Content-Transfer-Encoding: base64" ++ CRLF ++ str "Content-Length: 1" ++ CRLF ++ CRLF ++ str "V".
Proof.
  eexists _, _. split; [vm_compute; reflexivity|]. split; [|split; [|split; [vm_compute; reflexivity|]]].
  - split; [exact I|]. split; [|intros v]; cbn; unfold one_line; repeat constructor; discriminate.
  - split; [intros (c & Q & _); discriminate|]. right. eexists _, _, _. split; [reflexivity|]. split; [|split; [left; reflexivity|split; [reflexivity|vm_compute; reflexivity]]]. intros []. reflexivity.
  - split; [|split; [cbn; repeat first [left; reflexivity|right]|vm_compute; reflexivity]]. intros d ok I. cbn in I. repeat (destruct I as [I|I]; [congruence|]). destruct I.
Qed.
(** Without credentials they are asked for them, and the application is not. *)
Example C83_refused_case : exists e s', toy_request NoAttr basic never no_cert (str "POST") requestvoucher (str "{}") json None = (e, Ok (EST_ERR_NONE, s')) /\ s_code s' = 401 /\ not_called e.
Proof.
  eexists _, _. split; [vm_compute; reflexivity|]. split; [reflexivity|]. repeat constructor; intros (? & ? & ? & ? & ? & Q); discriminate.
Qed.

(** The full claim, that an accepted status message gets a complete response,
    is false of every one of them (C83_status_partial says what is sent): that
    text is not a response, of whatever status and header. *)
Fixpoint infixb (x d : bytes) : bool := prefixb x d || match d with [] => false | _ :: d => infixb x d end.
Lemma infix_ok : forall x a b, infixb x (a ++ x ++ b) = true.
Proof.
  intros x a b. induction a as [|c a IH]; [|cbn [Datatypes.app infixb]; rewrite IH; apply orb_true_r].
  cbn [Datatypes.app]. assert (Q : prefixb x (x ++ b) = true) by (apply prefixb_spec; eauto). destruct (x ++ b); cbn [infixb]; rewrite Q; reflexivity.
Qed.
Theorem C83_refuted : forall code hs body, ~ response (str "HTTP/1.1 200 OK" ++ CRLF ++ str "Status: 200 OK" ++ CRLF) code hs body.
Proof.
  intros code hs body (num & reason & _ & _ & _ & _ & E).
  assert (Q : exists a, str "HTTP/1.1 200 OK" ++ CRLF ++ str "Status: 200 OK" ++ CRLF = a ++ (CRLF ++ CRLF) ++ body).
  { rewrite E. clear E. destruct hs as [|h hs] using rev_ind.
    - exists (str "HTTP/1.1 " ++ num ++ str " " ++ reason). cbn [map concat Datatypes.app]. rewrite <- !app_assoc. reflexivity.
    - rewrite map_app, concat_app. destruct h as [n v]. cbn [map concat]. unfold render_header. cbn [fst snd]. rewrite app_nil_r.
      exists (str "HTTP/1.1 " ++ num ++ str " " ++ reason ++ CRLF ++ concat (map render_header hs) ++ n ++ str ": " ++ v). rewrite <- !app_assoc. reflexivity. }
  destruct Q as (a & Q). pose proof (infix_ok (CRLF ++ CRLF) a body) as I. rewrite <- Q in I. vm_compute in I. discriminate.
Qed.
Print Assumptions C83_refuted.
Example C83_refuted_case : exists e s',
  toy_request NoAttr basic never good_cert (str "POST") (str "/.well-known/est/voucher_status") (str "{}") json alice = (e, Ok (EST_ERR_NONE, s'))
  /\ sent e = str "HTTP/1.1 200 OK" ++ CRLF ++ str "Status: 200 OK" ++ CRLF.
Proof. eexists _, _. split; vm_compute; reflexivity. Qed.
