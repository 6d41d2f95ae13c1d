(** Vocabulary for the CoAP theorems: which messages and histories they are
    about.  From the model only the types of messages, events and replies, and
    the text of a peer's key, are used. *)
From Coq Require Import String ZArith List Bool.
From Verif Require Import Base Spec.Base64 Spec.Coap Spec.Cbor Model.CLib Model.EstErr Model.Coap.
Import ListNotations.
Open Scope Z_scope.

(** Option values as RFC 7252 sends them: at most four bytes. *)
Definition short_options (opts : list (Z * bytes)) : Prop :=
  forall o, In o opts -> all_bytes (snd o) /\ len (snd o) <= 4.

(** The enrollment resources, and the media type each resource answers with
    (application/multipart-core, csrattrs, pkcs7-mime certs-only). *)
Definition enrolls (op : coap_op) : Prop := op = OpSen \/ op = OpSren \/ op = OpSkg.
Definition answer_type (op : coap_op) : Z := match op with OpSkg => 62 | OpAtt => 285 | _ => 281 end.

(** A request to [op] with acceptable options from an authenticated peer. *)
Record posted (op : coap_op) (m : message) : Prop := {
  p_op : m_op m = op;
  p_short : short_options (m_opts m);
  p_content : values 12 (m_opts m) = [286];
  p_accept : values 17 (m_opts m) = [] \/ values 17 (m_opts m) = [answer_type op];
  p_ssl : m_ssl m = true;
  p_cert : m_cert m = true
}.
(** ... carrying block [k] of [data]. *)
Definition carries (szx k : Z) (data : bytes) (m : message) : Prop :=
  m_block1 m = Some {| b_num := k; b_more := k <? last_block szx data; b_szx := szx |}
  /\ m_payload m = block_data szx k data.
(** Its payload does not start with a zero byte (no DER value does). *)
Definition plain (m : message) : Prop := m_payload m <> [] -> nth 0 (m_payload m) 0 <> 0.

(** An intermediate block is answered with the code of [p], the Block1 option
    of block [fst p] if it is 2.31, and without any call. *)
Definition answered (szx : Z) (p : Z * Z) (x : option reply * list action) : Prop :=
  exists r, fst x = Some r /\ r_code r = snd p /\ r_body r = None
    /\ r_block1 r = (if snd p =? 231 then Some (block_option szx (fst p) true) else None) /\ calls (snd x) = [].

(** Base64 texts the library's own functions produce. *)
Definition text_of (t d : bytes) : Prop := t = b64_encode d \/ t = b64_wrap (b64_encode d).

(** The documented response codes for a failed enrollment. *)
Definition refusal (e : est_error) (c : Z) : Prop :=
  (c = 400 <-> e = EST_ERR_BAD_PKCS10 \/ e = EST_ERR_CSR_ATTR_MISSING \/ e = EST_ERR_HTTP_BAD_REQ \/ e = EST_ERR_NO_SSL_CTX)
  /\ (c = 401 <-> e = EST_ERR_AUTH_FAIL \/ e = EST_ERR_AUTH_FAIL_TLSUID)
  /\ (c = 404 <-> e = EST_ERR_HTTP_NOT_FOUND)
  /\ (c = 204 <-> e = EST_ERR_HTTP_NO_CONTENT)
  /\ (c = 502 <-> e = EST_ERR_HTTP_UNSUPPORTED)
  /\ (c = 503 <-> e = EST_ERR_CA_ENROLL_RETRY \/ e = EST_ERR_HTTP_LOCKED)
  /\ (c = 504 <-> e = EST_ERR_IP_CONNECT)
  /\ (c = 400 \/ c = 401 \/ c = 404 \/ c = 204 \/ c = 502 \/ c = 503 \/ c = 504 \/ c = 500).

Definition sent (r : reply) (c media : Z) (body : bytes) : Prop :=
  r_code r = c /\ r_body r = Some (media, body) /\ r_block1 r = None.
Definition bare (r : reply) (c : Z) : Prop :=
  r_code r = c /\ r_body r = None /\ r_block1 r = None.

(** How a completed enrollment request is answered, given what the operation
    returned: refused with the documented code; the DER certificate; for key
    generation the CBOR array of key and certificate; 5.00 if that is too big. *)
Definition delivered (op : coap_op) (o : outcome) (r : reply) : Prop :=
  (o_rc o <> EST_ERR_NONE -> exists c, bare r c /\ refusal (o_rc o) c)
  /\ (o_rc o = EST_ERR_NONE -> op <> OpSkg -> forall t der, o_text o = Some t -> text_of t der -> all_bytes der -> der <> [] ->
      if len der <=? 16384 then sent r 204 281 der else bare r 500)
  /\ (o_rc o = EST_ERR_NONE -> op = OpSkg -> forall t der tk key, o_text o = Some t -> o_key o = Some tk ->
      text_of t der -> all_bytes der -> der <> [] -> text_of tk key -> all_bytes key -> key <> [] ->
      if keygen_size key der <=? 16384
      then exists p, sent r 204 62 p /\ cbor p (Arr [UInt 284; BStr key; UInt 281; BStr der]) /\ len p = keygen_size key der
      else bare r 500).

(** A GET: refused with the documented code, no content, or the DER of the
    text (CA certificates 281, CSR attributes 285). *)
Definition get_refusal (e : est_error) (c : Z) : Prop :=
  (c = 400 <-> e = EST_ERR_HTTP_BAD_REQ) /\ (c = 401 <-> e = EST_ERR_AUTH_FAIL)
  /\ (c = 404 <-> e = EST_ERR_HTTP_NOT_FOUND) /\ (c = 205 <-> e = EST_ERR_HTTP_NO_CONTENT)
  /\ (c = 502 <-> e = EST_ERR_HTTP_UNSUPPORTED) /\ (c = 503 <-> e = EST_ERR_CA_ENROLL_RETRY \/ e = EST_ERR_HTTP_LOCKED)
  /\ (c = 504 <-> e = EST_ERR_IP_CONNECT)
  /\ (c = 400 \/ c = 401 \/ c = 404 \/ c = 205 \/ c = 502 \/ c = 503 \/ c = 504 \/ c = 500).
Definition fetched (op : coap_op) (o : outcome) (r : reply) : Prop :=
  (o_rc o <> EST_ERR_NONE -> exists c, bare r c /\ get_refusal (o_rc o) c)
  /\ (o_rc o = EST_ERR_NONE -> o_text o = None -> bare r (match op with OpAtt => 205 | _ => 404 end))
  /\ (o_rc o = EST_ERR_NONE -> forall t der, o_text o = Some t -> text_of t der -> all_bytes der -> der <> [] ->
      if len der <=? 16384 then sent r 205 (answer_type op) der else bare r 500).

(** The peer has sent nothing yet, or nothing since it connected again. *)
Definition silent (h : list event) : Prop := forall p m, ~ In (Message p m) h.

(** A text with a visible character and no NUL. *)
Definition visible (t : bytes) : Prop := no_nul t /\ exists c, In c t /\ isspace c = false.

(** The block fits the 16384-byte request buffer, a request has at least five
    bytes, and the texts returned by the operation are visible. *)
Record sane (m : message) : Prop := {
  sn_fits : match m_block1 m with
            | Some b => 0 <= b_num b /\ 0 <= b_szx b /\ b_num b * block_size (b_szx b) + len (m_payload m) <= 16384
            | None => len (m_payload m) <= 16384
            end;
  sn_first : match m_block1 m with Some b => b_num b = 0 | None => True end ->
             m_payload m <> [] -> 5 <= len (m_payload m);
  sn_text : forall op t s, o_text (m_env m op t) = Some s \/ o_key (m_env m op t) = Some s -> visible s
}.

(** ** Peers *)
Definition mine (p : peer) (e : event) : bool := peer_eqb p (peer_of e).
Definition addressed (p : peer) : Prop := 0 <= fst p /\ snd p <> None.

(** The peers of a history: known addresses, no more than [N], and each with
    its own key (see C42_keys and C42_keys_refuted for when that is so). *)
Record peers_fit (N : Z) (ps : list peer) (h : list event) : Prop := {
  pf_nodup : NoDup ps;
  pf_room : len ps <= N;
  pf_all : forall e, In e h -> In (peer_of e) ps;
  pf_addr : forall p, In p ps -> addressed p;
  pf_keys : forall p q, In p ps -> In q ps -> search_key p = search_key q -> p = q
}.

(** Which messages need request state: GETs on a TLS session; POSTs of a
    PKCS#10 request on one with a client certificate. *)
Definition is_pkcs10 (l : list Z) : bool := match l with [v] => v =? 286 | _ => false end.
Definition admitted (m : message) : bool :=
  match m_op m with
  | OpCrts | OpAtt => m_ssl m
  | _ => is_pkcs10 (values 12 (m_opts m)) && m_ssl m && m_cert m
  end.
Definition opens (e : event) : option peer :=
  match e with
  | Connected p => Some p
  | Closed _ => None
  | Message p m => if admitted m then Some p else None
  end.
Definition closes (e : event) : option peer := match e with Closed p => Some p | _ => None end.
